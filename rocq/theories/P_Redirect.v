(** Property theorems about redirect URIs, response types and pushed requests
    (C33, C34, C35). *)
From Verif Require Import M_Base M_Types M_Env M_Session M_TokenEP M_AuthzEP M_Uri M_Redirect
  S_Codec S_Redirect S_Resp L_Base L_Uri L_Redirect L_Par L_Resp.

(** ** Redirects go only to registered URIs *)

(** Whatever string is accepted, what it means (percent-decoded, without tabs
    and line ends) is a base registered for the client with the registered
    query. *)
Theorem C33_accepted_leads_to_registered : forall cdb rq kind client_id c u l,
  verify_uri cdb rq kind client_id = Ok tt ->
  match dget rq "client_id" with Some c => Some c | None => client_id end = Some c ->
  dget rq kind = Some u -> registered cdb c kind l -> proper_bases l -> dict_like l ->
  exists it, In it l /\ leads_to it u.
Proof. exact verified_leads. Qed.
Print Assumptions C33_accepted_leads_to_registered.

(** Registered URIs are accepted. *)
Theorem C33_registered_accepted : forall cdb rq kind c pre it post q u,
  dget rq "client_id" = Some c -> c <> "" -> dget rq kind = Some u ->
  registered cdb c kind (pre ++ it :: post) -> dict_like (pre ++ it :: post) ->
  (forall x, In x pre -> reg_base x <> reg_base it) -> plain_base (reg_base it) ->
  literal u -> ~ occurs_in "#" q ->
  (q = "" /\ u = reg_base it \/ u = append (reg_base it) (append "?" q)) ->
  agrees (parse_qs q) (reg_query it) ->
  verify_uri cdb rq kind None = Ok tt.
Proof. exact registered_accepted. Qed.
Print Assumptions C33_registered_accepted.

(** An authorization request that is let through has a redirect URI that is
    registered for the client it names, whichever way the request came in. *)
Theorem C33_request_redirect : forall c oidc client_id rq db r db',
  proper_clients (pc_cdb c) -> authz_parse c oidc client_id rq db = (Ok (PGood r), db') ->
  exists cl u, dget r "client_id" = Some cl /\ dget r "redirect_uri" = Some u /\
    redirect_ok (pc_cdb c) cl u.
Proof. exact parse_redirect. Qed.
Print Assumptions C33_request_redirect.

(** A request sent directly keeps everything but a missing redirect URI; so the
    client named is the one that sent it. *)
Theorem C33_direct_request_unchanged : forall c oidc client_id rq db r db',
  dget rq "request_uri" = None -> authz_parse c oidc client_id rq db = (Ok (PGood r), db') ->
  forall k, k <> "redirect_uri" -> dget r k = dget rq k.
Proof. exact parse_own. Qed.
Print Assumptions C33_direct_request_unchanged.

(** The answer goes to the URI get_uri allowed: only then is there a good
    answer. *)
Theorem C33_answer_goes_there : forall e now iframe ar sid uri s o s' r,
  authz_part2 e now iframe ar sid uri s = (Ok o, s') -> ao_args o = Good r ->
  ao_uri o = uri /\ uri <> None.
Proof. exact part2_uri. Qed.
Print Assumptions C33_answer_goes_there.
Theorem C33_get_uri : forall cdb rq u,
  get_uri cdb rq "redirect_uri" = Ok u -> proper_clients cdb ->
  exists c, dget rq "client_id" = Some c /\ redirect_ok cdb c u.
Proof. exact get_uri_ok. Qed.
Print Assumptions C33_get_uri.

(** A provider with two clients. *)
Definition rp_info : cl_info := mkClInfo
  [("redirect_uris", [RegPair "https://rp.example.com/cb" []; RegPair "https://rp.example.com/q" [("foo", ["bar"])];
                      RegPair "https://rp.example.com/q" [("foo", ["baz"])]])]
  ["code"; "id_token code"] None.
Definition other_info : cl_info := mkClInfo [("redirect_uris", [RegPair "https://other.example.org/cb" []])] ["code"] None.
Definition demo_cdb : dict cl_info := [("rp", rp_info); ("other", other_info)].
Definition demo_conf : pconf := mkPconf true true (fun _ _ => Raise ValueError) demo_cdb.
Definition demo_rq (client uri rt : string) : request :=
  [("client_id", client); ("redirect_uri", uri); ("response_type", rt)].

Lemma demo_bases : proper_clients demo_cdb.
Proof.
  intros c l (info & Ei & El). unfold demo_cdb in Ei. cbn in Ei.
  assert (W : forall h p, h <> "" -> (forall c, has_char c h = true -> netloc_end c = false) ->
    web_base (append "https://" (append h (append "/" p)))).
  { intros h p H1 H2. exists "https", h, (append "/" p). repeat split; auto; try discriminate. right. eauto. }
  assert (H1 : forall c, has_char c "rp.example.com" = true -> netloc_end c = false).
  { intros x Hx. cbn [has_char] in Hx. unfold netloc_end.
    repeat (apply orb_true_iff in Hx as [Hx|Hx]; [apply Ascii.eqb_eq in Hx; subst x; reflexivity|]).
    first [discriminate | apply Ascii.eqb_eq in Hx; subst x; reflexivity]. }
  assert (H2 : forall c, has_char c "other.example.org" = true -> netloc_end c = false).
  { intros x Hx. cbn [has_char] in Hx. unfold netloc_end.
    repeat (apply orb_true_iff in Hx as [Hx|Hx]; [apply Ascii.eqb_eq in Hx; subst x; reflexivity|]).
    first [discriminate | apply Ascii.eqb_eq in Hx; subst x; reflexivity]. }
  destruct (String.eqb c "rp"); [|destruct (String.eqb c "other"); [|discriminate]]; injection Ei as <-; cbn in El; injection El as <-.
  - split.
    + intros it [<-|[<-|[<-|[]]]]; left; cbn [reg_base];
        [exact (W "rp.example.com" "cb" ltac:(discriminate) H1)|exact (W "rp.example.com" "q" ltac:(discriminate) H1)
        |exact (W "rp.example.com" "q" ltac:(discriminate) H1)].
    + intros it [<-|[<-|[<-|[]]]]; cbn; repeat constructor; intros [].
  - split.
    + intros it [<-|[]]; left; exact (W "other.example.org" "cb" ltac:(discriminate) H2).
    + intros it [<-|[]]; cbn; constructor.
Qed.

Example C33_example :
  proper_clients (pc_cdb demo_conf) /\
  authz_parse demo_conf true "rp" (demo_rq "rp" "https://rp.example.com/q?foo=bar" "code") [] =
    (Ok (PGood (demo_rq "rp" "https://rp.example.com/q?foo=bar" "code")), []) /\
  authz_parse demo_conf true "rp" (demo_rq "rp" "https://rp.example.com.evil.org/cb" "code") [] =
    (Ok (PErr "invalid_request"), []) /\
  authz_parse demo_conf true "rp" (demo_rq "rp" "https://other.example.org/cb" "code") [] =
    (Ok (PErr "invalid_request"), []) /\
  fst (authz_parse demo_conf true "rp" (demo_rq "rp" "https://rp.example.com/cb?x=y" "code") []) = Raise ValueError.
Proof. split; [apply demo_bases|]. vm_compute. repeat split; reflexivity. Qed.

(** Not every accepted string is a registered URI with its query: a parameter
    without a value is accepted although none is registered, and the answer
    goes to the string as it was given. *)
Theorem C33_query_exact_refuted : exists cdb rq u,
  proper_clients cdb /\ dget rq "redirect_uri" = Some u /\
  registered cdb "rp" "redirect_uri" [RegPair "https://rp.example.com/cb" []; RegPair "https://rp.example.com/q" [("foo", ["bar"])];
    RegPair "https://rp.example.com/q" [("foo", ["baz"])]] /\
  u = "https://rp.example.com/cb?unregistered" /\ get_uri cdb rq "redirect_uri" = Ok u.
Proof.
  exists demo_cdb, (demo_rq "rp" "https://rp.example.com/cb?unregistered" "code"), "https://rp.example.com/cb?unregistered".
  split; [apply demo_bases|]. split; [reflexivity|]. split; [exists rp_info; split; reflexivity|].
  split; [reflexivity|]. vm_compute. reflexivity.
Qed.
Print Assumptions C33_query_exact_refuted.

(** The check reads the percent-decoded string, the answer goes to the raw one,
    which can have another host. *)
Theorem C33_decoded_differs_refuted : exists cdb rq u,
  proper_clients cdb /\ dget rq "redirect_uri" = Some u /\ get_uri cdb rq "redirect_uri" = Ok u /\
  u = "https://rp.example.com%2Fcb" /\ option_map us_netloc (match urlsplit u with Ok p => Some p | _ => None end) = Some "rp.example.com%2Fcb".
Proof.
  exists demo_cdb, (demo_rq "rp" "https://rp.example.com%2Fcb" "code"), "https://rp.example.com%2Fcb".
  split; [apply demo_bases|]. vm_compute. repeat split; reflexivity.
Qed.
Print Assumptions C33_decoded_differs_refuted.

(** Of two registered URIs with the same base only the first is accepted. *)
Theorem C33_second_query_refuted : exists cdb rq u,
  proper_clients cdb /\ dget rq "client_id" = Some "rp" /\ dget rq "redirect_uri" = Some u /\
  (exists l, registered cdb "rp" "redirect_uri" l /\ exists it, In it l /\ leads_to it u) /\
  verify_uri cdb rq "redirect_uri" None = Raise ValueError.
Proof.
  exists demo_cdb, (demo_rq "rp" "https://rp.example.com/q?foo=baz" "code"), "https://rp.example.com/q?foo=baz".
  split; [apply demo_bases|]. split; [reflexivity|]. split; [reflexivity|]. split; [|vm_compute; reflexivity].
  exists [RegPair "https://rp.example.com/cb" []; RegPair "https://rp.example.com/q" [("foo", ["bar"])];
    RegPair "https://rp.example.com/q" [("foo", ["baz"])]].
  split; [exists rp_info; split; reflexivity|]. exists (RegPair "https://rp.example.com/q" [("foo", ["baz"])]).
  split; [cbn; auto|]. exists "foo=baz". split.
  - exists "https", "https", "//rp.example.com/q", "", "?foo=baz". do 4 (split; [auto|]).
    split; [|auto]. intros (a & b & H). do 7 (destruct a as [|? a]; [discriminate|cbn in H; injection H as _ H]); destruct a; discriminate.
  - assert (parse_qs "foo=baz" = [("foo", ["baz"])]) as -> by (vm_compute; reflexivity). split; [reflexivity|].
    intros k l l' E1 E2 v. cbn [reg_query] in E2. assert (l = l') as -> by congruence. reflexivity.
Qed.
Print Assumptions C33_second_query_refuted.

(** A request that comes by way of a pushed request is checked against the
    registration of the client that pushed it, whoever sends it. *)
Theorem C33_sender_refuted : exists c uuid ops evs i oidc cid rq r,
  proper_clients (pc_cdb c) /\ phistory c uuid ops evs /\
  nth_error ops i = Some (PUse oidc cid rq) /\ dget rq "client_id" = Some cid /\
  nth_error evs i = Some (EvUse (Ok (PGood r))) /\ dget r "client_id" <> Some cid /\
  dget r "redirect_uri" = Some "https://rp.example.com/cb" /\
  registered (pc_cdb c) cid "redirect_uri" [RegPair "https://other.example.org/cb" []].
Proof.
  exists demo_conf, (fun n => append "u" (if Nat.eqb n 0 then "0" else "1")),
    [PPush "rp" (demo_rq "rp" "https://rp.example.com/cb" "code");
     PUse true "other" [("client_id", "other"); ("request_uri", "urn:uuid:u0")]].
  eexists. exists 1, true, "other", [("client_id", "other"); ("request_uri", "urn:uuid:u0")],
    (demo_rq "rp" "https://rp.example.com/cb" "code").
  split; [apply demo_bases|]. split; [unfold phistory; vm_compute; reflexivity|].
  split; [reflexivity|]. split; [reflexivity|]. split; [reflexivity|]. split; [discriminate|]. split; [reflexivity|].
  exists other_info. split; reflexivity.
Qed.
Print Assumptions C33_sender_refuted.

(** ** Response types and response modes *)

(** A request is let through only if its response type, as a set of words, is
    one registered for the sending client, or "code" if none is registered. *)
Theorem C34_response_type : forall c oidc client_id rq db r db',
  authz_parse c oidc client_id rq db = (Ok (PGood r), db') ->
  exists info rt, dget (pc_cdb c) client_id = Some info /\ dget r "response_type" = Some rt /\
    may_respond info rt.
Proof. exact parse_type. Qed.
Print Assumptions C34_response_type.

Theorem C34_response_type_exact : forall rt info, verify_response_type rt info = true <-> may_respond info rt.
Proof. exact verify_rt_spec. Qed.
Print Assumptions C34_response_type_exact.

(** An answer with an access token or an ID token never goes into the query,
    and a response mode that is asked for is the one that is used (or else the
    answer is an error). *)
Theorem C34_response_mode : forall e now iframe ar sid uri s o s' r,
  authz_part2 e now iframe ar sid uri s = (Ok o, s') -> ao_args o = Good r ->
  (delivery o = "query" -> ap_access r = None /\ ap_id r = None) /\
  (forall m, ar_response_mode ar = Some m -> delivery o = m).
Proof. exact part2_delivery. Qed.
Print Assumptions C34_response_mode.

Example C34_example :
  (exists r, authz_parse demo_conf false "rp" (demo_rq "rp" "https://rp.example.com/cb" "code id_token") [] = (Ok (PGood r), [])) /\
  authz_parse demo_conf false "rp" (demo_rq "rp" "https://rp.example.com/cb" "token") [] = (Ok (PErr "invalid_request"), []) /\
  authz_parse demo_conf false "other" (demo_rq "other" "https://other.example.org/cb" "code id_token") [] = (Ok (PErr "invalid_request"), []).
Proof. split; [eexists; vm_compute; reflexivity|]. vm_compute. split; reflexivity. Qed.

(** A request object that the sender refers to can name another client: the
    response type is then checked against the registration of the sender, and
    not of the client the request goes on for. *)
Definition demo_fetch (cid uri : string) : res request :=
  if String.eqb cid "rp" then Ok (demo_rq "other" "https://other.example.org/cb" "code id_token") else Raise ValueError.
Definition demo_conf2 : pconf := mkPconf true true demo_fetch demo_cdb.
Theorem C34_other_client_refuted : exists c cid rq r cl info,
  dget rq "client_id" = Some cid /\ authz_parse c true cid rq [] = (Ok (PGood r), []) /\
  dget r "client_id" = Some cl /\ dget (pc_cdb c) cl = Some info /\
  dget r "response_type" = Some "code id_token" /\ ~ may_respond info "code id_token".
Proof.
  exists demo_conf2, "rp", [("client_id", "rp"); ("request_uri", "https://rp.example.com/ro")].
  eexists. exists "other", other_info.
  split; [reflexivity|]. split; [vm_compute; reflexivity|]. do 3 (split; [reflexivity|]).
  intros H. apply verify_rt_spec in H. vm_compute in H. discriminate.
Qed.
Print Assumptions C34_other_client_refuted.

(** ** Pushed authorization requests *)

(** Naming a URN a second time never works. *)
Theorem C35_used_at_most_once : forall c uuid ops evs i j k urn oj ok,
  pc_par c = true -> (forall a b, uuid a = uuid b -> a = b) -> phistory c uuid ops evs ->
  nth_error evs i = Some (EvPush (Ok urn)) -> i < j < k ->
  nth_error ops j = Some oj -> names oj urn -> nth_error ops k = Some ok -> names ok urn ->
  exists ev, nth_error evs k = Some ev /\ unresolved ev.
Proof. exact used_once. Qed.
Print Assumptions C35_used_at_most_once.

(** The first use is treated exactly as the pushed request itself (with the
    registered redirect URI filled in if none was given) would be. *)
Theorem C35_stands_for_the_pushed_request : forall c uuid ops evs i j urn cid rq oidc cid' rq',
  pc_par c = true -> no_nesting c -> (forall a b, uuid a = uuid b -> a = b) -> phistory c uuid ops evs ->
  nth_error ops i = Some (PPush cid rq) -> nth_error evs i = Some (EvPush (Ok urn)) -> dget rq "request_uri" = None ->
  i < j -> nth_error ops j = Some (PUse oidc cid' rq') -> dget rq' "request_uri" = Some urn ->
  (forall k o, i < k < j -> nth_error ops k = Some o -> ~ names o urn) ->
  exists r, (forall k, k <> "redirect_uri" -> dget r k = dget rq k) /\
    (dget rq "redirect_uri" <> None -> r = rq) /\
    nth_error evs j = Some (EvUse (fst (authz_parse c oidc cid' r []))).
Proof. exact stands_for. Qed.
Print Assumptions C35_stands_for_the_pushed_request.

(** A URN that was not handed out before is refused. *)
Theorem C35_unknown_refused : forall c uuid ops evs j o urn,
  pc_par c = true -> phistory c uuid ops evs ->
  nth_error ops j = Some o -> names o urn -> starts_with "urn:uuid:" urn = true ->
  (forall i, i < j -> nth_error evs i <> Some (EvPush (Ok urn))) ->
  exists ev, nth_error evs j = Some ev /\ refused ev.
Proof. exact unknown_refused. Qed.
Print Assumptions C35_unknown_refused.

Definition demo_uuid (n : nat) : string := append "u" (show_N (N.of_nat n)).
Definition demo_use (urn : string) : pop := PUse true "rp" [("client_id", "rp"); ("request_uri", urn)].
Definition demo_ops : list pop :=
  [PPush "rp" (demo_rq "rp" "https://rp.example.com/cb" "code");
   PPush "rp" (demo_rq "rp" "https://rp.example.com/q?foo=bar" "code");
   demo_use "urn:uuid:u1"; demo_use "urn:uuid:u0"; demo_use "urn:uuid:u1"; demo_use "urn:uuid:u7"].
Example C35_example :
  (forall a b, demo_uuid a = demo_uuid b -> a = b) /\ no_nesting demo_conf /\
  phistory demo_conf demo_uuid demo_ops
    [EvPush (Ok "urn:uuid:u0"); EvPush (Ok "urn:uuid:u1");
     EvUse (Ok (PGood (demo_rq "rp" "https://rp.example.com/q?foo=bar" "code")));
     EvUse (Ok (PGood (demo_rq "rp" "https://rp.example.com/cb" "code")));
     EvUse (Raise ValueError); EvUse (Raise ValueError)].
Proof.
  split; [|split].
  - intros a b H. unfold demo_uuid in H. apply sapp_inj_l, show_N_inj in H. lia.
  - intros cid u v H. discriminate.
  - unfold phistory. vm_compute. reflexivity.
Qed.

(** The URN is not bound to the client that pushed the request: another client
    redeems it. *)
Theorem C35_bound_to_client_refuted : exists c uuid ops evs i j urn cid cid' rq rq' r,
  pc_par c = true /\ phistory c uuid ops evs /\
  nth_error ops i = Some (PPush cid rq) /\ nth_error evs i = Some (EvPush (Ok urn)) /\
  nth_error ops j = Some (PUse true cid' rq') /\ cid' <> cid /\ names (PUse true cid' rq') urn /\
  nth_error evs j = Some (EvUse (Ok (PGood r))).
Proof.
  exists demo_conf, demo_uuid,
    [PPush "rp" (demo_rq "rp" "https://rp.example.com/cb" "code");
     PUse true "other" [("client_id", "other"); ("request_uri", "urn:uuid:u0")]].
  eexists. exists 0, 1, "urn:uuid:u0", "rp", "other". eexists. eexists. eexists.
  split; [reflexivity|]. split; [unfold phistory; vm_compute; reflexivity|].
  do 3 (split; [reflexivity|]). split; [discriminate|]. split; reflexivity.
Qed.
Print Assumptions C35_bound_to_client_refuted.
