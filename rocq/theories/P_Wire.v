(** C58: who gets tokens, introspection and user claims over the wire: client
    authentication composed with the histories of the provider. *)
From Verif Require Import M_Base M_Uri M_Redirect S_Redirect M_Types M_Codec M_Grant M_Env M_Session M_Claims M_Handler
  M_Authz M_TokenEP M_PKCE M_AuthzEP M_Info M_Logout M_History M_ClientAuthn M_Wire
  S_Codec S_Grant S_Toy S_History S_Hex S_ClientAuthn S_Wire
  L_Base L_Hex L_ClientAuthn L_Wire P_History P_ClientAuthn.

(** Every property of histories holds of what the provider does over the wire:
    the calls that were not refused form a history. *)
Theorem C58_wire_is_history : forall sv e al ops evs w,
  whistory sv e al ops evs w ->
  exists ops', history e ops' (flat_map (fun ev => match ev with WDone x => [x] | _ => [] end) evs) (w_h w).
Proof. exact wire_is_history. Qed.
Print Assumptions C58_wire_is_history.

(** A refused request changes no session, grant or token, and leaves no parsed
    request behind. *)
Theorem C58_refused_changes_nothing : forall sv e w o ev w',
  wstep sv e w o = (ev, w') -> (forall x, ev <> WDone x) -> w_h w' = w_h w.
Proof. exact refused_nothing. Qed.
Print Assumptions C58_refused_changes_nothing.

(** Behind every token answer there is an earlier request over the wire that
    passed client authentication at the token endpoint and was attributed to the
    client of the grant the tokens were drawn from; the answered request is that
    request. *)
Theorem C58_answer_has_request : forall sv e al ops evs w i q a,
  laws e -> whistory sv e al ops evs w -> wanswer_at evs i q a ->
  exists gid g u c j now cq hdr body inf,
    grant_of (w_h w) gid g /\ belongs e g u c /\ j < i
    /\ accepted sv e al ops j (WToken now cq hdr body) (sv_token sv) now cq hdr inf
    /\ attributed cq inf = Some c /\ q = with_client (Some c) body
    /\ (exists p pc, presents q p pc /\ forall v tc, hands_out a v tc -> drawn_from g p v tc).
Proof. exact (fun sv e al ops evs w i q a W => answer_behind sv e al W ops evs w i q a). Qed.
Print Assumptions C58_answer_has_request.

(** Where the token endpoint allows the client_secret and JWT methods only, the
    request showed the registered secret of that client or an assertion issued
    by it, and its registration was in force. *)
Theorem C58_tokens_need_credentials : forall sv e al ops evs w i q a,
  laws e -> ep_methods (sv_token sv) <> [] ->
  (forall m, In m (ep_methods (sv_token sv)) -> In m [MBasic; MPost; MSecretJWT; MPrivateJWT]) ->
  whistory sv e al ops evs w -> wanswer_at evs i q a ->
  exists gid g u c j now cq hdr body inf,
    grant_of (w_h w) gid g /\ belongs e g u c /\ j < i
    /\ accepted sv e al ops j (WToken now cq hdr body) (sv_token sv) now cq hdr (Some inf)
    /\ ai_client inf = Some c /\ q = with_client (Some c) body
    /\ (c <> "" -> in_force (sv_auth sv) now c)
    /\ (shows_secret sv cq hdr c
        \/ ((In MSecretJWT (ep_methods (sv_token sv)) \/ In MPrivateJWT (ep_methods (sv_token sv)))
            /\ shows_assertion sv (sv_token sv) now cq c))
    /\ (exists p pc, presents q p pc /\ forall v tc, hands_out a v tc -> drawn_from g p v tc).
Proof.
  exact (fun sv e al ops evs w i q a W Ne Hm => answer_shown sv e al W ops evs w i q a Hm Ne).
Qed.
Print Assumptions C58_tokens_need_credentials.

(** So a client whose secret no request shows never has tokens handed out, with
    secret-based methods only; whatever codes and refresh tokens are known to
    the others. *)
Theorem C58_no_secret_no_tokens : forall sv e al ops evs w i q a u c gid g v tc,
  laws e -> ep_methods (sv_token sv) <> [] ->
  (forall m, In m (ep_methods (sv_token sv)) -> m = MBasic \/ m = MPost) ->
  whistory sv e al ops evs w ->
  (forall now cq hdr body, In (WToken now cq hdr body) ops -> ~ shows_secret sv cq hdr c) ->
  grant_of (w_h w) gid g -> belongs e g u c -> in_grant g v tc ->
  wanswer_at evs i q a -> ~ hands_out a v tc.
Proof. exact (fun sv e al ops evs w i q a u c gid g v tc W => no_secret sv e al W ops evs w i q a u c gid g v tc). Qed.
Print Assumptions C58_no_secret_no_tokens.

(** In a history over the wire an assertion with a jti is accepted once,
    whichever of the endpoints it is sent to. *)
Theorem C58_assertion_accepted_once : forall sv e al ops j k o o' ep ep' now now' q q' hdr hdr' i i' a b t,
  accepted sv e al ops j o ep now q hdr (Some i) -> accepted sv e al ops k o' ep' now' q' hdr' (Some i') ->
  ai_jwt i = Some a -> ai_jwt i' = Some b -> as_iss a = as_iss b -> as_jti a = Some t -> as_jti b = Some t ->
  t <> "" -> j = k.
Proof. exact once. Qed.
Print Assumptions C58_assertion_accepted_once.

(** User claims go out only in answer to a request that bears a live access
    token, in its header or its body, whatever methods are configured; they are
    about the user of the grant of that token. *)
Theorem C58_claims_need_bearer_token : forall sv e al ops evs w i info cl,
  laws e -> whistory sv e al ops evs w ->
  nth_error evs i = Some (WDone (EvUserinfo (Ok (Good (info, cl))))) ->
  exists now q hdr t evs1 w1 gid g tok u ae,
    nth_error ops i = Some (WUserinfo now q hdr) /\ bears q hdr t
    /\ whistory sv e al (firstn i ops) evs1 w1
    /\ grant_of (w_h w1) gid g /\ belongs e g u cl /\ In tok (g_tokens g) /\ t_value tok = t
    /\ t_class tok = "access_token" /\ token_live tok now
    /\ g_aevent g = Some ae /\ (now <= ae_valid_until ae)%Z /\ dget info "sub" = Some (JStr (g_sub g)).
Proof. exact (fun sv e al ops evs w i info cl W => userinfo_behind sv e al W ops evs w i info cl). Qed.
Print Assumptions C58_claims_need_bearer_token.

(** The data of a token go out at the introspection endpoint only in answer to a
    request that passed client authentication; where methods are configured, by
    one of them. *)
Theorem C58_introspection_needs_credentials : forall sv e al ops evs w i r,
  whistory sv e al ops evs w -> nth_error evs i = Some (WDone (EvIntrospect (Ok (Some r)))) ->
  exists now q hdr rel tok inf, accepted sv e al ops i (WIntrospect now q hdr rel tok) (sv_intro sv) now q hdr inf
    /\ (ep_methods (sv_intro sv) <> [] -> exists x m, inf = Some x /\ In m (ep_methods (sv_intro sv)) /\ ai_method x = tag m).
Proof. exact introspect_method. Qed.
Print Assumptions C58_introspection_needs_credentials.

(** ** A concrete history *)

(** Basic and post at the token endpoint; a second client may introspect. At the
    authorization endpoint clients are named only; pushed requests need the
    secret. Request objects are not used. *)
Definition wire_cdb : dict cl_info := [
  ("c1", mkClInfo [("redirect_uris", [RegPair "https://rp.example.com/cb" []])] ["code"; "code id_token token"] None);
  ("c", mkClInfo [("redirect_uris", [RegPair "https://other.example.org/cb" []])] ["code"] None)].
Definition wire_read (r : request) : areq :=
  mk_areq (ostr (dget r "client_id")) (dget r "redirect_uri") (py_split " " (ostr (dget r "response_type")))
    (option_map (py_split " ") (dget r "scope")) (dget r "state") (dget r "nonce") None None None "" None None None [].
Definition wire_front : front :=
  mk_front (mkPconf true true (fun _ _ => Raise ValueError) wire_cdb) true (ex_ep []) (ex_ep [MPost])
    (fun _ r => Ok (Some r)) wire_read.
Definition wire_server (ms : list meth) : server :=
  mk_server ex_A (ex_ep ms) (ex_ep [MPost]) [MBearerHeader; MBearerBody] ["https://op/userinfo"]
    (fun _ => Ok true) wire_front.

Lemma wire_sound : sound_front wire_front.
Proof.
  split.
  - intros c info H. cbn in H. destruct (String.eqb c "c1") eqn:E1; [apply String.eqb_eq in E1 as ->; now apply plain_good|].
    destruct (String.eqb c "c") eqn:E2; [apply String.eqb_eq in E2 as ->; now apply plain_good|discriminate].
  - intros c l (info & Ei & El). cbn in Ei.
    assert (W : forall h p, h <> "" -> (forall c, has_char c h = true -> netloc_end c = false) ->
      web_base (append "https://" (append h (append "/" p)))).
    { intros h p H1 H2. exists "https", h, (append "/" p). repeat split; auto; try discriminate. right. eauto. }
    assert (H1 : forall c, has_char c "rp.example.com" = true -> netloc_end c = false).
    { intros x Hx. cbn [has_char] in Hx. unfold netloc_end.
      repeat (apply orb_true_iff in Hx as [Hx|Hx]; [apply Ascii.eqb_eq in Hx; subst x; reflexivity|]).
      first [discriminate | apply Ascii.eqb_eq in Hx; subst x; reflexivity]. }
    assert (H2 : forall c, has_char c "other.example.org" = true -> netloc_end c = false).
    { intros x Hx. cbn [has_char] in Hx. unfold netloc_end.
      repeat (apply orb_true_iff in Hx as [Hx|Hx]; [apply Ascii.eqb_eq in Hx; subst x; reflexivity|]).
      first [discriminate | apply Ascii.eqb_eq in Hx; subst x; reflexivity]. }
    destruct (String.eqb c "c1"); [|destruct (String.eqb c "c"); [|discriminate]]; injection Ei as <-; cbn in El; injection El as <-;
      split; intros it [<-|[]]; try (cbn; apply NoDup_nil); left.
    + exact (W "rp.example.com" "cb" ltac:(discriminate) H1).
    + exact (W "other.example.org" "cb" ltac:(discriminate) H2).
  - intros r c H. cbn. now rewrite H.
  - intros r u H. cbn. exact H.
Qed.

Definition no_body : creq := mk_creq None None None None None.
Definition named (c : string) : creq := mk_creq (Some c) None None None None.
Definition wire_rq (uri rt : string) : request :=
  [("client_id", "c1"); ("redirect_uri", uri); ("response_type", rt); ("scope", "openid offline_access");
   ("state", "st"); ("nonce", "n")].
Definition wire_ask (uri rt : string) : wop :=
  WAuthorize 1000 (named "c1") None (wire_rq uri rt) false true None "password" (Some 3600%Z) (AUser "diana" None).
Definition sent_code (evs : list wevent) : string :=
  fold_left (fun x ev => match ev with
    | WDone (EvAuthorize (Ok (ROut o))) | WDone (EvLogin (Ok o)) =>
        match ao_args o with Good r => match ap_code r with Some v => v | None => x end | _ => x end
    | _ => x end) evs "".
Definition wire_head (cq : creq) (hdr : option string) : list wop :=
  let ask := wire_ask "https://rp.example.com/cb" "code" in
  let code := sent_code (fst (wexec (wire_server []) demo_env (w_init []) [ask])) in [
  ask;
  WToken 1001 (ex_post "c1" "wrong") None (hex_code_req code);
  WToken 1001 cq hdr (hex_code_req code);
  WCall (OProcess 1002 0 None) ].
Definition wire_access (ms : list meth) (cq : creq) (hdr : option string) : string :=
  answered_access (done (fst (wexec (wire_server ms) demo_env (w_init []) (wire_head cq hdr)))).
Definition wire_ops (ms : list meth) (cq : creq) (hdr : option string) : list wop :=
  let t := wire_access ms cq hdr in wire_head cq hdr ++ [
  WUserinfo 1003 no_body None;
  WUserinfo 1003 no_body (Some (append "Bearer " t));
  WIntrospect 1004 (ex_post "c" "s3") None false t;
  WIntrospect 1004 (ex_post "c" "wrong") None false t ].
Definition wire_evs ms cq hdr := fst (wexec (wire_server ms) demo_env (w_init []) (wire_ops ms cq hdr)).
Definition wire_end ms cq hdr := snd (wexec (wire_server ms) demo_env (w_init []) (wire_ops ms cq hdr)).

Lemma wire_history ms cq hdr :
  whistory (wire_server ms) demo_env [] (wire_ops ms cq hdr) (wire_evs ms cq hdr) (wire_end ms cq hdr).
Proof.
  split; [exact wire_sound|]. split; [|unfold wire_evs, wire_end; apply surjective_pairing].
  unfold wire_ops, wire_head. cbv zeta. cbn [app]. apply Forall_cons.
  - split; [now apply plain_good|discriminate].
  - do 2 (apply Forall_cons; [exact Logic.I|]). apply Forall_cons; [split; exact Logic.I|].
    do 4 (apply Forall_cons; [exact Logic.I|]). apply Forall_nil.
Qed.

(** With the right secret in the header: tokens, claims and introspection; the
    requests without the credentials are refused. *)
Example C58_example :
  let evs := wire_evs [MBasic; MPost] no_body (Some "Basic c1:s1") in
  nth_error evs 1 = Some (WRefused UnAuthorizedClient)
  /\ (exists q a, wanswer_at evs 3 q a /\ tr_client q = Some "c1" /\ rs_access a <> None)
  /\ nth_error evs 4 = Some (WRefused UnAuthorizedClient)
  /\ (exists info, nth_error evs 5 = Some (WDone (EvUserinfo (Ok (Good (info, "c1"))))))
  /\ (exists r, nth_error evs 6 = Some (WDone (EvIntrospect (Ok (Some r)))) /\ ir_client r = "c1")
  /\ nth_error evs 7 = Some (WRefused UnAuthorizedClient).
Proof.
  cbv zeta. split; [vm_compute; reflexivity|]. split.
  { eexists _, _. split; [vm_compute; reflexivity|]. split; [reflexivity|discriminate]. }
  split; [vm_compute; reflexivity|]. split; [eexists; vm_compute; reflexivity|].
  split; [|vm_compute; reflexivity]. eexists. split; vm_compute; reflexivity.
Qed.

(** "A token endpoint with authentication methods but without none hands out
    tokens only to requests that show a secret or an assertion" is false: the
    method bearer_header accepts any text, and the client that the request names
    is believed. *)
Theorem C58_methods_are_enough_refuted : exists sv e al ops evs w i q a,
  laws e /\ whistory sv e al ops evs w /\ wanswer_at evs i q a
  /\ ep_methods (sv_token sv) <> [] /\ ~ In MNone (ep_methods (sv_token sv))
  /\ forall now cq hdr body, In (WToken now cq hdr body) ops ->
       (forall c, ~ shows_secret sv cq hdr c) /\ cr_assertion cq = None.
Proof.
  exists (wire_server [MBasic; MPost; MBearerHeader]), demo_env, [],
    (wire_ops [MBasic; MPost; MBearerHeader] (ex_post "c1" "wrong") (Some "Bearer anything")),
    (wire_evs [MBasic; MPost; MBearerHeader] (ex_post "c1" "wrong") (Some "Bearer anything")),
    (wire_end [MBasic; MPost; MBearerHeader] (ex_post "c1" "wrong") (Some "Bearer anything")), 3.
  eexists _, _. split; [exact demo_laws|]. split; [apply wire_history|]. split; [vm_compute; reflexivity|].
  split; [discriminate|]. split; [intros [X|[X|[X|[]]]]; discriminate|].
  assert (forall hdr c, match hdr with Some h => starts_with "Basic " h = false | None => True end ->
    ~ shows_secret (wire_server [MBasic; MPost; MBearerHeader]) (ex_post "c1" "wrong") hdr c) as K.
  { intros hdr c Hh (x & (eta & D) & [(t & a & b & -> & _)|(X & Y)]).
    - cbn in Hh. discriminate.
    - cbn in X, Y. injection X as <-. injection Y as <-. vm_compute in D. discriminate. }
  intros now cq hdr body I. unfold wire_ops, wire_head in I. cbv zeta in I.
  set (code := sent_code _) in I. clearbody code. set (t := wire_access _ _ _) in I. clearbody t. cbn [app In] in I.
  destruct I as [I|[I|[I|[I|[I|[I|[I|[I|[]]]]]]]]]; try discriminate I.
  - injection I as <- <- <- <-. split; [|reflexivity]. intros c. apply K. exact Logic.I.
  - injection I as <- <- <- <-. split; [|reflexivity]. intros c. apply K. reflexivity.
Qed.
Print Assumptions C58_methods_are_enough_refuted.

(** "A client learns by introspection about its own tokens only" is false: the
    client that asks is not compared with the client of the token. *)
Theorem C58_introspects_own_tokens_refuted : exists sv e al ops evs w i now q hdr rel tok inf c r,
  laws e /\ whistory sv e al ops evs w
  /\ accepted sv e al ops i (WIntrospect now q hdr rel tok) (sv_intro sv) now q hdr (Some inf)
  /\ ai_client inf = Some c /\ shows_secret sv q hdr c
  /\ nth_error evs i = Some (WDone (EvIntrospect (Ok (Some r)))) /\ ir_client r <> c.
Proof.
  exists (wire_server [MBasic; MPost]), demo_env, [],
    (wire_ops [MBasic; MPost] no_body (Some "Basic c1:s1")),
    (wire_evs [MBasic; MPost] no_body (Some "Basic c1:s1")),
    (wire_end [MBasic; MPost] no_body (Some "Basic c1:s1")), 6, 1004%Z, (ex_post "c" "s3"), None, false,
    (wire_access [MBasic; MPost] no_body (Some "Basic c1:s1")), (mk_ainfo (Some "c") None "client_secret_post" None), "c".
  eexists. split; [exact demo_laws|]. split; [apply wire_history|]. split.
  { split; [reflexivity|]. destruct (whistory_prefix _ _ _ _ _ _ 6 (wire_history [MBasic; MPost] no_body (Some "Basic c1:s1"))) as (w1 & H).
    eexists _, w1, (w_jtis w1). split; [exact H|]. split; [cbn; auto|].
    apply (secret_complete ex_A 1004 (ex_ep [MPost]) (ex_post "c" "s3") None [] MPost [] (w_jtis w1) "c" "s3");
      [reflexivity|intros ? []|right; split; [reflexivity|split; reflexivity]|eexists; vm_compute; reflexivity| |discriminate].
    exists (Some "s3"), 0%Z. split; [vm_compute; reflexivity|now left]. }
  split; [reflexivity|]. split.
  { exists "s3". split; [exists 0%Z; reflexivity|right; split; reflexivity]. }
  split; [vm_compute; reflexivity|]. discriminate.
Qed.
Print Assumptions C58_introspects_own_tokens_refuted.
