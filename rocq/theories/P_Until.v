(** Property theorems: what is issued can be used until it is ended (C69). *)
From Verif Require Import M_Base M_Types M_Codec M_Grant M_Env M_Session M_Claims M_Handler
  M_Authz M_TokenEP M_PKCE M_AuthzEP M_Info M_Logout M_History S_Codec S_Grant S_Toy S_Claims S_History
  S_PKCE S_Hex S_Handler S_Answer S_Logout S_Revoke S_Cause S_Login S_Last L_Base L_Codec L_Hex L_Until L_Found
  P_History P_Logout P_Cause P_Answer.

(** ** C69: what is issued can be used until it is ended *)

(** A text that leads to a grant leads to it after any further calls by anybody,
    restarts among them, unless sessions are deleted. *)
Theorem C69_lookup_lasts : forall e ops evs h ops2 evs2 h' now now' v gid g u c,
  laws e -> history e ops evs h -> leads_to e now h v gid ->
  Forall (proper e) ops2 -> (forall o, In o ops2 -> ~ deletes o) -> exec e h ops2 = (evs2, h') ->
  grant_of h' gid g -> belongs e g u c -> (forall p, dec_sid e u <> Ok p) ->
  read_alike e v now now' -> leads_to e now' h' v gid.
Proof. exact (fun e ops evs h ops2 evs2 h' now now' v gid g u c W Hi Le Po Nd Ex Go Bg Nu => leads_lasts e W ops evs h ops2 evs2 h' now v gid g u c Hi Le Po Nd Ex Go Bg Nu now'). Qed.
Print Assumptions C69_lookup_lasts.

(** A code can be redeemed, whatever else happens, until it is spent, it or its
    grant is ended or expires, or sessions are deleted. *)
Theorem C69_code_until_ended : forall e ops1 evs1 h1 ops2 evs2 h now now1 now2 gid g u c gts ar t v q issue,
  laws e -> (forall c ci, dget (e_clients e) c = Some ci -> good_id c) ->
  history e ops1 evs1 h1 -> leads_to e now h1 v gid ->
  Forall (proper e) ops2 -> exec e h1 ops2 = (evs2, h) ->
  Forall (sensible e) (ops1 ++ ops2) -> (forall o, In o ops2 -> ~ deletes o) ->
  (forall j o, nth_error (ops1 ++ ops2) j = Some o -> ~ meant_to_end e o u c gid) ->
  (forall j, ~ meant_to_end_token e (ops1 ++ ops2) (evs1 ++ evs2) j g t) ->
  (forall j, ~ spent_at (evs1 ++ evs2) j v "authorization_code") ->
  read_alike e v now now1 -> read_alike e v now now2 ->
  grant_of h gid g -> belongs e g u c -> g_areq g = Some ar ->
  In t (g_tokens g) -> t_value t = v -> t_class t = "authorization_code" ->
  (forall m, r_max (t_rules t) = Some m -> (0 < m)%Z) ->
  (t_exp t <> 0 -> now1 <= t_exp t /\ now2 <= t_exp t)%Z -> (g_exp g <> 0 -> now2 <= g_exp g)%Z ->
  lets_mint t "access_token" -> may_use e c "authorization_code" ->
  sent_request q v ar -> keeps_challenge e q ar ->
  in_order e now2 u c gts -> (forall p, dec_sid e u <> Ok p) ->
  legible (g_claims g) -> (forall m, ar_claims ar = Some m -> legible m) ->
  (e_oidc e = true -> exists sc, ar_scope ar = Some sc) ->
  List.length (g_tokens g) < e_limit e ->
  exists q' a h',
    exec e h [OParse now1 c q; OProcess now2 (List.length (h_parsed h)) issue]
      = ([EvParse (Ok (Good q')); EvToken q' (Ok (Good a))], h')
    /\ full_answer e g ar t gts issue a.
Proof. exact (fun e ops1 evs1 h1 ops2 evs2 h now now1 now2 gid g u c gts ar t v q issue W Gc => code_until_ended e W Gc ops1 evs1 h1 ops2 evs2 h now now1 now2 gid g u c gts ar t v q issue). Qed.
Print Assumptions C69_code_until_ended.

(** So can a refresh token. One that is not limited to a number of uses can be
    used again and again. *)
Theorem C69_refresh_until_ended : forall e ops1 evs1 h1 ops2 evs2 h now now1 now2 gid g u c gts ar t v q issue,
  laws e -> (forall c ci, dget (e_clients e) c = Some ci -> good_id c) ->
  history e ops1 evs1 h1 -> leads_to e now h1 v gid ->
  Forall (proper e) ops2 -> exec e h1 ops2 = (evs2, h) ->
  Forall (sensible e) (ops1 ++ ops2) -> (forall o, In o ops2 -> ~ deletes o) ->
  (forall j o, nth_error (ops1 ++ ops2) j = Some o -> ~ meant_to_end e o u c gid) ->
  (forall j, ~ meant_to_end_token e (ops1 ++ ops2) (evs1 ++ evs2) j g t) ->
  (forall m, r_max (t_rules t) = Some m ->
     (0 < m)%Z /\ forall j, ~ spent_at (evs1 ++ evs2) j v "refresh_token") ->
  read_alike e v now now1 -> read_alike e v now now2 ->
  grant_of h gid g -> belongs e g u c -> g_areq g = Some ar ->
  In t (g_tokens g) -> t_value t = v -> t_class t = "refresh_token" ->
  (t_exp t <> 0 -> now1 <= t_exp t /\ now2 <= t_exp t)%Z -> (g_exp g <> 0 -> now2 <= g_exp g)%Z ->
  lets_mint t "access_token" -> may_use e c "refresh_token" ->
  presents q v "refresh_token" -> tr_client q = Some c -> asks_within g t q ->
  in_order e now2 u c gts -> (forall p, dec_sid e u <> Ok p) ->
  legible (g_claims g) -> (forall m, ar_claims ar = Some m -> legible m) ->
  List.length (g_tokens g) < e_limit e ->
  exists a h',
    exec e h [OParse now1 c q; OProcess now2 (List.length (h_parsed h)) issue]
      = ([EvParse (Ok (Good q)); EvToken q (Ok (Good a))], h')
    /\ full_refresh e g t q issue a.
Proof. exact (fun e ops1 evs1 h1 ops2 evs2 h now now1 now2 gid g u c gts ar t v q issue W Gc => refresh_until_ended e W Gc ops1 evs1 h1 ops2 evs2 h now now1 now2 gid g u c gts ar t v q issue). Qed.
Print Assumptions C69_refresh_until_ended.

(** And an access token is honoured. *)
Theorem C69_access_until_ended : forall e ops1 evs1 h1 ops2 evs2 h now now1 release gid g u c t tok ae users,
  laws e -> (forall c ci, dget (e_clients e) c = Some ci -> good_id c) ->
  history e ops1 evs1 h1 -> leads_to e now h1 tok gid ->
  Forall (proper e) ops2 -> exec e h1 ops2 = (evs2, h) ->
  Forall (sensible e) (ops1 ++ ops2) -> (forall o, In o ops2 -> ~ deletes o) ->
  (forall j o, nth_error (ops1 ++ ops2) j = Some o -> ~ meant_to_end e o u c gid) ->
  (forall j, ~ meant_to_end_token e (ops1 ++ ops2) (evs1 ++ evs2) j g t) ->
  read_alike e tok now now1 -> (forall p, dec_sid e u <> Ok p) ->
  grant_of h gid g -> belongs e g u c -> In t (g_tokens g) -> t_value t = tok -> t_class t = "access_token" ->
  (forall m, r_max (t_rules t) = Some m -> (0 < m)%Z) ->
  (t_exp t <> 0 -> now1 <= t_exp t)%Z -> (g_exp g <> 0 -> now1 <= g_exp g)%Z ->
  g_aevent g = Some ae -> (now1 <= ae_valid_until ae)%Z ->
  e_users e = Some users -> legible (g_claims g) -> List.length (g_tokens g) < e_limit e ->
  (exists info h', step e h (OUserinfo now1 tok) = (EvUserinfo (Ok (Good (info, c))), h'))
  /\ exists r h', step e h (OIntrospect now1 release tok) = (EvIntrospect (Ok (Some r)), h').
Proof. exact (fun e ops1 evs1 h1 ops2 evs2 h now now1 release gid g u c t tok ae users W Gc => access_until_ended e W Gc ops1 evs1 h1 ops2 evs2 h now now1 release gid g u c t tok ae users). Qed.
Print Assumptions C69_access_until_ended.

(** From the log-in: the code with which a log-in is answered can be redeemed
    after whatever else happened, until it is spent, ended or expires. *)
Theorem C69_login_code_survives : forall e ops evs h now iframe ar u acr exp_in uri gts,
  laws e -> (forall c ci, dget (e_clients e) c = Some ci -> good_id c) ->
  history e ops evs h -> proper e (OLogin now iframe ar u acr exp_in (Some uri)) ->
  in_order e now u (ar_client_id ar) gts -> gives_codes e -> asks_for_code ar ->
  (forall m, ar_claims ar = Some m -> legible m) -> (forall x, exp_in = Some x -> (0 <= x)%Z) ->
  (forall p, dec_sid e u <> Ok p) ->
  code_mints e (ar_client_id ar) -> may_use e (ar_client_id ar) "authorization_code" ->
  (e_oidc e = true -> exists sc, ar_scope ar = Some sc) ->
  exists o v h1 gid, step e h (OLogin now iframe ar u acr exp_in (Some uri)) = (EvLogin (Ok o), h1)
    /\ answers_with_code ar uri v o
    /\ forall ops2 evs2 h2 now1 now2 g t q issue,
       let all_ops := (ops ++ [OLogin now iframe ar u acr exp_in (Some uri)]) ++ ops2 in
       let all_evs := (evs ++ [EvLogin (Ok o)]) ++ evs2 in
       Forall (proper e) ops2 -> exec e h1 ops2 = (evs2, h2) ->
       Forall (sensible e) all_ops -> (forall o, In o ops2 -> ~ deletes o) ->
       grant_of h2 gid g -> In t (g_tokens g) -> t_value t = v ->
       (forall j o, nth_error all_ops j = Some o -> ~ meant_to_end e o u (ar_client_id ar) gid) ->
       (forall j, ~ meant_to_end_token e all_ops all_evs j g t) ->
       (forall j, ~ spent_at all_evs j v "authorization_code") ->
       reads_codes e now now1 -> reads_codes e now now2 ->
       code_lasts e (ar_client_id ar) now now1 -> code_lasts e (ar_client_id ar) now now2 ->
       (g_exp g <> 0 -> now2 <= g_exp g)%Z ->
       in_order e now2 u (ar_client_id ar) gts ->
       legible (g_claims g) -> List.length (g_tokens g) < e_limit e ->
       sent_request q v ar -> keeps_challenge e q ar ->
       exists q' a h3,
         exec e h2 [OParse now1 (ar_client_id ar) q; OProcess now2 (List.length (h_parsed h2)) issue]
           = ([EvParse (Ok (Good q')); EvToken q' (Ok (Good a))], h3)
         /\ full_answer e g ar t gts issue a.
Proof. exact (fun e ops evs h now iframe ar u acr exp_in uri gts W Gc => login_code_survives e W Gc ops evs h now iframe ar u acr exp_in uri gts). Qed.
Print Assumptions C69_login_code_survives.

(** A user who is signed on with a client stays so: the session can be used for
    single sign-on (which C68 is about) after whatever else happened. *)
Theorem C69_signed_on_until_ended : forall e ops1 evs1 h1 ops2 evs2 h now now' u c sid g1,
  laws e -> (forall c ci, dget (e_clients e) c = Some ci -> good_id c) ->
  history e ops1 evs1 h1 -> signed_on e now h1 u c sid g1 ->
  Forall (proper e) ops2 -> exec e h1 ops2 = (evs2, h) ->
  Forall (sensible e) (ops1 ++ ops2) -> (forall o, In o ops2 -> ~ deletes o) ->
  (forall j o, nth_error (ops1 ++ ops2) j = Some o -> ~ meant_to_end e o u c (g_id g1)) ->
  (forall p, dec_sid e u <> Ok p) ->
  (forall g, grant_of h (g_id g1) g -> g_exp g <> 0 -> now' <= g_exp g)%Z ->
  (forall ae, g_aevent g1 = Some ae -> (now' < ae_valid_until ae)%Z) ->
  exists g, grant_of h (g_id g1) g /\ g_areq g = g_areq g1 /\ signed_on e now' h u c sid g.
Proof. exact (fun e ops1 evs1 h1 ops2 evs2 h now now' u c sid g1 W Gc => signed_on_lasts e W Gc ops1 evs1 h1 ops2 evs2 h now now' u c sid g1). Qed.
Print Assumptions C69_signed_on_until_ended.

(** So single sign-on works after whatever else happened. *)
Theorem C69_single_sign_on_until_ended : forall e ops1 evs1 h1 ops2 evs2 h now now' u sid g1 iframe ar ru acr exp_in uri gts,
  laws e -> (forall c ci, dget (e_clients e) c = Some ci -> good_id c) ->
  history e ops1 evs1 h1 -> signed_on e now h1 u (ar_client_id ar) sid g1 ->
  Forall (proper e) ops2 -> exec e h1 ops2 = (evs2, h) ->
  Forall (sensible e) (ops1 ++ ops2) -> (forall o, In o ops2 -> ~ deletes o) ->
  (forall j o, nth_error (ops1 ++ ops2) j = Some o -> ~ meant_to_end e o u (ar_client_id ar) (g_id g1)) ->
  (forall p, dec_sid e u <> Ok p) ->
  (forall g, grant_of h (g_id g1) g ->
     (g_exp g <> 0 -> now' <= g_exp g)%Z /\ List.length (g_tokens g) < e_limit e) ->
  (forall ae, g_aevent g1 = Some ae -> (now' < ae_valid_until ae)%Z) ->
  proper e (OLogin now' iframe ar u acr exp_in (Some uri)) ->
  in_order e now' u (ar_client_id ar) gts -> gives_codes e -> asks_for_code ar -> no_new_login ar ->
  (ru = None \/ ru = Some u) -> (forall m, ar_claims ar = Some m -> legible m) ->
  exists o v h', step e h (OAuthorize now' false iframe ar ru acr exp_in (AUser u (Some sid)) (Some uri))
      = (EvAuthorize (Ok (ROut o)), h')
    /\ answers_with_code ar uri v o /\ code_recorded h' ar u v.
Proof. exact single_sign_on_lasts. Qed.
Print Assumptions C69_single_sign_on_until_ended.

(** ** Example *)

(** Between Diana's log-in of the example of C66 and the presentation of the
    code, Bob logs in and out, Diana logs in at another client and from there
    out, and the provider is restarted. *)
Definition un_run : list (list event -> op) := pk_run ++ [
  login_at 1010 "bob" "c1";
  login_at 1020 "diana" "c2";
  (fun _ => OLogout 1030 (some_sid ["bob"; "c1"; "u5"]) false);
  (fun _ => OLogout 1031 (some_sid ["diana"; "c2"; "u10"]) false);
  (fun _ => OReload 1040) ].
Definition un_end : hst := run_end demo_env un_run.
Definition un_ops : list op := skipn 1 (run_ops demo_env un_run).
Definition un_evs : list event := skipn 1 (run_evs demo_env un_run).
Definition un_grant : grant := grant_no un_end 4.
Definition un_code : token := nth 0 (g_tokens (un_grant)) ex_no_token.
Definition un_request : treq :=
  mk_treq CODE (Some (t_value un_code)) None None (Some "https://rp.example.com/cb") None None (Some "secret").
Definition harmless (o : op) : bool :=
  match o with
  | OLogin _ _ _ _ _ _ _ | OReload _ => true
  | OLogout _ sid false =>
      match dec_sid demo_env sid with Ok [u; c; _] => negb (String.eqb u "diana" && String.eqb c "c1") | _ => false end
  | _ => false
  end.
Lemma harmless_op o : harmless o = true -> sensible demo_env o /\ ~ deletes o /\ ~ meant_to_end demo_env o "diana" "c1" "u0".
Proof.
  destruct o; cbn [harmless]; try discriminate; intros H; (split; [exact Logic.I|]); (split; [intros X; exact X|]);
    try (intros X; exact X).
  destruct alla; [discriminate H|]. intros (gid' & D). cbn in D. rewrite D in H. discriminate H.
Qed.
Definition ev_quiet (v : event) : bool := match v with EvToken _ _ => false | _ => true end.

Example C69_example :
  history demo_env (run_ops demo_env pk_run) (run_evs demo_env pk_run) pk_end
  /\ leads_to demo_env 1001 pk_end (t_value un_code) "u0"
  /\ Forall (proper demo_env) un_ops /\ exec demo_env pk_end un_ops = (un_evs, un_end)
  /\ Forall (sensible demo_env) (run_ops demo_env pk_run ++ un_ops) /\ (forall o, In o un_ops -> ~ deletes o)
  /\ (forall j o, nth_error (run_ops demo_env pk_run ++ un_ops) j = Some o -> ~ meant_to_end demo_env o "diana" "c1" "u0")
  /\ (forall j, ~ meant_to_end_token demo_env (run_ops demo_env pk_run ++ un_ops) (run_evs demo_env pk_run ++ un_evs) j (un_grant) un_code)
  /\ (forall j, ~ spent_at (run_evs demo_env pk_run ++ un_evs) j (t_value un_code) "authorization_code")
  /\ read_alike demo_env (t_value un_code) 1001 1060 /\ read_alike demo_env (t_value un_code) 1001 1061
  /\ grant_of un_end "u0" (un_grant) /\ belongs demo_env (un_grant) "diana" "c1"
  /\ g_areq (un_grant) = Some pk_areq
  /\ In un_code (g_tokens (un_grant)) /\ t_class un_code = "authorization_code"
  /\ (forall m, r_max (t_rules un_code) = Some m -> (0 < m)%Z)
  /\ (1061 <= t_exp un_code)%Z /\ (1061 <= g_exp (un_grant))%Z
  /\ lets_mint un_code "access_token"
  /\ sent_request un_request (t_value un_code) pk_areq /\ keeps_challenge demo_env un_request pk_areq
  /\ in_order demo_env 1061 "diana" "c1" [CODE; REFRESH]
  /\ List.length (g_tokens (un_grant)) < e_limit demo_env
  /\ grants_in un_end = [("u0", false, 1); ("u5", true, 1); ("u10", true, 1)].
Proof.
  assert (forall o, In o (run_ops demo_env pk_run ++ un_ops) -> harmless o = true) as F.
  { assert (forallb harmless (run_ops demo_env pk_run ++ un_ops) = true) as F by (vm_compute; reflexivity).
    rewrite forallb_forall in F. exact F. }
  assert (forall v, In v (run_evs demo_env pk_run ++ un_evs) -> ev_quiet v = true) as Fe.
  { assert (forallb ev_quiet (run_evs demo_env pk_run ++ un_evs) = true) as Fe by (vm_compute; reflexivity).
    rewrite forallb_forall in Fe. exact Fe. }
  split; [apply run_history; vm_compute; reflexivity|].
  split; [eexists _, _; split; vm_compute; reflexivity|].
  split. { apply Forall_forall. intros o I. apply plain_proper.
    assert (forallb plain_call un_ops = true) as Fp by (vm_compute; reflexivity). rewrite forallb_forall in Fp. apply Fp, I. }
  split; [vm_compute; reflexivity|].
  split; [apply Forall_forall; intros o I; apply harmless_op, F, I|].
  split; [intros o I; apply harmless_op, F; apply in_or_app; right; exact I|].
  split; [intros j o N; apply harmless_op, F, (nth_error_In _ _ N)|].
  split. { intros j X. unfold meant_to_end_token in X.
    destruct (nth_error (run_ops demo_env pk_run ++ un_ops) j) as [o|] eqn:N; [|exact X].
    apply nth_error_In, F in N. destruct o; try discriminate N; exact X. }
  split. { intros j (q & r & N & _). apply nth_error_In, Fe in N. discriminate N. }
  split; [intros i E; vm_compute in E; vm_compute; exact E|].
  split; [intros i E; vm_compute in E; vm_compute; exact E|].
  split; [exists 4; split; vm_compute; reflexivity|].
  split; [eexists _, _; vm_compute; repeat split; reflexivity|].
  split; [vm_compute; reflexivity|]. split; [vm_compute; auto|]. split; [vm_compute; reflexivity|].
  split; [intros m X; vm_compute in X; injection X as <-; reflexivity|].
  split; [vm_compute; discriminate|]. split; [vm_compute; discriminate|].
  split; [eexists; split; [vm_compute; reflexivity|now left]|].
  split. { split; [left; vm_compute; auto|]. split; [left; reflexivity|]. intros uri X. injection X as <-. reflexivity. }
  split. { intros _ ch X. injection X as <-. exists "S256", "secret". split; [reflexivity|]. split; [reflexivity|].
    right. split; [now left|reflexivity]. }
  split; [apply demo_in_order|]. split; [vm_compute; repeat constructor|]. vm_compute. reflexivity.
Qed.

(** Diana is signed on in that run as well. (The other hypotheses about the
    provider and the request: [C68_example].) *)
Example C69_signed_on_example :
  signed_on demo_env 1001 pk_end "diana" "c1" (some_sid ["diana"; "c1"; "u0"]) (the_grant pk_end)
  /\ g_id (the_grant pk_end) = "u0" /\ (1061 <= g_exp un_grant)%Z
  /\ exists ae, g_aevent (the_grant pk_end) = Some ae /\ (1061 < ae_valid_until ae)%Z.
Proof.
  split.
  - split; [vm_compute; discriminate|].
    eexists _, _, _. split; [vm_compute; reflexivity|]. split; [vm_compute; reflexivity|]. split; [vm_compute; reflexivity|].
    split; [apply L_Grant.grant_active_live; vm_compute; reflexivity|].
    split; [vm_compute; reflexivity|]. split; vm_compute; reflexivity.
  - split; [vm_compute; reflexivity|]. split; [vm_compute; discriminate|].
    eexists. split; vm_compute; reflexivity.
Qed.
