(** Property theorems about PKCE (C23, C24). *)
From Verif Require Import M_Base M_Types M_Codec M_Grant M_Env M_Session M_Claims M_Handler
  M_Authz M_TokenEP M_PKCE M_AuthzEP M_Info M_Logout M_History S_Codec S_Grant S_Toy S_History S_Hex
  S_PKCE L_Base L_Hex L_PKCE P_History.

(** ** C23: a code obtained with a challenge needs the verifier *)
Theorem C23_verifier_matches_challenge : forall e ops evs h i q a code gid g ar ch,
  laws e -> e_pkce e = true -> history e ops evs h ->
  answer_at evs i q a -> presents q code "authorization_code" ->
  grant_of h gid g -> in_grant g code "authorization_code" -> g_areq g = Some ar ->
  ar_code_challenge ar = Some ch ->
  exists vf m, tr_verifier q = Some vf /\ ar_code_challenge_method ar = Some m /\ matches e m vf ch.
Proof. exact (fun e ops evs h i q a code gid g ar ch W => pkce_binds e W ops evs h i q a code gid g ar ch). Qed.
Print Assumptions C23_verifier_matches_challenge.

(** A log-in with the challenge of the verifier "secret" under S256; then three
    token requests: without a verifier, with a wrong one, and with the right
    one. *)
Definition pk_areq : areq :=
  mk_areq "c1" (Some "https://rp.example.com/cb") ["code"] (Some ["openid"; "email"; "offline_access"])
    (Some "state") (Some "nonce") (Some "S256:secret") (Some "S256") None "" None None None [].
Definition pk_req (code : string) (vf : option string) : treq :=
  mk_treq CODE (Some code) None (Some "c1") (Some "https://rp.example.com/cb") None None vf.
Definition pk_run : list (list event -> op) := [
  fun _ => OLogin 1000 true pk_areq "diana" "password" (Some 3600%Z) (Some "https://rp.example.com/cb");
  fun evs => OParse 1001 "c1" (pk_req (last_code evs) None);
  fun evs => OParse 1001 "c1" (pk_req (last_code evs) (Some "guess"));
  fun evs => OParse 1001 "c1" (pk_req (last_code evs) (Some "secret"));
  fun _ => OProcess 1002 0 None ].
Definition pk_evs : list event := run_evs demo_env pk_run.
Definition pk_end : hst := run_end demo_env pk_run.
Example C23_example :
  laws demo_env /\ e_pkce demo_env = true /\ history demo_env (run_ops demo_env pk_run) pk_evs pk_end
  /\ nth_error pk_evs 1 = Some (EvParse (Ok (Err "invalid_grant")))
  /\ nth_error pk_evs 2 = Some (EvParse (Ok (Err "invalid_grant")))
  /\ (exists q a, answer_at pk_evs 4 q a /\ presents q (last_code pk_evs) "authorization_code")
  /\ grant_of pk_end "u0" (the_grant pk_end)
  /\ in_grant (the_grant pk_end) (last_code pk_evs) "authorization_code"
  /\ g_areq (the_grant pk_end) = Some pk_areq /\ ar_code_challenge pk_areq = Some "S256:secret".
Proof.
  split; [exact demo_laws|]. split; [reflexivity|]. split; [apply run_history; vm_compute; reflexivity|].
  split; [vm_compute; reflexivity|]. split; [vm_compute; reflexivity|].
  split; [eexists _, _; split; [vm_compute; reflexivity|]; left; vm_compute; auto|].
  split; [exists 4; split; vm_compute; reflexivity|].
  split; [apply in_grant_check; vm_compute; reflexivity|]. split; vm_compute; reflexivity.
Qed.

(** ** C24: essential PKCE cannot be skipped *)
Theorem C24_missing_challenge_refused : forall p own ar,
  essential p own -> ar_code_challenge ar = None -> post_authn_parse p own ar = Err "invalid_request".
Proof. exact authn_parse_essential. Qed.
Print Assumptions C24_missing_challenge_refused.

Theorem C24_unsupported_method_refused : forall p own ar ch,
  ar_code_challenge ar = Some ch ->
  ~ In (match ar_code_challenge_method ar with Some m => m | None => "plain" end) (pk_methods p) ->
  post_authn_parse p own ar = Err "invalid_request".
Proof. exact authn_parse_method. Qed.
Print Assumptions C24_unsupported_method_refused.

Theorem C24_accepted_request : forall p own ar ar',
  post_authn_parse p own ar = Good ar' ->
  same_but_method ar ar' /\ (essential p own -> ar_code_challenge ar' <> None)
  /\ (ar_code_challenge ar' <> None ->
        exists m, ar_code_challenge_method ar' = Some m /\ In m (pk_methods p)).
Proof. exact authn_parse_good. Qed.
Print Assumptions C24_accepted_request.

(** Only the four known methods can be configured. *)
Theorem C24_configured_methods : forall es ms p,
  add_pkce_support es ms = Ok p ->
  pk_essential p = es /\ (forall l, ms = Some l -> pk_methods p = l)
  /\ forall m, In m (pk_methods p) -> m = "plain" \/ m = "S256" \/ m = "S384" \/ m = "S512".
Proof. exact add_pkce_ok. Qed.
Print Assumptions C24_configured_methods.

(** In every history in which the add-on checked the authorization requests: no
    code of a client for which PKCE is essential is redeemed without a verifier
    that matches the challenge of its request. *)
Theorem C24_essential_in_histories : forall e p own ops evs h i q a code gid g c,
  laws e -> e_pkce e = true -> checked_by p own ops -> essential p (own c) -> history e ops evs h ->
  answer_at evs i q a -> presents q code "authorization_code" ->
  grant_of h gid g -> in_grant g code "authorization_code" -> (exists u, belongs e g u c) ->
  exists ar ch vf m, g_areq g = Some ar /\ ar_code_challenge ar = Some ch /\ tr_verifier q = Some vf
    /\ ar_code_challenge_method ar = Some m /\ In m (pk_methods p) /\ matches e m vf ch.
Proof.
  exact (fun e p own ops evs h i q a code gid g c W => essential_binds e W p own ops evs h i q a code gid g c).
Qed.
Print Assumptions C24_essential_in_histories.

Definition pk_conf : pkce_conf := mk_pkce_conf (Some true) ["S256"; "S512"].
Definition pk_own (c : string) : option bool := if String.eqb c "c2" then Some false else None.
Example C24_example :
  add_pkce_support (Some true) (Some ["S256"; "S512"]) = Ok pk_conf
  /\ add_pkce_support (Some true) (Some ["S1"]) = Raise ValueError
  /\ essential pk_conf (pk_own "c1") /\ ~ essential pk_conf (pk_own "c2")
  /\ post_authn_parse pk_conf None toy_areq = Err "invalid_request"
  /\ post_authn_parse pk_conf None (ar_set_method "plain" pk_areq) = Err "invalid_request"
  /\ post_authn_parse pk_conf None pk_areq = Good pk_areq
  /\ checked_by pk_conf pk_own (run_ops demo_env pk_run)
  /\ (exists u, belongs demo_env (the_grant pk_end) u "c1").
Proof.
  split; [reflexivity|]. split; [reflexivity|]. split; [right; split; reflexivity|].
  split; [intros [X|[X _]]; discriminate|].
  split; [reflexivity|]. split; [reflexivity|]. split; [reflexivity|]. split.
  - intros o ar I A. exists pk_areq. vm_compute in I.
    destruct I as [<-|[<-|[<-|[<-|[<-|[]]]]]]; cbn in A; try contradiction. subst ar. reflexivity.
  - exists "diana", pk_areq. eexists. split; [vm_compute; reflexivity|]. split; [reflexivity|].
    split; [vm_compute; reflexivity|]. split; vm_compute; reflexivity.
Qed.

(** Refuted: that every accepted request ends up with a supported method. Without
    a challenge the method is not looked at
    (src/oidcop/oidc/add_on/pkce.py 52-55). *)
Theorem C24_method_without_challenge_refuted : exists p own ar ar',
  post_authn_parse p own ar = Good ar' /\ ~ (exists m, ar_code_challenge_method ar' = Some m /\ In m (pk_methods p)).
Proof.
  exists pk_conf, (Some false), (ar_set_method "S1" toy_areq). eexists. split; [reflexivity|].
  intros (m & X & I). cbn in X. injection X as <-. cbn in I. intuition discriminate.
Qed.
Print Assumptions C24_method_without_challenge_refuted.
