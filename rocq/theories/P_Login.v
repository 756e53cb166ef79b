(** Property theorems: a log-in is answered with a code (C68). *)
From Verif Require Import M_Base M_Types M_Codec M_Grant M_Env M_Session M_Claims M_Handler
  M_Authz M_TokenEP M_PKCE M_AuthzEP M_Info M_Logout M_History S_Codec S_Grant S_Toy S_Claims S_History
  S_PKCE S_Hex S_Handler S_Answer S_Login L_Base L_Hex L_Login L_Flow P_History P_Answer.

(** ** C68: users get in *)

(** A user who logs in for a valid request of a registered client for a code is
    answered with one, whatever happened before: sessions of the user or of
    others may have been opened, refreshed, revoked or removed, the database
    emptied, the provider restarted. The code is that of a grant that was made
    for the user and the request. *)
Theorem C68_login_succeeds : forall e ops evs h now iframe ar u acr exp_in uri gts,
  laws e -> history e ops evs h -> proper e (OLogin now iframe ar u acr exp_in (Some uri)) ->
  in_order e now u (ar_client_id ar) gts -> gives_codes e -> asks_for_code ar ->
  (forall m, ar_claims ar = Some m -> legible m) -> (forall x, exp_in = Some x -> (0 <= x)%Z) ->
  (forall p, dec_sid e u <> Ok p) ->
  exists o v h', step e h (OLogin now iframe ar u acr exp_in (Some uri)) = (EvLogin (Ok o), h')
    /\ answers_with_code ar uri v o /\ code_recorded h' ar u v.
Proof. exact (fun e ops evs h now iframe ar u acr exp_in uri gts W => login_answered e W ops evs h now iframe ar u acr exp_in uri gts). Qed.
Print Assumptions C68_login_succeeds.

(** The same for a user whom the authentication method knows already, when the
    user agent has no session of the provider. *)
Theorem C68_known_user_succeeds : forall e ops evs h now iframe ar ru u acr exp_in uri gts,
  laws e -> history e ops evs h -> proper e (OLogin now iframe ar u acr exp_in (Some uri)) ->
  in_order e now u (ar_client_id ar) gts -> gives_codes e -> asks_for_code ar -> no_new_login ar ->
  (ru = None \/ ru = Some u) ->
  (forall m, ar_claims ar = Some m -> legible m) -> (forall x, exp_in = Some x -> (0 <= x)%Z) ->
  (forall p, dec_sid e u <> Ok p) ->
  exists o v h', step e h (OAuthorize now false iframe ar ru acr exp_in (AUser u None) (Some uri))
      = (EvAuthorize (Ok (ROut o)), h')
    /\ answers_with_code ar uri v o /\ code_recorded h' ar u v.
Proof. exact (fun e ops evs h now iframe ar ru u acr exp_in uri gts W => authorize_known e W ops evs h now iframe ar ru u acr exp_in uri gts). Qed.
Print Assumptions C68_known_user_succeeds.

(** Single sign-on: a user with a live session with the client is answered
    without another log-in, when the client sends another request or the same
    one again. *)
Theorem C68_single_sign_on_succeeds : forall e ops evs h now iframe ar ru u acr exp_in uri gts sid g,
  laws e -> history e ops evs h -> proper e (OLogin now iframe ar u acr exp_in (Some uri)) ->
  signed_on e now h u (ar_client_id ar) sid g -> (g_areq g = Some ar -> List.length (g_tokens g) < e_limit e) ->
  in_order e now u (ar_client_id ar) gts -> gives_codes e -> asks_for_code ar -> no_new_login ar ->
  (ru = None \/ ru = Some u) ->
  (forall m, ar_claims ar = Some m -> legible m) ->
  (forall p, dec_sid e u <> Ok p) ->
  exists o v h', step e h (OAuthorize now false iframe ar ru acr exp_in (AUser u (Some sid)) (Some uri))
      = (EvAuthorize (Ok (ROut o)), h')
    /\ answers_with_code ar uri v o /\ code_recorded h' ar u v.
Proof. exact (fun e ops evs h now iframe ar ru u acr exp_in uri gts sid g W => authorize_signed_on e W ops evs h now iframe ar ru u acr exp_in uri gts sid g). Qed.
Print Assumptions C68_single_sign_on_succeeds.

(** From the log-in to the tokens: the code a user's log-in is answered with can
    be redeemed while it lasts. The client that presents it, with the redirect
    URI of its request and the PKCE verifier, if one is due, gets all the tokens
    that are due. *)
Theorem C68_login_leads_to_tokens : forall e ops evs h now now1 now2 iframe ar u acr exp_in uri gts,
  laws e -> history e ops evs h -> proper e (OLogin now iframe ar u acr exp_in (Some uri)) ->
  in_order e now u (ar_client_id ar) gts -> in_order e now2 u (ar_client_id ar) gts ->
  gives_codes e -> asks_for_code ar ->
  (forall m, ar_claims ar = Some m -> legible m) -> (forall x, exp_in = Some x -> (0 <= x)%Z) ->
  (forall p, dec_sid e u <> Ok p) ->
  reads_codes e now now1 -> reads_codes e now now2 ->
  code_lasts e (ar_client_id ar) now now1 -> code_lasts e (ar_client_id ar) now now2 ->
  code_mints e (ar_client_id ar) -> may_use e (ar_client_id ar) "authorization_code" ->
  (e_oidc e = true -> exists sc, ar_scope ar = Some sc) -> 1 < e_limit e ->
  exists o v h1 gid g t, step e h (OLogin now iframe ar u acr exp_in (Some uri)) = (EvLogin (Ok o), h1)
    /\ answers_with_code ar uri v o
    /\ grant_of h1 gid g /\ belongs e g u (ar_client_id ar) /\ g_areq g = Some ar /\ In t (g_tokens g) /\ t_value t = v
    /\ forall q issue, sent_request q v ar -> keeps_challenge e q ar ->
       exists q' a h2,
         exec e h1 [OParse now1 (ar_client_id ar) q; OProcess now2 (List.length (h_parsed h1)) issue]
           = ([EvParse (Ok (Good q')); EvToken q' (Ok (Good a))], h2)
         /\ full_answer e g ar t gts issue a.
Proof. exact (fun e ops evs h now now1 now2 iframe ar u acr exp_in uri gts W => login_to_tokens e W ops evs h now now1 now2 iframe ar u acr exp_in uri gts). Qed.
Print Assumptions C68_login_leads_to_tokens.

(** After the log-in of C66, the client sends a request with another nonce (or
    that of the log-in again). *)
Definition lo_areq : areq :=
  mk_areq "c1" (Some "https://rp.example.com/cb") ["code"] (Some ["openid"; "email"])
    (Some "state2") (Some "nonce2") (Some "S256:secret") (Some "S256") None "" None None None [].
Definition lo_sid : string := last (dkeys (s_db (h_st pk_end))) "".

Example C68_example :
  history demo_env (run_ops demo_env pk_run) (run_evs demo_env pk_run) pk_end
  /\ proper demo_env (OLogin 1100 true lo_areq "diana" "password" (Some 3600%Z) (Some "https://rp.example.com/cb"))
  /\ in_order demo_env 1100 "diana" (ar_client_id lo_areq) [CODE; REFRESH]
  /\ gives_codes demo_env /\ asks_for_code lo_areq /\ no_new_login lo_areq
  /\ (forall m, ar_claims lo_areq = Some m -> legible m) /\ (forall p, dec_sid demo_env "diana" <> Ok p)
  /\ signed_on demo_env 1100 pk_end "diana" (ar_client_id lo_areq) lo_sid (the_grant pk_end)
  /\ asks_for_code pk_areq /\ no_new_login pk_areq /\ g_areq (the_grant pk_end) = Some pk_areq
  /\ List.length (g_tokens (the_grant pk_end)) < e_limit demo_env.
Proof.
  split; [apply run_history; vm_compute; reflexivity|].
  split; [apply plain_proper; vm_compute; reflexivity|].
  split; [apply demo_in_order|].
  split. { constructor; [eexists; reflexivity|reflexivity| |vm_compute; repeat constructor].
    intros x X. vm_compute in X. injection X as <-. discriminate. }
  split; [split; [reflexivity|now left]|].
  split; [intros p X; discriminate X|]. split; [intros m X; discriminate X|].
  split; [intros p; vm_compute; discriminate|].
  split.
  - split; [vm_compute; discriminate|].
    eexists _, _, _. split; [vm_compute; reflexivity|]. split; [vm_compute; reflexivity|]. split; [vm_compute; reflexivity|].
    split; [apply L_Grant.grant_active_live; vm_compute; reflexivity|].
    split; [vm_compute; reflexivity|]. split; vm_compute; reflexivity.
  - split; [split; [reflexivity|now left]|]. split; [intros p X; discriminate X|]. split; [vm_compute; reflexivity|].
    vm_compute. repeat constructor.
Qed.

(** The code of that log-in is presented a minute later. *)
Example C68_tokens_example :
  reads_codes demo_env 1100 1160 /\ reads_codes demo_env 1100 1161
  /\ code_lasts demo_env "c1" 1100 1160 /\ code_lasts demo_env "c1" 1100 1161
  /\ code_mints demo_env "c1" /\ may_use demo_env "c1" "authorization_code"
  /\ in_order demo_env 1161 "diana" "c1" [CODE; REFRESH]
  /\ (exists sc, ar_scope lo_areq = Some sc) /\ 1 < e_limit demo_env
  /\ (forall v, exists q, sent_request q v lo_areq /\ keeps_challenge demo_env q lo_areq).
Proof.
  split; [eapply opaque_codes_read; [exact demo_laws|reflexivity]|].
  split; [eapply opaque_codes_read; [exact demo_laws|reflexivity]|].
  split; [split; intros x X; vm_compute in X; try discriminate X; injection X as <-; intros; lia|].
  split; [split; intros x X; vm_compute in X; try discriminate X; injection X as <-; intros; lia|].
  split; [intros m X; vm_compute in X; try discriminate X; injection X as <-; now left|].
  split; [eexists; split; [reflexivity|]; split; [intros l0 X; injection X as <-; now left|now left]|].
  split; [apply demo_in_order|]. split; [eexists; reflexivity|]. split; [vm_compute; repeat constructor|].
  intros v. exists (mk_treq CODE (Some v) None None (Some "https://rp.example.com/cb") None None (Some "secret")).
  split.
  - split; [left; cbn; auto|]. split; [left; reflexivity|]. intros uri X. injection X as <-. reflexivity.
  - intros _ ch X. injection X as <-. exists "S256", "secret". split; [reflexivity|]. split; [reflexivity|].
    right. split; [now left|reflexivity].
Qed.
