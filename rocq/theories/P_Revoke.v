(** Property theorems about revoking a token through the session manager, in any
    reachable state (C04), and about revoking a grant (C16). *)
From Verif Require Import M_Base M_Types M_Codec M_Grant M_Env M_Session M_Claims M_Handler
  M_Authz M_TokenEP M_PKCE M_AuthzEP M_Info M_Logout M_History S_Codec S_Grant S_Store S_Toy S_History S_Hex
  S_Revoke L_Base L_Grant L_Hex L_Revoke P_History P_Logout P_TokenResp.

(** Revoking a token of the grant that the session id leads to succeeds. It
    revokes that token and, if asked to, the tokens made from it, directly or
    not. No other token, no other grant and no session record changes. *)
Theorem C04_revoke_token_call : forall e ops evs h now sid gid g v recursive,
  laws e -> history e ops evs h -> sid_leads_to e h sid gid -> grant_of h gid g ->
  (exists t, In t (g_tokens g) /\ t_value t = v) -> List.length (g_tokens g) < e_limit e ->
  exists ts' h',
    step e h (ORevokeToken now sid v recursive) = (EvDone (Ok tt), h')
    /\ only_tokens h h' gid (g_tokens g) ts'
    /\ revoked_exactly (meant (g_tokens g) v recursive) (g_tokens g) ts'.
Proof.
  exact (fun e ops evs h now sid gid g v recursive W => revoke_token_exact e W ops evs h now sid gid g v recursive).
Qed.
Print Assumptions C04_revoke_token_call.

(** A text that is no token of that grant is refused, and nothing changes. *)
Theorem C04_revoke_unknown_token : forall e ops evs h now sid gid g v recursive,
  laws e -> history e ops evs h -> sid_leads_to e h sid gid -> grant_of h gid g ->
  ~ (exists t, In t (g_tokens g) /\ t_value t = v) ->
  step e h (ORevokeToken now sid v recursive) = (EvDone (Raise UnknownToken), h).
Proof.
  exact (fun e ops evs h now sid gid g v recursive W => revoke_unknown e W ops evs h now sid gid g v recursive).
Qed.
Print Assumptions C04_revoke_unknown_token.

(** The tokens revoked are revoked after any further calls. *)
Theorem C04_revocation_lasts : forall e ops evs h now sid gid g v recursive ops2 evs2 h' t,
  laws e -> history e ops evs h -> sid_leads_to e h sid gid -> grant_of h gid g ->
  List.length (g_tokens g) < e_limit e -> (exists t, In t (g_tokens g) /\ t_value t = v) ->
  Forall (proper e) ops2 -> exec e h (ORevokeToken now sid v recursive :: ops2) = (evs2, h') ->
  In t (g_tokens g) -> meant (g_tokens g) v recursive t ->
  exists g' t', grant_of h' gid g' /\ In t' (g_tokens g') /\ t_value t' = t_value t /\ t_revoked t' = true.
Proof.
  exact (fun e ops evs h now sid gid g v recursive ops2 evs2 h' t W =>
    revocation_lasts e W ops evs h now sid gid g v recursive ops2 evs2 h' t).
Qed.
Print Assumptions C04_revocation_lasts.

(** Revoking a grant succeeds, marks that grant as revoked and changes nothing
    else. *)
Theorem C16_revoke_grant_call : forall e ops evs h now sid gid g,
  laws e -> history e ops evs h -> sid_leads_to e h sid gid -> grant_of h gid g ->
  exists g' h', step e h (ORevokeGrant now sid) = (EvDone (Ok tt), h')
    /\ only_grant h h' gid g g' /\ as_revoked g g'.
Proof. exact (fun e ops evs h now sid gid g W => revoke_grant_exact e W ops evs h now sid gid g). Qed.
Print Assumptions C16_revoke_grant_call.

(** A code is redeemed, and the refresh token is used. Then the code is revoked,
    without and with what was made from it. *)
Definition used_run : list (list event -> op) := refresh_run ++ [fun _ => OProcess 1004 1 None].
Definition used_end : hst := run_end demo_env used_run.
Lemma used_history : history demo_env (run_ops demo_env used_run) (run_evs demo_env used_run) used_end.
Proof. apply run_history. vm_compute. reflexivity. Qed.
Definition used_code : string := last_code (run_evs demo_env used_run).
Definition used_refresh : string := answered_refresh (run_evs demo_env refresh_run).
Definition flags (h : hst) : list (string * bool) := map (fun t => (t_class t, t_revoked t)) (g_tokens (the_grant h)).
Definition after_revoking (v : string) (recursive : bool) : list (string * bool) :=
  flags (snd (step demo_env used_end (ORevokeToken 1010 diana_c1 v recursive))).
Example C04_call_hypotheses :
  sid_leads_to demo_env used_end diana_c1 "u0" /\ grant_of used_end "u0" (the_grant used_end)
  /\ (exists t, In t (g_tokens (the_grant used_end)) /\ t_value t = used_code)
  /\ List.length (g_tokens (the_grant used_end)) < e_limit demo_env.
Proof.
  split; [eexists _, _; split; vm_compute; reflexivity|].
  split; [exists 4; split; vm_compute; reflexivity|].
  split.
  { destruct (proj1 (existsb_exists (fun t => String.eqb (t_value t) used_code) (g_tokens (the_grant used_end)))) as (t & I & E).
    - vm_compute. reflexivity.
    - exists t. split; [exact I|]. apply String.eqb_eq. exact E. }
  apply Nat.ltb_lt. vm_compute. reflexivity.
Qed.
Example C04_call_example :
  flags used_end = [("authorization_code", false); ("access_token", false); ("refresh_token", true);
    ("id_token", false); ("access_token", false); ("id_token", false)]
  /\ after_revoking used_code false = [("authorization_code", true); ("access_token", false); ("refresh_token", true);
    ("id_token", false); ("access_token", false); ("id_token", false)]
  /\ after_revoking used_code true = [("authorization_code", true); ("access_token", true); ("refresh_token", true);
    ("id_token", true); ("access_token", true); ("id_token", true)]
  /\ after_revoking used_refresh true = [("authorization_code", false); ("access_token", false); ("refresh_token", true);
    ("id_token", false); ("access_token", true); ("id_token", true)].
Proof. do 3 (split; [vm_compute; reflexivity|]). vm_compute. reflexivity. Qed.
