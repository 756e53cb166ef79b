(** Property theorems about introspection and userinfo (C28, C29). *)
From Verif Require Import M_Base M_Types M_Codec M_Grant M_Env M_Session M_Claims M_Handler
  M_Authz M_TokenEP M_PKCE M_AuthzEP M_Info M_Logout M_History S_Codec S_Grant S_Toy S_History S_Hex
  L_Base L_Hex L_Info P_Grant.

(** ** C28: introspection says active only for live tokens *)

(** An answer [Some r] is active=true with the data [r], [None] is active=false
    and nothing else. *)
Theorem C28_active_only_if_live : forall e ops evs h now release tok r h',
  laws e -> history e ops evs h ->
  step e h (OIntrospect now release tok) = (EvIntrospect (Ok (Some r)), h') ->
  exists gid g t u c,
    grant_of h gid g /\ belongs e g u c /\ leads_to e now h tok gid
    /\ In t (g_tokens g) /\ t_value t = tok
    /\ (t_class t = "access_token" \/ t_class t = "refresh_token") /\ token_live t now
    /\ ir_client r = c /\ ir_sub r = g_sub g /\ ir_class r = t_class t
    /\ ir_exp r = t_exp t /\ ir_iat r = t_issued t /\ ir_iss r = e_issuer e
    /\ reported_scope g t (ir_scope r) /\ incl (ir_scope r) (g_scope g)
    /\ reported_aud g t (ir_aud r) /\ reported_type t (ir_type r)
    /\ (ir_username r = if release then Some u else None)
    /\ ((ir_claims r = [] /\ (dget (g_claims g) "introspection" = None \/ dget (g_claims g) "introspection" = Some []))
         \/ exists restr, dget (g_claims g) "introspection" = Some restr
          /\ get_user_claims e u (Some restr) = Ok (ir_claims r)).
Proof.
  exact (fun e ops evs h now release tok r h' W => introspect_active e W ops evs h now release tok r h').
Qed.
Print Assumptions C28_active_only_if_live.

(** And a live access or refresh token is never called inactive. *)
Theorem C28_live_is_not_inactive : forall e ops evs h now release tok gid g t o h',
  laws e -> history e ops evs h ->
  grant_of h gid g -> In t (g_tokens g) -> t_value t = tok -> leads_to e now h tok gid ->
  (t_class t = "access_token" \/ t_class t = "refresh_token") -> token_live t now ->
  step e h (OIntrospect now release tok) = (EvIntrospect (Ok o), h') ->
  o <> None.
Proof.
  exact (fun e ops evs h now release tok gid g t o h' W Hi G It Vt Le Cl Li =>
    introspect_live e W ops evs h now release tok gid g t Hi G It Vt Le Cl Li o h').
Qed.
Print Assumptions C28_live_is_not_inactive.

(** A log-in and the redemption of its code. *)
Definition login_run : list (list event -> op) := [
  (fun _ => OLogin 1000 true toy_areq "diana" "password" (Some 3600%Z) (Some "https://rp.example.com/cb"));
  (fun evs => OParse 1001 "c1" (hex_code_req (last_code evs)));
  (fun _ => OProcess 1002 0 None) ].
Definition info_env : env := hex_env true false.
Definition info_end : hst := run_end info_env login_run.
Definition info_access : string := answered_access (run_evs info_env login_run).
Definition info_refresh : string := answered_refresh (run_evs info_env login_run).
Definition info_code : string := last_code (run_evs info_env login_run).

(** The access and the refresh token are active, the access token for 600
    seconds; the code is not. *)
Example C28_example :
  history info_env (run_ops info_env login_run) (run_evs info_env login_run) info_end
  /\ (exists r, fst (step info_env info_end (OIntrospect 1010 true info_access)) = EvIntrospect (Ok (Some r))
        /\ ir_username r = Some "diana" /\ ir_client r = "c1" /\ ir_scope r = ["openid"; "email"; "offline_access"])
  /\ (exists r, fst (step info_env info_end (OIntrospect 1010 false info_refresh)) = EvIntrospect (Ok (Some r)))
  /\ fst (step info_env info_end (OIntrospect 1603 false info_access)) = EvIntrospect (Ok None)
  /\ fst (step info_env info_end (OIntrospect 1010 false info_code)) = EvIntrospect (Ok None).
Proof.
  split; [apply run_history; vm_compute; reflexivity|].
  split; [eexists; split; [vm_compute; reflexivity|]; repeat split; reflexivity|].
  split; [eexists; vm_compute; reflexivity|]. split; vm_compute; reflexivity.
Qed.

(** Refuted: that revoking the grant makes its tokens inactive. The endpoint
    looks at the token only (src/oidcop/oauth2/introspection.py 28-76). *)
Definition revoke_run : list (list event -> op) := login_run ++ [
  fun _ => ORevokeGrant 1003 (encrypted_session_id hex_crypto "skey" "r1" 1 ["diana"; "c1"; "u0"]) ].
Theorem C28_revoked_grant_refuted : exists e ops evs h gid g t now r h',
  laws e /\ history e ops evs h /\ grant_of h gid g /\ g_revoked g = true /\ In t (g_tokens g)
  /\ step e h (OIntrospect now false (t_value t)) = (EvIntrospect (Ok (Some r)), h').
Proof.
  exists info_env, (run_ops info_env revoke_run), (run_evs info_env revoke_run), (run_end info_env revoke_run).
  destruct (nth 4 (s_heap (h_st (run_end info_env revoke_run))) ONone) as [|g|] eqn:E;
    try (vm_compute in E; discriminate).
  exists "u0", g, (nth 1 (g_tokens g) (mk_token "" "" None empty_rule 0 0 0 false 0 "" [] [] None "")), 1010%Z.
  vm_compute in E. injection E as <-. eexists _, _.
  split; [apply hex_laws|]. split; [apply run_history; vm_compute; reflexivity|].
  split; [exists 4; split; vm_compute; reflexivity|]. split; [reflexivity|].
  split; [apply nth_In; vm_compute; lia|]. vm_compute. reflexivity.
Qed.
Print Assumptions C28_revoked_grant_refuted.

(** Refuted: that no token is active once its grant has expired. The grant of the
    run expires at 44200, its refresh token at 87402, and in between the token
    endpoint takes the token no more (C52), but introspection calls it active. *)
Theorem C28_expired_grant_refuted : exists e ops evs h gid g t now r h',
  laws e /\ history e ops evs h /\ grant_of h gid g /\ g_revoked g = false /\ In t (g_tokens g)
  /\ g_exp g <> 0%Z /\ (g_exp g < now)%Z
  /\ step e h (OIntrospect now false (t_value t)) = (EvIntrospect (Ok (Some r)), h').
Proof.
  exists info_env, (run_ops info_env login_run), (run_evs info_env login_run), info_end.
  destruct (nth 4 (s_heap (h_st info_end)) ONone) as [|g|] eqn:E;
    try (vm_compute in E; discriminate).
  exists "u0", g, (nth 2 (g_tokens g) (mk_token "" "" None empty_rule 0 0 0 false 0 "" [] [] None "")), 50000%Z.
  vm_compute in E. injection E as <-. eexists _, _.
  split; [apply hex_laws|]. split; [apply run_history; vm_compute; reflexivity|].
  split; [exists 4; split; vm_compute; reflexivity|]. split; [reflexivity|].
  split; [apply nth_In; vm_compute; lia|]. split; [vm_compute; discriminate|]. split; [vm_compute; reflexivity|].
  vm_compute. reflexivity.
Qed.
Print Assumptions C28_expired_grant_refuted.

(** ** C29: userinfo needs a live access token and a valid log-in *)
Theorem C29_userinfo_needs_live_token : forall e ops evs h now tok info cl h',
  laws e -> history e ops evs h ->
  step e h (OUserinfo now tok) = (EvUserinfo (Ok (Good (info, cl))), h') ->
  exists gid g t u c ae claims,
    grant_of h gid g /\ belongs e g u c /\ leads_to e now h tok gid
    /\ In t (g_tokens g) /\ t_value t = tok /\ t_class t = "access_token" /\ token_live t now
    /\ g_aevent g = Some ae /\ (now <= ae_valid_until ae)%Z
    /\ cl = c /\ dget info "sub" = Some (JStr (g_sub g))
    /\ get_user_claims e u (dget (g_claims g) "userinfo") = Ok claims
    /\ (forall k v, dget info k = Some v ->
         k = "sub" \/ (k = "acr" /\ v = JStr (ae_authn_info ae)) \/ dget claims k = Some v)
    /\ (forall k v, dget claims k = Some v -> k <> "sub" -> k <> "acr" -> dget info k = Some v).
Proof. exact (fun e ops evs h now tok info cl h' W => userinfo_live e W ops evs h now tok info cl h'). Qed.
Print Assumptions C29_userinfo_needs_live_token.

(** Claims for a live token; none for a refresh token, and none once the token
    has expired. *)
Example C29_example :
  fst (step info_env info_end (OUserinfo 1010 info_access))
  = EvUserinfo (Ok (Good ([("email", JStr "diana@example.org"); ("email_verified", JBool false);
                           ("sub", JStr "diana@"); ("acr", JStr "password")], "c1")))
  /\ fst (step info_env info_end (OUserinfo 1010 info_refresh)) = EvUserinfo (Ok (Err "invalid_token"))
  /\ fst (step info_env info_end (OUserinfo 1603 info_access)) = EvUserinfo (Ok (Err "invalid_token")).
Proof. split; [|split]; vm_compute; reflexivity. Qed.
