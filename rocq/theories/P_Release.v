(** Property theorems about the claims released in a history (C53), and about
    the members of introspection responses (C28). *)
From Verif Require Import M_Base M_Types M_Codec M_Grant M_Env M_Session M_Claims M_Handler
  M_Authz M_TokenEP M_PKCE M_AuthzEP M_Info M_IntroResp M_Logout M_History S_Codec S_Grant S_Claims S_Toy S_History S_Hex
  S_Release L_Base L_Hex L_Release P_Info.

(** ** C53: only claims that were asked for and may be had, and all of them *)

(** The provider was started with the settings [a0] of its clients. *)
Theorem C53_userinfo_claims : forall e a0 ops evs h now tok info cl h',
  laws e -> Forall (proper e) ops -> exec e (h_init a0) ops = (evs, h) ->
  step e h (OUserinfo now tok) = (EvUserinfo (Ok (Good (info, cl))), h') ->
  exists gid g u ar ae, grant_of h gid g /\ belongs e g u cl /\ leads_to e now h tok gid
    /\ g_areq g = Some ar /\ g_aevent g = Some ae
    /\ (proper_dicts e ar -> forall k v, dget info k = Some v ->
          (k = "sub" /\ v = JStr (e_sub e u (ar_sector ar))) \/ (k = "acr" /\ v = JStr (ae_authn_info ae))
          \/ authorized_claim e a0 g ar "userinfo" u k v)
    /\ (proper_dicts e ar -> e_implicit e = false -> e_oidc e = true -> dget (e_modules e) "userinfo" <> None ->
        forall users k sp v, asks e ar "userinfo" (g_scope g) k sp -> e_users e = Some users ->
          dget (users u) k = Some v -> claims_match (Some v) sp = Ok true -> k <> "sub" -> k <> "acr" ->
          dget info k = Some v).
Proof.
  exact (fun e a0 ops evs h now tok info cl h' W => userinfo_release e W a0 ops evs h now tok info cl h').
Qed.
Print Assumptions C53_userinfo_claims.

Theorem C53_introspection_claims : forall e a0 ops evs h now release tok r h',
  laws e -> Forall (proper e) ops -> exec e (h_init a0) ops = (evs, h) ->
  step e h (OIntrospect now release tok) = (EvIntrospect (Ok (Some r)), h') ->
  exists gid g u ar, grant_of h gid g /\ belongs e g u (ir_client r) /\ leads_to e now h tok gid
    /\ g_areq g = Some ar
    /\ (proper_dicts e ar -> forall k v, In (k, v) (ir_claims r) ->
          authorized_claim e a0 g ar "introspection" u k v)
    /\ (proper_dicts e ar -> e_implicit e = false -> dget (e_modules e) "introspection" <> None ->
        forall users k sp v, asks e ar "introspection" (g_scope g) k sp -> e_users e = Some users ->
          dget (users u) k = Some v -> claims_match (Some v) sp = Ok true -> dget (ir_claims r) k = Some v).
Proof.
  exact (fun e a0 ops evs h now release tok r h' W => introspect_release e W a0 ops evs h now release tok r h').
Qed.
Print Assumptions C53_introspection_claims.

(** A user with a name of their own for "sub". The request asks for the nickname
    Dina, for the name Ann and, at introspection, for "sub" and the nickname. *)
Definition own_sub : string -> dict jval := fun u =>
  if String.eqb u "diana" then ("sub", JStr "staff-17") :: toy_users u else [].
Definition claims_env : env := let e := hex_env true false in {|
  e_oidc := e_oidc e; e_limit := e_limit e; e_crypto := e_crypto e; e_skey := e_skey e;
  e_sign := e_sign e; e_verify := e_verify e; e_peek := e_peek e; e_left_hash := e_left_hash e;
  e_uuid := e_uuid e; e_rnd := e_rnd e; e_issuer := e_issuer e;
  e_handlers := e_handlers e; e_modules := e_modules e; e_clients := e_clients e;
  e_users := Some own_sub; e_scopes := e_scopes e; e_scope_map := e_scope_map e;
  e_grant_types := e_grant_types e; e_helpers := e_helpers e; e_authz := e_authz e;
  e_implicit := e_implicit e; e_sub := e_sub e; e_revoke_refresh := e_revoke_refresh e;
  e_dpop := e_dpop e; e_dpop_info := e_dpop_info e; e_idt_alg_def := e_idt_alg_def e;
  e_idt_algs := e_idt_algs e; e_bc_sid := e_bc_sid e; e_fc_sid := e_fc_sid e;
  e_pkce := e_pkce e; e_cc_hash := e_cc_hash e
|}.
Lemma claims_laws : laws claims_env.
Proof. destruct (hex_laws true false); constructor; assumption. Qed.
Definition claims_areq : areq :=
  mk_areq "c1" (Some "https://rp.example.com/cb") ["code"] (Some ["openid"; "email"; "offline_access"])
    (Some "state") (Some "nonce") None None
    (Some [("userinfo", [("nickname", Some [("value", JStr "Dina")]); ("name", Some [("value", JStr "Ann")])]);
           ("introspection", [("sub", None); ("nickname", None)])]) "" None None None [].
Definition claims_run : list (list event -> op) := [
  (fun _ => OLogin 1000 true claims_areq "diana" "password" (Some 3600%Z) (Some "https://rp.example.com/cb"));
  (fun evs => OParse 1001 "c1" (hex_code_req (last_code evs)));
  (fun _ => OProcess 1002 0 None) ].
Definition claims_end : hst := run_end claims_env claims_run.
Definition claims_access : string := answered_access (run_evs claims_env claims_run).
Lemma claims_proper : proper_dicts claims_env claims_areq.
Proof.
  split.
  - intros p m I. cbn in I. repeat (destruct I as [I|I]; [injection I as <- <-; cbn; repeat constructor; intros []|]). destruct I.
  - intros cl p d C I. injection C as <-. cbn in I.
    repeat (destruct I as [I|I]; [injection I as <- <-; repeat constructor; cbn; intuition discriminate|]). destruct I.
Qed.

(** The nickname is given; the name, which is not Ann, is not; e-mail and its
    status come with the scope. *)
Example C53_example :
  proper_dicts claims_env claims_areq
  /\ Forall (proper claims_env) (run_ops claims_env claims_run)
  /\ exec claims_env (h_init []) (run_ops claims_env claims_run) = (run_evs claims_env claims_run, claims_end)
  /\ fst (step claims_env claims_end (OUserinfo 1010 claims_access))
     = EvUserinfo (Ok (Good ([("email", JStr "diana@example.org"); ("sub", JStr "diana@"); ("email_verified", JBool false);
                              ("nickname", JStr "Dina"); ("acr", JStr "password")], "c1")))
  /\ asks claims_env claims_areq "userinfo" ["openid"; "email"; "offline_access"] "email_verified" None
  /\ (exists r, fst (step claims_env claims_end (OIntrospect 1010 false claims_access)) = EvIntrospect (Ok (Some r))
        /\ ir_claims r = [("sub", JStr "staff-17"); ("nickname", JStr "Dina")]).
Proof.
  split; [exact claims_proper|].
  assert (forallb plain_call (run_ops claims_env claims_run) = true) as F by (vm_compute; reflexivity).
  apply run_start in F. split; [exact (proj1 F)|]. split; [exact (proj2 F)|].
  split; [vm_compute; reflexivity|]. split.
  - right. split; [reflexivity|]. split.
    + intros sp' (cl & d & C & D & K). injection C as <-. injection D as <-. discriminate K.
    + exists (mk_cmodule [("email", None)] true true []), "email", ["email"; "email_verified"], (e_scope_map claims_env).
      do 2 (split; [reflexivity|]). split; [right; left; reflexivity|]. split.
      * apply sa_provider; [|cbn; tauto]. intros c (_ & R). cbn in R. injection R as <-. split; reflexivity.
      * split; [left; split; [|discriminate]|].
        -- apply mp_provider. intros c (_ & R). cbn in R. injection R as <-. reflexivity.
        -- split; [reflexivity|]. right. left. reflexivity.
  - eexists. split; vm_compute; reflexivity.
Qed.

(** ** C28: the members of the response *)
Theorem C28_response : forall e ops evs h now release tok r h',
  laws e -> history e ops evs h ->
  step e h (OIntrospect now release tok) = (EvIntrospect (Ok (Some r)), h') ->
  exists gid g t u c, grant_of h gid g /\ belongs e g u c /\ leads_to e now h tok gid
    /\ In t (g_tokens g) /\ t_value t = tok
    /\ dget (introspection_response (Some r)) "active" = Some (JBool true)
    /\ (forall k v, dget (introspection_response (Some r)) k = Some v ->
          (k = "active" /\ v = JBool true) \/ In (k, v) (ir_claims r)
          \/ (dget (ir_claims r) k = None /\ about e g t u c release k v))
    /\ (forall k, dget (ir_claims r) k = None ->
          k = "scope" \/ k = "client_id" \/ k = "exp" \/ k = "iat" \/ k = "sub" \/ k = "iss"
          \/ (k = "username" /\ release = true) ->
          exists v, dget (introspection_response (Some r)) k = Some v).
Proof.
  exact (fun e ops evs h now release tok r h' W => response_about e W ops evs h now release tok r h').
Qed.
Print Assumptions C28_response.

Example C28_response_example :
  exists r, fst (step info_env info_end (OIntrospect 1010 true info_access)) = EvIntrospect (Ok (Some r))
    /\ introspection_response (Some r)
       = [("active", JBool true); ("scope", JStr "openid email offline_access"); ("client_id", JStr "c1");
          ("exp", JInt 1602); ("iat", JInt 1002); ("sub", JStr "diana@"); ("iss", JStr "https://op.example.com/");
          ("token_type", JStr "Bearer"); ("aud", JList [JStr "c1"]); ("username", JStr "diana")].
Proof. eexists. split; vm_compute; reflexivity. Qed.

(** "The member sub of the response is the subject id of the grant" is false: a
    user claim of that name, which the client can ask for in its request, takes
    its place, and so for the other members but "active". *)
Theorem C28_response_sub_refuted : exists e ops evs h gid g tok r h' v,
  laws e /\ history e ops evs h /\ grant_of h gid g /\ leads_to e 1010 h tok gid
  /\ step e h (OIntrospect 1010 false tok) = (EvIntrospect (Ok (Some r)), h')
  /\ dget (introspection_response (Some r)) "sub" = Some v /\ v <> JStr (g_sub g).
Proof.
  exists claims_env, (run_ops claims_env claims_run), (run_evs claims_env claims_run), claims_end, "u0".
  destruct (nth 4 (s_heap (h_st claims_end)) ONone) as [|g|] eqn:E; try (vm_compute in E; discriminate).
  vm_compute in E. injection E as <-. eexists _, claims_access. eexists _, _, (JStr "staff-17").
  split; [exact claims_laws|]. split; [apply run_history; vm_compute; reflexivity|].
  split; [exists 4; split; vm_compute; reflexivity|].
  split; [eexists _, _; split; vm_compute; reflexivity|].
  split; [vm_compute; reflexivity|]. split; [vm_compute; reflexivity|]. discriminate.
Qed.
Print Assumptions C28_response_sub_refuted.
