(** C52: how long tokens live. *)
From Verif Require Import M_Base M_Types M_Codec M_Grant M_Env M_Session M_Claims M_Handler
  M_Authz M_TokenEP M_PKCE M_AuthzEP M_Info M_Logout M_History S_Grant S_Toy S_History S_Hex L_Grant L_Hex S_Lifetime L_Lifetime
  P_History.

(** In every history the expiry time of every token is what the usage rules of
    its grant say about the class of the token, counted from the time of a call
    of that history. A refresh token is always made from another token, so it
    gets its life time at the token endpoint. *)
Theorem C52_token_life_times : forall e ops evs h gid g t,
  laws e -> history e ops evs h -> grant_of h gid g -> In t (g_tokens g) ->
  lives_by (dget (g_rules g) (t_class t)) t
  /\ (exists o, In o ops /\ t_issued t = op_time o)
  /\ (t_class t = "refresh_token" -> t_based t <> None).
Proof. exact (fun e ops evs h gid g t W => life_times e W ops evs h gid g t). Qed.
Print Assumptions C52_token_life_times.

(** If usage rules are configured for all clients, then these, merged with the
    client's own, are the rules of every grant with a token (C20 says what the
    merger is). *)
Theorem C52_rules_of_the_client : forall e ops evs h gid g t,
  laws e -> history e ops evs h -> grant_of h gid g -> In t (g_tokens g) ->
  e_implicit e = false -> gc_rules (e_authz e) <> None ->
  exists ar, g_areq g = Some ar /\ g_rules g = env_rules e (ar_client_id ar).
Proof. exact (fun e ops evs h gid g t W => life_rules e W ops evs h gid g t). Qed.
Print Assumptions C52_rules_of_the_client.

(** A refresh token of a client for which the rules say a negative life time is
    never accepted: no token request that presents one is answered. *)
Theorem C52_negative_life_time : forall e ops evs h i q a v c r x,
  laws e -> history e ops evs h -> in_order ops ->
  e_implicit e = false -> gc_rules (e_authz e) <> None ->
  dget (env_rules e c) "refresh_token" = Some r -> r_exp r = Some x -> (x < 0)%Z ->
  (forall o, In o ops -> op_time o + x <> 0)%Z ->
  answer_at evs i q a -> tr_client q = Some c -> ~ presents q v "refresh_token".
Proof.
  intros e ops evs h i q a v c r x W H O Im Gr Ru Rx Neg Nz An Cq Pr.
  exact (life_used e W ops evs h i q a v c r x H O An Pr Cq Im Gr Ru Rx Neg Nz).
Qed.
Print Assumptions C52_negative_life_time.

(** With the usage rules the provider comes with, and no others: a code and
    whatever the authorization endpoint gives never expire; an access or ID token
    from the token endpoint expires after half an hour; a refresh token has
    expired a second before it is issued. *)
Theorem C52_default_life_times : forall e ops evs h gid g ar c t,
  laws e -> history e ops evs h -> grant_of h gid g -> In t (g_tokens g) ->
  e_implicit e = false -> gc_rules (e_authz e) = Some default_rules ->
  g_areq g = Some ar -> dget (e_clients e) (ar_client_id ar) = Some c -> c_rules c = None ->
  (t_based t = None -> t_exp t = 0%Z)
  /\ (t_class t = "authorization_code" -> t_exp t = 0%Z)
  /\ (t_class t = "access_token" \/ t_class t = "id_token" -> t_based t <> None -> t_exp t = (t_issued t + 1800)%Z)
  /\ (t_class t = "refresh_token" -> t_exp t = (t_issued t - 1)%Z).
Proof. exact (fun e ops evs h gid g ar c t W => default_lives e W ops evs h gid g ar c t). Qed.
Print Assumptions C52_default_life_times.

(** The grant behind every code or token that the authorization endpoint hands
    out expires when the configured life time of grants has passed since the
    response... *)
Theorem C52_grant_life_time : forall e x ops evs h o ev h' out a v,
  laws e -> history e ops evs h -> proper e o -> step e h o = (ev, h') ->
  ev = EvLogin (Ok out) \/ ev = EvAuthorize (Ok (ROut out)) -> ao_args out = Good a ->
  ap_code a = Some v \/ ap_access a = Some v \/ ap_id a = Some v ->
  e_implicit e = false -> gc_exp (e_authz e) = Some x ->
  exists gid g t, grant_of h' gid g /\ In t (g_tokens g) /\ t_value t = v /\ g_exp g = (op_time o + x)%Z.
Proof. exact (fun e x ops evs h o ev h' out a v W => grant_expiry e W x ops evs h o ev h' out a v). Qed.
Print Assumptions C52_grant_life_time.

(** ... and in every history every grant with a token expires that long after a
    call of the history. *)
Theorem C52_grants_expire : forall e x ops evs h gid g t,
  laws e -> history e ops evs h -> grant_of h gid g -> In t (g_tokens g) ->
  e_implicit e = false -> gc_exp (e_authz e) = Some x ->
  exists o, In o ops /\ g_exp g = (op_time o + x)%Z.
Proof. exact (fun e x ops evs h gid g t W => history_stamps e W x ops evs h gid g t). Qed.
Print Assumptions C52_grants_expire.

(** A grant that is not live gives nothing any more: from then on no token
    request that presents one of its codes or refresh tokens is answered. *)
Theorem C52_dead_grant_gives_nothing : forall e ops evs h ops2 evs2 h' gid g now i q a p pc,
  laws e -> history e ops evs h -> grant_of h gid g -> ~ grant_live g now ->
  Forall (proper e) ops2 -> Forall (fun o => now <= op_time o)%Z ops2 -> exec e h ops2 = (evs2, h') ->
  in_grant g p pc -> answer_at evs2 i q a -> ~ presents q p pc.
Proof.
  exact (fun e ops evs h ops2 evs2 h' gid g now i q a p pc W =>
    dead_gives_nothing e W ops evs h ops2 evs2 h' gid g now i q a p pc).
Qed.
Print Assumptions C52_dead_grant_gives_nothing.

(** ** Examples *)
Definition with_rules (glob per : option (dict rule)) : env := let e := hex_env true true in {|
  e_oidc := e_oidc e; e_limit := e_limit e; e_crypto := e_crypto e; e_skey := e_skey e;
  e_sign := e_sign e; e_verify := e_verify e; e_peek := e_peek e; e_left_hash := e_left_hash e;
  e_uuid := e_uuid e; e_rnd := e_rnd e; e_issuer := e_issuer e;
  e_handlers := e_handlers e; e_modules := e_modules e;
  e_clients := [("c1", mk_client (Some [CODE; REFRESH]) None None per None [] None true false)];
  e_users := e_users e; e_scopes := e_scopes e; e_scope_map := e_scope_map e;
  e_grant_types := e_grant_types e; e_helpers := e_helpers e;
  e_authz := mk_gconf (Some 43200%Z) glob None;
  e_implicit := e_implicit e; e_sub := e_sub e; e_revoke_refresh := e_revoke_refresh e;
  e_dpop := e_dpop e; e_dpop_info := e_dpop_info e; e_idt_alg_def := e_idt_alg_def e;
  e_idt_algs := e_idt_algs e; e_bc_sid := e_bc_sid e; e_fc_sid := e_fc_sid e;
  e_pkce := e_pkce e; e_cc_hash := e_cc_hash e
|}.
Lemma with_rules_laws glob per : laws (with_rules glob per).
Proof. destruct (hex_laws true true); constructor; assumption. Qed.

(** The run of P_History: a code, then a refresh token, is redeemed. *)
Example C52_example : exists g,
  grant_of demo_end "u0" g /\ map (fun t => (t_class t, t_exp t)) (g_tokens g)
    = [("authorization_code", 1300); ("access_token", 1602); ("refresh_token", 87402); ("id_token", 2802);
       ("access_token", 1605); ("refresh_token", 87405); ("id_token", 2805)]%Z.
Proof. exists (the_grant demo_end). split; [exact demo_grant|]. vm_compute. reflexivity. Qed.

(** The provider gives its grants 43200 seconds. *)
Example C52_grant_example : exists out a g,
  gc_exp (e_authz demo_env) = Some 43200%Z /\ e_implicit demo_env = false
  /\ nth_error demo_evs 0 = Some (EvLogin (Ok out)) /\ ao_args out = Good a /\ (exists v, ap_code a = Some v)
  /\ grant_of demo_end "u0" g /\ g_exp g = 44200%Z.
Proof.
  eexists _, _, (the_grant demo_end). split; [vm_compute; reflexivity|]. split; [vm_compute; reflexivity|].
  split; [vm_compute; reflexivity|]. split; [vm_compute; reflexivity|]. split; [eexists; vm_compute; reflexivity|].
  split; [exact demo_grant|]. vm_compute. reflexivity.
Qed.

(** The grant of that run is dead at 50000, though its last refresh token lives on
    until 87405: the token request is accepted, but not answered (an exception
    leaves the endpoint instead). *)
Definition late_run : list (list event -> op) := [
  fun evs => OParse 50000 "c1" (hex_refresh_req (answered_refresh demo_evs) None);
  fun _ => OProcess 50001 3 None ].
Definition late_ops : list op := map (fun f => f []) late_run.
Example C52_dead_example : exists g t q,
  grant_of demo_end "u0" g /\ ~ grant_live g 50000 /\ Forall (proper demo_env) late_ops
  /\ Forall (fun o => 50000 <= op_time o)%Z late_ops
  /\ In t (g_tokens g) /\ t_value t = answered_refresh demo_evs /\ t_class t = "refresh_token" /\ token_live t 50000
  /\ fst (exec demo_env demo_end late_ops) = [EvParse (Ok (Good q)); EvToken q (Raise AttributeError)].
Proof.
  exists (the_grant demo_end), (nth 5 (g_tokens (the_grant demo_end)) (mk_token "" "" None empty_rule 0 0 0 false 0 "" [] [] None "")).
  eexists. split; [exact demo_grant|].
  split. { intros X. apply grant_active_live in X. vm_compute in X. discriminate. }
  split; [constructor; [exact Logic.I|constructor; [exact Logic.I|constructor]]|].
  split; [constructor; [cbn; lia|constructor; [cbn; lia|constructor]]|].
  split; [apply nth_In; vm_compute; lia|]. do 2 (split; [vm_compute; reflexivity|]).
  split. { apply tok_active_live. vm_compute. reflexivity. }
  vm_compute. reflexivity.
Qed.

(** The default rules. The code is redeemed, and the answer has a refresh token,
    which has expired already: it is refused in the same second. *)
Definition default_env : env := with_rules (Some default_rules) None.
Definition default_run : list (list event -> op) := [
  demo_login;
  fun evs => OParse 1001 "c1" (hex_code_req (last_code evs));
  fun _ => OProcess 1001 0 None ].
Theorem C52_refresh_token_usable_refuted : exists e ops evs h q a v,
  laws e /\ gc_rules (e_authz e) = Some default_rules /\ history e ops evs h
  /\ answer_at evs 2 q a /\ rs_refresh a = Some v /\ (exists o, nth_error ops 2 = Some o /\ op_time o = 1001%Z)
  /\ fst (step e h (OParse 1001 "c1" (hex_refresh_req v None))) = EvParse (Ok (Err "invalid_request")).
Proof.
  exists default_env, (run_ops default_env default_run), (run_evs default_env default_run), (run_end default_env default_run).
  eexists _, _, _. split; [apply with_rules_laws|]. split; [reflexivity|].
  split; [apply run_history; vm_compute; reflexivity|].
  split; [vm_compute; reflexivity|]. split; [vm_compute; reflexivity|].
  split; [eexists; split; vm_compute; reflexivity|]. vm_compute. reflexivity.
Qed.
Print Assumptions C52_refresh_token_usable_refuted.

(** "The usage rules of a client govern every token of the client" is false if
    there are no rules for all clients: when the client comes back with another
    request and the user need not log in again, the new grant has no rules. Here
    the client's codes are to live for a minute; the first does, the second
    never expires. *)
Definition own_rules : dict rule :=
  [ ("authorization_code", mk_rule (Some ["access_token"]) (Some 1%Z) (Some 60%Z)) ].
Definition own_env : env := with_rules None (Some own_rules).
Definition own_sid : string := encrypted_session_id hex_crypto "skey" "r1" 1 ["diana"; "c1"; "u0"].
Definition other_areq : areq :=
  mk_areq "c1" (Some "https://rp.example.com/cb") ["code"] (Some ["openid"])
    (Some "other") (Some "nonce") None None None "" None None None [].
Definition own_ops : list op := [
  OLogin 1000 true toy_areq "diana" "password" (Some 3600%Z) (Some "https://rp.example.com/cb");
  OAuthorize 1100 false true other_areq None "password" (Some 3600%Z) (AUser "diana" (Some own_sid))
    (Some "https://rp.example.com/cb") ].
Theorem C52_client_rules_refuted : exists e ops evs h r g t g' t',
  laws e /\ history e ops evs h
  /\ dget (env_rules e "c1") "authorization_code" = Some r /\ r_exp r = Some 60%Z
  /\ grant_of h "u0" g /\ g_tokens g = [t] /\ t_class t = "authorization_code" /\ t_exp t = 1060%Z
  /\ grant_of h "u5" g' /\ belongs e g' "diana" "c1" /\ g_tokens g' = [t']
  /\ t_class t' = "authorization_code" /\ t_exp t' = 0%Z.
Proof.
  exists own_env, own_ops, (fst (exec own_env (h_init []) own_ops)), (snd (exec own_env (h_init []) own_ops)).
  eexists _, _, _, _, _. split; [apply with_rules_laws|].
  split.
  { split; [|exists []; vm_compute; reflexivity]. constructor; [|constructor; [|constructor]].
    - split; apply plain_good; reflexivity.
    - split; [apply plain_good; reflexivity|]. split; [apply plain_good; reflexivity|].
      intros s u c g X. injection X as <-. vm_compute. congruence. }
  split; [vm_compute; reflexivity|]. split; [vm_compute; reflexivity|].
  split; [exists 4; split; vm_compute; reflexivity|]. do 3 (split; [vm_compute; reflexivity|]).
  split; [exists 6; split; vm_compute; reflexivity|].
  split; [eexists _, _; do 4 (split; [vm_compute; reflexivity|]); vm_compute; reflexivity|].
  do 2 (split; [vm_compute; reflexivity|]). vm_compute. reflexivity.
Qed.
Print Assumptions C52_client_rules_refuted.
