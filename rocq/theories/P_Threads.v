(** Property theorems about providers that process token requests in threads
    (C54). *)
From Verif Require Import M_Base M_Types M_Codec M_Grant M_Env M_Session M_Claims M_Handler
  M_Authz M_TokenEP M_PKCE M_AuthzEP M_Info M_Logout M_History M_Threads
  S_Codec S_Grant S_Toy S_History S_Threads S_Hex
  L_Base L_Hex L_Threads3 L_Threads4 P_Grant P_History.

(** ** The schedules used in the examples *)

(** A log-in; two requests for the same code are parsed; two threads process
    them, taking turns; the refresh token that the second one got is presented
    twice, and again two threads take turns. *)
Definition race_calls : list (list event -> op) := [
  demo_login;
  fun evs => OParse 1001 "c1" (hex_code_req (last_code evs));
  fun evs => OParse 1001 "c1" (hex_code_req (last_code evs)) ].
Definition race_base : hst := run_end demo_env race_calls.
Definition race_code : string := last_code (run_evs demo_env race_calls).
Fixpoint turns (n : nat) (now : Z) (j k : nat) : list move :=
  match n with O => [] | S n => MAct now j :: MAct now k :: turns n now j k end.
Definition race_one : list move := MStart 0 (Some true) :: MStart 1 (Some true) :: turns 12 1002 0 1.
Definition seen_refresh (xs : list sight) : string :=
  fold_left (fun x y => match y with
    | SeenAnswer _ _ (Ok (Good a)) => match rs_refresh a with Some v => v | None => x end
    | _ => x end) xs "".
Definition race_refresh : string := seen_refresh (fst (pexec demo_env (mk_pool race_base [] demo_env) race_one)).
Definition race_two : list move :=
  [ MCall (OParse 1003 "c1" (hex_refresh_req race_refresh None));
    MCall (OParse 1003 "c1" (hex_refresh_req race_refresh None));
    MStart 2 None; MStart 3 None ] ++ turns 12 1004 2 3.
Definition race_moves : list move := map MCall (run_ops demo_env race_calls) ++ race_one ++ race_two.
Definition race_seen : list sight :=
  map SeenCall (run_evs demo_env race_calls) ++ fst (pexec demo_env (mk_pool race_base [] demo_env) (race_one ++ race_two)).
Definition race_end : pool := snd (pexec demo_env (mk_pool race_base [] demo_env) (race_one ++ race_two)).

Lemma race_schedule : schedule demo_env race_moves race_seen race_end.
Proof.
  apply (history_schedule demo_env (run_ops demo_env race_calls) (run_evs demo_env race_calls) race_base).
  - apply run_history. vm_compute. reflexivity.
  - apply Forall_forall. intros m I o E. subst m. apply plain_proper.
    assert (forallb (fun m => match m with MCall o => plain_call o | _ => true end) (race_one ++ race_two) = true) as F
      by (vm_compute; reflexivity).
    rewrite forallb_forall in F. exact (F _ I).
  - apply surjective_pairing.
Qed.
Lemma race_fixed conf : ~ In (MConf conf) race_moves.
Proof.
  assert (forallb (fun m => match m with MConf _ => false | _ => true end) race_moves = true) as F
    by (vm_compute; reflexivity).
  intros I. rewrite forallb_forall in F. specialize (F _ I). clear I. discriminate F.
Qed.
Definition race_grant : grant := the_grant (p_st race_end).
Lemma race_owner : grant_of (p_st race_end) "u0" race_grant.
Proof. exists 4. split; vm_compute; reflexivity. Qed.

(** ** C54: one at a time, threads are calls *)

(** A thread that is not interrupted and sees one clock time does what the call
    does, for every request and every state: the same answer, the same state. *)
Theorem C54_uninterrupted : forall e w now i issue q r h',
  nth_error (h_parsed (p_st w)) i = Some q ->
  step (under e (p_conf w)) (p_st w) (OProcess now i issue) = (EvToken q r, h') ->
  let k := List.length (p_threads w) in
  exists n, pexec e w (MStart i issue :: repeat (MAct now k) (S n))
    = (SeenStart k q :: repeat SeenNothing n ++ [SeenAnswer k q r],
       mk_pool h' (p_threads w ++ [None]) (p_conf w)).
Proof. exact uninterrupted. Qed.
Print Assumptions C54_uninterrupted.

(** Every history is a schedule. *)
Theorem C54_histories_are_schedules : forall e ops evs h ms xs w,
  history e ops evs h -> Forall (fun m => forall o, m = MCall o -> proper e o) ms ->
  pexec e (mk_pool h [] e) ms = (xs, w) ->
  schedule e (map MCall ops ++ ms) (map SeenCall evs ++ xs) w.
Proof. exact history_schedule. Qed.
Print Assumptions C54_histories_are_schedules.

Example C54_uninterrupted_example :
  (exists q a h', nth_error (h_parsed race_base) 0 = Some q
     /\ step demo_env race_base (OProcess 1002 0 None) = (EvToken q (Ok (Good a)), h'))
  /\ exists q a, fst (pexec demo_env (mk_pool race_base [] demo_env) (MStart 0 None :: repeat (MAct 1002 0) 12))
       = SeenStart 0 q :: repeat SeenNothing 11 ++ [SeenAnswer 0 q (Ok (Good a))].
Proof. split; [eexists _, _, _; split|eexists _, _]; vm_compute; reflexivity. Qed.

(** ** C54: what holds however the threads take turns *)

(** Tokens come from a grant of the client the request speaks for, and descend
    from the presented token. *)
Theorem C54_tokens_go_to_their_client : forall e ms xs w i q a,
  laws e -> schedule e ms xs w -> answered_at xs i q a ->
  exists gid g u c p pc,
    grant_of (p_st w) gid g /\ belongs e g u c /\ tr_client q = Some c
    /\ presents q p pc /\ in_grant g p pc
    /\ (forall v tc, hands_out a v tc -> drawn_from g p v tc)
    /\ (exists v, hands_out a v "access_token").
Proof. exact (fun e ms xs w i q a W => thread_owner e W ms xs w i q a). Qed.
Print Assumptions C54_tokens_go_to_their_client.

Theorem C54_redirect_uri_bound : forall e ms xs w i q a code,
  laws e -> schedule e ms xs w -> answered_at xs i q a -> presents q code "authorization_code" ->
  exists gid g ar, grant_of (p_st w) gid g /\ in_grant g code "authorization_code" /\ g_areq g = Some ar
    /\ (forall uri, ar_redirect_uri ar = Some uri -> tr_redirect q = Some uri).
Proof. exact (fun e ms xs w i q a code W => thread_redirect e W ms xs w i q a code). Qed.
Print Assumptions C54_redirect_uri_bound.

(** The scope in the answer is within that of the grant; a refresh request with
    a scope gets that scope. *)
Theorem C54_answer_scope_within_grant : forall e ms xs w i q a p pc,
  laws e -> schedule e ms xs w -> answered_at xs i q a -> presents q p pc ->
  exists gid g, grant_of (p_st w) gid g /\ in_grant g p pc /\ incl (rs_scope a) (g_scope g)
    /\ (pc = "refresh_token" -> forall sc, tr_scope q = Some sc -> rs_scope a = sc).
Proof. exact (fun e ms xs w i q a p pc W => thread_scope e W ms xs w i q a p pc). Qed.
Print Assumptions C54_answer_scope_within_grant.

(** A client gets a refresh token for a code only if some configuration that
    was in force allows it the grant type. *)
Theorem C54_refresh_only_if_allowed : forall e ms xs w i q a v c,
  laws e -> schedule e ms xs w -> answered_at xs i q a ->
  tr_grant_type q = "authorization_code" -> rs_refresh a = Some v -> tr_client q = Some c ->
  exists conf, in_force e ms conf /\ supports (under e conf) c "refresh_token".
Proof. exact (fun e ms xs w i q a v c W => thread_refresh_allowed e W ms xs w i q a v c). Qed.
Print Assumptions C54_refresh_only_if_allowed.

(** The tokens of a grant form a forest, their scopes stay within what the
    request and the client allow, and a token value occurs only once among all
    grants. *)
Theorem C54_reached_states : forall e ms xs w gid g,
  laws e -> schedule e ms xs w -> grant_of (p_st w) gid g ->
  forest (g_tokens g)
  /\ (forall t, In t (g_tokens g) -> t_class t <> "id_token" ->
        incl (t_scope t) (g_scope g) /\ forall x, In x (g_scope g) -> authorized_scope e g x)
  /\ (forall gid' g' t t', grant_of (p_st w) gid' g' -> In t (g_tokens g) -> In t' (g_tokens g') ->
        t_value t = t_value t' -> gid = gid' /\ g = g' /\ t = t').
Proof.
  exact (fun e ms xs w gid g W Hs G => conj (pool_forest e W ms xs w gid g Hs G)
    (conj (fun t => pool_scope e W ms xs w gid g t Hs G)
       (fun gid' g' t t' G' I I' => pool_one_owner e W ms xs w gid gid' g g' t t' Hs G I G' I'))).
Qed.
Print Assumptions C54_reached_states.

(** Non-trivial: in the race all threads answer, and all the tokens are in the
    one grant. *)
Example C54_example :
  schedule demo_env race_moves race_seen race_end
  /\ grant_of (p_st race_end) "u0" race_grant /\ List.length (g_tokens race_grant) = 13
  /\ (exists q a, answered_at race_seen 27 q a /\ presents q race_code "authorization_code"
        /\ tr_client q = Some "c1" /\ rs_refresh a <> None)
  /\ (exists q a, answered_at race_seen 55 q a /\ presents q race_refresh "refresh_token").
Proof.
  split; [exact race_schedule|]. split; [exact race_owner|]. split; [vm_compute; reflexivity|]. split.
  - eexists _, _. split; [left; exists 0; vm_compute; reflexivity|].
    split; [left; split; [reflexivity|split; vm_compute; reflexivity]|]. split; [reflexivity|discriminate].
  - eexists _, _. split; [left; exists 2; vm_compute; reflexivity|].
    right. split; [reflexivity|]. split; vm_compute; reflexivity.
Qed.

(** The configuration changes under a running thread: the client loses the
    grant type refresh_token after the thread has started, and then is deleted
    from the database when a second thread has started. The first thread's answer
    has no refresh token; the second one is not answered with tokens. *)
Definition narrow_client (c : client) : client :=
  mk_client (Some [CODE]) (c_allowed_scopes c) (c_scopes_to_claims c) (c_rules c) (c_revoke_refresh c)
    (c_by_scope c) (c_idt_alg c) (c_bc_logout c) (c_fc_logout c).
Definition with_clients (cs : dict client) : env := {|
  e_oidc := e_oidc demo_env; e_limit := e_limit demo_env; e_crypto := e_crypto demo_env; e_skey := e_skey demo_env;
  e_sign := e_sign demo_env; e_verify := e_verify demo_env; e_peek := e_peek demo_env;
  e_left_hash := e_left_hash demo_env; e_uuid := e_uuid demo_env; e_rnd := e_rnd demo_env;
  e_issuer := e_issuer demo_env; e_handlers := e_handlers demo_env; e_modules := e_modules demo_env;
  e_clients := cs; e_users := e_users demo_env; e_scopes := e_scopes demo_env;
  e_scope_map := e_scope_map demo_env; e_grant_types := e_grant_types demo_env;
  e_helpers := e_helpers demo_env; e_authz := e_authz demo_env; e_implicit := e_implicit demo_env;
  e_sub := e_sub demo_env; e_revoke_refresh := e_revoke_refresh demo_env; e_dpop := e_dpop demo_env;
  e_dpop_info := e_dpop_info demo_env; e_idt_alg_def := e_idt_alg_def demo_env; e_idt_algs := e_idt_algs demo_env;
  e_bc_sid := e_bc_sid demo_env; e_fc_sid := e_fc_sid demo_env; e_pkce := e_pkce demo_env;
  e_cc_hash := e_cc_hash demo_env |}.
Definition narrow_env : env := with_clients (map (fun kc => (fst kc, narrow_client (snd kc))) (e_clients demo_env)).
Definition empty_env : env := with_clients [].
Definition change_moves : list move :=
  MStart 0 (Some true) :: MAct 1002 0 :: MConf narrow_env :: repeat (MAct 1002 0) 10
  ++ MStart 1 None :: MConf empty_env :: repeat (MAct 1002 1) 2.
Definition change_seen : list sight := fst (pexec demo_env (mk_pool race_base [] demo_env) change_moves).
Definition change_end : pool := snd (pexec demo_env (mk_pool race_base [] demo_env) change_moves).
Example C54_change_example :
  (exists ms xs, schedule demo_env (ms ++ change_moves) (xs ++ change_seen) change_end)
  /\ supports (under demo_env demo_env) "c1" "refresh_token"
  /\ ~ supports (under demo_env narrow_env) "c1" "refresh_token"
  /\ (exists q a, In (SeenAnswer 0 q (Ok (Good a))) change_seen /\ rs_access a <> None /\ rs_refresh a = None)
  /\ (exists q, In (SeenAnswer 1 q (Raise KeyError)) change_seen).
Proof.
  split; [|split; [|split; [|split]]].
  - eexists _, _. apply (history_schedule demo_env (run_ops demo_env race_calls) (run_evs demo_env race_calls) race_base).
    + apply run_history. vm_compute. reflexivity.
    + apply Forall_forall. intros m I o E. subst m. apply plain_proper.
      assert (forallb (fun m => match m with MCall o => plain_call o | _ => true end) change_moves = true) as F
        by (vm_compute; reflexivity).
      rewrite forallb_forall in F. exact (F _ I).
    + apply surjective_pairing.
  - eexists. split; [vm_compute; reflexivity|]. left. eexists. split; [vm_compute; reflexivity|vm_compute; auto].
  - intros (cl & D & [(l & E & I)|(E & _)]); vm_compute in D; injection D as <-; [|discriminate E].
    injection E as <-. destruct I as [I|[]]. discriminate I.
  - eexists _, _. split; [apply (nth_error_In _ 12); vm_compute; reflexivity|]. split; [discriminate|reflexivity].
  - eexists. apply (nth_error_In _ 16). vm_compute. reflexivity.
Qed.

(** ** C54: what is dead stays dead while threads run *)

(** [w] may have any number of threads in the middle of their work. *)
Theorem C54_revoked_grant_is_final : forall e ms1 xs1 w ms2 xs2 w' gid g,
  laws e -> schedule e ms1 xs1 w ->
  Forall (fun m => forall o, m = MCall o -> proper e o) ms2 -> pexec e w ms2 = (xs2, w') ->
  grant_of (p_st w) gid g -> g_revoked g = true ->
  exists g', grant_of (p_st w') gid g' /\ g_revoked g' = true
    /\ map t_value (g_tokens g') = map t_value (g_tokens g).
Proof.
  exact (fun e ms1 xs1 w ms2 xs2 w' gid g W => pool_revoked_final e W ms1 xs1 w ms2 xs2 w' gid g).
Qed.
Print Assumptions C54_revoked_grant_is_final.

Theorem C54_dead_token_stays_dead : forall e ms1 xs1 w ms2 xs2 w' gid g t now now',
  laws e -> schedule e ms1 xs1 w ->
  Forall (fun m => forall o, m = MCall o -> proper e o) ms2 -> pexec e w ms2 = (xs2, w') ->
  grant_of (p_st w) gid g -> In t (g_tokens g) -> ~ token_live t now -> (now <= now')%Z ->
  exists g' t', grant_of (p_st w') gid g' /\ In t' (g_tokens g') /\ t_value t' = t_value t
    /\ ~ token_live t' now'.
Proof.
  exact (fun e ms1 xs1 w ms2 xs2 w' gid g t now now' W =>
    pool_dead_token e W ms1 xs1 w ms2 xs2 w' gid g t now now').
Qed.
Print Assumptions C54_dead_token_stays_dead.

(** An expired or revoked grant gets no further token if the clock does not go
    back. *)
Theorem C54_dead_grant_stays_dead : forall e ms1 xs1 w ms2 xs2 w' gid g now now',
  laws e -> schedule e ms1 xs1 w ->
  Forall (fun m => forall o, m = MCall o -> proper e o) ms2 -> Forall (not_before now) ms2 ->
  pexec e w ms2 = (xs2, w') ->
  grant_of (p_st w) gid g -> ~ grant_live g now -> (now <= now')%Z ->
  exists g', grant_of (p_st w') gid g' /\ ~ grant_live g' now'
    /\ map t_value (g_tokens g') = map t_value (g_tokens g).
Proof.
  exact (fun e ms1 xs1 w ms2 xs2 w' gid g now now' W =>
    pool_dead_grant e W ms1 xs1 w ms2 xs2 w' gid g now now').
Qed.
Print Assumptions C54_dead_grant_stays_dead.

(** A thread is stopped in the middle of its work, after it minted the access
    token; the grant is revoked; the thread goes on and mints nothing more. *)
Definition race_sid : string := encrypted_session_id hex_crypto "skey" "r1" 1 ["diana"; "c1"; "u0"].
Definition stopped : list move :=
  MStart 0 (Some true) :: repeat (MAct 1002 0) 6 ++ [MCall (ORevokeGrant 1002 race_sid)].
Definition stopped_pool : pool := snd (pexec demo_env (mk_pool race_base [] demo_env) stopped).
Definition after_stop : list sight * pool := pexec demo_env stopped_pool (repeat (MAct 1002 0) 6).
Example C54_revoked_example :
  (exists ms xs, schedule demo_env ms xs stopped_pool)
  /\ map (fun t => match t with Some _ => true | None => false end) (p_threads stopped_pool) = [true]
  /\ grant_of (p_st stopped_pool) "u0" (the_grant (p_st stopped_pool))
  /\ g_revoked (the_grant (p_st stopped_pool)) = true
  /\ map t_class (g_tokens (the_grant (p_st stopped_pool))) = [CODE; ACCESS]
  /\ map t_class (g_tokens (the_grant (p_st (snd after_stop)))) = [CODE; ACCESS]
  /\ exists q r, In (SeenAnswer 0 q r) (fst after_stop).
Proof.
  split.
  { eexists _, _. apply (history_schedule demo_env (run_ops demo_env race_calls) (run_evs demo_env race_calls) race_base).
    - apply run_history. vm_compute. reflexivity.
    - apply Forall_forall. intros m I o E. subst m. apply plain_proper.
      assert (forallb (fun m => match m with MCall o => plain_call o | _ => true end) stopped = true) as F
        by (vm_compute; reflexivity).
      rewrite forallb_forall in F. exact (F _ I).
    - apply surjective_pairing. }
  split; [vm_compute; reflexivity|].
  split; [exists 4; split; vm_compute; reflexivity|].
  do 3 (split; [vm_compute; reflexivity|]).
  eexists _, _. apply (nth_error_In _ 0). vm_compute. reflexivity.
Qed.

(** ** C54: once, unless at the same time *)

(** Two requests for the same code are both answered only if the processing of
    the later one began before the earlier one was answered. *)
Theorem C54_code_once_unless_overlapping : forall e ms xs w i j q q' a a' code,
  laws e -> schedule e ms xs w ->
  answered_at xs i q a -> presents q code "authorization_code" ->
  answered_at xs j q' a' -> presents q' code "authorization_code" ->
  i < j -> exists m, began_at xs m j /\ m < i.
Proof. exact (fun e ms xs w i j q q' a a' code W => code_once_overlap e W ms xs w i j q q' a a' code). Qed.
Print Assumptions C54_code_once_unless_overlapping.

Theorem C54_rotated_once_unless_overlapping : forall e ms xs w i j q q' a a' v c,
  laws e -> schedule e ms xs w ->
  answered_at xs i q a -> presents q v "refresh_token" ->
  answered_at xs j q' a' -> presents q' v "refresh_token" ->
  tr_client q = Some c -> (forall conf, in_force e ms conf -> rotates (under e conf) c) ->
  i < j -> exists m, began_at xs m j /\ m < i.
Proof. exact (fun e ms xs w i j q q' a a' v c W => rotated_once_overlap e W ms xs w i j q q' a a' v c). Qed.
Print Assumptions C54_rotated_once_unless_overlapping.

(** Without threads, a code is redeemed at most once also if the configuration
    changes between the calls. *)
Theorem C54_code_once_if_configuration_changes : forall e ms xs w i j q q' a a' code,
  laws e -> schedule e ms xs w -> (forall k q0 r, ~ In (SeenAnswer k q0 r) xs) ->
  answered_at xs i q a -> presents q code "authorization_code" ->
  answered_at xs j q' a' -> presents q' code "authorization_code" -> i = j.
Proof. exact (fun e ms xs w i j q q' a a' code W => calls_code_once e W ms xs w i j q q' a a' code). Qed.
Print Assumptions C54_code_once_if_configuration_changes.

(** Non-trivial: the client loses the right to refresh tokens between two
    attempts; the first is answered, the second is not. *)
Definition calls_moves : list move := [MConf narrow_env; MCall (OProcess 1002 0 (Some true)); MConf demo_env;
  MCall (OProcess 1003 1 (Some true))].
Definition calls_run : list sight * pool := pexec demo_env (mk_pool race_base [] demo_env) calls_moves.
Example C54_calls_example :
  (exists ms xs, schedule demo_env (ms ++ calls_moves) (xs ++ fst calls_run) (snd calls_run))
  /\ map (fun x => match x with SeenCall (EvToken _ (Ok (Good _))) => true | _ => false end) (fst calls_run)
     = [false; true; false; false].
Proof.
  split.
  - eexists _, _. apply (history_schedule demo_env (run_ops demo_env race_calls) (run_evs demo_env race_calls) race_base).
    + apply run_history. vm_compute. reflexivity.
    + apply Forall_forall. intros m I o E. subst m. apply plain_proper.
      assert (forallb (fun m => match m with MCall o => plain_call o | _ => true end) calls_moves = true) as F
        by (vm_compute; reflexivity).
      rewrite forallb_forall in F. exact (F _ I).
    + unfold calls_run. apply surjective_pairing.
  - vm_compute. reflexivity.
Qed.

(** Refuted: a code is redeemed at most once. Nothing keeps two threads from
    both minting before either marks the code as used, and all the tokens that
    the two answers carry are live. *)
Theorem C54_code_once_refuted : exists e ms xs w i j q q' a a' code g v v' t t',
  laws e /\ schedule e ms xs w
  /\ answered_at xs i q a /\ presents q code "authorization_code"
  /\ answered_at xs j q' a' /\ presents q' code "authorization_code" /\ i < j
  /\ rs_access a = Some v /\ rs_access a' = Some v' /\ v <> v'
  /\ grant_of (p_st w) "u0" g /\ In t (g_tokens g) /\ In t' (g_tokens g)
  /\ t_value t = v /\ t_value t' = v' /\ token_live t 1010 /\ token_live t' 1010.
Proof.
  exists demo_env, race_moves, race_seen, race_end, 27, 28. eexists _, _, _, _, race_code, race_grant, _, _.
  exists (nth 1 (g_tokens race_grant) ex_no_token), (nth 2 (g_tokens race_grant) ex_no_token).
  split; [exact demo_laws|]. split; [exact race_schedule|].
  split; [left; exists 0; vm_compute; reflexivity|].
  split; [left; split; [reflexivity|split; vm_compute; reflexivity]|].
  split; [left; exists 1; vm_compute; reflexivity|].
  split; [left; split; [reflexivity|split; vm_compute; reflexivity]|]. split; [lia|].
  do 2 (split; [vm_compute; reflexivity|]). split; [vm_compute; discriminate|].
  split; [exact race_owner|].
  split; [apply nth_In; vm_compute; lia|]. split; [apply nth_In; vm_compute; lia|].
  do 2 (split; [vm_compute; reflexivity|]). split; vm_compute; repeat split; congruence.
Qed.
Print Assumptions C54_code_once_refuted.

(** Refuted: a client whose refresh tokens are rotated uses a refresh token at
    most once. *)
Theorem C54_rotated_once_refuted : exists e ms xs w i j q q' a a' v c x x',
  laws e /\ schedule e ms xs w
  /\ answered_at xs i q a /\ presents q v "refresh_token"
  /\ answered_at xs j q' a' /\ presents q' v "refresh_token" /\ i < j
  /\ tr_client q = Some c /\ (forall conf, in_force e ms conf -> rotates (under e conf) c)
  /\ rs_refresh a = Some x /\ rs_refresh a' = Some x' /\ x <> x'.
Proof.
  exists demo_env, race_moves, race_seen, race_end, 55, 56. eexists _, _, _, _, race_refresh, "c1", _, _.
  split; [exact demo_laws|]. split; [exact race_schedule|].
  split; [left; exists 2; vm_compute; reflexivity|].
  split; [right; split; [reflexivity|split; vm_compute; reflexivity]|].
  split; [left; exists 3; vm_compute; reflexivity|].
  split; [right; split; [reflexivity|split; vm_compute; reflexivity]|]. split; [lia|].
  split; [vm_compute; reflexivity|]. split.
  { intros conf [->|I]; [right; vm_compute; auto|]. exfalso. exact (race_fixed conf I). }
  do 2 (split; [vm_compute; reflexivity|]). vm_compute; discriminate.
Qed.
Print Assumptions C54_rotated_once_refuted.
