(** Property theorems about restarts of the provider (C51). *)
From Verif Require Import M_Base M_Types M_Codec M_Grant M_Env M_Session M_Claims M_Handler
  M_Authz M_TokenEP M_PKCE M_AuthzEP M_Info M_Logout M_Dump M_History S_Codec S_Toy S_Store S_History S_Hex
  S_Restart L_Base L_Hex L_Restart P_History.

(** Whatever happened before, the session manager can be saved and restored, and
    then it holds the same records: under every key of the database, for every
    grant, and for everyone who reads a path. A read that failed fails in the
    same way. *)
Theorem C51_restart_keeps_sessions : forall e ops evs h now, laws e -> history e ops evs h ->
  exists h', step e h (OReload now) = (EvDone (Ok tt), h')
    /\ (forall k, entry h' k = entry h k)
    /\ (forall gid g, grant_of h' gid g <-> grant_of h gid g)
    /\ (forall p o, finds h' p o <-> finds h p o)
    /\ (forall p x, fails h' p x <-> fails h p x)
    /\ h_parsed h' = h_parsed h /\ s_always (h_st h') = s_always (h_st h).
Proof. exact (fun e ops evs h now W => restart_keeps e W ops evs h now). Qed.
Print Assumptions C51_restart_keeps_sessions.

(** Saving again what was restored gives what was saved. *)
Theorem C51_saved_again : forall e ops evs h now, laws e -> history e ops evs h ->
  exists h' d, step e h (OReload now) = (EvDone (Ok tt), h')
    /\ dump_all (h_st h) = (Ok d, h_st h) /\ dump_all (h_st h') = (Ok d, h_st h').
Proof. exact (fun e ops evs h now W => restart_same_dump e W ops evs h now). Qed.
Print Assumptions C51_saved_again.

(** Introspection and userinfo answer every token at every time as they would
    have done without the restart. *)
Theorem C51_restart_same_answers : forall e ops evs h now h', laws e -> history e ops evs h ->
  step e h (OReload now) = (EvDone (Ok tt), h') ->
  forall t release tok,
    fst (step e h' (OIntrospect t release tok)) = fst (step e h (OIntrospect t release tok))
    /\ fst (step e h' (OUserinfo t tok)) = fst (step e h (OUserinfo t tok)).
Proof. exact (fun e ops evs h now h' W => restart_answers e W ops evs h now h'). Qed.
Print Assumptions C51_restart_same_answers.

(** A code is redeemed, the provider is started again, the code is presented a
    second time. *)
Definition restarted : list (list event -> op) := [
  demo_login;
  fun evs => OParse 1001 "c1" (hex_code_req (last_code evs));
  fun evs => OParse 1001 "c1" (hex_code_req (last_code evs));
  fun _ => OProcess 1002 0 None;
  fun _ => OReload 1003;
  fun _ => OProcess 1004 1 None ].
Definition restarted_evs : list event := run_evs demo_env restarted.
Definition restarted_end : hst := run_end demo_env restarted.
Example C51_example :
  history demo_env (run_ops demo_env restarted) restarted_evs restarted_end
  /\ (exists q a, answer_at restarted_evs 3 q a)
  /\ nth_error restarted_evs 4 = Some (EvDone (Ok tt))
  /\ (exists q r, nth_error restarted_evs 5 = Some (EvToken q r) /\ forall a, r <> Ok (Good a))
  /\ (exists r, fst (step demo_env restarted_end (OIntrospect 1005 false (answered_access restarted_evs)))
      = EvIntrospect (Ok (Some r)) /\ ir_client r = "c1")
  /\ map t_used (g_tokens (the_grant restarted_end)) = [1; 0; 0; 0]%Z.
Proof.
  split; [apply run_history; vm_compute; reflexivity|].
  split; [eexists _, _; vm_compute; reflexivity|].
  split; [vm_compute; reflexivity|].
  split; [eexists _, _; split; [vm_compute; reflexivity|discriminate]|].
  split; [eexists; split; vm_compute; reflexivity|].
  vm_compute. reflexivity.
Qed.

(** ** What a restart does lose *)

(** The saved form of a grant does not contain its attribute id. *)
Theorem C51_grant_id_not_saved : forall g a b, dump_obj (OGrant (with_id a g)) = dump_obj (OGrant (with_id b g)).
Proof. reflexivity. Qed.
Print Assumptions C51_grant_id_not_saved.

(** ** What removal leaves behind *)

(** The session has been removed: no path leads to its grant. But the database,
    and with it what is saved, still holds the grant with its access token,
    under the key that is the session id. *)
Definition removed_sid : string := encrypted_session_id hex_crypto "skey" "r1" 1 ["diana"; "c1"; "u0"].
Definition removed : list (list event -> op) := [
  demo_login;
  fun evs => OParse 1001 "c1" (hex_code_req (last_code evs));
  fun _ => OProcess 1002 0 None;
  fun _ => ORemove 1003 removed_sid ].
Theorem C51_removal_leaves_grant_refuted : exists e ops evs h k g v x d,
  laws e /\ history e ops evs h
  /\ (exists sid t, last ops (OFlush 0) = ORemove t sid) /\ last evs EvNothing = EvDone (Ok tt)
  /\ fails h ["diana"; "c1"; "u0"] x
  /\ entry h k = Some (OGrant g) /\ in_grant g v "access_token"
  /\ dump_all (h_st h) = (Ok d, h_st h) /\ dget d k <> None.
Proof.
  exists demo_env, (run_ops demo_env removed), (run_evs demo_env removed), (run_end demo_env removed).
  eexists removed_sid, (the_grant (run_end demo_env removed)), (answered_access (run_evs demo_env removed)), _, _.
  split; [exact demo_laws|]. split; [apply run_history; vm_compute; reflexivity|].
  split; [eexists _, _; vm_compute; reflexivity|]. split; [vm_compute; reflexivity|].
  split; [vm_compute; reflexivity|]. split; [vm_compute; reflexivity|].
  split.
  { exists (nth 1 (g_tokens (the_grant (run_end demo_env removed))) ex_no_token).
    split; [|split; vm_compute; reflexivity]. apply nth_In. apply Nat.ltb_lt. vm_compute. reflexivity. }
  split; [vm_compute; reflexivity|]. discriminate.
Qed.
Print Assumptions C51_removal_leaves_grant_refuted.
