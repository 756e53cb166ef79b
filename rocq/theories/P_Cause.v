(** Property theorems: nothing ends without a cause (C65). *)
From Verif Require Import M_Base M_Types M_Codec M_Grant M_Env M_Session M_Claims M_Handler
  M_Authz M_TokenEP M_PKCE M_AuthzEP M_Info M_Logout M_History S_Codec S_Grant S_Store S_Toy S_History S_Hex
  S_Revoke S_Cause L_Base L_Hex L_Hist10 L_Hist11 L_Cause2 P_Grant P_History P_Logout.

(** A grant that is revoked was revoked by a call that is meant to end it. In
    particular no call about another user, and no log-out from or revocation of
    the session with another client, ends it; and neither does a call that
    fails on the way. *)
Theorem C65_grants : forall e ops evs h gid g u c,
  laws e -> (forall c ci, dget (e_clients e) c = Some ci -> good_id c) ->
  history e ops evs h -> Forall (sensible e) ops ->
  grant_of h gid g -> belongs e g u c -> g_revoked g = true ->
  exists j o, nth_error ops j = Some o /\ meant_to_end e o u c gid.
Proof. exact (fun e ops evs h gid g u c W Gc => grants_ended e W Gc ops evs h gid g u c). Qed.
Print Assumptions C65_grants.

(** A token that is revoked was revoked by a call that is meant to end it: its
    own revocation or that of a token it was made from, its exchange for a new
    one, or a second presentation of the code it was made from. *)
Theorem C65_tokens : forall e ops evs h gid g t,
  laws e -> (forall c ci, dget (e_clients e) c = Some ci -> good_id c) ->
  history e ops evs h -> Forall (sensible e) ops ->
  grant_of h gid g -> In t (g_tokens g) -> t_revoked t = true ->
  exists j, meant_to_end_token e ops evs j g t.
Proof. exact (fun e ops evs h gid g t W Gc => tokens_ended e W Gc ops evs h gid g t). Qed.
Print Assumptions C65_tokens.

(** A token counts as used only if a token request that presents it was
    processed. *)
Theorem C65_uses : forall e ops evs h gid g t,
  laws e -> (forall c ci, dget (e_clients e) c = Some ci -> good_id c) ->
  history e ops evs h -> Forall (sensible e) ops ->
  grant_of h gid g -> In t (g_tokens g) -> t_used t <> 0%Z ->
  exists j, spent_at evs j (t_value t) (t_class t).
Proof. exact (fun e ops evs h gid g t W Gc => tokens_spent e W Gc ops evs h gid g t). Qed.
Print Assumptions C65_uses.

(** So an access token that nobody ends is live, and its grant is, up to the
    moment when one of them expires. *)
Theorem C65_live_until_ended : forall e ops evs h gid g u c t now,
  laws e -> (forall c ci, dget (e_clients e) c = Some ci -> good_id c) ->
  history e ops evs h -> Forall (sensible e) ops ->
  grant_of h gid g -> belongs e g u c -> In t (g_tokens g) -> t_class t = "access_token" ->
  (forall m, r_max (t_rules t) = Some m -> (0 < m)%Z) ->
  (t_exp t <> 0 -> now <= t_exp t)%Z -> (g_exp g <> 0 -> now <= g_exp g)%Z ->
  (forall j o, nth_error ops j = Some o -> ~ meant_to_end e o u c gid) ->
  (forall j, ~ meant_to_end_token e ops evs j g t) ->
  token_live t now /\ grant_live g now.
Proof. exact (fun e ops evs h gid g u c t now W Gc => stays_live e W Gc ops evs h gid g u c t now). Qed.
Print Assumptions C65_live_until_ended.

(** ** Examples *)

(** After the visits of Diana and Bob, the code of Diana's grant for c1 is
    presented again, Diana logs out from c2 and Bob's grant is revoked. *)
Definition ends_run : list (list event -> op) := visits ++ [
  (fun evs => OParse 1010 "c1" (hex_code_req (last_code (firstn 1 evs))));
  (fun _ => OLogout 1011 diana_c2 false);
  (fun _ => ORevokeGrant 1012 bob_c1) ].
Definition ends_end : hst := run_end demo_env ends_run.
(** The grants, with their tokens: whether they are revoked and how often they
    were used. *)
Definition all_flags (h : hst) : list (string * bool * list (string * bool * Z)) :=
  flat_map (fun o => match o with
    | OGrant g => [(g_id g, g_revoked g, map (fun t => (t_class t, t_revoked t, t_used t)) (g_tokens g))]
    | _ => [] end) (s_heap (h_st h)).
Definition sensible_b (o : op) : bool :=
  match o with
  | ORevokeGrant _ sid | ORevokeClient _ sid =>
      match dec_sid demo_env sid with Ok [_; c] | Ok [_; c; _] => plain_id c | Ok _ => false | Raise _ => true end
  | _ => true
  end.
Lemma sensible_b_ok o : sensible_b o = true -> sensible demo_env o.
Proof.
  destruct o; cbn [sensible sensible_b]; auto; intros H p D; rewrite D in H;
    destruct p as [|u [|c [|g [|? ?]]]]; try discriminate H; exists u, c; (split; [apply plain_good; exact H|]); eauto.
Qed.
Example C65_hypotheses :
  history demo_env (run_ops demo_env ends_run) (run_evs demo_env ends_run) ends_end
  /\ Forall (sensible demo_env) (run_ops demo_env ends_run)
  /\ (forall c ci, dget (e_clients demo_env) c = Some ci -> good_id c)
  /\ all_flags ends_end =
     [("u0", false, [("authorization_code", false, 1%Z); ("access_token", true, 0%Z);
                     ("refresh_token", true, 0%Z); ("id_token", true, 0%Z)]);
      ("u14", true, [("authorization_code", false, 0%Z)]);
      ("u19", true, [("authorization_code", false, 0%Z)])].
Proof.
  split; [apply run_history; vm_compute; reflexivity|]. split.
  { apply Forall_forall. intros o I. apply sensible_b_ok.
    assert (forallb sensible_b (run_ops demo_env ends_run) = true) as F by (vm_compute; reflexivity).
    rewrite forallb_forall in F. apply F. exact I. }
  split; [exact C41_example_clients|]. vm_compute. reflexivity.
Qed.
(** What the theorems say of it: the calls that ended the two grants, and the
    call that spent the code. *)
Example C65_example :
  (exists o, nth_error (run_ops demo_env ends_run) 6 = Some o /\ meant_to_end demo_env o "diana" "c2" "u14")
  /\ (exists o, nth_error (run_ops demo_env ends_run) 7 = Some o /\ meant_to_end demo_env o "bob" "c1" "u19")
  /\ spent_at (run_evs demo_env ends_run) 2 (last_code (firstn 1 (run_evs demo_env ends_run))) "authorization_code".
Proof.
  split. { exists (OLogout 1011 diana_c2 false). split; [vm_compute; reflexivity|]. exists "u14". vm_compute. reflexivity. }
  split. { exists (ORevokeGrant 1012 bob_c1). split; vm_compute; reflexivity. }
  eexists _, _. split; [vm_compute; reflexivity|]. constructor 1. vm_compute. auto.
Qed.
(** Nothing is ended in a run that redeems a code once. *)
Definition plain_run : list (list event -> op) := [
  demo_login;
  fun evs => OParse 1001 "c1" (hex_code_req (last_code evs));
  fun _ => OProcess 1002 0 None ].
Definition plain_end : hst := run_end demo_env plain_run.
Definition gentle (o : op) : bool :=
  match o with OLogin _ _ _ _ _ _ _ | OParse _ _ _ | OProcess _ _ _ => true | _ => false end.
Lemma gentle_ops o : gentle o = true -> sensible demo_env o /\ forall u c gid, ~ meant_to_end demo_env o u c gid.
Proof. destruct o; cbn [gentle]; try discriminate; intros _; (split; [exact Logic.I|intros u c gid X; exact X]). Qed.
Lemma gentle_run o : In o (run_ops demo_env plain_run) -> gentle o = true.
Proof.
  assert (forallb gentle (run_ops demo_env plain_run) = true) as F by (vm_compute; reflexivity).
  rewrite forallb_forall in F. apply F.
Qed.
Definition ev_code (v : event) : bool :=
  match v with EvToken q _ => String.eqb (tr_grant_type q) "authorization_code" | _ => true end.
Lemma plain_evs q r j : nth_error (run_evs demo_env plain_run) j = Some (EvToken q r) ->
  2 <= j /\ tr_grant_type q = "authorization_code".
Proof.
  intros N. split.
  - destruct j as [|[|j]]; [| |auto with arith].
    + assert (match nth_error (run_evs demo_env plain_run) 0 with Some (EvToken _ _) => False | _ => True end) as Y
        by (vm_compute; exact Logic.I). rewrite N in Y. destruct Y.
    + assert (match nth_error (run_evs demo_env plain_run) 1 with Some (EvToken _ _) => False | _ => True end) as Y
        by (vm_compute; exact Logic.I). rewrite N in Y. destruct Y.
  - assert (forallb ev_code (run_evs demo_env plain_run) = true) as F by (vm_compute; reflexivity).
    rewrite forallb_forall in F. apply nth_error_In in N. apply F in N. cbn [ev_code] in N. apply String.eqb_eq. exact N.
Qed.
Lemma plain_parse now c q j : nth_error (run_ops demo_env plain_run) j = Some (OParse now c q) -> j < 2.
Proof.
  intros N. destruct j as [|[|[|j]]]; auto; exfalso.
  - assert (match nth_error (run_ops demo_env plain_run) 2 with Some (OParse _ _ _) => False | _ => True end) as Y
      by (vm_compute; exact Logic.I). rewrite N in Y. destruct Y.
  - assert (List.length (run_ops demo_env plain_run) = 3) as Y by (vm_compute; reflexivity).
    assert (nth_error (run_ops demo_env plain_run) (S (S (S j))) <> None) as Z by (rewrite N; discriminate).
    apply nth_error_Some in Z. rewrite Y in Z. clear - Z. lia.
Qed.
Example C65_live_example :
  history demo_env (run_ops demo_env plain_run) (run_evs demo_env plain_run) plain_end
  /\ Forall (sensible demo_env) (run_ops demo_env plain_run)
  /\ grant_of plain_end "u0" (the_grant plain_end)
  /\ belongs demo_env (the_grant plain_end) "diana" "c1"
  /\ (exists t, In t (g_tokens (the_grant plain_end)) /\ t_class t = "access_token" /\ r_max (t_rules t) = None
       /\ (1100 <= t_exp t)%Z)
  /\ (1100 <= g_exp (the_grant plain_end))%Z
  /\ (forall j o, nth_error (run_ops demo_env plain_run) j = Some o -> ~ meant_to_end demo_env o "diana" "c1" "u0")
  /\ (forall j t, ~ meant_to_end_token demo_env (run_ops demo_env plain_run) (run_evs demo_env plain_run) j (the_grant plain_end) t).
Proof.
  split; [apply run_history; vm_compute; reflexivity|].
  split; [apply Forall_forall; intros o I; apply gentle_ops, gentle_run, I|].
  split; [exists 4; split; vm_compute; reflexivity|].
  split; [eexists _, _; vm_compute; repeat split; reflexivity|].
  split. { exists (nth 1 (g_tokens (the_grant plain_end)) ex_no_token). split; [vm_compute; auto|].
    split; [vm_compute; reflexivity|]. split; [vm_compute; reflexivity|]. vm_compute. discriminate. }
  split; [vm_compute; discriminate|].
  split; [intros j o N; apply gentle_ops, gentle_run, (nth_error_In _ _ N)|].
  intros j t X. unfold meant_to_end_token in X.
  generalize (fun now c q => plain_parse now c q j). intros Pp.
  destruct (nth_error (run_ops demo_env plain_run) j) as [o|] eqn:N; [|exact X].
  pose proof (gentle_run _ (nth_error_In _ _ N)) as Go.
  destruct o; try discriminate Go; try exact X.
  - destruct X as (_ & code & i & _ & _ & Lt' & (q' & r' & Ne & _)). apply plain_evs in Ne. destruct Ne as (Ge' & _).
    specialize (Pp _ _ _ eq_refl). clear - Lt' Ge' Pp. lia.
  - destruct X as (q & r & c & Ne & Pr & _). apply plain_evs in Ne. destruct Ne as (_ & Gt').
    destruct Pr as [(Y & _)|(_ & Y & _)]; [discriminate Y|]. rewrite Gt' in Y. discriminate Y.
Qed.
