(** Threads, part 3: every schedule keeps the invariant. *)
From Verif Require Import M_Base M_Types M_Codec M_Grant M_Env M_Session M_Claims M_Handler
  M_Authz M_TokenEP M_PKCE M_AuthzEP M_Info M_Logout M_History M_Threads
  S_Codec S_Grant S_Store S_History S_Threads
  L_Base L_Codec L_Monad L_Grant L_Claims L_Store L_Hist1 L_Hist2 L_Hist3 L_Hist4 L_Hist5 L_Hist6 L_Hist7
  L_Hist8 L_Hist9 L_Hist10 L_Hist11 L_Threads1 L_Threads2.

Lemma nth_set_nth {A} k j (x : A) l : nth_error (set_nth k x l) j
  = if Nat.eqb j k then match nth_error l j with Some _ => Some x | None => None end else nth_error l j.
Proof.
  unfold set_nth. revert k j. induction l as [|y l IH]; intros [|k] [|j]; cbn; auto.
  now destruct (Nat.eqb j k).
Qed.
Lemma len_set_nth {A} k (x : A) l : List.length (set_nth k x l) = List.length l.
Proof. unfold set_nth. revert k. induction l as [|y l IH]; intros [|k]; cbn; auto. Qed.

Section Pool.
  Variables (e : env) (W : laws e) (Conf : env -> Prop).

  (** A safe program, run without interruption. *)
  Lemma safe_run {A} c now (p : prog A) : forall (P : st -> Prop) (Q : A -> st -> Prop),
    Conf c -> safe e Conf p P Q -> spec e now P (run (under e c) now p) Q.
  Proof.
    induction p as [r|B m k IH]; intros P Q Kc H s r' s' I p E; cbn [run] in E.
    - apply lift_inv in E as [<- <-]. split; auto. split; [apply st_later_refl|]. intros a X.
      cbn in H. eapply H; eauto.
    - destruct (m (under e c) now s) as [r s1] eqn:Em. destruct (H _ _ _ _ _ Kc I p Em) as (I1 & L1 & P' & A1 & A2 & A3).
      destruct (IH r P' Q Kc A3 _ _ _ I1 A2 E) as (I2 & L2 & X). split; auto. split; auto.
      eapply st_later_trans; eauto.
  Qed.
  Lemma process_spec c now q issue P (Q : outcome tresp -> st -> Prop) : Conf c ->
    safe e Conf (token_prog (under e c) q issue) P Q -> spec e now P (token_process (under e c) now q issue) Q.
  Proof.
    intros Kc H s r s' I p E. rewrite <- token_seq in E. eapply safe_run; eauto.
  Qed.

  (** The thread [k] works for [q] and will end with [Q]. *)
  Definition track (k : nat) (q : treq) (Q : outcome tresp -> st -> Prop) (w : pool) : Prop :=
    forall t, nth_error (p_threads w) k = Some (Some t) -> th_req t = q /\
      exists P : st -> Prop, astable P /\ P (h_st (p_st w)) /\ safe e Conf (th_prog t) P Q.

  Definition good (q : treq) (r : outcome tresp) (s : st) : Prop :=
    forall a, r = Good a -> outcome_of e Conf q a s.

  Record PI (w : pool) : Prop := {
    pi_hi : HI e (p_st w);
    pi_conf : Conf (p_conf w);
    pi_run : forall k t, nth_error (p_threads w) k = Some (Some t) ->
      exists P : st -> Prop, astable P /\ P (h_st (p_st w)) /\ safe e Conf (th_prog t) P (good (th_req t))
  }.

  Definition mtime (m : move) : Z := match m with MCall o => op_time o | MStart _ _ | MConf _ => 0%Z | MAct n _ => n end.

  Lemma hi_under c h : HI e h -> HI (under e c) h.
  Proof. intros [I P]. constructor; [now apply inv_under|exact P]. Qed.
  Lemma hi_back c h : HI (under e c) h -> HI e h.
  Proof. intros [I P]. constructor; [eapply inv_back; eauto|exact P]. Qed.

  Definition okmove (m : move) : Prop :=
    (forall o, m = MCall o -> proper e o) /\ (forall c, m = MConf c -> Conf c).

  Lemma pmove_keeps w m x w' : PI w -> okmove m -> pmove e w m = (x, w') ->
    PI w' /\ st_later (mtime m) (h_st (p_st w)) (h_st (p_st w'))
    /\ List.length (p_threads w) <= List.length (p_threads w')
    /\ (forall k q0 Q, k < List.length (p_threads w) -> track k q0 Q w ->
          track k q0 Q w' /\ (forall q r, x = SeenAnswer k q (Ok r) -> q = q0 /\ Q r (h_st (p_st w'))))
    /\ (forall k q a, x = SeenAnswer k q (Ok (Good a)) -> outcome_of e Conf q a (h_st (p_st w')))
    /\ (forall q a, x = SeenCall (EvToken q (Ok (Good a))) -> outcome_of e Conf q a (h_st (p_st w')))
    /\ (forall k q, x = SeenStart k q -> exists e1 issue, k = List.length (p_threads w)
          /\ p_threads w' = p_threads w ++ [Some (mk_thread q (token_prog e1 q issue))]
          /\ p_st w' = p_st w /\ pending e q (h_st (p_st w))).
  Proof.
    intros [Hh Hc Hr] [Pm Pc] E. destruct m as [o|cf|i issue|now k]; cbn [pmove] in E; cbv zeta in E.
    - set (e1 := under e (p_conf w)) in *.
      destruct (step e1 (p_st w) o) as [ev h] eqn:Es. injection E as <- <-. cbn [p_st p_threads mtime].
      destruct (step_keeps e1 (laws_under e _ W) _ _ _ _ (hi_under _ _ Hh) (Pm o eq_refl) Es) as (H' & L & _).
      apply hi_back in H'.
      assert (forall P : st -> Prop, astable P -> P (h_st (p_st w)) -> P (h_st h)) as St by (intros P S p; eapply S; eauto).
      split. { constructor; cbn; auto. intros k t N. destruct (Hr k t N) as (P & A1 & A2 & A3). exists P. split; [exact A1|split; [apply (St P A1 A2)|exact A3]]. }
      split; auto. split; auto. split.
      { intros k q0 Q _ T. split; [|discriminate]. intros t N. cbn in N. destruct (T t N) as (Eq & P & A1 & A2 & A3). split; [exact Eq|]. exists P. split; [exact A1|split; [apply (St P A1 A2)|exact A3]]. }
      split; [discriminate|]. split; [|discriminate].
      intros q a X. injection X as ->. apply token_step in Es as (now & i & issue & s' & -> & Nq & Ep & ->). cbn.
      destruct Hh as [I Pq]. rewrite Forall_forall in Pq. specialize (Pq q (nth_error_In _ _ Nq)).
      destruct (process_spec (p_conf w) now q issue _ _ Hc (token_prog_safe e Conf W e1 q issue) _ _ _ I Pq Ep) as (_ & _ & X).
      exact (X _ eq_refl _ eq_refl).
    - injection E as <- <-. split; [constructor; cbn; auto|]. split; [apply st_later_refl|]. split; [cbn; lia|].
      split. { intros k q0 Q _ T. split; [exact T|discriminate]. }
      split; [discriminate|]. split; discriminate.
    - destruct (nth_error (h_parsed (p_st w)) i) as [q|] eqn:Nq; injection E as <- <-; cbn [p_st p_threads].
      + assert (pending e q (h_st (p_st w))) as Pq.
        { destruct Hh as [_ Pq]. rewrite Forall_forall in Pq. apply Pq. eapply nth_error_In; eauto. }
        split.
        { constructor; cbn; auto. intros k t N.
          destruct (Nat.lt_trichotomy k (List.length (p_threads w))) as [Lk|[Lk|Lk]].
          - rewrite nth_error_app1 in N by exact Lk. exact (Hr k t N).
          - subst k. rewrite nth_error_app2 in N by lia. rewrite Nat.sub_diag in N. cbn in N. injection N as <-.
            exists (pending e q). split; [apply as_pending|]. split; [exact Pq|]. cbn. apply token_prog_safe, W.
          - assert (nth_error (p_threads w ++ [Some (mk_thread q (token_prog (under e (p_conf w)) q issue))]) k = None) as X.
            { apply nth_error_None. rewrite app_length. cbn. lia. }
            rewrite X in N. discriminate. }
        split; [apply st_later_refl|]. split; [rewrite app_length; lia|]. split.
        { intros k q0 Q Lk T. split; [|discriminate]. intros t N. cbn in N. rewrite nth_error_app1 in N by exact Lk.
          apply T. exact N. }
        split; [discriminate|]. split; [discriminate|]. intros k q' X. injection X as <- <-. eexists _, issue. auto.
      + split; [constructor; auto|]. split; [apply st_later_refl|]. split; auto.
        split. { intros k q0 Q _ T. split; [exact T|discriminate]. }
        split; [discriminate|]. split; discriminate.
    - assert (forall x w', (SeenNothing, w) = (x, w') -> PI w' /\ st_later now (h_st (p_st w)) (h_st (p_st w'))
        /\ List.length (p_threads w) <= List.length (p_threads w')
        /\ (forall k q0 Q, k < List.length (p_threads w) -> track k q0 Q w ->
              track k q0 Q w' /\ (forall q r, x = SeenAnswer k q (Ok r) -> q = q0 /\ Q r (h_st (p_st w'))))
        /\ (forall k q a, x = SeenAnswer k q (Ok (Good a)) -> outcome_of e Conf q a (h_st (p_st w')))
        /\ (forall q a, x = SeenCall (EvToken q (Ok (Good a))) -> outcome_of e Conf q a (h_st (p_st w')))
        /\ (forall k q, x = SeenStart k q -> exists e1 issue, k = List.length (p_threads w)
              /\ p_threads w' = p_threads w ++ [Some (mk_thread q (token_prog e1 q issue))]
              /\ p_st w' = p_st w /\ pending e q (h_st (p_st w)))) as Idle.
      { intros x0 w0 X. injection X as <- <-. split; [constructor; auto|]. split; [apply st_later_refl|]. split; auto.
        split. { intros k0 q0 Q _ T. split; [exact T|discriminate]. }
        split; [discriminate|]. split; discriminate. }
      destruct (nth_error (p_threads w) k) as [[t|]|] eqn:Nk; try (apply Idle; exact E). clear Idle.
      destruct (advance (under e (p_conf w)) now (th_prog t) (h_st (p_st w))) as [p s] eqn:Ea.
      pose proof (hi_inv _ _ Hh) as I.
      assert (forall Q, (exists P : st -> Prop, astable P /\ P (h_st (p_st w)) /\ safe e Conf (th_prog t) P Q) ->
        Inv e s /\ st_later now (h_st (p_st w)) s
        /\ (exists P : st -> Prop, astable P /\ P s /\ safe e Conf p P Q)) as Adv.
      { intros Q (P & A1 & A2 & A3). destruct (th_prog t) as [r|B m kk]; cbn in Ea.
        - injection Ea as <- <-. split; auto. split; [apply st_later_refl|]. exists P. auto.
        - destruct (m (under e (p_conf w)) now (h_st (p_st w))) as [r s1] eqn:Em. injection Ea as <- <-.
          destruct (A3 _ _ _ _ _ Hc I A2 Em) as (I1 & L1 & P' & B1 & B2 & B3). split; auto. split; auto. exists P'. auto. }
      destruct (Adv _ (Hr k t Nk)) as (I' & L & Pg).
      assert (forall P : st -> Prop, astable P -> P (h_st (p_st w)) -> P s) as St by (intros P S0 p0; eapply S0; eauto).
      set (h := mk_hst s (h_parsed (p_st w))) in *.
      assert (HI e h) as H'.
      { constructor; cbn; auto. eapply Forall_impl; [|exact (hi_parsed _ _ Hh)]. intros q. apply St, as_pending. }
      (* the threads afterwards *)
      set (nt := match p with Done _ => None | Act _ _ => Some (mk_thread (th_req t) p) end).
      set (w1 := mk_pool h (set_nth k nt (p_threads w)) (p_conf w)).
      assert (w' = w1 /\ x = match p with Done r => SeenAnswer k (th_req t) r | Act _ _ => SeenNothing end) as [-> Ex].
      { unfold w1, nt. destruct p; injection E as <- <-; auto. }
      assert (forall j q0 Q, track j q0 Q w -> track j q0 Q w1
        /\ (forall q r, x = SeenAnswer j q (Ok r) -> q = q0 /\ Q r s)) as Tr.
      { intros j q0 Q T. split.
        - intros t' N. cbn in N. rewrite nth_set_nth in N. destruct (Nat.eqb j k) eqn:Ej.
          + apply Nat.eqb_eq in Ej. subst j. rewrite Nk in N. unfold nt in N. destruct p as [r|B m kk]; [discriminate|].
            injection N as <-. cbn [th_prog th_req]. destruct (T t Nk) as (Eq & X). split; [exact Eq|]. apply Adv. exact X.
          + destruct (T t' N) as (Eq & P & A1 & A2 & A3). split; [exact Eq|]. exists P. split; [exact A1|split; [apply (St P A1 A2)|exact A3]].
        - intros q r X. rewrite Ex in X. destruct p as [r'|B m kk]; [|discriminate]. injection X as <- <- ->.
          destruct (T t Nk) as (Eq & X). destruct (Adv Q X) as (_ & _ & P & A1 & A2 & A3).
          split; [exact Eq|]. exact (A3 _ _ eq_refl I' A2). }
      split.
      { constructor; cbn [w1 p_st p_threads p_conf]; auto. intros j t' N.
        assert (exists t0, nth_error (p_threads w) j = Some (Some t0)) as (t0 & N0).
        { rewrite nth_set_nth in N. destruct (Nat.eqb j k) eqn:Ej; [|eauto].
          apply Nat.eqb_eq in Ej. subst j. eauto. }
        destruct (Tr j (th_req t0) (good (th_req t0))) as (T & _).
        { intros t2 N2. assert (t2 = t0) as -> by congruence. split; auto. exact (Hr j t0 N0). }
        destruct (T t' N) as (Eq & X). rewrite Eq. exact X. }
      split; [exact L|]. split; [cbn; rewrite len_set_nth; lia|]. split; [intros j q0 Q _; apply Tr|].
      split.
      { intros j q a X. rewrite Ex in X. destruct p as [r|B m kk]; [|discriminate]. injection X as <- <- ->.
        destruct (Adv _ (Hr k t Nk)) as (_ & _ & P & A1 & A2 & A3). exact (A3 _ _ eq_refl I' A2 a eq_refl). }
      split; rewrite Ex; destruct p; discriminate.
  Qed.

  Definition okm (ms : list move) : Prop := Forall okmove ms.

  Lemma pexec_keeps (R : pool -> Prop) ms : forall w xs w',
    (forall w1 m x w2, In m ms -> PI w1 -> pmove e w1 m = (x, w2) ->
       st_later (mtime m) (h_st (p_st w1)) (h_st (p_st w2)) -> R w1 -> R w2) ->
    PI w -> okm ms -> pexec e w ms = (xs, w') -> R w -> PI w' /\ R w'.
  Proof.
    induction ms as [|m ms IH]; intros w xs w' K Hw Po E Rw; cbn in E.
    - injection E as _ <-. auto.
    - destruct (pmove e w m) as [x w1] eqn:Em. destruct (pexec e w1 ms) as [xs' w2] eqn:Ee.
      injection E as _ <-. inversion Po; subst. destruct (pmove_keeps _ _ _ _ Hw H1 Em) as (H1' & L & _).
      eapply IH; [|exact H1'|exact H2|exact Ee|].
      + intros w3 m3 x3 w4 I3. apply K. now right.
      + eapply K; [now left|exact Hw|exact Em| |]; auto.
  Qed.
  Lemma pexec_pi ms w xs w' : PI w -> okm ms -> pexec e w ms = (xs, w') -> PI w'.
  Proof. intros. eapply (pexec_keeps (fun _ => True)); eauto. Qed.
  Lemma pexec_stable (P : st -> Prop) ms w xs w' : astable P -> PI w -> okm ms -> pexec e w ms = (xs, w') ->
    P (h_st (p_st w)) -> P (h_st (p_st w')).
  Proof.
    intros St Hw Po E p. eapply (pexec_keeps (fun w => P (h_st (p_st w)))); [|exact Hw|exact Po|exact E|exact p].
    intros w1 m x w2 _ _ _ L. eapply St; eauto.
  Qed.
  Lemma pexec_track k q Q ms w xs w' : k < List.length (p_threads w) -> PI w -> okm ms -> pexec e w ms = (xs, w') ->
    track k q Q w -> k < List.length (p_threads w') /\ track k q Q w'.
  Proof.
    intros Lk Hw Po E T.
    eapply (pexec_keeps (fun w => k < List.length (p_threads w) /\ track k q Q w)); [|exact Hw|exact Po|exact E|auto].
    intros w1 m x w2 Im Hw1 Em _ (L1 & T1).
    unfold okm in Po. rewrite Forall_forall in Po. destruct (pmove_keeps _ _ _ _ Hw1 (Po m Im) Em) as (_ & _ & Ln & Tr & _).
    split; [lia|]. apply Tr; auto.
  Qed.

  Lemma pi_init always : Conf e -> PI (p_init e always).
  Proof. intros C. constructor; [apply hi_init|exact C|]. cbn. intros [|k] t N; discriminate. Qed.
  Lemma okm_proper ms : Forall (fun m => forall o, m = MCall o -> proper e o) ms ->
    (forall c, In (MConf c) ms -> Conf c) -> okm ms.
  Proof.
    intros P C. unfold okm. rewrite Forall_forall in *. intros m I. split; [exact (P m I)|].
    intros c ->. auto.
  Qed.
  Definition conf_all (ms : list move) : Prop := forall c, in_force e ms c -> Conf c.
  Lemma schedule_ok ms xs w : schedule e ms xs w -> conf_all ms -> Conf e /\ okm ms.
  Proof.
    intros (Po & _) C. split; [apply C; left; reflexivity|]. apply okm_proper; auto. intros c I. apply C. now right.
  Qed.
  Lemma schedule_pi ms xs w : schedule e ms xs w -> conf_all ms -> PI w.
  Proof.
    intros Hs C. destruct (schedule_ok _ _ _ Hs C) as (Ce & Po). destruct Hs as (_ & al & E).
    eapply pexec_pi; eauto. apply pi_init, Ce.
  Qed.

  (** The move behind what is seen. *)
  Lemma seen_at ms : forall w xs w' i x, PI w -> okm ms -> pexec e w ms = (xs, w') -> nth_error xs i = Some x ->
    exists m w1 w2, nth_error ms i = Some m /\ pexec e w (firstn i ms) = (firstn i xs, w1)
      /\ PI w1 /\ okmove m /\ pmove e w1 m = (x, w2) /\ PI w2
      /\ okm (skipn (S i) ms) /\ pexec e w2 (skipn (S i) ms) = (skipn (S i) xs, w').
  Proof.
    induction ms as [|m ms IH]; intros w xs w' i x Hw Po E N; cbn in E.
    - injection E as <- _. now destruct i.
    - destruct (pmove e w m) as [x1 w1] eqn:Em. destruct (pexec e w1 ms) as [xs' w2] eqn:Ee.
      injection E as <- <-. inversion Po; subst. destruct (pmove_keeps _ _ _ _ Hw H1 Em) as (H1' & _).
      destruct i as [|i]; cbn in N.
      + injection N as <-. exists m, w, w1. cbn. auto 10.
      + destruct (IH _ _ _ _ _ H1' H2 Ee N) as (m' & w3 & w4 & A & B & C & D & F & G & K & Lx).
        exists m', w3, w4. cbn. rewrite Em, B. auto 10.
  Qed.

  Lemma answered_outcome ms xs w i q a : schedule e ms xs w -> conf_all ms -> answered_at xs i q a ->
    PI w /\ outcome_of e Conf q a (h_st (p_st w)).
  Proof.
    intros Hs C A. split; [eapply schedule_pi; eauto|].
    destruct (schedule_ok _ _ _ Hs C) as (Ce & Po). destruct Hs as (_ & al & E).
    assert (exists x, nth_error xs i = Some x /\ ((exists k, x = SeenAnswer k q (Ok (Good a))) \/ x = SeenCall (EvToken q (Ok (Good a)))))
      as (x & N & Ex). { destruct A as [(k & N)|N]; eexists; split; eauto. }
    destruct (seen_at _ _ _ _ _ _ (pi_init al Ce) Po E N) as (m & w1 & w2 & _ & _ & H1 & Pm & Em & H2 & Po2 & E2).
    destruct (pmove_keeps _ _ _ _ H1 Pm Em) as (_ & _ & _ & _ & K1 & K2 & _).
    eapply (pexec_stable (outcome_of e Conf q a)); [apply as_outcome|exact H2|exact Po2|exact E2|].
    destruct Ex as [(k & ->)| ->]; eauto.
  Qed.

  (** Two answers, the second one to a processing that began after the first:
      [s1] is the state after the first answer, [s2] that in which the second
      processing began and [s3] that after its answer. *)
  Lemma two_in_turn ms xs w i m j q q' a a' : schedule e ms xs w -> conf_all ms ->
    answered_at xs i q a -> answered_at xs j q' a' -> began_at xs m j -> i < m -> m <= j ->
    exists s1 s2 s3 e1 issue, outcome_of e Conf q a s1
      /\ (forall P : st -> Prop, astable P -> P s1 -> P s2) /\ Inv e s2 /\ pending e q' s2 /\ Inv e s3
      /\ (forall (P : st -> Prop) Q, astable P -> P s2 -> safe e Conf (token_prog e1 q' issue) P Q -> Q (Good a') s3).
  Proof.
    intros Hs C A A' B Lt Le. destruct (schedule_ok _ _ _ Hs C) as (Ce & Po). destruct Hs as (_ & al & E).
    assert (exists x, nth_error xs i = Some x /\ ((exists k, x = SeenAnswer k q (Ok (Good a))) \/ x = SeenCall (EvToken q (Ok (Good a)))))
      as (x & N & Ex). { destruct A as [(k & N)|N]; eexists; split; eauto. }
    destruct (seen_at _ _ _ _ _ _ (pi_init al Ce) Po E N) as (m1 & w1 & w2 & _ & _ & H1 & Pm & Em & H2 & Po2 & E2).
    destruct (pmove_keeps _ _ _ _ H1 Pm Em) as (_ & _ & _ & _ & K1 & K2 & _).
    assert (outcome_of e Conf q a (h_st (p_st w2))) as O2 by (destruct Ex as [(k & ->)| ->]; eauto). clear Ex.
    destruct B as [(k & q1 & q2 & r & Nm & Nj)|(-> & ev & Nj)].
    - assert (nth_error (skipn (S i) xs) (m - S i) = Some (SeenStart k q1)) as Nm'.
      { rewrite nth_error_skipn'. rewrite <- Nm. f_equal. lia. }
      destruct (seen_at _ _ _ _ _ _ H2 Po2 E2 Nm') as (m2 & w3 & w4 & _ & E3 & H3 & Pm2 & Em2 & H4 & Po4 & E4).
      destruct (pmove_keeps _ _ _ _ H3 Pm2 Em2) as (_ & _ & _ & _ & _ & _ & K3).
      destruct (K3 k q1 eq_refl) as (e1 & issue & Ek & Th & Es & Pq1).
      assert (m <> j) as Nmj by (intros ->; congruence).
      assert (nth_error (skipn (S (m - S i)) (skipn (S i) xs)) (j - S m) = Some (SeenAnswer k q2 r)) as Nj'.
      { rewrite !nth_error_skipn'. rewrite <- Nj. f_equal. lia. }
      destruct (seen_at _ _ _ _ _ _ H4 Po4 E4 Nj') as (m5 & w5 & w6 & _ & E5 & H5 & Pm5 & Em5 & H6 & _).
      destruct (pmove_keeps _ _ _ _ H5 Pm5 Em5) as (_ & _ & _ & K5 & _).
      assert (okm (firstn (j - S m) (skipn (S (m - S i)) (skipn (S i) ms)))) as Po5 by (apply Forall_firstn'; exact Po4).
      assert (k < List.length (p_threads w4)) as Lk by (rewrite Th, app_length; cbn; lia).
      assert (nth_error (p_threads w4) k = Some (Some (mk_thread q1 (token_prog e1 q1 issue)))) as Nk.
      { rewrite Th, Ek. rewrite nth_error_app2 by lia. now rewrite Nat.sub_diag. }
      destruct A' as [(k' & Nj2)|Nj2]; [|congruence]. rewrite Nj in Nj2. injection Nj2 as <- -> ->.
      assert (forall (P : st -> Prop) Q, astable P -> P (h_st (p_st w3)) -> safe e Conf (token_prog e1 q1 issue) P Q ->
        q' = q1 /\ Q (Good a') (h_st (p_st w6))) as K.
      { intros P Q St p Sf.
        assert (track k q1 Q w4) as T4.
        { intros t Nt. rewrite Nk in Nt. injection Nt as <-. split; auto. exists P. rewrite Es. auto. }
        destruct (pexec_track k q1 Q _ _ _ _ Lk H4 Po5 E5 T4) as (L5 & T5).
        eapply (K5 k q1 Q L5 T5). reflexivity. }
      destruct (K _ _ (as_pending e q1) Pq1 (token_prog_safe e Conf W e1 q1 issue)) as (<- & _).
      exists (h_st (p_st w2)), (h_st (p_st w3)), (h_st (p_st w6)), e1, issue. split; auto. split.
      { intros P St p. eapply (pexec_stable P); [exact St|exact H2| |exact E3|exact p]. apply Forall_firstn'. exact Po2. }
      split; [apply H3|]. split; auto. split; [apply H6|].
      intros P Q St p Sf. eapply K; eauto.
    - destruct A' as [(k' & Nj2)|Nj2]; [congruence|]. rewrite Nj in Nj2. injection Nj2 as ->.
      assert (nth_error (skipn (S i) xs) (j - S i) = Some (SeenCall (EvToken q' (Ok (Good a'))))) as Nj'.
      { rewrite nth_error_skipn'. rewrite <- Nj. f_equal. lia. }
      destruct (seen_at _ _ _ _ _ _ H2 Po2 E2 Nj') as (m2 & w3 & w4 & _ & E3 & H3 & Pm2 & Em2 & H4 & _).
      destruct m2 as [o|cf|i2 issue|now k]; cbn [pmove] in Em2; cbv zeta in Em2.
      2:{ discriminate. }
      2:{ destruct (nth_error (h_parsed (p_st w3)) i2); discriminate. }
      2:{ destruct (nth_error (p_threads w3) k) as [[t|]|]; try discriminate.
          destruct (advance _ now (th_prog t) (h_st (p_st w3))) as [p s]. destruct p; discriminate. }
      destruct (step _ (p_st w3) o) as [ev h4] eqn:Es. injection Em2 as -> <-.
      apply token_step in Es as (now & i2 & issue & s' & -> & Nq & Ep & ->).
      pose proof (hi_parsed _ _ (pi_hi _ H3)) as Pq. rewrite Forall_forall in Pq. specialize (Pq q' (nth_error_In _ _ Nq)).
      exists (h_st (p_st w2)), (h_st (p_st w3)), s', (under e (p_conf w3)), issue. split; auto. split.
      { intros P St p. eapply (pexec_stable P); [exact St|exact H2| |exact E3|exact p]. apply Forall_firstn'. exact Po2. }
      split; [apply H3|]. split; auto. split; [apply H4|].
      intros P Q St p Sf. destruct (process_spec (p_conf w3) now q' issue P Q (pi_conf _ H3) Sf _ _ _ (hi_inv _ _ (pi_hi _ H3)) p Ep) as (_ & _ & X).
      exact (X _ eq_refl).
  Qed.
End Pool.
