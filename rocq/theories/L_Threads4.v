(** Threads, part 4: the properties of schedules in the vocabulary of the
    specification. *)
From Verif Require Import M_Base M_Types M_Codec M_Grant M_Env M_Session M_Claims M_Handler
  M_Authz M_TokenEP M_PKCE M_AuthzEP M_Info M_Logout M_History M_Threads
  S_Codec S_Grant S_Store S_History S_Threads
  L_Base L_Codec L_Monad L_Grant L_Claims L_Store L_Hist1 L_Hist2 L_Hist3 L_Hist4 L_Hist5 L_Hist6 L_Hist7
  L_Hist8 L_Hist9 L_Hist10 L_Hist11 L_Threads1 L_Threads2 L_Threads3.

(** ** A thread that is not interrupted *)
Lemma set_last {A} (x y : A) l : set_nth (List.length l) y (l ++ [x]) = l ++ [y].
Proof. unfold set_nth. induction l; cbn; f_equal; auto. Qed.
Lemma nth_last {A} (x : A) l : nth_error (l ++ [x]) (List.length l) = Some x.
Proof. rewrite nth_error_app2 by lia. now rewrite Nat.sub_diag. Qed.
Lemma run_alone e cf now q (p : prog (outcome tresp)) : forall s par ts r s',
  run (under e cf) now p s = (r, s') ->
  exists n, pexec e (mk_pool (mk_hst s par) (ts ++ [Some (mk_thread q p)]) cf)
              (repeat (MAct now (List.length ts)) (S n))
    = (repeat SeenNothing n ++ [SeenAnswer (List.length ts) q r], mk_pool (mk_hst s' par) (ts ++ [None]) cf).
Proof.
  induction p as [r0|B m k IH]; intros s par ts r s' E; cbn [run] in E.
  - apply lift_inv in E as [-> <-]. exists 0. cbn -[set_nth nth_error]. rewrite nth_last. cbn -[set_nth nth_error].
    now rewrite set_last.
  - destruct (m (under e cf) now s) as [r1 s1] eqn:Em. destruct (k r1) as [r2|B' m' k'] eqn:Ek.
    + cbn in E. apply lift_inv in E as [-> <-]. exists 0.
      cbn -[set_nth nth_error]. rewrite nth_last. cbn -[set_nth nth_error]. rewrite Em, Ek. now rewrite set_last.
    + destruct (IH r1 s1 par ts r s') as (n & X); [rewrite Ek; exact E|]. exists (S n).
      change (repeat (MAct now (List.length ts)) (S (S n))) with (MAct now (List.length ts) :: repeat (MAct now (List.length ts)) (S n)).
      cbn [pexec]. cbn [pmove p_threads p_st p_conf h_st h_parsed]. cbv zeta. rewrite nth_last. cbn [th_prog advance]. rewrite Em, Ek.
      cbn [th_req]. rewrite set_last. rewrite Ek in X. rewrite X. reflexivity.
Qed.

Lemma uninterrupted e w now i issue q r h' :
  nth_error (h_parsed (p_st w)) i = Some q -> step (under e (p_conf w)) (p_st w) (OProcess now i issue) = (EvToken q r, h') ->
  exists n, pexec e w (MStart i issue :: repeat (MAct now (List.length (p_threads w))) (S n))
    = (SeenStart (List.length (p_threads w)) q :: repeat SeenNothing n ++ [SeenAnswer (List.length (p_threads w)) q r],
       mk_pool h' (p_threads w ++ [None]) (p_conf w)).
Proof.
  intros Nq E. cbn [step] in E. rewrite Nq in E. unfold on_st in E.
  destruct (token_process _ now q issue (h_st (p_st w))) as [r1 s1] eqn:Ep. injection E as -> <-.
  rewrite <- token_seq in Ep. destruct (run_alone e (p_conf w) now q _ _ (h_parsed (p_st w)) (p_threads w) _ _ Ep) as (n & X).
  exists n. cbn [pexec]. cbn [pmove]. cbv zeta. rewrite Nq. destruct w as [[s par] ts cf]. cbn in *. rewrite X. reflexivity.
Qed.

(** ** Histories are schedules *)
Lemma pexec_app e ms1 : forall w xs1 w1 ms2 xs2 w2, pexec e w ms1 = (xs1, w1) -> pexec e w1 ms2 = (xs2, w2) ->
  pexec e w (ms1 ++ ms2) = (xs1 ++ xs2, w2).
Proof.
  induction ms1 as [|m ms1 IH]; intros w xs1 w1 ms2 xs2 w2 E1 E2; cbn in *.
  - injection E1 as <- <-. exact E2.
  - destruct (pmove e w m) as [x w']. destruct (pexec e w' ms1) as [xs w''] eqn:E. injection E1 as <- <-.
    now rewrite (IH _ _ _ _ _ _ E E2).
Qed.
Lemma under_self e : under e e = e.
Proof. now destruct e. Qed.
Lemma pexec_calls e ops : forall h evs h' ts, exec e h ops = (evs, h') ->
  pexec e (mk_pool h ts e) (map MCall ops) = (map SeenCall evs, mk_pool h' ts e).
Proof.
  induction ops as [|o ops IH]; intros h evs h' ts E; cbn [map pexec pmove p_conf exec p_st p_threads] in *; cbv zeta; rewrite ?under_self.
  - injection E as <- <-. reflexivity.
  - destruct (step e h o) as [ev h1]. destruct (exec e h1 ops) as [evs1 h2] eqn:E1. injection E as <- <-.
    now rewrite (IH _ _ _ ts E1).
Qed.
Lemma history_schedule e ops evs h ms xs w : history e ops evs h ->
  Forall (fun m => forall o, m = MCall o -> proper e o) ms -> pexec e (mk_pool h [] e) ms = (xs, w) ->
  schedule e (map MCall ops ++ ms) (map SeenCall evs ++ xs) w.
Proof.
  intros (Po & al & E) Pm Em. split.
  - apply Forall_app. split; auto. rewrite Forall_forall in *. intros m I o ->.
    apply in_map_iff in I as (o' & X & I). injection X as ->. auto.
  - exists al. eapply pexec_app; [apply pexec_calls; exact E|exact Em].
Qed.

Section P.
  Variables (e : env) (W : laws e).
  Notation any := (fun _ : env => True).
  Notation with_conf ms := (in_force e ms).
  Lemma all_any ms : conf_all e any ms. Proof. intros c _. exact Logic.I. Qed.
  Lemma all_in ms : conf_all e (with_conf ms) ms. Proof. intros c I. exact I. Qed.
  Lemma proper_ok ms : Forall (fun m => forall o, m = MCall o -> proper e o) ms -> okm e any ms.
  Proof. intros P. apply okm_proper; auto. Qed.

  Lemma thread_owner ms xs w i q a : schedule e ms xs w -> answered_at xs i q a ->
    exists gid g u c p pc,
      grant_of (p_st w) gid g /\ belongs e g u c /\ tr_client q = Some c
      /\ presents q p pc /\ in_grant g p pc
      /\ (forall v tc, hands_out a v tc -> drawn_from g p v tc)
      /\ (exists v, hands_out a v "access_token").
  Proof.
    intros Hs A. destruct (answered_outcome e W _ _ _ _ _ _ _ Hs (all_in _) A) as (_ & l & m & t & (Na & _) & G & Cs).
    destruct G as ((u & c & gid & (g & Hg & Eg & B) & Ec) & Ka & Kr & Ki & (t1 & Lt & Ht) & _).
    exists gid, g, u, c, (t_value t), (t_class t). split; [exists l; auto|]. split; auto. split; auto.
    assert (presents q (t_value t) (t_class t)) as P. { destruct Cs as [(P & -> & _)|(P & -> & _)]; exact P. }
    split; auto. split.
    { assert (t_value t = t_value (tok_register t1) /\ t_class t = t_class (tok_register t1)) as [-> ->].
      { cbn. destruct Lt as (X & Y & _). auto. }
      eapply has_in_grant; eauto. }
    split.
    - intros v tc [(-> & V)|[(-> & V)|(-> & V)]]; eapply born_drawn; eauto; [apply Ka|apply Kr|apply Ki]; auto.
    - destruct (rs_access a) as [v|] eqn:V; [|congruence]. exists v. left. auto.
  Qed.

  Lemma thread_redirect ms xs w i q a v : schedule e ms xs w -> answered_at xs i q a ->
    presents q v "authorization_code" ->
    exists gid g ar, grant_of (p_st w) gid g /\ in_grant g v "authorization_code" /\ g_areq g = Some ar
      /\ (forall uri, ar_redirect_uri ar = Some uri -> tr_redirect q = Some uri).
  Proof.
    intros Hs A Pr. destruct (answered_outcome e W _ _ _ _ _ _ _ Hs (all_in _) A) as (_ & l & m & t & (Na & _) & G & Cs).
    destruct G as ((u & c & gid & (g & Hg & Eg & B) & Ec) & _ & _ & _ & (t1 & Lt & Ht) & _).
    destruct Cs as [(P & C & ((ar & (g' & Hg' & Ar) & Ru) & _))|(P & C & _)].
    - destruct (presents_fun _ _ _ _ _ Pr P) as [-> _]. rewrite Hg in Hg'. injection Hg' as <-.
      exists gid, g, ar. split; [exists l; auto|]. split; [|auto].
      assert (t_value t = t_value (tok_register t1) /\ "authorization_code" = t_class (tok_register t1)) as [-> ->].
      { cbn. destruct Lt as (X & Y & _). split; auto. change CODE with "authorization_code" in C. congruence. }
      eapply has_in_grant; eauto.
    - destruct (presents_fun _ _ _ _ _ Pr P) as [_ X]. discriminate.
  Qed.

  Lemma thread_scope ms xs w i q a p pc : schedule e ms xs w -> answered_at xs i q a -> presents q p pc ->
    exists gid g, grant_of (p_st w) gid g /\ in_grant g p pc /\ incl (rs_scope a) (g_scope g)
      /\ (pc = "refresh_token" -> forall sc, tr_scope q = Some sc -> rs_scope a = sc).
  Proof.
    intros Hs A Pr. destruct (answered_outcome e W _ _ _ _ _ _ _ Hs (all_in _) A) as (Hw & l & m & t & (Na & _) & G & Cs).
    destruct G as ((u & c & gid & (g & Hg & Eg & B) & Ec) & _ & _ & _ & (t1 & Lt & Ht) & Wi).
    assert (presents q (t_value t) (t_class t)) as P. { destruct Cs as [(P & -> & _)|(P & -> & _)]; exact P. }
    destruct (presents_fun _ _ _ _ _ Pr P) as [-> ->].
    assert (in_grant g (t_value t) (t_class t)) as Ig.
    { assert (t_value t = t_value (tok_register t1) /\ t_class t = t_class (tok_register t1)) as [-> ->].
      { cbn. destruct Lt as (X & Y & _). auto. }
      eapply has_in_grant; eauto. }
    exists gid, g. split; [exists l; auto|]. split; auto. split.
    - eapply (within_in_scope e (p_st w) l); eauto; [apply (pi_hi _ _ _ Hw)|].
      destruct Ig as (t2 & It & _). destruct (g_tokens g); [destruct It|discriminate].
    - intros X. destruct Cs as [(_ & C & _)|(_ & _ & (Rs & _))]; [rewrite C in X; discriminate|exact Rs].
  Qed.

  Lemma thread_refresh_allowed ms xs w i q a v c : schedule e ms xs w -> answered_at xs i q a ->
    tr_grant_type q = "authorization_code" -> rs_refresh a = Some v -> tr_client q = Some c ->
    exists cf, in_force e ms cf /\ supports (under e cf) c "refresh_token".
  Proof.
    intros Hs A Gt Er Ec. destruct (answered_outcome e W _ _ _ _ _ _ _ Hs (all_in _) A) as (Hw & l & m & t & (Na & _) & G & Cs).
    destruct Cs as [(_ & C & (_ & X))|([(X & _)|(_ & X & _)] & _)]; [|discriminate|rewrite Gt in X; discriminate].
    destruct (X v Er) as (cf & c2 & gts & Kf & E2 & Eg & I). exists cf. split; auto.
    assert (c2 = c) as -> by congruence. unfold grant_types_of in Eg.
    destruct (dget (e_clients (under e cf)) c) as [cl|] eqn:D; [|discriminate]. exists cl. split; auto.
    destruct (c_grant_types cl) as [l0|] eqn:Gl; [left; exists l0; split; auto; injection Eg as ->; exact I|].
    right. split; auto. destruct (e_grant_types (under e cf)) as [l1|]; [|discriminate]. exists l1. split; auto. injection Eg as ->. exact I.
  Qed.

  (** ** States *)
  Lemma pool_one_owner ms xs w gid gid' g g' t t' : schedule e ms xs w ->
    grant_of (p_st w) gid g -> In t (g_tokens g) -> grant_of (p_st w) gid' g' -> In t' (g_tokens g') ->
    t_value t = t_value t' -> gid = gid' /\ g = g' /\ t = t'.
  Proof.
    intros Hs (l & H & E) It (l' & H' & E') It' V. destruct (schedule_pi e W _ _ _ _ Hs (all_any _)) as [[I _] _ _].
    apply In_nth_error in It as [i N]. apply In_nth_error in It' as [i' N'].
    destruct (inv_vals _ _ I _ _ _ _ _ _ _ _ H H' N N' V) as [<- <-].
    unfold hp in H, H'. assert (g = g') as <- by congruence. split; [congruence|]. split; [auto|congruence].
  Qed.
  Lemma pool_forest ms xs w gid g : schedule e ms xs w -> grant_of (p_st w) gid g -> forest (g_tokens g).
  Proof.
    intros Hs (l & H & E). destruct (schedule_pi e W _ _ _ _ Hs (all_any _)) as [[I _] _ _]. split; [eapply inv_nodup; eauto|]. split.
    - intros X. apply in_map_iff in X as (t & V & It). destruct (inv_made _ _ I _ _ _ H It) as (n & M & _).
      destruct (law_text _ W _ _ M) as [N _]. auto.
    - intros j t b N B. destruct (gi_parent _ _ (inv_grants _ _ I _ _ H) _ _ _ N B) as (i & p & L & Np & V & _).
      eauto.
  Qed.
  Lemma pool_scope ms xs w gid g t : schedule e ms xs w -> grant_of (p_st w) gid g -> In t (g_tokens g) ->
    t_class t <> "id_token" -> incl (t_scope t) (g_scope g) /\ forall x, In x (g_scope g) -> authorized_scope e g x.
  Proof.
    intros Hs (l & H & E) It C. destruct (schedule_pi e W _ _ _ _ Hs (all_any _)) as [[I _] _ _].
    pose proof (inv_grants _ _ I _ _ H) as G. split; [apply (gi_tok _ _ G t It); auto|].
    intros x Ix. apply authz_authorized. rewrite <- (gi_final _ _ G); auto. destruct (g_tokens g); [destruct It|discriminate].
  Qed.

  (** ** Permanence *)
  Lemma pool_grant_later ms w xs w' gid g : PI e any w -> okm e any ms -> pexec e w ms = (xs, w') ->
    grant_of (p_st w) gid g -> exists g', grant_of (p_st w') gid g' /\ tokens_later (g_tokens g) (g_tokens g')
      /\ (g_revoked g = true -> g_revoked g' = true /\ List.length (g_tokens g') = List.length (g_tokens g)).
  Proof.
    intros Hw Po E (l & H & Eg).
    assert (exists g', hp (h_st (p_st w')) l = Some (OGrant g') /\ g_id g' = gid /\ tokens_later (g_tokens g) (g_tokens g')
      /\ (g_revoked g = true -> g_revoked g' = true /\ List.length (g_tokens g') = List.length (g_tokens g)))
      as (g' & X1 & X2 & X).
    { apply (pexec_stable e W any (fun s => exists g', hp s l = Some (OGrant g') /\ g_id g' = gid /\ tokens_later (g_tokens g) (g_tokens g')
      /\ (g_revoked g = true -> g_revoked g' = true /\ List.length (g_tokens g') = List.length (g_tokens g))) ms w xs w'); auto.
      - intros n s s' L (g1 & A1 & A2 & A3 & A4). destruct (st_later_grant _ _ _ _ _ L A1) as (g2 & B1 & B2).
        exists g2. destruct B2 as (C1 & C2 & C3 & C4 & _ & _ & _ & C5 & _ & C6 & C7 & _). split; auto. split; [congruence|].
        split; [eapply tokens_later_trans; eauto|].
        intros R. destruct (A4 R) as [R1 R2]. split; auto. rewrite <- R2. apply C7.
        destruct (grant_active n g1) eqn:X; auto. apply grant_active_live in X. destruct X as (X & _). congruence.
      - exists g. split; [exact H|]. split; [exact Eg|]. split; [apply tokens_later_refl|]. auto. }
    exists g'. split; [exists l; auto|]. auto.
  Qed.
  Lemma pool_revoked_final ms1 xs1 w ms2 xs2 w' gid g : schedule e ms1 xs1 w ->
    Forall (fun m => forall o, m = MCall o -> proper e o) ms2 -> pexec e w ms2 = (xs2, w') -> grant_of (p_st w) gid g -> g_revoked g = true ->
    exists g', grant_of (p_st w') gid g' /\ g_revoked g' = true /\ map t_value (g_tokens g') = map t_value (g_tokens g).
  Proof.
    intros Hs Po E G R. destruct (pool_grant_later _ _ _ _ _ _ (schedule_pi e W _ _ _ _ Hs (all_any _)) (proper_ok _ Po) E G) as (g' & G' & T & K).
    destruct (K R) as [R' N]. exists g'. split; auto. split; auto. now apply same_values.
  Qed.
  Lemma pool_dead_token ms1 xs1 w ms2 xs2 w' gid g t now now' : schedule e ms1 xs1 w ->
    Forall (fun m => forall o, m = MCall o -> proper e o) ms2 -> pexec e w ms2 = (xs2, w') -> grant_of (p_st w) gid g -> In t (g_tokens g) ->
    ~ token_live t now -> (now <= now')%Z ->
    exists g' t', grant_of (p_st w') gid g' /\ In t' (g_tokens g') /\ t_value t' = t_value t /\ ~ token_live t' now'.
  Proof.
    intros Hs Po E G It D Le. pose proof (schedule_pi e W any _ _ _ Hs (all_any _)) as Hw. pose proof (proper_ok _ Po) as Pk.
    destruct (pool_grant_later _ _ _ _ _ _ Hw Pk E G) as (g' & G' & T & _).
    pose proof It as It2. apply In_nth_error in It2 as [i N]. destruct (T _ _ N) as (t' & N' & L).
    exists g', t'. split; auto. split; [eapply nth_error_In; eauto|].
    destruct L as (_ & V & _ & Ru & _ & Ex & Nb & _ & _ & _ & _ & _ & Rv & Us).
    split; auto. intros (A & B & C & F). apply D. split.
    - destruct (t_revoked t) eqn:X; auto. now rewrite Rv in A.
    - destruct G as (l & H & _).
      pose proof (to_nbf _ _ (gi_tok _ _ (inv_grants _ _ (hi_inv _ _ (pi_hi _ _ _ Hw)) _ _ H) t It)) as Z0.
      split; [|split].
      + intros mx Em. rewrite Ru in B. specialize (B mx Em). lia.
      + intros X. congruence.
      + intros X. rewrite Ex in F. specialize (F X). lia.
  Qed.
  Lemma pool_dead_grant ms1 xs1 w ms2 xs2 w' gid g now now' : schedule e ms1 xs1 w ->
    Forall (fun m => forall o, m = MCall o -> proper e o) ms2 -> Forall (not_before now) ms2 -> pexec e w ms2 = (xs2, w') -> grant_of (p_st w) gid g ->
    ~ grant_live g now -> (now <= now')%Z ->
    exists g', grant_of (p_st w') gid g' /\ ~ grant_live g' now' /\ map t_value (g_tokens g') = map t_value (g_tokens g).
  Proof.
    intros Hs Po Tm E (l & H & Eg) D Le. pose proof (schedule_pi e W any _ _ _ Hs (all_any _)) as Hw. pose proof (proper_ok _ Po) as Pk.
    pose proof (inv_grants _ _ (hi_inv _ _ (pi_hi _ _ _ Hw)) _ _ H) as Gi.
    assert (forall n g0, g_nbf g0 = 0%Z -> g_max g0 = None -> (now <= n)%Z -> ~ grant_live g0 now -> ~ grant_live g0 n) as Mono.
    { intros n g0 Z0 M0 Ln X (A & B & C & F). apply X. split; auto. split; [intros m; congruence|].
      split; [congruence|]. intros Y. specialize (F Y). lia. }
    set (R := fun w' => exists g', hp (h_st (p_st w')) l = Some (OGrant g') /\ g_id g' = gid
      /\ tokens_later (g_tokens g) (g_tokens g') /\ List.length (g_tokens g') = List.length (g_tokens g)
      /\ g_nbf g' = 0%Z /\ g_max g' = None /\ ~ grant_live g' now).
    assert (PI e any w' /\ R w') as (_ & g' & X1 & X2 & X3 & X4 & X5 & X6 & X7).
    { apply (pexec_keeps e W any R ms2 w xs2 w'); auto.
      - intros w1 m x w2 Im _ Em L (g1 & A1 & A2 & A3 & A4 & A5 & A6 & A7).
        rewrite Forall_forall in Tm. pose proof (Tm _ Im) as To.
        assert (p_st w2 = p_st w1 \/ (now <= mtime m)%Z) as [Z0|Tl].
        { destruct m as [o|cf|i issue|n k]; cbn in To |- *; auto; left; cbn [pmove] in Em; [injection Em as _ <-; auto|].
          destruct (nth_error (h_parsed (p_st w1)) i); injection Em as _ <-; auto. }
        { exists g1. rewrite Z0. split; auto 10. }
        destruct (st_later_grant _ _ _ _ _ L A1) as (g2 & B1 & B2).
        destruct B2 as (C1 & _ & _ & _ & _ & C2 & C3 & C4 & _ & C5 & C6 & _).
        assert (grant_active (mtime m) g1 = false) as Da.
        { destruct (grant_active (mtime m) g1) eqn:X; auto. apply grant_active_live in X.
          exfalso. eapply Mono; [exact A5|exact A6|exact Tl|exact A7|exact X]. }
        destruct (C6 Da) as [Y1 Y2]. exists g2. split; auto. split; [congruence|].
        split; [eapply tokens_later_trans; eauto|]. split; [congruence|]. split; [congruence|]. split; [congruence|].
        intros (F1 & F2 & F3 & F4). apply A7. split; [destruct (g_revoked g1) eqn:X; auto; now rewrite C4 in F1|].
        split; [intros mm; congruence|]. split; [congruence|]. rewrite <- Y1. auto.
      - exists g. split; [exact H|]. split; [exact Eg|]. split; [apply tokens_later_refl|].
        split; auto. split; [apply Gi|]. split; [apply Gi|auto]. }
    exists g'. split; [exists l; auto|]. split; [now apply Mono|now apply same_values].
  Qed.

  (** ** Every answer has a beginning *)
  Lemma started ms : forall w xs w' k, pexec e w ms = (xs, w') ->
    List.length (p_threads w) <= k -> k < List.length (p_threads w') ->
    exists m q, nth_error xs m = Some (SeenStart k q).
  Proof.
    induction ms as [|m ms IH]; intros w xs w' k E L1 L2; cbn in E.
    - injection E as _ <-. lia.
    - destruct (pmove e w m) as [x w1] eqn:Em. destruct (pexec e w1 ms) as [xs' w2] eqn:Ee. injection E as <- <-.
      destruct (le_lt_dec (List.length (p_threads w1)) k) as [Lk|Lk].
      + destruct (IH _ _ _ _ Ee Lk L2) as (m' & q & N). exists (S m'), q. exact N.
      + exists 0. destruct m as [o|cf|i issue|now j]; cbn [pmove] in Em; cbv zeta in Em.
        * destruct (step _ (p_st w) o). injection Em as _ <-. cbn in Lk. lia.
        * injection Em as _ <-. cbn in Lk. lia.
        * destruct (nth_error (h_parsed (p_st w)) i) as [q|]; injection Em as <- <-; [|lia].
          cbn in Lk. rewrite app_length in Lk. cbn in Lk. exists q. cbn. do 2 f_equal. lia.
        * exfalso. destruct (nth_error (p_threads w) j) as [[t|]|]; try (injection Em as _ <-; lia).
          destruct (advance _ now (th_prog t) (h_st (p_st w))) as [p s].
          destruct p; injection Em as _ <-; cbn in Lk; rewrite len_set_nth in Lk; lia.
  Qed.
  Lemma answer_began ms xs w j q a : schedule e ms xs w -> answered_at xs j q a ->
    exists m, m <= j /\ began_at xs m j.
  Proof.
    intros (Po & al & E) [(k & N)|N].
    - destruct (seen_at e W any _ _ _ _ _ _ (pi_init e any al Logic.I) (proper_ok _ Po) E N) as (m & w1 & w2 & _ & E1 & H1 & _ & Em & _).
      assert (k < List.length (p_threads w1)) as Lk.
      { destruct m as [o|cf|i issue|now k']; cbn [pmove] in Em; cbv zeta in Em.
        - destruct (step _ (p_st w1) o). discriminate.
        - discriminate.
        - destruct (nth_error (h_parsed (p_st w1)) i); discriminate.
        - destruct (nth_error (p_threads w1) k') as [[t|]|] eqn:Nk; try discriminate.
          destruct (advance _ now (th_prog t) (h_st (p_st w1))) as [p s]. destruct p; [|discriminate].
          injection Em as <- _ _ _. apply nth_error_Some. congruence. }
      destruct (started _ _ _ _ k E1) as (m' & q' & Nm); [cbn; lia|exact Lk|].
      apply nth_firstn in Nm as [Lm Nm]. exists m'. split; [lia|]. left. eauto 10.
    - exists j. split; auto. right. eauto.
  Qed.

  (** ** Once, unless at the same time *)
  Lemma code_in_turn ms xs w i j m q q' a a' v : schedule e ms xs w ->
    answered_at xs i q a -> presents q v "authorization_code" ->
    answered_at xs j q' a' -> presents q' v "authorization_code" ->
    began_at xs m j -> i < m -> m <= j -> False.
  Proof.
    intros Hs A P A' P' B Lt Le.
    destruct (two_in_turn e W _ _ _ _ _ _ _ _ _ _ _ Hs (all_in _) A A' B Lt Le) as (s1 & s2 & s3 & e1 & issue & O & St & I2 & Pq & I3 & K).
    destruct O as (l & i0 & t & (_ & U0) & (_ & _ & _ & _ & (t1 & Lt1 & Ht) & _) & [(Pt & Ct & _)|(Pt & _ & _)]).
    2:{ destruct (presents_fun _ _ _ _ _ P Pt) as [_ X]. discriminate. }
    destruct (presents_fun _ _ _ _ _ P Pt) as [-> _].
    destruct P' as [(_ & Gt & Ec)|(X & _)]; [|discriminate].
    assert (t_value (tok_register t1) = t_value t /\ t_class (tok_register t1) = CODE) as [V1 C1].
    { cbn. destruct Lt1 as (X & Y & _). split; congruence. }
    assert (0 <= t_used t1)%Z as U1.
    { destruct Lt1 as (_ & _ & _ & _ & _ & _ & _ & _ & _ & _ & _ & _ & _ & U). lia. }
    assert (has l i0 (tok_register t1) s2) as H2 by (apply St; [apply as_has|exact Ht]).
    destruct (K _ _ (as_has _ _ _) H2 (token_prog_code e _ W e1 q' issue (t_value t) l i0 (tok_register t1) Gt Ec V1 C1) a' eq_refl)
      as (Na & (_ & Ka & _) & _).
    destruct (rs_access a') as [x|]; [|congruence]. destruct (Ka x eq_refl) as (_ & now & b & Lb & (g & b' & Hg & Nb & Lb') & Ab).
    apply tok_active_live in Ab. destruct Ab as (_ & Ab & _).
    pose proof (to_code _ _ (gi_tok _ _ (inv_grants _ _ I3 _ _ Hg) b' (nth_error_In _ _ Nb))) as Tc.
    destruct Lb as (D1 & _ & _ & _ & _ & _ & _ & _ & _ & _ & _ & _ & _ & U).
    destruct Lb' as (D2 & _ & _ & R2 & _). rewrite D2, D1, R2 in Tc. specialize (Tc C1). specialize (Ab _ Tc).
    cbn in U. lia.
  Qed.
  Lemma rotated_in_turn ms xs w i j m q q' a a' v c : schedule e ms xs w ->
    answered_at xs i q a -> presents q v "refresh_token" ->
    answered_at xs j q' a' -> presents q' v "refresh_token" ->
    tr_client q = Some c -> (forall cf, in_force e ms cf -> rotates (under e cf) c) ->
    began_at xs m j -> i < m -> m <= j -> False.
  Proof.
    intros Hs A P A' P' Ec Rr B Lt Le.     destruct (two_in_turn e W _ _ _ _ _ _ _ _ _ _ _ Hs (all_in _) A A' B Lt Le) as (s1 & s2 & s3 & e1 & issue & O & St & I2 & Pq & I3 & K).
    destruct O as (l & i0 & t & _ & _ & [(Pt & _ & _)|(Pt & Ct & _ & Rv)]).
    { destruct (presents_fun _ _ _ _ _ P Pt) as [_ X]. discriminate. }
    destruct (presents_fun _ _ _ _ _ P Pt) as [-> _]. destruct (Rv c Ec (fun cf K => rotates_revoke _ _ (Rr cf K))) as (t1 & L1 & Ht & R1).
    destruct P' as [(X & _)|(_ & Gt & Er)]; [discriminate|].
    assert (t_value t1 = t_value t /\ t_class t1 = REFRESH) as [V1 C1].
    { destruct L1 as (X & Y & _). split; congruence. }
    assert (has l i0 t1 s2) as H2 by (apply St; [apply as_has|exact Ht]).
    destruct (proj2 Pq Gt) as (v' & l' & m' & t' & Ev' & Ht' & Vt' & Ct' & Wi').
    assert (v' = t_value t) by congruence. subst v'.
    destruct (has_place e _ _ _ _ _ _ _ I2 H2 Ht') as [<- <-]; [congruence|].
    assert (astable (fun s => has l i0 t1 s /\ forall sc, tr_scope q' = Some sc -> within e l sc s)) as As by astab.
    destruct (K _ _ As (conj H2 Wi') (token_prog_refresh e _ W e1 q' issue (t_value t) l i0 t1 Gt Er V1 C1) a' eq_refl)
      as (Na & (_ & Ka & _) & _).
    destruct (rs_access a') as [x|]; [|congruence]. destruct (Ka x eq_refl) as (_ & now & b & Lb & _ & Ab).
    apply tok_active_live in Ab. destruct Ab as (Ab & _).
    destruct Lb as (_ & _ & _ & _ & _ & _ & _ & _ & _ & _ & _ & _ & Rb & _). rewrite (Rb R1) in Ab. discriminate.
  Qed.

  Lemma began_elsewhere xs i j q a : answered_at xs i q a -> began_at xs i j -> i <> j -> False.
  Proof.
    intros A [(k & q1 & q2 & r & N & _)|(E & _)] X; [|auto]. destruct A as [(k' & A)|A]; congruence.
  Qed.
  Lemma code_once_overlap ms xs w i j q q' a a' v : schedule e ms xs w ->
    answered_at xs i q a -> presents q v "authorization_code" ->
    answered_at xs j q' a' -> presents q' v "authorization_code" -> i < j ->
    exists m, began_at xs m j /\ m < i.
  Proof.
    intros Hs A P A' P' Lt. destruct (answer_began _ _ _ _ _ _ Hs A') as (m & Lm & B). exists m. split; auto.
    destruct (lt_eq_lt_dec m i) as [[?|E]|l]; auto; exfalso; [|exact (code_in_turn ms xs w i j m q q' a a' v Hs A P A' P' B l Lm)].
    subst m. apply (began_elsewhere xs i j q a A B). lia.
  Qed.
  Lemma rotated_once_overlap ms xs w i j q q' a a' v c : schedule e ms xs w ->
    answered_at xs i q a -> presents q v "refresh_token" ->
    answered_at xs j q' a' -> presents q' v "refresh_token" ->
    tr_client q = Some c -> (forall cf, in_force e ms cf -> rotates (under e cf) c) -> i < j ->
    exists m, began_at xs m j /\ m < i.
  Proof.
    intros Hs A P A' P' C R Lt. destruct (answer_began _ _ _ _ _ _ Hs A') as (m & Lm & B). exists m. split; auto.
    destruct (lt_eq_lt_dec m i) as [[?|E]|l]; auto; exfalso; [|exact (rotated_in_turn ms xs w i j m q q' a a' v c Hs A P A' P' C R B l Lm)].
    subst m. apply (began_elsewhere xs i j q a A B). lia.
  Qed.
  Lemma calls_code_once ms xs w i j q q' a a' v : schedule e ms xs w ->
    (forall k q0 r, ~ In (SeenAnswer k q0 r) xs) ->
    answered_at xs i q a -> presents q v "authorization_code" ->
    answered_at xs j q' a' -> presents q' v "authorization_code" -> i = j.
  Proof.
    intros Hs No A P A' P'.
    assert (forall i0 j0 q1 q2 a1 a2, answered_at xs i0 q1 a1 -> presents q1 v "authorization_code" ->
              answered_at xs j0 q2 a2 -> presents q2 v "authorization_code" -> i0 < j0 -> False) as K.
    { intros i0 j0 q1 q2 a1 a2 A1 P1 A2 P2 Lt.
      destruct (code_once_overlap _ _ _ _ _ _ _ _ _ _ Hs A1 P1 A2 P2 Lt) as (m & [(k & q3 & q4 & r & _ & N)|(-> & _)] & Lm); [|lia].
      apply (No k q4 r). eapply nth_error_In; eauto. }
    destruct (lt_eq_lt_dec i j) as [[l|E]|l]; auto; exfalso; eapply K; [exact A|exact P|exact A'|exact P'|exact l| | | | |];
      [exact A'|exact P'|exact A|exact P|exact l].
  Qed.
End P.
