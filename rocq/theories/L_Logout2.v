(** Revoked client sessions and log-outs in histories. *)
From Verif Require Import M_Base M_Types M_Codec M_Grant M_Env M_Session M_Claims M_Handler
  M_Authz M_TokenEP M_PKCE M_AuthzEP M_Info M_Logout M_History S_Codec S_Grant S_Store S_History S_Logout
  L_Base L_Codec L_Monad L_Grant L_Claims L_Store L_Hist1 L_Hist2 L_Hist3 L_Hist4 L_Hist5 L_Hist8 L_Hist10
  L_Logout L_Lasting.

(** ** The records of a client session *)
Definition touch (s : st) (u c : string) (l : nat) : Prop :=
  exists l0 i, reads s [u; c] l0 /\ hp s l0 = Some (OInfo i)
    /\ (l = l0 \/ exists g, In g (si_sub i) /\ reads s [u; c; g] l).
Definition there (s : st) (u c : string) : Prop :=
  exists l i, reads s [u; c] l /\ hp s l = Some (OInfo i).

Lemma reads_same s p l l' : reads s p l -> reads s p l' -> l = l'.
Proof. unfold reads. congruence. Qed.
Lemma touch_dec s u c l : touch s u c l \/ ~ touch s u c l.
Proof.
  destruct (db_get_cases [u; c] s) as [[l0 R]|[x R]].
  2:{ right. intros (l0 & i & R' & _). unfold reads in *. congruence. }
  destruct (hp s l0) as [[i|g|]|] eqn:H.
  2,3,4: right; intros (l1 & i & R' & H' & _); assert (l1 = l0) as -> by (unfold reads in *; congruence); congruence.
  destruct (Nat.eq_dec l l0) as [->|N]; [left; exists l0, i; auto|].
  destruct (some_reads_dec s u c (si_sub i) l) as [X|X].
  - left. exists l0, i. auto.
  - right. intros (l1 & i1 & R' & H' & Y). assert (l1 = l0) as -> by (unfold reads in *; congruence).
    rewrite H in H'. injection H' as <-. tauto.
Qed.
Lemma touch_tree s s' u c l : same_tree s s' -> touch s u c l -> touch s' u c l.
Proof.
  intros T (l0 & i & R & H & X). destruct (same_tree_info _ _ _ _ T H) as (i' & H' & Es).
  exists l0, i'. split; [eapply same_tree_reads2; eauto|]. split; auto. destruct X as [->|(g & Ig & Rg)]; auto.
  right. exists g. rewrite Es. split; auto. eapply same_tree_reads3; eauto.
Qed.
Lemma there_tree s s' u c : same_tree s s' -> there s u c -> there s' u c.
Proof.
  intros T (l & i & R & H). destruct (same_tree_info _ _ _ _ T H) as (i' & H' & _).
  exists l, i'. split; auto. eapply same_tree_reads2; eauto.
Qed.

Lemma revoke_client_touch e sid s s' : revoke_client_session e sid s = (Ok tt, s') ->
  exists u c rest, dec_sid e sid = Ok (u :: c :: rest) /\ there s u c /\ revokes (touch s u c) s s'.
Proof.
  intros E. apply revoke_client_ok in E as (u & c & rest & l & i & D & _ & R & H & _ & Rv).
  exists u, c, rest. split; auto. split; [exists l, i; auto|]. eapply revokes_ext; [|exact Rv].
  intros l'. split.
  - intros X. exists l, i. auto.
  - intros (l1 & i1 & R1 & H1 & X). assert (l1 = l) as -> by (eapply reads_same; eauto).
    rewrite H in H1. injection H1 as <-. exact X.
Qed.

(** Several client sessions revoked, one after the other. *)
Definition named (e : env) (sids : list string) (u c : string) : Prop :=
  exists sid rest, In sid sids /\ dec_sid e sid = Ok (u :: c :: rest).
Definition touched (e : env) (sids : list string) (s : st) (l : nat) : Prop :=
  exists u c, named e sids u c /\ touch s u c l.
Lemma touched_dec e sids s l : touched e sids s l \/ ~ touched e sids s l.
Proof.
  induction sids as [|sid sids [IH|IH]].
  - right. intros (u & c & (sid & rest & [] & _) & _).
  - left. destruct IH as (u & c & (sid' & rest & I & D) & X). exists u, c. split; auto. exists sid', rest.
    split; auto. now right.
  - destruct (dec_sid e sid) as [[|u [|c rest]]|x] eqn:D.
    3: destruct (touch_dec s u c l) as [X|X].
    3:{ left. exists u, c. split; auto. exists sid, rest. split; auto. now left. }
    all: right; intros (u1 & c1 & (sid' & rest1 & [<-|I] & D1) & X1);
      [|apply IH; exists u1, c1; split; auto; exists sid', rest1; auto].
    all: rewrite D in D1; try discriminate D1. injection D1 as <- <- _. auto.
Qed.
Lemma clean_ok e sids : forall s s', clean_sessions e sids s = (Ok tt, s') ->
  (forall sid, In sid sids -> exists u c rest, dec_sid e sid = Ok (u :: c :: rest) /\ there s u c)
  /\ revokes (touched e sids s) s s'.
Proof.
  induction sids as [|sid sids IH]; intros s s' E; cbn [clean_sessions] in E.
  - apply ret_ok in E as [_ <-]. split; [intros sid []|]. apply revokes_refl.
    intros l (u & c & (sid & rest & [] & _) & _).
  - apply bind_ok in E as ([] & s1 & E1 & E). apply revoke_client_touch in E1 as (u & c & rest & D & Th & R1).
    apply IH in E as (A & R2). pose proof (revokes_tree _ _ _ R1) as T. split.
    + intros sid' [<-|I]; [exists u, c, rest; auto|]. destruct (A _ I) as (u' & c' & rest' & D' & Th').
      exists u', c', rest'. split; auto. eapply there_tree; [apply same_tree_sym|]; eauto.
    + eapply revokes_ext; [|eapply revokes_trans; [| |exact R1|exact R2]].
      * intros l. split.
        -- intros [X|(u1 & c1 & (sid' & rest1 & I & D1) & X)].
           ++ exists u, c. split; auto. exists sid, rest. split; auto. now left.
           ++ exists u1, c1. split; [exists sid', rest1; split; auto; now right|].
              eapply touch_tree; [apply same_tree_sym|]; eauto.
        -- intros (u1 & c1 & (sid' & rest1 & [<-|I] & D1) & X).
           ++ left. rewrite D in D1. injection D1 as <- <- _. exact X.
           ++ right. exists u1, c1. split; [exists sid', rest1; auto|]. eapply touch_tree; eauto.
      * apply touch_dec.
      * apply touched_dec.
Qed.

(** The records in [P] revoked, and no others. *)
Definition rvk (P : nat -> Prop) (s s' : st) : Prop :=
  same_tree s s' /\ (forall l, P l -> hp s' l = option_map revoke_obj (hp s l))
  /\ (forall l, hp s' l = hp s l \/ P l).
Lemma revokes_rvk P s s' : revokes P s s' -> rvk P s s'.
Proof. intros (A & _ & _ & B & _ & C). split; auto. split; auto. intros l. destruct (C l) as [X|[X _]]; auto. Qed.
Lemma quiet_tree s s' : quiet s s' -> same_tree s s'.
Proof.
  intros (A & B & _). split; auto. rewrite A. split; auto. intros k o H. exists o. unfold hp in *. rewrite A.
  split; auto. apply same_children_refl.
Qed.
Lemma quiet_rvk P s s1 s' : quiet s s1 -> revokes P s1 s' -> rvk P s s'.
Proof.
  intros Q R. apply revokes_rvk in R as (A & B & C). split; [eapply same_tree_trans; eauto using quiet_tree|].
  destruct Q as (Q & _). unfold hp in *. rewrite Q in B, C. auto.
Qed.

Section Hist.
  Variables (e : env) (W : laws e).

  (** Paths under the session of [u] with [c] can be told apart. *)
  Definition apart (u c : string) : Prop := forall g, ~ occurs_in ";;" g -> separable [u; c; g].
  Lemma apart_good u c rest sid : dec_sid e sid = Ok (u :: c :: rest) -> good_id c -> apart u c.
  Proof.
    intros D (N1 & N2 & N3) g Ng. apply dec_sid_separable in D as [_ [A B]]. split.
    - intros x [<-|[<-|[<-|[]]]]; auto. apply A. now left.
    - intros pre x y post X. destruct pre as [|p0 [|p1 pre]]; cbn in X.
      + injection X as <- _ _. apply (B [] u c rest). reflexivity.
      + injection X as _ <- _ _. exact N3.
      + injection X as _ _ X. destruct pre as [|? pre]; [discriminate|]. destruct pre; discriminate.
  Qed.
  Lemma apart_3 u c g sid : dec_sid3 e sid = Ok (u, c, g) -> apart u c.
  Proof.
    intros D g' Ng. apply dec_sid3_separable in D as [A B]. split.
    - intros x [<-|[<-|[<-|[]]]]; auto; apply A; cbn; auto.
    - intros pre x y post X. destruct pre as [|p0 [|p1 pre]]; cbn in X.
      + injection X as <- _ _. apply (B [] u c [g]). reflexivity.
      + injection X as _ <- _ _. apply (B [u] c g []). reflexivity.
      + injection X as _ _ X. destruct pre as [|? pre]; [discriminate|]. destruct pre; discriminate.
  Qed.
  Lemma touch_owns s u c l g : Inv e s -> apart u c -> reads s [u; c; g] l -> owns e s l u c g.
  Proof.
    intros I Ap R. pose proof R as R'. apply reads_3 in R' as (cl & i & _ & H & Ig & _).
    eapply db_get_owns; [exact I| |exact R]. apply Ap. apply (inv_sub _ _ I _ _ _ H Ig).
  Qed.

  (** What revoking the records of some client sessions means. *)
  Lemma revokes_ended h s' (P : nat -> Prop) u c : HI e h -> apart u c ->
    (forall l, touch (h_st h) u c l -> P l) -> rvk P (h_st h) s' ->
    ended h (mk_hst s' (h_parsed h)) u c.
  Proof.
    intros Hh Ap HP (_ & R & _) gid g (l & Rd & H).
    assert (P l) as p.
    { apply HP. pose proof Rd as R'. apply reads_3 in R' as (cl & i & R2 & Hc & Ig & _). exists cl, i.
      split; auto. split; auto. right. eauto. }
    destruct (touch_owns _ _ _ _ _ (hi_inv _ _ Hh) Ap Rd) as (g0 & H0 & Id & _).
    unfold hp in H0. rewrite H in H0. injection H0 as <-.
    exists (g_set_revoked g). split; [|split; reflexivity]. exists l. split; [|exact Id].
    specialize (R l p). unfold hp in R. rewrite H in R. exact R.
  Qed.
  Lemma revokes_record h s' (P : nat -> Prop) u c : there (h_st h) u c ->
    (forall l, touch (h_st h) u c l -> P l) -> rvk P (h_st h) s' ->
    record_revoked h (mk_hst s' (h_parsed h)) u c.
  Proof.
    intros (l & i & Rd & H) HP (_ & R & _). exists l, i, (si_revoke i). split; [split; auto|]. split; auto.
    assert (P l) as p by (apply HP; exists l, i; auto). specialize (R l p). unfold hp in *. rewrite H in R. exact R.
  Qed.
  Lemma revokes_confined h s' (P : nat -> Prop) (who : string -> string -> Prop) : HI e h -> (forall u c, who u c -> apart u c) ->
    (forall l, P l -> exists u c, who u c /\ touch (h_st h) u c l) -> rvk P (h_st h) s' ->
    confined e h (mk_hst s' (h_parsed h)) who.
  Proof.
    intros Hh Ap HP ((T1 & T2 & _) & _ & R). split; [exact T1|]. split; auto. split; [exact T2|].
    intros l o H. destruct (R l) as [X|p]; [left; unfold hp in X; cbn; congruence|]. right.
    destruct (HP l p) as (u & c & Wc & l0 & i & Rd & H0 & [->|(g & Ig & Rg)]).
    - left. exists u, c, i. split; auto. split; auto.
    - right. destruct (touch_owns _ _ _ _ _ (hi_inv _ _ Hh) (Ap _ _ Wc) Rg) as (gr & Hg & _ & Bl).
      exists u, c, gr. split; auto. split; auto. unfold hp in Hg. congruence.
  Qed.

  (** *** Later on *)
  Lemma ended_later h h1 u c ops evs h' : HI e h1 -> Forall (proper e) ops -> exec e h1 ops = (evs, h') ->
    ended h h1 u c -> ended h h' u c.
  Proof.
    intros Hh Po E En gid g Sg. destruct (En _ _ Sg) as (g1 & G1 & R1 & V1).
    destruct (grant_of_later _ W _ _ _ _ _ _ Hh Po E G1) as (g' & G' & T & K & _).
    destruct (K R1) as [R' N]. exists g'. split; auto. split; auto. rewrite <- V1. now apply same_values.
  Qed.
  Lemma record_later h h1 u c ops evs h' : HI e h1 -> Forall (proper e) ops -> exec e h1 ops = (evs, h') ->
    record_revoked h h1 u c -> record_revoked h h' u c.
  Proof.
    intros Hh Po E (l & i & i1 & Sr & H1 & R1).
    assert (exists i', hp (h_st h') l = Some (OInfo i') /\ si_revoked i' = true) as (i' & H' & R').
    { eapply (exec_stable e W (fun s => exists i', hp s l = Some (OInfo i') /\ si_revoked i' = true));
        [|exact Hh|exact Po|exact E|exists i1; auto].
      intros now s s' [_ L] (j & Hj & Rj). destruct (L _ _ Hj) as (o & Ho & K).
      destruct o as [j'| |]; cbn in K; try tauto. exists j'. split; auto. apply K, Rj. }
    exists l, i, i'. auto.
  Qed.

  Lemma exec_cons h o ops evs h' : exec e h (o :: ops) = (evs, h') ->
    exists ev h1 evs', step e h o = (ev, h1) /\ exec e h1 ops = (evs', h') /\ evs = ev :: evs'.
  Proof.
    cbn [exec]. destruct (step e h o) as [ev h1]. destruct (exec e h1 ops) as [evs' h2] eqn:E1. intros E. injection E as <- <-.
    exists ev, h1, evs'. auto.
  Qed.
  Lemma revoke_step h now sid h1 : step e h (ORevokeClient now sid) = (EvDone (Ok tt), h1) ->
    exists s', revoke_client_session e sid (h_st h) = (Ok tt, s') /\ h1 = mk_hst s' (h_parsed h).
  Proof.
    cbn [step]. unfold on_st. destruct (revoke_client_session e sid (h_st h)) as [r s'].
    intros E. injection E as -> <-. eauto.
  Qed.

  Lemma revoked_session_final ops1 evs1 h now sid u c rest ops2 evs2 h' :
    history e ops1 evs1 h -> dec_sid e sid = Ok (u :: c :: rest) -> good_id c ->
    Forall (proper e) ops2 -> exec e h (ORevokeClient now sid :: ops2) = (EvDone (Ok tt) :: evs2, h') ->
    ended h h' u c /\ record_revoked h h' u c.
  Proof.
    intros Hi D Gc Po E. pose proof (history_hi e W _ _ _ Hi) as Hh.
    apply exec_cons in E as (ev & h1 & evs' & Es & E & X). injection X as <- <-.
    assert (HI e h1) as H1 by (refine (proj1 (step_keeps e W _ _ _ _ Hh _ Es)); exact Logic.I).
    apply revoke_step in Es as (s' & Er & ->).
    apply revoke_client_touch in Er as (u1 & c1 & rest1 & D1 & Th & R). rewrite D in D1. injection D1 as <- <- <-. apply revokes_rvk in R.
    split.
    - eapply ended_later; eauto. eapply revokes_ended; eauto. eapply apart_good; eauto.
    - eapply record_later; eauto. eapply revokes_record; eauto.
  Qed.
  Lemma revoked_session_confined ops1 evs1 h now sid u c rest h1 :
    history e ops1 evs1 h -> dec_sid e sid = Ok (u :: c :: rest) -> good_id c ->
    step e h (ORevokeClient now sid) = (EvDone (Ok tt), h1) ->
    confined e h h1 (fun u' c' => u' = u /\ c' = c).
  Proof.
    intros Hi D Gc E. pose proof (history_hi e W _ _ _ Hi) as Hh. apply revoke_step in E as (s' & Er & ->).
    apply revoke_client_touch in Er as (u1 & c1 & rest1 & D1 & Th & R). rewrite D in D1. injection D1 as <- <- <-. apply revokes_rvk in R.
    eapply revokes_confined; [exact Hh| | |exact R].
    - intros u' c' [-> ->]. eapply apart_good; eauto.
    - intros l X. exists u, c. auto.
  Qed.

  (** What the session says of itself, while nothing is deleted. *)
  Lemma there_lasts h u c alias : HI e h -> there (h_st h) u c -> exists l, J u c l alias (h_st h).
  Proof.
    intros Hh (l & i & R & H). exists l. pose proof R as R'. apply reads_2 in R' as (ul & j & A & B & C & K).
    split; auto. split.
    - exists i. split; auto. intros X. destruct (inv_sub _ _ (hi_inv _ _ Hh) _ _ _ H X) as [N _]. congruence.
    - exists ul, (OInfo j). auto.
  Qed.
  Lemma lasting_report h h1 ops evs h' u c alias sid g :
    separable [u; c] -> (alias = false -> forall p, dec_sid e u <> Ok p) ->
    HI e h1 -> there (h_st h) u c -> HI e h -> same_tree (h_st h) (h_st h1) -> record_revoked h h1 u c ->
    Forall (proper e) ops -> (forall o, In o ops -> ~ deletes o) -> exec e h1 ops = (evs, h') ->
    dec_sid3 e sid = Ok (u, c, g) ->
    (forall b s, client_session_is_revoked e sid (h_st h') = (Ok b, s) -> b = true)
    /\ (alias = false -> client_session_is_revoked e sid (h_st h') = (Ok true, h_st h')).
  Proof.
    intros Sp Al H1 Th Hh T Rr Po Nd E D.
    destruct (there_lasts h1 u c alias H1) as (l & Jl). { eapply there_tree; eauto. }
    assert (marked l (h_st h1)) as Mk.
    { destruct Rr as (l2 & i & i' & (Rd & _) & H' & R').
      apply (same_tree_reads2 _ _ _ _ _ T) in Rd. apply reads_2 in Rd as (_ & _ & _ & _ & _ & K).
      destruct Jl as (K' & _). assert (l2 = l) as -> by congruence. exists i'. auto. }
    destruct (exec_lasts e W u c Sp alias Al ops _ _ _ l H1 Po Nd E Jl Mk) as (l' & J' & i' & H' & R').
    clear Jl Mk l. rename l' into l.
    unfold client_session_is_revoked. split.
    - intros b s X. apply bind_ok in X as ([[u1 c1] g1] & s1 & X1 & X). apply lift_ok in X1 as [D1 <-].
      rewrite D in D1. injection D1 as <- <- <-.
      apply bind_ok in X as (l3 & s1 & X1 & X). pose proof (reader_db_get _ _ _ _ X1). subst s1.
      apply reads_2 in X1 as (_ & _ & _ & _ & _ & K). destruct J' as (K' & _). rewrite K' in K. injection K as <-.
      unfold bind in X. rewrite (deref_some _ _ (OInfo i') H') in X. apply ret_ok in X as [X _]. congruence.
    - intros Ea. rewrite D. unfold bind at 1, lift.
      destruct J' as (K' & _ & lu & o & A & B & U). destruct o as [j|gr|]; cbn in U; [|congruence|tauto].
      assert (reads (h_st h') [u; c] l) as R2 by (apply reads_2; exists lu, j; auto).
      unfold bind at 1. unfold reads in R2. rewrite R2. unfold bind at 1. rewrite (deref_some _ _ (OInfo i') H').
      unfold ret. now rewrite R'.
  Qed.
  Lemma revoked_session_reports ops1 evs1 h now sid u c rest ops2 evs2 h' sid' g b s :
    history e ops1 evs1 h -> dec_sid e sid = Ok (u :: c :: rest) ->
    Forall (proper e) ops2 -> (forall o, In o ops2 -> ~ deletes o) ->
    exec e h (ORevokeClient now sid :: ops2) = (EvDone (Ok tt) :: evs2, h') ->
    dec_sid3 e sid' = Ok (u, c, g) -> client_session_is_revoked e sid' (h_st h') = (Ok b, s) -> b = true.
  Proof.
    intros Hi D Po Nd E D' X. pose proof (history_hi e W _ _ _ Hi) as Hh.
    apply exec_cons in E as (ev & h1 & evs' & Es & E & Y). injection Y as <- <-.
    assert (HI e h1) as H1 by (refine (proj1 (step_keeps e W _ _ _ _ Hh _ Es)); exact Logic.I).
    apply revoke_step in Es as (s' & Er & ->).
    apply revoke_client_touch in Er as (u1 & c1 & rest1 & D1 & Th & R). rewrite D in D1. injection D1 as <- <- <-. apply revokes_rvk in R.
    eapply (lasting_report h _ ops2 evs2 h' u c true sid' g); eauto.
    - apply dec_sid_separable in D as [_ Sp]. exact (separable_prefix [u; c] rest Sp).
    - discriminate.
    - apply R.
    - eapply revokes_record; eauto.
  Qed.
  Lemma revoked_session_answers ops1 evs1 h now sid u c rest ops2 evs2 h' sid' g :
    history e ops1 evs1 h -> dec_sid e sid = Ok (u :: c :: rest) -> (forall p, dec_sid e u <> Ok p) ->
    Forall (proper e) ops2 -> (forall o, In o ops2 -> ~ deletes o) ->
    exec e h (ORevokeClient now sid :: ops2) = (EvDone (Ok tt) :: evs2, h') ->
    dec_sid3 e sid' = Ok (u, c, g) -> client_session_is_revoked e sid' (h_st h') = (Ok true, h_st h').
  Proof.
    intros Hi D Nu Po Nd E D'. pose proof (history_hi e W _ _ _ Hi) as Hh.
    apply exec_cons in E as (ev & h1 & evs' & Es & E & Y). injection Y as <- <-.
    assert (HI e h1) as H1 by (refine (proj1 (step_keeps e W _ _ _ _ Hh _ Es)); exact Logic.I).
    apply revoke_step in Es as (s' & Er & ->).
    apply revoke_client_touch in Er as (u1 & c1 & rest1 & D1 & Th & R). rewrite D in D1. injection D1 as <- <- <-. apply revokes_rvk in R.
    eapply (lasting_report h _ ops2 evs2 h' u c false sid' g); eauto.
    - apply dec_sid_separable in D as [_ Sp]. exact (separable_prefix [u; c] rest Sp).
    - apply R.
    - eapply revokes_record; eauto.
  Qed.

  (** ** Log-out *)
  Lemma belongs_same g u c u' c' : belongs e g u c -> belongs e g u' c' -> u = u' /\ c = c'.
  Proof. intros (a & b & A & B & C & D & _) (a' & b' & A' & B' & C' & D' & _). split; congruence. Qed.

  (** *** From one client *)
  Lemma apart_two u c g sid : dec_sid3 e sid = Ok (u, c, g) -> dec_sid e sid = Ok [u; c; g].
  Proof.
    unfold dec_sid3. destruct (dec_sid e sid) as [[|a [|b [|d [|? ?]]]]|]; cbn; try discriminate.
    intros H. injection H as <- <- <-. reflexivity.
  Qed.
  Lemma touch_quiet s s' u c l : quiet s s' -> touch s' u c l <-> touch s u c l.
  Proof. intros Q. apply quiet_tree in Q. split; apply touch_tree; auto. now apply same_tree_sym. Qed.
  Lemma there_quiet s s' u c : quiet s s' -> there s' u c -> there s u c.
  Proof. intros Q. apply there_tree, same_tree_sym, quiet_tree, Q. Qed.

  Lemma back_ok now c ci sid s t s' : c <> EmptyString -> back_channel_logout e now c ci sid s = (Ok t, s') ->
    logout_token e now c ci sid t.
  Proof.
    intros Nc E. unfold back_channel_logout in E. apply bind_ok in E as (alg & s0 & Ea & E). apply lift_ok in Ea as [Ea <-].
    apply bind_ok in E as (n & s1 & _ & E). apply lift_ok in E as [E _]. exists alg, n. eexists. split; [exact E|]. split.
    - destruct (c_idt_alg ci) as [a|]; [left; congruence|right; split; auto].
      destruct (e_idt_algs e) as [|a r]; [discriminate|]. exists r. congruence.
    - intros k v. unfold jwt_claims. assert (str_true c = true) as -> by (destruct c; [congruence|reflexivity]).
      cbn [Z.eqb dset String.eqb Ascii.eqb Bool.eqb]. split.
      + cbn [dget].
        repeat match goal with |- context [String.eqb ?a ?b] => destruct (String.eqb_spec a b); [subst|] end;
          intros X; try discriminate; injection X as <-; cbn [In]; tauto.
      + intros X. cbn [In] in X. repeat (destruct X as [X|X]; [injection X as <- <-; reflexivity|]). destruct X.
  Qed.

  Lemma single_ok now sid s ms s' : logout_from_client e now sid s = (Ok ms, s') ->
    exists u c g ci s1, dec_sid3 e sid = Ok (u, c, g) /\ dget (e_clients e) c = Some ci /\ quiet s s1
      /\ (c_bc_logout ci = true /\ (exists t, ms = [LBack c t] /\ (c <> EmptyString -> logout_token e now c ci sid t))
          \/ c_bc_logout ci = false /\ c_fc_logout ci = true /\ ms = [LFront c sid]
          \/ c_bc_logout ci = false /\ c_fc_logout ci = false /\ ms = [])
      /\ there s u c /\ revokes (touch s1 u c) s1 s'.
  Proof.
    unfold logout_from_client. intros E.
    apply bind_ok in E as (i & s0 & E0 & E). pose proof (reader_get_session_info _ _ _ _ _ E0). subst s0.
    unfold get_session_info in E0. apply bind_ok in E0 as ([[u c] g] & s0 & D & E0). apply lift_ok in D as [D _].
    apply bind_ok in E0 as (l & s4 & _ & E0). apply ret_ok in E0 as [<- _]. cbn [ss_client] in E.
    apply bind_ok in E as (ci & s5 & Ec & E). destruct (dget (e_clients e) c) as [ci0|] eqn:Dc; [|discriminate].
    apply ret_ok in Ec as [<- <-].
    apply bind_ok in E as (m & s1 & Em & E). apply bind_ok in E as ([] & s2 & Er & E). apply ret_ok in E as [<- <-].
    exists u, c, g, ci0, s1. split; auto. split; auto.
    assert (quiet s s1) as Q.
    { destruct (c_bc_logout ci0).
      - apply bind_ok in Em as (t & s3 & Eb & Em). apply ret_ok in Em as [_ <-]. eapply quiet_back; eauto.
      - destruct (c_fc_logout ci0); apply ret_ok in Em as [_ <-]; apply quiet_refl. }
    split; auto. split.
    { destruct (c_bc_logout ci0).
      - apply bind_ok in Em as (t & s3 & Eb & Em). apply ret_ok in Em as [<- _]. left. split; auto. exists t. split; auto.
        intros N. eapply back_ok; eauto.
      - destruct (c_fc_logout ci0); apply ret_ok in Em as [<- _]; auto. }
    cbn [clean_sessions] in Er. apply bind_ok in Er as ([] & s3 & Er & E). apply ret_ok in E as [_ <-].
    apply revoke_client_touch in Er as (u1 & c1 & rest & D1 & Th & R). rewrite (apart_two _ _ _ _ D) in D1.
    injection D1 as <- <- <-. split; auto. eapply there_quiet; eauto.
  Qed.

  (** *** From every client *)
  Lemma last_issued_some g tc t : last_issued g tc = Some t -> In t (g_tokens g) /\ t_class t = tc.
  Proof.
    unfold last_issued. assert (forall ts acc,
      fold_left (fun acc t => if String.eqb (t_class t) tc then
        match acc with None => Some t | Some r => if (t_issued r <? t_issued t)%Z then Some t else acc end
        else acc) ts acc = Some t -> acc = Some t \/ (In t ts /\ t_class t = tc)) as K.
    { induction ts as [|x ts IH]; intros acc H; [auto|]. cbn [fold_left] in H. apply IH in H as [H|[H1 H2]].
      - destruct (String.eqb (t_class x) tc) eqn:C; [|auto]. apply seqb_eq in C.
        destruct acc as [r|]; [destruct (_ <? _)%Z|]; try (injection H as <-; right; split; auto; now left). auto.
      - right. split; auto. now right. }
    intros H. apply K in H as [H|H]; [discriminate|auto].
  Qed.
  Lemma last_issued_none g tc t : In t (g_tokens g) -> t_class t = tc -> last_issued g tc <> None.
  Proof.
    unfold last_issued. assert (forall ts acc, acc <> None \/ (In t ts /\ t_class t = tc) ->
      fold_left (fun acc t => if String.eqb (t_class t) tc then
        match acc with None => Some t | Some r => if (t_issued r <? t_issued t)%Z then Some t else acc end
        else acc) ts acc <> None) as K.
    { induction ts as [|x ts IH]; intros acc H; cbn [fold_left]; [destruct H as [H|[[] _]]; auto|].
      apply IH. destruct H as [H|[[<-|H] C]]; auto.
      - left. destruct (String.eqb (t_class x) tc); auto. destruct acc as [r|]; [|congruence].
        destruct (_ <? _)%Z; congruence.
      - left. rewrite C, String.eqb_refl. destruct acc as [r|]; [|congruence]. destruct (_ <? _)%Z; congruence. }
    intros H1 H2. apply K. auto.
  Qed.

  (** The session of [u] with [c] is one whose client can be told of a log-out:
      a grant in it has given an ID token. *)
  Definition has_idt (s : st) (u c : string) : Prop :=
    exists gid l g t, reads s [u; c; gid] l /\ hp s l = Some (OGrant g) /\ In t (g_tokens g) /\ t_class t = IDTOKEN.

  Definition idt_in (s : st) (u c gid sid : string) : Prop :=
    exists l g t, reads s [u; c; gid] l /\ hp s l = Some (OGrant g) /\ In t (g_tokens g) /\ t_class t = IDTOKEN
      /\ t_sid t = sid.

  Lemma idt_ok s u c gids r s' : Inv e s -> apart u c -> (forall g, In g gids -> ~ occurs_in ";;" g) ->
    idt_session u c gids s = (Ok r, s') ->
    (forall sid, r = Some sid -> exists gid, In gid gids /\ dec_sid3 e sid = Ok (u, c, gid) /\ idt_in s u c gid sid)
    /\ (r = None -> forall gid l g t, In gid gids -> reads s [u; c; gid] l -> hp s l = Some (OGrant g) ->
          In t (g_tokens g) -> t_class t = IDTOKEN -> False).
  Proof.
    intros Iv Ap. revert r s'. induction gids as [|gid gids IH]; intros r s' Cl E; cbn [idt_session] in E.
    - apply ret_ok in E as [<- _]. split; [discriminate|]. intros _ gid l g t [].
    - apply bind_ok in E as (l & s0 & El & E). pose proof (reader_db_get _ _ _ _ El). subst s0.
      apply bind_ok in E as (g & s0 & Eg & E). pose proof (reader_grant_at _ _ _ _ Eg). subst s0.
      assert (owns e s l u c gid) as (g0 & Hg & Id & Bl).
      { eapply db_get_owns; [exact Iv| |exact El]. apply Ap, Cl. now left. }
      assert (g = g0) as ->.
      { unfold grant_at, bind in Eg. rewrite (deref_some _ _ _ Hg) in Eg. apply ret_ok in Eg as [<- _]. reflexivity. }
      assert (forall gid', In gid' gids -> ~ occurs_in ";;" gid') as Cl' by (intros; apply Cl; now right).
      pose proof Bl as (ar & ae & _ & _ & Ae & _). rewrite Ae in E.
      destruct (last_issued g0 IDTOKEN) as [t|] eqn:Lt.
      + apply ret_ok in E as [<- _]. split; [|discriminate]. intros sid X. injection X as <-.
        apply last_issued_some in Lt as [It Ct]. destruct (gi_sid _ _ (inv_grants _ _ Iv _ _ Hg) _ It Ct) as (u1 & c1 & D & B1).
        destruct (belongs_same _ _ _ _ _ Bl B1) as [<- <-]. exists gid. split; [now left|]. split; [congruence|].
        exists l, g0, t. auto.
      + destruct (IH r s' Cl' E) as [A B]. split.
        * intros sid X. destruct (A _ X) as (g1 & I1 & D1 & T1). exists g1. split; auto. now right.
        * intros X gid' l' g' t' [<-|I'] R' H' It' Ct'; [|eapply B; eauto].
          assert (l' = l) as -> by (eapply reads_same; eauto). assert (g' = g0) as -> by congruence.
          eapply last_issued_none in Lt; eauto.
  Qed.

  Definition reads_to (s : st) (u c : string) : Prop := exists l, reads s [u; c] l.
  (** The messages that log-out collects, and the session ids that go with
      them. *)
  Definition tells (now : Z) (s : st) (u : string) (sid : string) (m : lmsg) : Prop :=
    exists c gid ci, for_client m c /\ dec_sid3 e sid = Ok (u, c, gid) /\ dget (e_clients e) c = Some ci
      /\ idt_in s u c gid sid
      /\ match m with
         | LBack _ t => c_bc_logout ci = true /\ logout_token e now c ci sid t
         | LFront _ sid' => c_bc_logout ci = false /\ c_fc_logout ci = true /\ sid' = sid
         end.
  Lemma tells_quiet now u s s1 sids ms : quiet s s1 -> Forall2 (tells now s1 u) sids ms -> Forall2 (tells now s u) sids ms.
  Proof.
    intros Q F. induction F as [|x m xs ms (c & gid & ci & A & B & C & T & D) F IH]; constructor; auto.
    exists c, gid, ci. do 3 (split; auto). split; auto. destruct T as (l & g & t & R & H & Y). exists l, g, t.
    split; [eapply same_tree_reads3; [apply same_tree_sym, quiet_tree, Q|exact R]|]. split; auto.
    destruct Q as (Q1 & Q2 & _). unfold hp in *. now rewrite <- Q1.
  Qed.
  Hypothesis Gc : forall c ci, dget (e_clients e) c = Some ci -> good_id c.

  Lemma apart_any u c c0 g0 sid : dec_sid3 e sid = Ok (u, c0, g0) -> good_id c -> apart u c.
  Proof.
    intros D (N1 & N2 & N3) g Ng. apply dec_sid3_separable in D as [A B]. split.
    - intros x [<-|[<-|[<-|[]]]]; auto. apply A. now left.
    - intros pre x y post X. destruct pre as [|p0 [|p1 pre]]; cbn in X.
      + injection X as <- _ _. apply (B [] u c0 [g0]). reflexivity.
      + injection X as _ <- _ _. exact N3.
      + injection X as _ _ X. destruct pre as [|? pre]; [discriminate|]. destruct pre; discriminate.
  Qed.

  Lemma collect_ok now u c0 g0 sid0 cids : dec_sid3 e sid0 = Ok (u, c0, g0) -> forall s r s', Inv e s ->
    collect_logouts e now u cids s = (Ok r, s') ->
    Forall2 (tells now s u) (fst r) (snd r)
    /\ (forall c ci, In c cids -> dget (e_clients e) c = Some ci -> c_bc_logout ci || c_fc_logout ci = true ->
          has_idt s u c -> exists m, In m (snd r) /\ for_client m c)
    /\ (forall c m, In m (snd r) -> for_client m c -> In c cids).
  Proof.
    intros D0. induction cids as [|c cids IH]; intros s r s' Iv E; cbn [collect_logouts] in E.
    - apply ret_ok in E as [<- _]. split; [constructor|]. split; [intros c ci []|intros c m []].
    - apply bind_ok in E as (ci & s0 & Ec & E). destruct (dget (e_clients e) c) as [ci0|] eqn:Dc; [|discriminate].
      apply ret_ok in Ec as [<- <-].
      apply bind_ok in E as (here & s1 & Eh & E). apply bind_ok in E as (rest & s2 & Er & E). apply ret_ok in E as [<- <-].
      pose proof (apart_any _ _ _ _ _ D0 (Gc _ _ Dc)) as Ap.
      assert (quiet s s1 /\ Forall2 (tells now s u) (fst here) (snd here)
        /\ (c_bc_logout ci0 || c_fc_logout ci0 = true -> has_idt s u c -> exists m, In m (snd here) /\ for_client m c)
        /\ (forall c' m, In m (snd here) -> for_client m c' -> c' = c)) as (Q & F & Cm & On).
      { destruct (c_bc_logout ci0 || c_fc_logout ci0) eqn:Bf.
        2:{ apply ret_ok in Eh as [<- <-]. split; [apply quiet_refl|]. split; [constructor|]. split; [discriminate|intros c' m []]. }
        apply bind_ok in Eh as (cl & s3 & Ecl & Eh). pose proof (reader_db_get _ _ _ _ Ecl). subst s3.
        apply bind_ok in Eh as (gids & s3 & Es & Eh). apply subordinate_ok in Es as (-> & i & Hi & ->).
        apply bind_ok in Eh as (o & s3 & Ei & Eh). pose proof (reader_idt _ _ _ _ _ _ Ei). subst s3.
        assert (forall g, In g (si_sub i) -> ~ occurs_in ";;" g) as Cl by (intros g Ig; apply (inv_sub _ _ Iv _ _ _ Hi Ig)).
        destruct (idt_ok _ _ _ _ _ _ Iv Ap Cl Ei) as [A B].
        destruct o as [sid|].
        - destruct (A _ eq_refl) as (gid & Ig & D & T). clear A B. destruct (c_bc_logout ci0) eqn:Bc.
          + apply bind_ok in Eh as (t & s3 & Eb & Eh). apply ret_ok in Eh as [<- <-].
            split; [eapply quiet_back; eauto|]. cbn. split.
            { constructor; [|constructor]. exists c, gid, ci0. cbn. do 4 (split; auto). split; auto.
              eapply back_ok; eauto. apply (Gc _ _ Dc). }
            split; [intros _ _; exists (LBack c t); cbn; auto|]. intros c' m [<-|[]]; cbn. auto.
          + cbn in Bf. apply ret_ok in Eh as [<- <-]. split; [apply quiet_refl|]. cbn. split.
            { constructor; [|constructor]. exists c, gid, ci0. cbn. auto 10. }
            split; [intros _ _; exists (LFront c sid); cbn; auto|]. intros c' m [<-|[]]; cbn. auto.
        - apply ret_ok in Eh as [<- <-]. split; [apply quiet_refl|]. split; [constructor|]. split; [|intros c' m []].
          intros _ (gid & l & g & t & R & H & It & Ct). exfalso. eapply (B eq_refl gid l g t); eauto.
          pose proof R as R'. apply reads_3 in R' as (cl' & i' & R2 & H2 & Ig & _).
          assert (cl' = cl) as -> by (eapply reads_same; eauto). assert (i' = i) as -> by congruence. exact Ig. }
      assert (Inv e s1) as Iv1 by (eapply quiet_inv; eauto).
      destruct (IH _ _ _ Iv1 Er) as (F2 & C2 & O2). cbn. split; [apply Forall2_app; auto; eapply tells_quiet; eauto|]. split.
      + intros c' ci' [<-|I'] Dc' B' X.
        * assert (ci' = ci0) as -> by congruence. destruct (Cm B' X) as (m & Im & Fm). exists m. split; auto. apply in_or_app; auto.
        * destruct (C2 c' ci' I' Dc' B') as (m & Im & Fm).
          { destruct X as (gid & l & g & t & R & H & Y). exists gid, l, g, t. split; [eapply same_tree_reads3; eauto using quiet_tree|].
            split; auto. destruct Q as (Q1 & Q2 & _). unfold hp in *. now rewrite Q1. }
          exists m. split; auto. apply in_or_app; auto.
      + intros c' m Im Fm. apply in_app_or in Im as [Im|Im]; [left; symmetry; eauto|right; eauto].
  Qed.

  Lemma all_ok now sid0 s ms s' : Inv e s -> logout_all_clients e now sid0 s = (Ok ms, s') ->
    exists u c0 g0 sids s1, dec_sid3 e sid0 = Ok (u, c0, g0) /\ quiet s s1 /\ Forall2 (tells now s u) sids ms
      /\ (forall c ci, reads_to s u c -> dget (e_clients e) c = Some ci -> c_bc_logout ci || c_fc_logout ci = true ->
            has_idt s u c -> exists m, In m ms /\ for_client m c)
      /\ (forall sid, In sid sids -> exists u c rest, dec_sid e sid = Ok (u :: c :: rest) /\ there s1 u c)
      /\ revokes (touched e sids s1) s1 s'.
  Proof.
    intros Iv E. unfold logout_all_clients in E.
    apply bind_ok in E as ([[u c0] g0] & s0 & D & E). apply lift_ok in D as [D <-].
    apply bind_ok in E as (ul & s0 & E1 & E). pose proof (reader_db_get _ _ _ _ E1). subst s0.
    apply bind_ok in E as (x1 & s0 & E2 & E). pose proof (reader_db_get _ _ _ _ E2). subst s0.
    apply bind_ok in E as (x2 & s0 & E3 & E). pose proof (reader_db_get _ _ _ _ E3). subst s0.
    apply bind_ok in E as (cids & s0 & Es & E). apply subordinate_ok in Es as (-> & i & Hi & ->).
    apply bind_ok in E as (r & s1 & Ec & E). apply bind_ok in E as ([] & s2 & Er & E). apply ret_ok in E as [<- <-].
    pose proof (collect_ok _ _ _ _ _ _ D _ _ _ Iv Ec) as (F & C & _).
    apply clean_ok in Er as (A & R).
    exists u, c0, g0, (fst r), s1. split; auto. split; [eapply quiet_collect; eauto|]. split; auto. split; auto.
    intros c ci (l & Rd). apply C. apply reads_2 in Rd as (ul' & j & G & H & Ij & _).
    assert (ul' = ul) as ->.
    { unfold db_get in E1. cbn [eval_path] in E1. unfold bind at 1, lift in E1. rewrite db_lookup_bind, G in E1.
      unfold bind in E1. rewrite (deref_some _ _ _ H) in E1. apply ret_ok in E1 as [E1 _]. exact E1. }
    congruence.
  Qed.

  (** *** In histories *)
  Lemma logout_step h now sid alla r h1 : step e h (OLogout now sid alla) = (EvLogout r, h1) ->
    exists s', do_verified_logout e now sid alla (h_st h) = (r, s') /\ h1 = mk_hst s' (h_parsed h).
  Proof.
    cbn [step]. unfold on_st. destruct (do_verified_logout e now sid alla (h_st h)) as [r' s'].
    intros E. injection E as -> <-. eauto.
  Qed.
  Lemma rvk_ext (P Q : nat -> Prop) s s' : (forall l, P l <-> Q l) -> rvk P s s' -> rvk Q s s'.
  Proof.
    intros E (A & B & C). split; auto. split; [intros l q; apply B, E, q|].
    intros l. destruct (C l); auto. right. now apply E.
  Qed.
  Lemma single_rvk now sid s ms s' u c g : dec_sid3 e sid = Ok (u, c, g) ->
    do_verified_logout e now sid false s = (Ok ms, s') -> there s u c /\ rvk (touch s u c) s s'
    /\ exists ci, dget (e_clients e) c = Some ci
      /\ (c_bc_logout ci = true /\ (exists t, ms = [LBack c t] /\ (c <> EmptyString -> logout_token e now c ci sid t))
          \/ c_bc_logout ci = false /\ c_fc_logout ci = true /\ ms = [LFront c sid]
          \/ c_bc_logout ci = false /\ c_fc_logout ci = false /\ ms = []).
  Proof.
    intros D E. apply single_ok in E as (u1 & c1 & g1 & ci & s1 & D1 & Dc & Q & M & Th & R).
    rewrite D in D1. injection D1 as <- <- <-. split; auto. split; [|eauto].
    eapply rvk_ext; [|eapply quiet_rvk; eauto]. intros l. now apply touch_quiet.
  Qed.
  Lemma single_final ops1 evs1 h now sid u c g ms ops2 evs2 h' :
    history e ops1 evs1 h -> dec_sid3 e sid = Ok (u, c, g) -> Forall (proper e) ops2 ->
    exec e h (OLogout now sid false :: ops2) = (EvLogout (Ok ms) :: evs2, h') ->
    ended h h' u c /\ record_revoked h h' u c.
  Proof.
    intros Hi D Po E. pose proof (history_hi e W _ _ _ Hi) as Hh.
    apply exec_cons in E as (ev & h1 & evs' & Es & E & X). injection X as <- <-.
    assert (HI e h1) as H1 by (refine (proj1 (step_keeps e W _ _ _ _ Hh _ Es)); exact Logic.I).
    apply logout_step in Es as (s' & Er & ->). destruct (single_rvk _ _ _ _ _ _ _ _ D Er) as (Th & R & _).
    split.
    - eapply ended_later; eauto. eapply revokes_ended; eauto. eapply apart_3; eauto.
    - eapply record_later; eauto. eapply revokes_record; eauto.
  Qed.
  Lemma single_reports ops1 evs1 h now sid u c g ms ops2 evs2 h' sid' g' b s :
    history e ops1 evs1 h -> dec_sid3 e sid = Ok (u, c, g) ->
    Forall (proper e) ops2 -> (forall o, In o ops2 -> ~ deletes o) ->
    exec e h (OLogout now sid false :: ops2) = (EvLogout (Ok ms) :: evs2, h') ->
    dec_sid3 e sid' = Ok (u, c, g') -> client_session_is_revoked e sid' (h_st h') = (Ok b, s) -> b = true.
  Proof.
    intros Hi D Po Nd E D' X. pose proof (history_hi e W _ _ _ Hi) as Hh.
    apply exec_cons in E as (ev & h1 & evs' & Es & E & Y). injection Y as <- <-.
    assert (HI e h1) as H1 by (refine (proj1 (step_keeps e W _ _ _ _ Hh _ Es)); exact Logic.I).
    apply logout_step in Es as (s' & Er & ->). destruct (single_rvk _ _ _ _ _ _ _ _ D Er) as (Th & R & _).
    eapply (lasting_report h _ ops2 evs2 h' u c true sid' g'); eauto.
    - eapply sep_2, dec_sid3_separable; eauto.
    - discriminate.
    - apply R.
    - eapply revokes_record; eauto.
  Qed.
  Lemma single_told ops1 evs1 h now sid u c g ms h1 :
    history e ops1 evs1 h -> dec_sid3 e sid = Ok (u, c, g) ->
    step e h (OLogout now sid false) = (EvLogout (Ok ms), h1) ->
    confined e h h1 (fun u' c' => u' = u /\ c' = c)
    /\ exists ci, dget (e_clients e) c = Some ci
      /\ (c_bc_logout ci = true /\ (exists t, ms = [LBack c t] /\ (c <> EmptyString -> logout_token e now c ci sid t))
          \/ c_bc_logout ci = false /\ c_fc_logout ci = true /\ ms = [LFront c sid]
          \/ c_bc_logout ci = false /\ c_fc_logout ci = false /\ ms = []).
  Proof.
    intros Hi D E. pose proof (history_hi e W _ _ _ Hi) as Hh.
    apply logout_step in E as (s' & Er & ->). destruct (single_rvk _ _ _ _ _ _ _ _ D Er) as (Th & R & M).
    split; auto. eapply revokes_confined; [exact Hh| | |exact R].
    - intros u' c' [-> ->]. eapply apart_3; eauto.
    - intros l X. exists u, c. auto.
  Qed.

  Lemma tells_named now s u sids ms c' u' : Forall2 (tells now s u) sids ms ->
    named e sids u' c' <-> u' = u /\ exists m, In m ms /\ for_client m c'.
  Proof.
    intros F. split.
    - intros (sid & rest & I & D). apply In_nth_error in I as [n N].
      revert n N. induction F as [|x m xs ms (c & gid & ci & Fm & D3 & _) F IH]; intros n N; [destruct n; discriminate|].
      destruct n as [|n]; cbn in N.
      + injection N as ->. rewrite (apart_two _ _ _ _ D3) in D. injection D as <- <- _. split; auto. exists m. split; auto. now left.
      + destruct (IH _ N) as (A & m' & Im & Fm'). split; auto. exists m'. split; auto. now right.
    - intros (-> & m & Im & Fm). induction F as [|x m0 xs ms (c & gid & ci & Fm0 & D3 & _) F IH]; [destruct Im|].
      destruct Im as [->|Im].
      + assert (c' = c) as -> by (destruct m; cbn in *; congruence).
        exists x, [gid]. split; [now left|]. now apply apart_two.
      + destruct (IH Im) as (sid & rest & I & D). exists sid, rest. split; auto. now right.
  Qed.
  Lemma tells_client now s u sids ms m c : Forall2 (tells now s u) sids ms -> In m ms -> for_client m c ->
    exists ci, dget (e_clients e) c = Some ci
      /\ match m with
         | LBack _ t => c_bc_logout ci = true /\ exists gid sid, dec_sid3 e sid = Ok (u, c, gid)
             /\ idt_in s u c gid sid /\ logout_token e now c ci sid t
         | LFront _ sid => c_bc_logout ci = false /\ c_fc_logout ci = true
             /\ exists gid, dec_sid3 e sid = Ok (u, c, gid) /\ idt_in s u c gid sid
         end.
  Proof.
    intros F Im Fm. induction F as [|x m0 xs ms (c0 & gid & ci & Fm0 & D3 & Dc & T & M) F IH]; [destruct Im|].
    destruct Im as [->|Im]; auto. assert (c0 = c) as -> by (destruct m; cbn in *; congruence).
    exists ci. split; auto. destruct m; [destruct M; eauto 10|]. destruct M as (A & B & ->). eauto.
  Qed.

  Lemma all_rvk now sid s ms s' u c0 g0 : Inv e s -> dec_sid3 e sid = Ok (u, c0, g0) ->
    do_verified_logout e now sid true s = (Ok ms, s') ->
    (forall m c, In m ms -> for_client m c -> there s u c)
    /\ rvk (fun l => exists m c, In m ms /\ for_client m c /\ touch s u c l) s s'
    /\ (forall m c, In m ms -> for_client m c -> exists ci, dget (e_clients e) c = Some ci
          /\ match m with
             | LBack _ t => c_bc_logout ci = true /\ exists gid sid, dec_sid3 e sid = Ok (u, c, gid)
             /\ idt_in s u c gid sid /\ logout_token e now c ci sid t
             | LFront _ sid => c_bc_logout ci = false /\ c_fc_logout ci = true
                 /\ exists gid, dec_sid3 e sid = Ok (u, c, gid) /\ idt_in s u c gid sid
             end)
    /\ (forall c ci, reads_to s u c -> dget (e_clients e) c = Some ci -> c_bc_logout ci || c_fc_logout ci = true ->
            has_idt s u c -> exists m, In m ms /\ for_client m c).
  Proof.
    intros Iv D E. apply (all_ok _ _ _ _ _ Iv) in E as (u1 & c1 & g1 & sids & s1 & D1 & Q & F & C & A & R).
    rewrite D in D1. injection D1 as <- <- <-. split; [|split; [|split; auto]].
    - intros m c Im Fm. assert (named e sids u c) as (sid' & rest & I & D') by (eapply tells_named; eauto).
      destruct (A _ I) as (u2 & c2 & rest2 & D2 & Th). rewrite D' in D2. injection D2 as <- <- <-.
      eapply there_quiet; eauto.
    - eapply rvk_ext; [|eapply quiet_rvk; eauto]. intros l. split.
      + intros (u2 & c2 & N & X). apply (tells_named _ _ _ _ _ _ _ F) in N as (-> & m & Im & Fm).
        exists m, c2. split; auto. split; auto. now apply (touch_quiet _ _ _ _ _ Q).
      + intros (m & c2 & Im & Fm & X). exists u, c2. split; [eapply tells_named; eauto|]. now apply (touch_quiet _ _ _ _ _ Q).
    - intros m c. apply (tells_client _ _ _ _ _ _ _ F).
  Qed.
  Lemma all_final ops1 evs1 h now sid u c0 g0 ms ops2 evs2 h' m c :
    history e ops1 evs1 h -> dec_sid3 e sid = Ok (u, c0, g0) -> Forall (proper e) ops2 ->
    exec e h (OLogout now sid true :: ops2) = (EvLogout (Ok ms) :: evs2, h') ->
    In m ms -> for_client m c -> ended h h' u c /\ record_revoked h h' u c.
  Proof.
    intros Hi D Po E Im Fm. pose proof (history_hi e W _ _ _ Hi) as Hh.
    apply exec_cons in E as (ev & h1 & evs' & Es & E & X). injection X as <- <-.
    assert (HI e h1) as H1 by (refine (proj1 (step_keeps e W _ _ _ _ Hh _ Es)); exact Logic.I).
    apply logout_step in Es as (s' & Er & ->).
    destruct (all_rvk _ _ _ _ _ _ _ _ (hi_inv _ _ Hh) D Er) as (Th & R & Cl & _).
    destruct (Cl _ _ Im Fm) as (ci & Dc & _).
    split.
    - eapply ended_later; eauto. eapply revokes_ended; [exact Hh|eapply apart_any; eauto| |exact R]. cbn. eauto.
    - eapply record_later; eauto. eapply revokes_record; [eauto| |exact R]. cbn. eauto.
  Qed.
  Lemma all_reports ops1 evs1 h now sid u c0 g0 ms ops2 evs2 h' m c sid' g' b s :
    history e ops1 evs1 h -> dec_sid3 e sid = Ok (u, c0, g0) -> Forall (proper e) ops2 ->
    (forall o, In o ops2 -> ~ deletes o) ->
    exec e h (OLogout now sid true :: ops2) = (EvLogout (Ok ms) :: evs2, h') ->
    In m ms -> for_client m c -> 
    dec_sid3 e sid' = Ok (u, c, g') -> client_session_is_revoked e sid' (h_st h') = (Ok b, s) -> b = true.
  Proof.
    intros Hi D Po Nd E Im Fm D' X. pose proof (history_hi e W _ _ _ Hi) as Hh.
    apply exec_cons in E as (ev & h1 & evs' & Es & E & Y). injection Y as <- <-.
    assert (HI e h1) as H1 by (refine (proj1 (step_keeps e W _ _ _ _ Hh _ Es)); exact Logic.I).
    apply logout_step in Es as (s' & Er & ->).
    destruct (all_rvk _ _ _ _ _ _ _ _ (hi_inv _ _ Hh) D Er) as (Th & R & Cl & _).
    eapply (lasting_report h _ ops2 evs2 h' u c true sid' g'); eauto.
    - eapply sep_2, dec_sid3_separable; eauto.
    - discriminate.
    - apply R.
    - eapply revokes_record; [eauto| |exact R]. cbn. eauto.
  Qed.
  Lemma idt_in_spec h u c gid sid : idt_in (h_st h) u c gid sid -> in_id_token h u c gid sid.
  Proof. intros (l & g & t & R & H & It & Ct & Sd). exists g, t. split; [exists l; auto|]. auto. Qed.
  Lemma all_told ops1 evs1 h now sid u c0 g0 ms h1 :
    history e ops1 evs1 h -> dec_sid3 e sid = Ok (u, c0, g0) ->
    step e h (OLogout now sid true) = (EvLogout (Ok ms), h1) ->
    confined e h h1 (fun u' c => u' = u /\ exists m, In m ms /\ for_client m c)
    /\ (forall m c, In m ms -> for_client m c -> exists ci, dget (e_clients e) c = Some ci
          /\ match m with
             | LBack _ t => c_bc_logout ci = true /\ exists gid sid, dec_sid3 e sid = Ok (u, c, gid)
                 /\ in_id_token h u c gid sid /\ logout_token e now c ci sid t
             | LFront _ sid => c_bc_logout ci = false /\ c_fc_logout ci = true
                 /\ exists gid, dec_sid3 e sid = Ok (u, c, gid) /\ in_id_token h u c gid sid
             end)
    /\ (forall c ci gid g t, session_grant h u c gid g -> dget (e_clients e) c = Some ci ->
          c_bc_logout ci || c_fc_logout ci = true -> In t (g_tokens g) -> t_class t = IDTOKEN ->
          exists m, In m ms /\ for_client m c).
  Proof.
    intros Hi D E. pose proof (history_hi e W _ _ _ Hi) as Hh.
    apply logout_step in E as (s' & Er & ->).
    destruct (all_rvk _ _ _ _ _ _ _ _ (hi_inv _ _ Hh) D Er) as (Th & R & Cl & C).
    split; [|split].
    2:{ intros m c Im Fm. destruct (Cl m c Im Fm) as (ci & Dc & X). exists ci. split; auto. destruct m.
        - destruct X as (A & gid & sid1 & B & T & L). split; auto. exists gid, sid1. auto using idt_in_spec.
        - destruct X as (A & B & gid & D1 & T). split; auto. split; auto. exists gid. auto using idt_in_spec. }
    - eapply revokes_confined; [exact Hh| | |exact R].
      + intros u' c (-> & m & Im & Fm). destruct (Cl _ _ Im Fm) as (ci & Dc & _). eapply apart_any; eauto.
      + intros l (m & c & Im & Fm & X). exists u, c. split; [split; eauto|exact X].
    - intros c ci gid g t (l & Rd & H) Dc Bf It Ct. eapply C; eauto.
      + apply reads_3 in Rd as (cl & i & R2 & _). exists cl. exact R2.
      + exists gid, l, g, t. auto.
  Qed.
End Hist.
