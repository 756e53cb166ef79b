(** What revoking client sessions and logging out change. *)
From Verif Require Import M_Base M_Types M_Codec M_Grant M_Env M_Session M_Claims M_Handler
  M_Authz M_TokenEP M_PKCE M_AuthzEP M_Info M_Logout M_History S_Codec S_Grant S_Store S_History S_Logout
  L_Base L_Codec L_Monad L_Grant L_Claims L_Store L_Store3 L_Hist1 L_Hist2 L_Hist3 L_Hist4 L_Hist5 L_Hist8.

(** ** Reading the store *)

(** The same database, and records of the same kind with the same children. *)
Definition same_tree (s s' : st) : Prop :=
  s_db s' = s_db s /\ List.length (s_heap s') = List.length (s_heap s)
  /\ forall l o, hp s l = Some o -> exists o', hp s' l = Some o' /\ same_children o o'.
Lemma same_tree_refl s : same_tree s s.
Proof. split; auto. split; auto. intros l o H. exists o. split; auto. apply same_children_refl. Qed.

Lemma dset_id {V} (d : dict V) k v : dget d k = Some v -> dset d k v = d.
Proof.
  induction d as [|[k' v'] d IH]; cbn; [discriminate|]. destruct (String.eqb k k').
  - intros X. injection X as ->. reflexivity.
  - intros X. now rewrite IH.
Qed.

Lemma deref_some s l o : hp s l = Some o -> deref l s = (Ok o, s).
Proof. unfold deref, hp. now intros ->. Qed.
Lemma subordinate_info s l i : hp s l = Some (OInfo i) -> subordinate l s = (Ok (si_sub i), s).
Proof. intros H. unfold subordinate, bind. rewrite (deref_some _ _ _ H). reflexivity. Qed.
Lemma subordinate_ok s l x s' : subordinate l s = (Ok x, s') ->
  s' = s /\ exists i, hp s l = Some (OInfo i) /\ x = si_sub i.
Proof.
  unfold subordinate, bind, deref, hp. destruct (nth_error (s_heap s) l) as [[i|g|]|]; try discriminate.
  intros H. injection H as <- <-. eauto.
Qed.

Lemma reads_2 s u c l : reads s [u; c] l <->
  exists ul i, dget (s_db s) u = Some ul /\ hp s ul = Some (OInfo i) /\ In c (si_sub i)
    /\ dget (s_db s) (session_key [u; c]) = Some l.
Proof.
  unfold reads, db_get. cbn [eval_path]. unfold bind at 1, lift. rewrite db_lookup_bind. split.
  - destruct (dget (s_db s) u) as [ul|]; [|discriminate]. intros H. minv1 H.
    unfold deref in H0. fold (hp s ul) in H0. destruct (hp s ul) as [o|] eqn:Ho; [|discriminate]. injection H0 as <- <-.
    destruct o as [i|g|]; try discriminate.
    + minv1 H. apply subordinate_ok in H0 as (-> & i' & Hi & ->). rewrite Ho in Hi. injection Hi as <-.
      destruct (smem c (si_sub i)) eqn:Sc; cbn [negb] in H; [|discriminate]. rewrite db_lookup_bind in H.
      destruct (dget (s_db s) (session_key [u; c])) as [cl|]; [|discriminate]. injection H as <-.
      apply smem_In in Sc. exists ul, i. auto.
    + minv1 H. apply subordinate_ok in H0 as (-> & i' & Hi & ->). congruence.
  - intros (ul & i & -> & Hi & Ic & K). unfold bind at 1. rewrite (deref_some _ _ _ Hi).
    unfold bind at 1. rewrite (subordinate_info _ _ _ Hi).
    apply smem_In in Ic. rewrite Ic. cbn [negb]. rewrite db_lookup_bind, K. reflexivity.
Qed.
Lemma reads_3 s u c g l : reads s [u; c; g] l <->
  exists cl i, reads s [u; c] cl /\ hp s cl = Some (OInfo i) /\ In g (si_sub i)
    /\ dget (s_db s) (session_key [u; c; g]) = Some l.
Proof.
  split.
  - unfold reads, db_get. cbn [eval_path]. unfold bind at 1, lift. rewrite db_lookup_bind.
    destruct (dget (s_db s) u) as [ul|] eqn:Du; [|discriminate]. intros H. minv1 H.
    unfold deref in H0. fold (hp s ul) in H0. destruct (hp s ul) as [o|] eqn:Ho; [|discriminate]. injection H0 as <- <-.
    destruct o as [i|gr|]; try discriminate.
    2:{ minv1 H. apply subordinate_ok in H0 as (-> & i' & Hi & ->). congruence. }
    minv1 H. apply subordinate_ok in H0 as (-> & i' & Hi & ->). rewrite Ho in Hi. injection Hi as <-.
    destruct (smem c (si_sub i)) eqn:Sc; cbn [negb] in H; [|discriminate]. rewrite db_lookup_bind in H.
    destruct (dget (s_db s) (session_key [u; c])) as [cl|] eqn:Dc; [|discriminate].
    minv1 H. apply subordinate_ok in H0 as (-> & j & Hj & ->).
    destruct (smem g (si_sub j)) eqn:Sg; cbn [negb] in H; [|discriminate]. rewrite db_lookup_bind in H.
    destruct (dget (s_db s) (session_key [u; c; g])) as [gl|] eqn:Dg; [|discriminate]. injection H as <-.
    apply smem_In in Sg, Sc. exists cl, j. split; auto. apply reads_2. eauto 6.
  - intros (cl & i & R & Hi & Ig & K). apply reads_2 in R as (ul & j & Du & Hj & Ic & Kc).
    unfold reads, db_get. cbn [eval_path]. unfold bind at 1, lift. rewrite db_lookup_bind, Du.
    unfold bind at 1. rewrite (deref_some _ _ _ Hj). unfold bind at 1. rewrite (subordinate_info _ _ _ Hj).
    apply smem_In in Ic, Ig. rewrite Ic. cbn [negb]. rewrite db_lookup_bind, Kc.
    unfold bind at 1. rewrite (subordinate_info _ _ _ Hi). rewrite Ig. cbn [negb].
    rewrite db_lookup_bind, K. reflexivity.
Qed.

Lemma same_tree_info s s' l i : same_tree s s' -> hp s l = Some (OInfo i) ->
  exists i', hp s' l = Some (OInfo i') /\ si_sub i' = si_sub i.
Proof.
  intros (_ & _ & H) E. destruct (H _ _ E) as (o & Ho & C). destruct o as [i'|g|]; cbn in C; try tauto. eauto.
Qed.
Lemma same_tree_reads2 s s' u c l : same_tree s s' -> reads s [u; c] l -> reads s' [u; c] l.
Proof.
  intros T R. apply reads_2 in R as (ul & i & A & B & C & D). apply reads_2.
  destruct (same_tree_info _ _ _ _ T B) as (i' & B' & S'). destruct T as (E & _). rewrite E, <- S' in *. eauto 6.
Qed.
Lemma same_tree_reads3 s s' u c g l : same_tree s s' -> reads s [u; c; g] l -> reads s' [u; c; g] l.
Proof.
  intros T R. apply reads_3 in R as (cl & i & A & B & C & D). apply reads_3.
  destruct (same_tree_info _ _ _ _ T B) as (i' & B' & S').
  pose proof (same_tree_reads2 _ _ _ _ _ T A) as A'. destruct T as (E & _). rewrite E, <- S' in *. eauto 6.
Qed.
Lemma same_tree_sym s s' : same_tree s s' -> same_tree s' s.
Proof.
  intros (A & B & C). split; auto. split; auto. intros l o' H.
  destruct (hp s l) as [o|] eqn:Ho.
  - destruct (C _ _ Ho) as (o2 & H2 & S). rewrite H in H2. injection H2 as <-. exists o. split; auto.
    destruct o, o'; cbn in *; auto.
  - exfalso. unfold hp in *. apply nth_error_None in Ho. rewrite <- B in Ho. apply nth_error_None in Ho. congruence.
Qed.
Lemma same_tree_trans a b c : same_tree a b -> same_tree b c -> same_tree a c.
Proof.
  intros (A & B & C) (A' & B' & C'). split; [congruence|]. split; [congruence|]. intros l o H.
  destruct (C _ _ H) as (o1 & H1 & S1). destruct (C' _ _ H1) as (o2 & H2 & S2). exists o2. split; auto.
  destruct o, o1, o2; cbn in *; auto; congruence || tauto.
Qed.

(** ** Revoking *)

Lemma revoke_obj_twice o : revoke_obj (revoke_obj o) = revoke_obj o.
Proof. destruct o as [i|g|]; auto. Qed.
Lemma same_tree_revoke s l : same_tree s (mk_st (upd_nth l revoke_obj (s_heap s)) (s_db s) (s_ctr s) (s_always s)).
Proof.
  split; auto. split; [cbn; apply upd_nth_length|]. intros l' o H.
  destruct (Nat.eq_dec l' l) as [->|N].
  - exists (revoke_obj o). rewrite hp_upd_same, H. split; auto. apply revoke_obj_same.
  - exists o. rewrite hp_upd_other by auto. split; auto. apply same_children_refl.
Qed.

(** [s'] is [s], with the records at the places in [P] revoked. *)
Definition revokes (P : nat -> Prop) (s s' : st) : Prop :=
  same_tree s s' /\ s_ctr s' = s_ctr s /\ s_always s' = s_always s
  /\ (forall l, P l -> hp s' l = option_map revoke_obj (hp s l))
  /\ (forall l, ~ P l -> hp s' l = hp s l)
  /\ (forall l, hp s' l = hp s l \/ (P l /\ hp s' l = option_map revoke_obj (hp s l))).

Lemma revokes_refl s (P : nat -> Prop) : (forall l, ~ P l) -> revokes P s s.
Proof.
  intros N. split; [apply same_tree_refl|]. split; auto. split; auto. split; [intros l H; destruct (N _ H)|]. auto.
Qed.
Lemma revokes_trans (P Q : nat -> Prop) a b c : (forall l, P l \/ ~ P l) -> (forall l, Q l \/ ~ Q l) ->
  revokes P a b -> revokes Q b c -> revokes (fun l => P l \/ Q l) a c.
Proof.
  intros DP DQ (A1 & A2 & A3 & A4 & A5 & A6) (B1 & B2 & B3 & B4 & B5 & B6).
  assert (forall l, P l \/ Q l -> hp c l = option_map revoke_obj (hp a l)) as K.
  { intros l H. destruct (DP l) as [p|p], (DQ l) as [q|q].
    - rewrite (B4 _ q), (A4 _ p). destruct (hp a l); cbn; auto. now rewrite revoke_obj_twice.
    - rewrite (B5 _ q). auto.
    - rewrite (B4 _ q), (A5 _ p). auto.
    - tauto. }
  split; [eapply same_tree_trans; eauto|]. split; [congruence|]. split; [congruence|]. split; [exact K|].
  split.
  - intros l N. rewrite B5, A5 by tauto. auto.
  - intros l. destruct (DP l) as [p|p]; [right; auto|]. destruct (DQ l) as [q|q]; [right; auto|].
    left. rewrite B5, A5; auto.
Qed.
Lemma revokes_one s l : revokes (fun l' => l' = l) s
  (mk_st (upd_nth l revoke_obj (s_heap s)) (s_db s) (s_ctr s) (s_always s)).
Proof.
  split; [apply same_tree_revoke|]. split; auto. split; auto.
  assert (forall l', l' = l -> hp (mk_st (upd_nth l revoke_obj (s_heap s)) (s_db s) (s_ctr s) (s_always s)) l'
            = option_map revoke_obj (hp s l')) as A.
  { intros l' ->. now rewrite hp_upd_same. }
  assert (forall l', l' <> l -> hp (mk_st (upd_nth l revoke_obj (s_heap s)) (s_db s) (s_ctr s) (s_always s)) l'
            = hp s l') as B by (intros; apply hp_upd_other; auto).
  split; auto. split; auto. intros l'. destruct (Nat.eq_dec l' l); auto.
Qed.
Lemma revokes_ext (P Q : nat -> Prop) s s' : (forall l, P l <-> Q l) -> revokes P s s' -> revokes Q s s'.
Proof.
  intros E (A & B & C & D & F & G). split; auto. split; auto. split; auto.
  split; [intros; apply D; apply E; auto|]. split; [intros l N; apply F; rewrite E; auto|].
  intros l. destruct (G l) as [X|[X Y]]; auto. right. split; auto. now apply E.
Qed.
Lemma revokes_tree P s s' : revokes P s s' -> same_tree s s'.
Proof. intros H. apply H. Qed.

Lemma reads_dec s p l : reads s p l \/ ~ reads s p l.
Proof.
  destruct (db_get_cases p s) as [[l' R]|[x R]].
  - destruct (Nat.eq_dec l l') as [->|N]; auto. right. unfold reads in *. congruence.
  - right. unfold reads in *. congruence.
Qed.
Lemma some_reads_dec s u c gids l :
  (exists g, In g gids /\ reads s [u; c; g] l) \/ ~ (exists g, In g gids /\ reads s [u; c; g] l).
Proof.
  induction gids as [|g gids [IH|IH]].
  - right. intros (g & [] & _).
  - left. destruct IH as (g' & I & R). exists g'. split; auto. now right.
  - destruct (reads_dec s [u; c; g] l) as [R|R].
    + left. exists g. split; auto. now left.
    + right. intros (g' & [<-|I] & R'); auto. apply IH. eauto.
Qed.

Lemma revoke_grants_ok u c gids : forall s s', revoke_grants u c gids s = (Ok tt, s') ->
  revokes (fun l => exists g, In g gids /\ reads s [u; c; g] l) s s'
  /\ forall g, In g gids -> exists l, reads s [u; c; g] l.
Proof.
  induction gids as [|g gids IH]; intros s s' H.
  - apply ret_ok in H as [_ <-]. split; [|intros g []]. apply revokes_refl. intros l (g & [] & _).
  - cbn [revoke_grants] in H. minv1 H. pose proof (reader_db_get _ _ _ _ H0). subst.
    rename a into l. rename H0 into R.
    minv1 H. pose proof (reader_deref _ _ _ _ H0). subst. rename a into o.
    assert (upd_obj l revoke_obj s = (Ok tt, mk_st (upd_nth l revoke_obj (s_heap s)) (s_db s) (s_ctr s) (s_always s))) as U
      by reflexivity.
    assert (revoke_grants u c gids (mk_st (upd_nth l revoke_obj (s_heap s)) (s_db s) (s_ctr s) (s_always s)) = (Ok tt, s')) as E.
    { destruct o; [| |discriminate H]; unfold bind in H; rewrite U in H; exact H. }
    apply IH in E as (Rv & All). pose proof (revokes_one s l) as R1. pose proof (revokes_tree _ _ _ R1) as T.
    assert (forall g' l', reads (mk_st (upd_nth l revoke_obj (s_heap s)) (s_db s) (s_ctr s) (s_always s)) [u; c; g'] l'
              <-> reads s [u; c; g'] l') as Re.
    { intros g' l'. split; [apply same_tree_reads3, same_tree_sym|apply same_tree_reads3]; auto. }
    split.
    + eapply revokes_ext; [|eapply revokes_trans; [| |exact R1|exact Rv]].
      * intros l'. split.
        -- intros [->|(g' & I & R')]; [exists g; split; [now left|exact R]|]. exists g'. split; [now right|]. now apply Re.
        -- intros (g' & [<-|I] & R').
           ++ left. unfold reads in R'. rewrite R in R'. congruence.
           ++ right. exists g'. split; auto. now apply Re.
      * intros l'. destruct (Nat.eq_dec l' l); auto.
      * intros l'. apply some_reads_dec.
    + intros g' [<-|I]; [exists l; exact R|]. destruct (All _ I) as (l' & R'). exists l'. now apply Re.
Qed.

(** What a completed revocation of a client session did. *)
Lemma revoke_client_ok e sid s s' : revoke_client_session e sid s = (Ok tt, s') ->
  exists u c rest l i, dec_sid e sid = Ok (u :: c :: rest) /\ List.length rest <= 1
    /\ reads s [u; c] l /\ hp s l = Some (OInfo i)
    /\ (forall g, In g (si_sub i) -> exists l', reads s [u; c; g] l')
    /\ revokes (fun l' => l' = l \/ exists g, In g (si_sub i) /\ reads s [u; c; g] l') s s'.
Proof.
  intros H. unfold revoke_client_session in H.
  apply bind_ok in H as (p & s1 & H0 & H). apply lift_ok in H0 as [D <-].
  apply bind_ok in H as ([u c] & s1 & H2 & H).
  assert (s1 = s /\ exists rest, p = u :: c :: rest /\ List.length rest <= 1) as (-> & rest & -> & Lr).
  { destruct p as [|a [|b [|d [|? ?]]]]; try discriminate H2; apply ret_ok in H2 as [E <-]; injection E as <- <-;
      split; auto; eexists; split; eauto; cbn; lia. }
  apply bind_ok in H as (l & s1 & R & H). pose proof (reader_db_get _ _ _ _ R). subst s1.
  apply bind_ok in H as (o & s1 & Ho & H). pose proof (reader_deref _ _ _ _ Ho). subst s1.
  unfold deref in Ho. fold (hp s l) in Ho. destruct (hp s l) as [o'|] eqn:Hl; [|discriminate]. injection Ho as ->.
  destruct o as [i|g|].
  2:{ apply bind_ok in H as (? & ? & _ & H). apply bind_ok in H as (? & ? & _ & H). apply bind_ok in H as (? & ? & _ & H).
      discriminate H. }
  2: discriminate H.
  exists u, c, rest, l, i. split; auto. split; auto. split; auto. split; auto.
  pose proof (revokes_one s l) as R1. pose proof (revokes_tree _ _ _ R1) as T.
  set (s1 := mk_st (upd_nth l revoke_obj (s_heap s)) (s_db s) (s_ctr s) (s_always s)) in *.
  apply bind_ok in H as ([] & s2 & H3 & H). assert (s2 = s1) as -> by (unfold upd_obj in H3; injection H3 as <-; reflexivity).
  pose proof (same_tree_reads2 _ _ _ _ _ T R) as R'.
  assert (db_set [u; c] l s1 = (Ok tt, s1)) as E.
  { pose proof R' as R2. apply reads_2 in R2 as (ul & j & A & B & C & K).
    unfold db_set. cbn [eval_path]. unfold bind at 1, lift. cbn [ostr_true ostr negb].
    unfold bind at 1. unfold ret at 1. destruct (str_true c) eqn:Tc.
    - cbv zeta. unfold bind at 1. unfold bind at 1.
      rewrite (get_or_self _ _ _ _ K). unfold db_put at 1. rewrite (dset_id _ _ _ K).
      replace (mk_st (s_heap s1) (s_db s1) (s_ctr s1) (s_always s1)) with s1 by (destruct s1; reflexivity).
      unfold bind at 1. rewrite (get_or_self _ _ _ _ A). unfold bind at 1. rewrite (subordinate_info _ _ _ B).
      apply smem_In in C. rewrite C. reflexivity.
    - unfold bind at 1. unfold ret at 1. unfold bind at 1. rewrite (get_or_self _ _ _ _ A). reflexivity. }
  apply bind_ok in H as ([] & s2 & H1 & H). rewrite E in H1. injection H1 as <-.
  apply bind_ok in H as (gids & s2 & H1 & H). apply subordinate_ok in H1 as (-> & j & Hj & ->).
  assert (si_sub j = si_sub i) as Ej.
  { unfold s1 in Hj. rewrite hp_upd_same, Hl in Hj. injection Hj as <-. reflexivity. }
  rewrite Ej in H. apply revoke_grants_ok in H as (Rv & All).
  assert (forall g' l', reads s1 [u; c; g'] l' <-> reads s [u; c; g'] l') as Re.
  { intros g' l'. split; [apply same_tree_reads3, same_tree_sym|apply same_tree_reads3]; auto. }
  split. { intros g I. destruct (All g I) as (l' & X). exists l'. now apply Re. }
  eapply revokes_ext; [|eapply revokes_trans; [| |exact R1|exact Rv]].
  - intros l'. split; (intros [->|(g & I & X)]; [now left|right; exists g; split; auto; now apply Re]).
  - intros l'. destruct (Nat.eq_dec l' l); auto.
  - intros l'. apply some_reads_dec.
Qed.
