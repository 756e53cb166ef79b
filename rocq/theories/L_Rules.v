(** Lemmas for usage rules. *)
From Verif Require Import M_Base M_Types M_Claims M_Rules S_Rules L_Base L_Monad L_Claims.

Lemma set_same l c s : l < List.length s -> nth_error (set_nth l c s) l = Some c.
Proof. revert l. induction s as [|x s IH]; intros [|l] H; cbn in *; try lia; auto. apply IH. lia. Qed.
Lemma set_other l l' c s : l' <> l -> nth_error (set_nth l c s) l' = nth_error s l'.
Proof. revert l l'. induction s as [|x s IH]; intros [|l] [|l'] H; cbn; try congruence; auto. Qed.
Lemma set_length l c s : List.length (set_nth l c s) = List.length s.
Proof. revert l. induction s as [|x s IH]; intros [|l]; cbn; auto. Qed.
Lemma app_old (s : mem) c l : l < List.length s -> nth_error (s ++ [c]) l = nth_error s l.
Proof. intros. now apply nth_error_app1. Qed.
Lemma app_new (s : mem) c : nth_error (s ++ [c]) (List.length s) = Some c.
Proof. rewrite nth_error_app2 by lia. now rewrite Nat.sub_diag. Qed.
Lemma some_lt (s : mem) l c : nth_error s l = Some c -> l < List.length s.
Proof. intros H. apply nth_error_Some. congruence. Qed.

Lemma alloc_run c s : alloc c s = (Ok (List.length s), s ++ [c]).
Proof. reflexivity. Qed.
Lemma fields_run l s d : nth_error s l = Some (CFields d) -> fields_at l s = (Ok d, s).
Proof. intros H. unfold fields_at, bind, get_st. rewrite H. reflexivity. Qed.
Lemma table_run l s d : nth_error s l = Some (CTable d) -> table_at l s = (Ok d, s).
Proof. intros H. unfold table_at, bind, get_st. rewrite H. reflexivity. Qed.
Lemma store_run l c s : store l c s = (Ok tt, set_nth l c s).
Proof. reflexivity. Qed.
Lemma fields_inv l s r s' : fields_at l s = (r, s') -> s' = s.
Proof.
  unfold fields_at, bind, get_st. destruct (nth_error s l) as [[d|d]|]; unfold ret, raise; congruence.
Qed.
Lemma table_inv l s r s' : table_at l s = (r, s') -> s' = s.
Proof.
  unfold table_at, bind, get_st. destruct (nth_error s l) as [[d|d]|]; unfold ret, raise; congruence.
Qed.

(** The copy: fresh, pairwise different dicts with the same content. *)
Lemma copy_ok d : forall s, (forall k l, In (k, l) d -> exists f, nth_error s l = Some (CFields f)) ->
  exists d' s', copy_entries d s = (Ok d', s') /\ dkeys d' = dkeys d
    /\ List.length s <= List.length s'
    /\ (forall l, l < List.length s -> nth_error s' l = nth_error s l)
    /\ NoDup (map snd d')
    /\ (forall k l', In (k, l') d' -> List.length s <= l' < List.length s')
    /\ (forall k, match dget d k, dget d' k with
                  | Some l, Some l' => nth_error s' l' = nth_error s l
                  | None, None => True
                  | _, _ => False end).
Proof.
  induction d as [|[k l] d IH]; intros s H; cbn [copy_entries].
  - exists [], s. do 4 (split; auto). split; [constructor|]. split; [intros ? ? []|]. intros k. exact Logic.I.
  - destruct (H k l (or_introl eq_refl)) as (f & Hf). pose proof (some_lt _ _ _ Hf) as L.
    rewrite (bind_run _ _ _ _ _ (fields_run _ _ _ Hf)). rewrite (bind_run _ _ _ _ _ (alloc_run _ _)).
    destruct (IH (s ++ [CFields f])) as (d' & s' & E & K & Ln & Old & Nd & Rg & Get).
    { intros k' l' I. destruct (H k' l' (or_intror I)) as (f' & Hf'). exists f'. rewrite app_old; auto. eapply some_lt; eauto. }
    rewrite app_length in *. cbn [List.length] in *.
    rewrite (bind_run _ _ _ _ _ E). exists ((k, List.length s) :: d'), s'. split; [reflexivity|].
    split; [cbn; f_equal; exact K|]. split; [lia|]. split; [intros x Lx; rewrite Old by lia; now apply app_old|].
    split. { cbn. constructor; auto. intros I. apply in_map_iff in I as ((k' & l') & X & I). apply Rg in I. cbn in X, I. lia. }
    split. { intros k' l' [I|I]; [injection I as <- <-; lia|apply Rg in I; lia]. }
    intros k'. cbn [dget]. destruct (String.eqb k' k) eqn:Ek.
    + rewrite Old by lia. rewrite app_new. now rewrite Hf.
    + specialize (Get k'). destruct (dget d k') as [x|] eqn:D, (dget d' k') as [y|]; auto. rewrite Get.
      apply app_old. destruct (H k' x) as (f' & Hf'); [right; now apply dget_In|]. eapply some_lt; eauto.
Qed.

(** The loop over the global classes. *)
Lemma override_ok per u : forall d s t,
  nth_error s u = Some (CTable t) -> NoDup (dkeys t) -> NoDup (dkeys d) -> NoDup (map snd d) ->
  (forall k l, In (k, l) d -> l <> u /\ dget t k = Some l /\ exists f, nth_error s l = Some (CFields f)) ->
  (forall k p, dget per k = Some p -> ~ In p (map snd d) /\ p <> u /\ exists f, nth_error s p = Some (CFields f)) ->
  exists s' t', override per u d s = (Ok tt, s') /\ nth_error s' u = Some (CTable t') /\ NoDup (dkeys t')
    /\ List.length s <= List.length s'
    /\ (forall l, l < List.length s -> l <> u -> ~ In l (map snd d) -> nth_error s' l = nth_error s l)
    /\ (forall k, ~ In k (dkeys d) -> dget t' k = dget t k)
    /\ (forall k l, In (k, l) d ->
          match dget per k with
          | None => dget t' k = Some l /\ nth_error s' l = nth_error s l
          | Some p => exists pf f, nth_error s p = Some (CFields pf) /\ nth_error s l = Some (CFields f)
              /\ (pf <> [] -> dget t' k = Some l /\ nth_error s' l = Some (CFields (dupdate f pf)))
              /\ (pf = [] -> exists e, dget t' k = Some e /\ nth_error s' e = Some (CFields []))
          end).
Proof.
  induction d as [|[k l] d IH]; intros s t Hu Nt Nd Nl Hd Hp; cbn [override].
  - exists s, t. do 3 (split; [auto; try reflexivity|]). split; [lia|]. split; [auto|]. split; [auto|]. intros ? ? [].
  - inversion Nd as [|? ? Nk Nd']; subst. inversion Nl as [|? ? Nkl Nl']; subst. cbn [fst snd dkeys map] in *.
    destruct (Hd k l (or_introl eq_refl)) as (Lu & Tk & f & Hf). pose proof (some_lt _ _ _ Hu) as Ltu. pose proof (some_lt _ _ _ Hf) as Ltl.
    (* the head, and what it leaves *)
    assert (exists s1 t1, (match dget per k with
        | None => ret tt
        | Some p => pf <- fields_at p ;;
            if list_true pf then f <- fields_at l ;; store l (CFields (dupdate f pf))
            else e <- alloc (CFields []) ;; t <- table_at u ;; store u (CTable (dset t k e))
        end) s = (Ok tt, s1) /\ nth_error s1 u = Some (CTable t1) /\ NoDup (dkeys t1)
      /\ List.length s <= List.length s1
      /\ (forall x, x < List.length s -> x <> u -> x <> l -> nth_error s1 x = nth_error s x)
      /\ (forall k', k' <> k -> dget t1 k' = dget t k')
      /\ match dget per k with
          | None => dget t1 k = Some l /\ nth_error s1 l = nth_error s l
          | Some p => exists pf, nth_error s p = Some (CFields pf)
              /\ (pf <> [] -> dget t1 k = Some l /\ nth_error s1 l = Some (CFields (dupdate f pf)))
              /\ (pf = [] -> exists e, List.length s <= e /\ dget t1 k = Some e /\ nth_error s1 e = Some (CFields []))
          end) as (s1 & t1 & E1 & Hu1 & Nt1 & Ln1 & Fr1 & Tk1 & Hk1).
    { destruct (dget per k) as [p|] eqn:Pk.
      - destruct (Hp k p Pk) as (_ & _ & pf & Hpf). rewrite (bind_run _ _ _ _ _ (fields_run _ _ _ Hpf)).
        destruct pf as [|x pf].
        + cbn [list_true]. rewrite (bind_run _ _ _ _ _ (alloc_run _ _)).
          assert (nth_error (s ++ [CFields []]) u = Some (CTable t)) as Hu' by (rewrite app_old; auto).
          rewrite (bind_run _ _ _ _ _ (table_run _ _ _ Hu')). rewrite store_run. eexists _, _. split; [reflexivity|].
          split; [apply set_same; rewrite app_length; lia|]. split; [now apply dset_keys_nodup|].
          split; [rewrite set_length, app_length; lia|].
          split; [intros y Ly Nu _; rewrite set_other by auto; now apply app_old|].
          split; [intros k' N; now apply dget_dset_other|]. exists []. split; [auto|]. split; [congruence|].
          intros _. exists (List.length s). split; [lia|]. split; [apply dget_dset_same|]. rewrite set_other by lia. apply app_new.
        + cbn [list_true]. rewrite (bind_run _ _ _ _ _ (fields_run _ _ _ Hf)). rewrite store_run. eexists _, _. split; [reflexivity|].
          split; [rewrite set_other by congruence; exact Hu|]. split; auto. split; [rewrite set_length; lia|].
          split; [intros y _ _ N; now apply set_other|]. split; auto. exists (x :: pf). split; auto. split; [|discriminate].
          intros _. split; auto. now apply set_same.
      - exists s, t. do 6 (split; auto). }
    rewrite (bind_run _ _ _ _ _ E1).
    destruct (IH s1 t1 Hu1 Nt1 Nd' Nl') as (s' & t' & E' & Hu' & Nt' & Ln' & Fr' & Tk' & Hk').
    { intros k' l' I. destruct (Hd k' l' (or_intror I)) as (A & B & f' & D). split; auto.
      assert (k' <> k) by (intros ->; apply Nk; apply (in_map fst) in I; exact I).
      assert (l' <> l) by (intros ->; apply Nkl; apply (in_map snd) in I; exact I).
      split; [rewrite Tk1; auto|]. exists f'. rewrite Fr1; auto. eapply some_lt; eauto. }
    { intros k' p Pk. destruct (Hp k' p Pk) as (A & B & f' & D). split; [intros I; apply A; now right|]. split; auto.
      exists f'. rewrite Fr1; auto; [eapply some_lt; eauto|]. intros ->. apply A. now left. }
    exists s', t'. split; [exact E'|]. split; auto. split; auto. split; [lia|].
    split. { intros x Lx Nu Ni. rewrite Fr' by (try lia; auto; intros ?; apply Ni; now right). apply Fr1; auto. intros ->. apply Ni. now left. }
    split. { intros k' N. rewrite Tk' by (intros ?; apply N; now right). apply Tk1. intros ->. apply N. now left. }
    intros k' l' [I|I].
    + injection I as <- <-. rewrite (Tk' k) by exact Nk. destruct (dget per k) as [p|] eqn:Pk.
      * destruct Hk1 as (pf & Hpf & A & B). exists pf, f. split; auto. split; auto. split.
        -- intros N. destruct (A N) as [A1 A2]. split; auto. rewrite Fr' by (try lia; auto). exact A2.
        -- intros N. destruct (B N) as (e & Le & B1 & B2). exists e. split; auto. rewrite Fr'; auto.
           ++ eapply some_lt; eauto.
           ++ lia.
           ++ intros I. apply in_map_iff in I as ((k2 & l2) & X & I). cbn in X. subst l2.
              destruct (Hd k2 e (or_intror I)) as (_ & _ & f2 & H2). apply some_lt in H2. lia.
      * destruct Hk1 as [A B]. split; auto. rewrite Fr' by (try lia; auto). exact B.
    + specialize (Hk' k' l' I).
      assert (k' <> k) by (intros ->; apply Nk; apply (in_map fst) in I; exact I).
      assert (l' <> l) by (intros ->; apply Nkl; apply (in_map snd) in I; exact I).
      destruct (Hd k' l' (or_intror I)) as (A & _ & f2 & H2).
      assert (nth_error s1 l' = nth_error s l') as X by (apply Fr1; auto; eapply some_lt; eauto).
      destruct (dget per k') as [p|] eqn:Pk.
      * destruct Hk' as (pf & f' & P1 & P2 & P3). exists pf, f'. rewrite X in P2. split; [|auto].
        destruct (Hp k' p Pk) as (Ni & Nu & f3 & H3). rewrite <- P1. symmetry. apply Fr1; auto; [eapply some_lt; eauto|].
        intros ->. apply Ni. now left.
      * now rewrite <- X.
Qed.

Lemma complete_ok u : forall per s t, nth_error s u = Some (CTable t) -> NoDup (dkeys t) ->
  exists s' t', complete u per s = (Ok tt, s') /\ nth_error s' u = Some (CTable t') /\ NoDup (dkeys t')
    /\ List.length s' = List.length s
    /\ (forall l, l <> u -> nth_error s' l = nth_error s l)
    /\ (forall k, dget t' k = match dget t k with Some l => Some l | None => dget per k end).
Proof.
  induction per as [|[k l] per IH]; intros s t Hu Nt; cbn [complete].
  - exists s, t. do 5 (split; auto). intros k. cbn. now destruct (dget t k).
  - rewrite (bind_run _ _ _ _ _ (table_run _ _ _ Hu)). destruct (dmem t k) eqn:Mk.
    + assert (forall X : M mem unit, (ret tt ;; X) s = X s) as R by reflexivity. rewrite R.
      destruct (IH s t Hu Nt) as (s' & t' & E & A & B & D & F & G). exists s', t'. do 5 (split; auto). intros k'. rewrite G. cbn.
      apply dmem_true in Mk as (v & Mk). destruct (String.eqb k' k) eqn:Ek; [|reflexivity]. apply seqb_eq in Ek. subst. now rewrite Mk.
    + rewrite (bind_run _ _ _ _ _ (store_run _ _ _)). apply dmem_false in Mk.
      destruct (IH (set_nth u (CTable (dset t k l)) s) (dset t k l)) as (s' & t' & E & A & B & D & F & G).
      { apply set_same. eapply some_lt; eauto. } { now apply dset_keys_nodup. }
      exists s', t'. split; auto. split; auto. split; auto. split; [rewrite D; apply set_length|].
      split; [intros x N; rewrite F by auto; now apply set_other|]. intros k'. rewrite G, dget_dset. cbn.
      destruct (String.eqb k' k) eqn:Ek; [|reflexivity]. apply seqb_eq in Ek. subst. now rewrite Mk.
Qed.

Lemma dget_unique {V} (d : dict V) k v : NoDup (dkeys d) -> In (k, v) d -> dget d k = Some v.
Proof.
  induction d as [|[k' v'] d IH]; intros N I; [destruct I|]. inversion N; subst. cbn. destruct I as [I|I].
  - injection I as -> ->. now rewrite String.eqb_refl.
  - destruct (String.eqb k k') eqn:E; [|auto]. apply seqb_eq in E. subst. elim H1. apply (in_map fst) in I. exact I.
Qed.

(** What a dict of rules holds does not depend on dicts it does not use. *)
Lemma rules_frame s s' l r : holds_rules s l r -> nth_error s' l = nth_error s l -> holds_rules s' l r.
Proof. intros (d & H & N & R) E. exists d. rewrite E. auto. Qed.
Lemma table_frame s s' l T : holds_table s l T ->
  (forall x, x < List.length s -> nth_error s' x = nth_error s x) -> holds_table s' l T.
Proof.
  intros (d & H & N & R) F. exists d. rewrite F by (eapply some_lt; eauto). split; auto. split; auto.
  intros tc. specialize (R tc). destruct (dget d tc) as [x|], (T tc) as [r|]; auto.
  eapply rules_frame; eauto. destruct R as (f & Hf & _). apply F. eapply some_lt; eauto.
Qed.

Lemma table_entries s l T d : holds_table s l T -> nth_error s l = Some (CTable d) ->
  NoDup (dkeys d) /\ (forall k x, In (k, x) d -> exists f, nth_error s x = Some (CFields f))
  /\ forall tc, match dget d tc, T tc with
                  | Some l', Some r => holds_rules s l' r
                  | None, None => True
                  | _, _ => False
                  end.
Proof.
  intros (d' & H & N & R) E. assert (d' = d) as -> by congruence. split; auto. split; auto.
  intros k x I. pose proof (dget_unique _ _ _ N I) as D. specialize (R k). rewrite D in R.
  destruct (T k); [|contradiction]. destruct R as (f & Hf & _). eauto.
Qed.

(** The copy of the global table. *)
Lemma start_ok C s G : global_table C s G ->
  exists u s1 d, (match rc_global C with Some g => deepcopy g | None => alloc (CTable []) end) s = (Ok u, s1)
    /\ List.length s <= u /\ (forall l, l < List.length s -> nth_error s1 l = nth_error s l)
    /\ nth_error s1 u = Some (CTable d) /\ holds_table s1 u G /\ NoDup (dkeys d) /\ NoDup (map snd d)
    /\ (forall k l, In (k, l) d -> List.length s <= l /\ l <> u).
Proof.
  unfold global_table. intros H. destruct (rc_global C) as [g|].
  - pose proof H as (d & Hd & _). destruct (table_entries _ _ _ _ H Hd) as (N & En & Gt).
    unfold deepcopy. rewrite (bind_run _ _ _ _ _ (table_run _ _ _ Hd)).
    destruct (copy_ok d s En) as (d' & s' & E & K & Ln & Old & Nl & Rg & Get). rewrite (bind_run _ _ _ _ _ E). rewrite alloc_run.
    assert (NoDup (dkeys d')) as Nd by now rewrite K.
    exists (List.length s'), (s' ++ [CTable d']), d'. split; [reflexivity|]. split; [lia|].
    split; [intros l L; rewrite app_old by lia; auto|]. split; [apply app_new|]. split.
    { exists d'. split; [apply app_new|]. split; auto. intros tc. specialize (Get tc). specialize (Gt tc).
      destruct (dget d tc) as [l|], (dget d' tc) as [l'|] eqn:D', (G tc) as [r|]; auto; try contradiction.
      destruct Gt as (f & Hf & Nf & Rf). exists f. split; [|auto]. rewrite app_old by (apply (Rg tc), dget_In; exact D'). now rewrite Get. }
    split; auto. split; auto. intros k l I. apply Rg in I. lia.
  - rewrite alloc_run. exists (List.length s), (s ++ [CTable []]), []. split; [reflexivity|]. split; [lia|].
    split; [intros; now apply app_old|]. split; [apply app_new|]. split.
    { exists []. split; [apply app_new|]. split; [constructor|]. intros tc. cbn. now rewrite H. }
    split; [constructor|]. split; [constructor|]. intros ? ? [].
Qed.

Lemma list_true_ne {A} (l : list A) : list_true l = true <-> l <> [].
Proof. destruct l; cbn; split; congruence. Qed.
Lemma dget_nil_none {V} (d : dict V) : (forall k, dget d k = None) -> d = [].
Proof. destruct d as [|[k v] d]; auto. intros H. specialize (H k). cbn in H. rewrite String.eqb_refl in H. discriminate. Qed.
Lemma dupdate_nodup {V} (f : dict V) : forall d, NoDup (dkeys d) -> NoDup (dkeys (dupdate d f)).
Proof.
  induction f as [|[k v] f IH]; intros d N; cbn; auto. apply IH. now apply dset_keys_nodup.
Qed.

Lemma ask_ok C s G c o : global_table C s G -> client_table C s c o -> c <> "" ->
  exists u s' T, ask_rules C c s = (Ok u, s') /\ holds_table s' u T
    /\ forall tc, merged (G tc) (match o with Some P => P tc | None => None end) (T tc).
Proof.
  intros HG HC Nc. destruct (start_ok C s G HG) as (u & s1 & d & E & Lu & Old & Hu & Tu & Nd & Nl & Rg).
  unfold ask_rules. rewrite (bind_run _ _ _ _ _ E). assert (negb (str_true c) = false) as -> by (destruct c; auto; congruence).
  unfold client_table in HC. destruct (dget (rc_clients C) c) as [p|], o as [P|]; try contradiction.
  2: { exists u, s1, G. split; [reflexivity|]. split; auto. intros tc. cbn. unfold same_rules. now destruct (G tc). }
  rewrite (bind_run _ _ _ _ _ (table_run _ _ _ Hu)).
  pose proof (table_frame _ s1 _ _ HC Old) as HP.
  destruct (table_entries _ _ _ _ Tu Hu) as (_ & Eg & Gg).
  destruct (list_true d) eqn:Ld.
  - pose proof HC as (per & Hper & _). pose proof (some_lt _ _ _ Hper) as Lp.
    assert (nth_error s1 p = Some (CTable per)) as Hper1 by (rewrite Old; auto).
    rewrite (bind_run _ _ _ _ _ (table_run _ _ _ Hper1)).
    destruct (table_entries _ _ _ _ HC Hper) as (Np & Ep & Gp).
    destruct (override_ok per u d s1 d Hu Nd Nd Nl) as (s2 & t2 & E2 & Hu2 & Nt2 & Ln2 & Fr2 & Tk2 & Hk2).
    { intros k l I. split; [now apply (Rg k l)|]. split; [now apply dget_unique|eauto]. }
    { intros k x D. apply dget_In in D. destruct (Ep _ _ D) as (f & Hf). pose proof (some_lt _ _ _ Hf) as Lx.
      split; [|split; [lia|exists f; rewrite Old; auto]]. intros I. apply in_map_iff in I as ((k2 & l2) & X & I). cbn in X. subst.
      apply Rg in I. lia. }
    rewrite (bind_run _ _ _ _ _ E2).
    destruct (complete_ok u per s2 t2 Hu2 Nt2) as (s3 & t3 & E3 & Hu3 & Nt3 & Ln3 & Fr3 & Tk3).
    rewrite (bind_run _ _ _ _ _ E3).
    pose proof (some_lt _ _ _ Hu) as Lu1.
    assert (forall x, x < List.length s -> nth_error s3 x = nth_error s x) as Old3.
    { intros x L. rewrite Fr3 by lia. rewrite Fr2; auto; [lia|lia|]. intros I.
      apply in_map_iff in I as ((k2 & l2) & X & I). cbn in X. subst. apply Rg in I. lia. }
    (* the table at the end *)
    assert (forall tc, exists m, merged (G tc) (P tc) m /\
       match dget t3 tc, m with
       | Some l', Some r => holds_rules s3 l' r
       | None, None => True
       | _, _ => False end) as Fin.
    { intros tc. rewrite Tk3. specialize (Gg tc). specialize (Gp tc).
      destruct (dget d tc) as [l|] eqn:D.
      - destruct (G tc) as [g|] eqn:EG; [|contradiction]. pose proof (dget_In _ _ _ D) as I. pose proof (Hk2 _ _ I) as Hk.
        destruct (Rg _ _ I) as [Rl Nlu].
        destruct (dget per tc) as [x|] eqn:Dp.
        + destruct (P tc) as [q|] eqn:EP; [|contradiction]. destruct Hk as (pf & f & Hpf & Hf & A & B).
          destruct Gp as (pf' & Hpf' & Npf & Rpf). assert (pf' = pf) as ->.
          { rewrite Old in Hpf by (eapply some_lt; eauto). congruence. }
          destruct Gg as (f' & Hf' & Nf & Rf). assert (f' = f) as -> by congruence.
          destruct pf as [|y pf].
          * destruct (B eq_refl) as (e & B1 & B2). rewrite B1. exists (Some no_rules). split.
            -- exists no_rules. split; auto. split; [intros _ f0; reflexivity|]. intros (f0 & X). rewrite Rpf in X. elim X. reflexivity.
            -- exists []. split; [rewrite Fr3; auto|split; [constructor|reflexivity]]. intros ->. rewrite Hu2 in B2. discriminate.
          * destruct A as [A1 A2]; [discriminate|]. rewrite A1. exists (Some (fun f0 => dget (dupdate f (y :: pf)) f0)). split.
            -- eexists. split; [reflexivity|]. split.
               { intros X. exfalso. specialize (X (fst y)). rewrite Rpf in X. destruct y. cbn in X. rewrite String.eqb_refl in X. discriminate. }
               intros _ f0. rewrite dget_dupdate by exact Npf. rewrite <- Rpf, <- Rf. reflexivity.
            -- exists (dupdate f (y :: pf)). split; [rewrite Fr3; auto|]. split; [now apply dupdate_nodup|]. auto.
        + destruct (P tc) as [q|] eqn:EP; [contradiction|]. destruct Hk as [A B]. rewrite A. exists (Some g). split; [cbn; auto|].
          eapply rules_frame; eauto. rewrite Fr3; auto.
      - destruct (G tc) as [g|] eqn:EG; [contradiction|].
        assert (dget t2 tc = None) as ->. { rewrite Tk2; auto. now apply dget_None_keys. }
        destruct (dget per tc) as [x|] eqn:Dp.
        + destruct (P tc) as [q|] eqn:EP; [|contradiction]. exists (Some q). split.
          * exists q. split; auto. split; auto. intros _ f0. now destruct (q f0).
          * eapply rules_frame; eauto. destruct Gp as (? & Hx & _). apply Old3. eapply some_lt; eauto.
        + destruct (P tc); [contradiction|]. exists None. split; cbn; auto. }
    exists u, s3, (fun tc => match dget t3 tc with
        | Some l => match nth_error s3 l with Some (CFields f) => Some (fun x => dget f x) | _ => None end
        | None => None end).
    split; [reflexivity|]. split.
    + exists t3. split; auto. split; auto. intros tc. destruct (Fin tc) as (m & _ & H). destruct (dget t3 tc) as [l|]; auto.
      destruct m as [r|]; [|contradiction]. destruct H as (f & Hf & Nf & Rf). rewrite Hf. exists f. auto.
    + intros tc. destruct (Fin tc) as (m & Hm & H). destruct (dget t3 tc) as [l|]; destruct m as [r|]; try contradiction; auto.
      destruct H as (f & Hf & Nf & Rf). rewrite Hf. unfold merged, same_rules in *. destruct (P tc) as [q|].
      * destruct Hm as (r' & X & A & B). injection X as <-. eexists. split; [reflexivity|]. split.
        -- intros Z f0. rewrite <- Rf. auto.
        -- intros Z f0. rewrite <- Rf. auto.
      * destruct (G tc); [|contradiction]. intros f0. rewrite <- Rf. auto.
  - exists p, s1, P. split; [reflexivity|]. split; [exact HP|]. destruct d; [|discriminate].
    intros tc. specialize (Gg tc). cbn in Gg. destruct (G tc); [contradiction|]. destruct (P tc) as [q|]; cbn; auto.
    exists q. split; auto. split; auto. intros _ f0. now destruct (q f0).
Qed.

Lemma ask_global C s G : global_table C s G -> exists u s', ask_rules C "" s = (Ok u, s') /\ holds_table s' u G.
Proof.
  intros HG. destruct (start_ok C s G HG) as (u & s1 & d & E & _ & _ & _ & Tu & _).
  unfold ask_rules. rewrite (bind_run _ _ _ _ _ E). exists u, s1. now split.
Qed.

(** ** Asking changes no dict that was there before. *)
Definition kept (s s' : mem) : Prop := forall l c, nth_error s l = Some c -> nth_error s' l = Some c.

Lemma kept_len s s' n : kept s s' -> n <= List.length s -> n <= List.length s'.
Proof.
  intros K L. destruct n as [|n]; [lia|]. destruct (nth_error s n) as [c|] eqn:E.
  - apply K in E. apply some_lt in E. lia.
  - apply nth_error_None in E. lia.
Qed.

(** The memory [s'] has everything that [s] had below [n]. *)
Definition upto (n : nat) (s s' : mem) : Prop :=
  List.length s <= List.length s' /\ forall l, l < n -> nth_error s' l = nth_error s l.
Lemma upto_refl n s : upto n s s.
Proof. split; auto. Qed.
Lemma upto_trans n s1 s2 s3 : upto n s1 s2 -> upto n s2 s3 -> upto n s1 s3.
Proof. intros [A B] [C D]. split; [lia|]. intros l L. rewrite D, B; auto. Qed.
Lemma upto_store n s l c : n <= l -> upto n s (set_nth l c s).
Proof. intros L. split; [now rewrite set_length|]. intros x Lx. apply set_other. lia. Qed.
Lemma upto_alloc n s c : n <= List.length s -> upto n s (s ++ [c]).
Proof. intros L. split; [rewrite app_length; lia|]. intros x Lx. apply app_old. lia. Qed.

Lemma copy_upto n d : forall s r s', copy_entries d s = (r, s') -> n <= List.length s ->
  upto n s s' /\ forall d', r = Ok d' -> forall k l, In (k, l) d' -> n <= l.
Proof.
  induction d as [|[k l] d IH]; intros s r s' E L; cbn in E.
  - apply ret_inv in E as [-> <-]. split; [apply upto_refl|]. intros d' X. injection X as <-. intros ? ? [].
  - apply bind_inv in E as [(f & s1 & E1 & E)|(x & E1 & ->)]; apply fields_inv in E1; subst; [|split; [apply upto_refl|discriminate]].
    rewrite (bind_run _ _ _ _ _ (alloc_run _ _)) in E.
    assert (n <= List.length (s ++ [CFields f])) as L' by (rewrite app_length; lia).
    apply bind_inv in E as [(d' & s2 & E2 & E)|(x & E2 & ->)]; destruct (IH _ _ _ E2 L') as [U I].
    + apply ret_inv in E as [-> <-]. split; [eapply upto_trans; [now apply upto_alloc|exact U]|].
      intros d0 X k0 l0 J. injection X as <-. destruct J as [J|J]; [injection J as <- <-; lia|]. eapply I; eauto.
    + split; [eapply upto_trans; [now apply upto_alloc|exact U]|discriminate].
Qed.

Lemma override_upto n per u d : n <= u -> (forall k l, In (k, l) d -> n <= l) ->
  forall s r s', override per u d s = (r, s') -> n <= List.length s -> upto n s s'.
Proof.
  intros Lu. induction d as [|[k l] d IH]; intros Hd s r s' E L; cbn in E.
  - apply ret_inv in E as [_ <-]. apply upto_refl.
  - assert (forall s1 r1, (match dget per k with
        | None => ret tt
        | Some p => pf <- fields_at p ;;
            if list_true pf then f <- fields_at l ;; store l (CFields (dupdate f pf))
            else e <- alloc (CFields []) ;; t <- table_at u ;; store u (CTable (dset t k e))
        end) s = (r1, s1) -> upto n s s1) as H.
    { intros s1 r1 X. destruct (dget per k) as [p|]; [|apply ret_inv in X as [_ <-]; apply upto_refl].
      apply bind_inv in X as [(pf & s2 & X1 & X)|(x & X1 & ->)]; apply fields_inv in X1; subst; [|apply upto_refl].
      destruct (list_true pf).
      - apply bind_inv in X as [(f & s2 & X1 & X)|(x & X1 & ->)]; apply fields_inv in X1; subst; [|apply upto_refl].
        rewrite store_run in X. injection X as _ <-. apply upto_store. apply (Hd k l). now left.
      - rewrite (bind_run _ _ _ _ _ (alloc_run _ _)) in X.
        apply bind_inv in X as [(f & s2 & X1 & X)|(x & X1 & ->)]; apply table_inv in X1; subst; [|now apply upto_alloc].
        rewrite store_run in X. injection X as _ <-. eapply upto_trans; [now apply upto_alloc|now apply upto_store]. }
    apply bind_inv in E as [([] & s1 & E1 & E)|(x & E1 & ->)]; apply H in E1; auto.
    eapply upto_trans; [exact E1|]. eapply IH; eauto; [|destruct E1; lia]. intros k' l' I. apply (Hd k' l'). now right.
Qed.

Lemma complete_upto n u : n <= u -> forall per s r s', complete u per s = (r, s') -> n <= List.length s -> upto n s s'.
Proof.
  intros Lu. induction per as [|[k l] per IH]; intros s r s' E L; cbn in E.
  - apply ret_inv in E as [_ <-]. apply upto_refl.
  - apply bind_inv in E as [(t & s2 & X1 & E)|(x & X1 & ->)]; apply table_inv in X1; subst; [|apply upto_refl].
    destruct (dmem t k).
    + apply (IH s r s'); auto.
    + rewrite (bind_run _ _ _ _ _ (store_run _ _ _)) in E. eapply upto_trans; [apply upto_store; exact Lu|].
      eapply IH; eauto. now rewrite set_length.
Qed.

Lemma ask_kept C c s r s' : ask_rules C c s = (r, s') -> kept s s'.
Proof.
  intros E. assert (upto (List.length s) s s') as [_ H].
  2: { intros l x X. rewrite H; auto. eapply some_lt; eauto. }
  unfold ask_rules in E.
  assert (forall r1 s1, (match rc_global C with Some g => deepcopy g | None => alloc (CTable []) end) s = (r1, s1) ->
    upto (List.length s) s s1 /\ forall u, r1 = Ok u -> List.length s <= u /\ forall d r2 s2, table_at u s1 = (Ok d, s2) -> r2 = d ->
      forall k l, In (k, l) d -> List.length s <= l) as K.
  { intros r1 s1 X. destruct (rc_global C) as [g|].
    - unfold deepcopy in X. apply bind_inv in X as [(d & s2 & X1 & X)|(x & X1 & ->)]; apply table_inv in X1; subst; [|split; [apply upto_refl|discriminate]].
      apply bind_inv in X as [(d' & s2 & X2 & X)|(x & X2 & ->)]; destruct (copy_upto _ _ _ _ _ X2 (le_n _)) as [U I]; [|split; [auto|discriminate]].
      rewrite alloc_run in X. injection X as <- <-. destruct U as [U1 U2].
      split; [eapply upto_trans; [split; eauto|apply upto_alloc; lia]|]. intros u X. injection X as <-. split; [lia|].
      intros d0 _ s3 T _ k l J. unfold table_at, bind, get_st in T. rewrite app_new in T. apply ret_ok in T as [<- _]. eapply I; eauto.
    - rewrite alloc_run in X. injection X as <- <-. split; [now apply upto_alloc|]. intros u X. injection X as <-. split; [lia|].
      intros d0 _ s3 T _ k l J. unfold table_at, bind, get_st in T. rewrite app_new in T. apply ret_ok in T as [<- _]. destruct J. }
  apply bind_inv in E as [(u & s1 & E1 & E)|(x & E1 & ->)]; destruct (K _ _ E1) as [U H]; auto.
  destruct (H u eq_refl) as [Lu Hd]. destruct (negb (str_true c)); [apply ret_inv in E as [_ <-]; auto|].
  destruct (dget (rc_clients C) c) as [p|]; [|apply ret_inv in E as [_ <-]; auto].
  assert (List.length s <= List.length s1) as L1 by apply U.
  apply bind_inv in E as [(d & s2 & X1 & E)|(x & X1 & ->)]; pose proof (table_inv _ _ _ _ X1); subst; [|auto].
  specialize (Hd _ _ _ X1 eq_refl).
  destruct (list_true d); [|apply ret_inv in E as [_ <-]; auto].
  apply bind_inv in E as [(per & s2 & X2 & E)|(x & X2 & ->)]; pose proof (table_inv _ _ _ _ X2); subst; [|auto].
  apply bind_inv in E as [([] & s2 & X3 & E)|(x & X3 & ->)]; pose proof (override_upto _ _ _ _ Lu Hd _ _ _ X3 L1) as U2.
  2: { eapply upto_trans; eauto. }
  assert (List.length s <= List.length s2) as L2 by (destruct U2; lia).
  apply bind_inv in E as [([] & s3 & X4 & E)|(x & X4 & ->)]; pose proof (complete_upto _ _ Lu _ _ _ _ X4 L2) as U3.
  - apply ret_inv in E as [_ <-]. eapply upto_trans; eauto. eapply upto_trans; eauto.
  - eapply upto_trans; eauto. eapply upto_trans; eauto.
Qed.

Lemma table_kept s s' l T : kept s s' -> holds_table s l T -> holds_table s' l T.
Proof.
  intros K H. eapply table_frame; eauto. intros x L. destruct (nth_error s x) as [c|] eqn:E; [apply K; auto|].
  apply nth_error_None in E. lia.
Qed.
Lemma global_kept C s s' G : kept s s' -> global_table C s G -> global_table C s' G.
Proof. unfold global_table. intros K. destruct (rc_global C); auto. now apply table_kept. Qed.
Lemma client_kept C s s' c o : kept s s' -> client_table C s c o -> client_table C s' c o.
Proof. unfold client_table. intros K. destruct (dget _ _), o; auto. now apply table_kept. Qed.
