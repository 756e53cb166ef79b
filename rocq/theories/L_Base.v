(** Lemmas on dicts and strings of the model. *)
From Verif Require Import M_Base.
From Coq Require Import DecimalString DecimalN Decimal.

(** ** Booleans and lists of strings *)
Lemma seqb_refl s : String.eqb s s = true.
Proof. apply String.eqb_refl. Qed.

Lemma seqb_eq a b : String.eqb a b = true <-> a = b.
Proof. apply String.eqb_eq. Qed.

Lemma seqb_neq a b : String.eqb a b = false <-> a <> b.
Proof. apply String.eqb_neq. Qed.

Lemma smem_In x l : smem x l = true <-> In x l.
Proof.
  unfold smem. rewrite existsb_exists. split.
  - intros [y [Hy He]]. apply seqb_eq in He. now subst.
  - intros H. exists x. split; [exact H|apply seqb_refl].
Qed.

Lemma smem_false x l : smem x l = false <-> ~ In x l.
Proof.
  rewrite <- smem_In. destruct (smem x l); split; intros; congruence.
Qed.

Lemma subset_b_incl a b : subset_b a b = true <-> incl a b.
Proof.
  unfold subset_b. rewrite forallb_forall. unfold incl. split; intros H x Hx.
  - apply smem_In, H, Hx.
  - apply smem_In, H, Hx.
Qed.

(** ** Dicts *)
Section Dict.
  Context {V : Type}.
  Implicit Types (d : dict V) (k : string).

  Lemma dget_dset_same d k v : dget (dset d k v) k = Some v.
  Proof.
    induction d as [|[k' v'] r IH]; cbn.
    - now rewrite seqb_refl.
    - destruct (String.eqb k k') eqn:E; cbn; rewrite E; [reflexivity|exact IH].
  Qed.

  Lemma dget_dset_other d k k' v : k' <> k -> dget (dset d k v) k' = dget d k'.
  Proof.
    intros Hne. induction d as [|[k2 v2] r IH]; cbn.
    - apply seqb_neq in Hne. now rewrite Hne.
    - destruct (String.eqb k k2) eqn:E; cbn.
      + apply seqb_eq in E; subst k2. apply seqb_neq in Hne. now rewrite Hne.
      + destruct (String.eqb k' k2); [reflexivity|exact IH].
  Qed.

  Lemma dget_dset d k k' v :
    dget (dset d k v) k' = if String.eqb k' k then Some v else dget d k'.
  Proof.
    destruct (String.eqb k' k) eqn:E.
    - apply seqb_eq in E; subst. apply dget_dset_same.
    - apply seqb_neq in E. now apply dget_dset_other.
  Qed.

  Lemma dget_None_keys d k : dget d k = None <-> ~ In k (dkeys d).
  Proof.
    induction d as [|[k' v'] r IH]; cbn; [tauto|].
    destruct (String.eqb k k') eqn:E.
    - apply seqb_eq in E; subst. split; [discriminate|]. intros H; exfalso; apply H; auto.
    - apply seqb_neq in E. rewrite IH. firstorder congruence.
  Qed.

  Lemma dget_Some_keys d k v : dget d k = Some v -> In k (dkeys d).
  Proof.
    intros H. destruct (in_dec string_dec k (dkeys d)) as [Hi|Hn]; [exact Hi|].
    apply dget_None_keys in Hn. congruence.
  Qed.

  Lemma dget_In d k v : dget d k = Some v -> In (k, v) d.
  Proof.
    induction d as [|[k' v'] r IH]; cbn; [discriminate|].
    destruct (String.eqb k k') eqn:E.
    - apply seqb_eq in E; subst. intros [= ->]. now left.
    - intros H. right. now apply IH.
  Qed.

  Lemma dmem_true d k : dmem d k = true <-> exists v, dget d k = Some v.
  Proof.
    unfold dmem. destruct (dget d k); split; intros; eauto; try discriminate.
    destruct H; discriminate.
  Qed.

  Lemma dmem_false d k : dmem d k = false <-> dget d k = None.
  Proof. unfold dmem. destruct (dget d k); split; intros; congruence. Qed.

  Lemma dset_keys_nodup d k v : NoDup (dkeys d) -> NoDup (dkeys (dset d k v)).
  Proof.
    unfold dkeys.
    induction d as [|[k' v'] r IH]; cbn; intros Hn.
    - constructor; [intros []|constructor].
    - destruct (String.eqb k k') eqn:E; cbn; [exact Hn|].
      inversion Hn as [|? ? Hni Hnr]; subst. constructor.
      + intros Hin. apply Hni.
        destruct (in_dec string_dec k' (map fst r)) as [|Hno]; [assumption|].
        exfalso. clear -Hin Hno E. apply seqb_neq in E.
        induction r as [|[k2 v2] r IHr]; cbn in *.
        * destruct Hin as [|[]]; congruence.
        * destruct (String.eqb k k2) eqn:E2; cbn in *; [tauto|].
          destruct Hin as [|Hin]; [tauto|]. apply IHr; tauto.
      + apply IH, Hnr.
  Qed.

  Lemma dget_ddel_other d k k' : k' <> k -> dget (ddel d k) k' = dget d k'.
  Proof.
    intros Hne. induction d as [|[k2 v2] r IH]; cbn; [reflexivity|].
    destruct (String.eqb k k2) eqn:E.
    - apply seqb_eq in E; subst k2. apply seqb_neq in Hne. now rewrite Hne.
    - cbn. destruct (String.eqb k' k2); [reflexivity|exact IH].
  Qed.

  Lemma dget_ddel_same d k : NoDup (dkeys d) -> dget (ddel d k) k = None.
  Proof.
    unfold dkeys.
    induction d as [|[k2 v2] r IH]; cbn; intros Hn; [reflexivity|].
    inversion Hn as [|? ? Hni Hnr]; subst.
    destruct (String.eqb k k2) eqn:E.
    - apply seqb_eq in E; subst k2. now apply dget_None_keys.
    - cbn. rewrite E. now apply IH.
  Qed.

  Lemma ddel_keys_incl d k x : In x (dkeys (ddel d k)) -> In x (dkeys d).
  Proof.
    induction d as [|[k2 v2] r IH]; cbn; [tauto|].
    destruct (String.eqb k k2); cbn; tauto.
  Qed.

  Lemma ddel_keys_nodup d k : NoDup (dkeys d) -> NoDup (dkeys (ddel d k)).
  Proof.
    induction d as [|[k2 v2] r IH]; cbn; intros Hn; [constructor|].
    inversion Hn as [|? ? Hni Hnr]; subst.
    destruct (String.eqb k k2); [exact Hnr|].
    cbn. constructor; [|apply IH, Hnr].
    intros Hin. apply Hni. exact (ddel_keys_incl _ _ _ Hin).
  Qed.

  Lemma dget_ddel_sub d k k' v :
    NoDup (dkeys d) -> dget (ddel d k) k' = Some v -> dget d k' = Some v /\ k' <> k.
  Proof.
    intros Hn H. destruct (string_dec k' k) as [->|Hne].
    - rewrite dget_ddel_same in H by exact Hn. discriminate.
    - rewrite dget_ddel_other in H by exact Hne. auto.
  Qed.

  Lemma dmem_dset d k k' v : dmem (dset d k v) k' = (String.eqb k' k || dmem d k')%bool.
  Proof.
    unfold dmem. rewrite dget_dset. destruct (String.eqb k' k); reflexivity.
  Qed.
End Dict.

Lemma sremove_In x y l : In y (sremove x l) -> In y l.
Proof.
  induction l as [|z r IH]; cbn; [tauto|].
  destruct (String.eqb x z); cbn; tauto.
Qed.

Lemma sremove_In_other x y l : y <> x -> In y l -> In y (sremove x l).
Proof.
  intros Hne. induction l as [|z r IH]; cbn; [tauto|].
  intros [->|Hin]; destruct (String.eqb x _) eqn:E.
  - apply seqb_eq in E. congruence.
  - now left.
  - exact Hin.
  - right. now apply IH.
Qed.

Lemma sremove_nodup_notin x l : NoDup l -> ~ In x (sremove x l).
Proof.
  induction l as [|z r IH]; cbn; intros Hn; [tauto|].
  inversion Hn as [|? ? Hni Hnr]; subst.
  destruct (String.eqb x z) eqn:E.
  - apply seqb_eq in E; subst. exact Hni.
  - apply seqb_neq in E. cbn. intros [->|Hin]; [congruence|]. now apply IH.
Qed.

Lemma sremove_nodup x l : NoDup l -> NoDup (sremove x l).
Proof.
  induction l as [|z r IH]; cbn; intros Hn; [constructor|].
  inversion Hn as [|? ? Hni Hnr]; subst.
  destruct (String.eqb x z); [exact Hnr|]. constructor; [|now apply IH].
  intros H. apply Hni. eapply sremove_In, H.
Qed.

(** ** Strings *)
Lemma sapp_nil_r s : append s EmptyString = s.
Proof. induction s; cbn; congruence. Qed.

Lemma sapp_assoc a b c : append a (append b c) = append (append a b) c.
Proof. induction a; cbn; congruence. Qed.

Lemma sapp_length a b : String.length (append a b) = String.length a + String.length b.
Proof. induction a; cbn; congruence. Qed.

Lemma sapp_inj_l a b c : append a b = append a c -> b = c.
Proof. induction a; cbn; [tauto|]. intros [= H]; auto. Qed.

Lemma sapp_inj_r a b c : append a c = append b c -> a = b.
Proof.
  revert b. induction a as [|x a IH]; intros [|y b] H; cbn in *.
  - reflexivity.
  - exfalso. apply (f_equal String.length) in H. cbn in H.
    rewrite sapp_length in H. lia.
  - exfalso. apply (f_equal String.length) in H. cbn in H.
    rewrite sapp_length in H. lia.
  - injection H as -> H. f_equal. now apply IH.
Qed.

Lemma take_app a b : take (String.length a) (append a b) = a.
Proof. induction a; cbn; [destruct b; reflexivity|congruence]. Qed.

Lemma drop_app a b : drop (String.length a) (append a b) = b.
Proof. induction a; cbn; [destruct b; reflexivity|congruence]. Qed.

Lemma take_ge n s : String.length s <= n -> take n s = s.
Proof.
  revert n; induction s as [|c s IH]; intros [|n] H; cbn in *; try reflexivity; try lia.
  f_equal. apply IH. lia.
Qed.

Lemma drop_ge n s : String.length s <= n -> drop n s = EmptyString.
Proof.
  revert n; induction s as [|c s IH]; intros [|n] H; cbn in *; try reflexivity; try lia.
  apply IH. lia.
Qed.

Lemma starts_with_spec p s : starts_with p s = true <-> exists t, s = append p t.
Proof.
  revert s. induction p as [|a p IH]; intros s; cbn.
  - split; [intros _; now exists s|reflexivity].
  - destruct s as [|b s].
    + split; [discriminate|intros [t H]; discriminate].
    + rewrite andb_true_iff, IH, Ascii.eqb_eq. split.
      * intros [-> [t ->]]. now exists t.
      * intros [t [= -> ->]]. eauto.
Qed.

Lemma contains_spec p s : contains p s = true <-> exists a b, s = append a (append p b).
Proof.
  induction s as [|c s IH].
  - cbn. rewrite orb_false_r. rewrite starts_with_spec. split.
    + intros [t Ht]. exists EmptyString, t. exact Ht.
    + intros [a [b Hab]]. destruct a; [now exists b|discriminate].
  - cbn [contains]. rewrite orb_true_iff, IH, starts_with_spec. split.
    + intros [[t Ht]|[a [b ->]]].
      * exists EmptyString, t. exact Ht.
      * exists (String c a), b. reflexivity.
    + intros [[|c' a] [b Hab]]; cbn in Hab.
      * left. now exists b.
      * right. injection Hab as -> ->. eauto.
Qed.

Lemma split1_app c a b :
  has_char c a = false -> split1 c (append a (String c b)) = Some (a, b).
Proof.
  induction a as [|x a IH]; cbn.
  - intros _. now rewrite Ascii.eqb_refl.
  - rewrite orb_false_iff. intros [H1 H2]. rewrite H1. now rewrite IH.
Qed.

Lemma split1_spec c s x y :
  split1 c s = Some (x, y) -> s = append x (String c y) /\ has_char c x = false.
Proof.
  revert x y. induction s as [|a s IH]; intros x y; cbn; [discriminate|].
  destruct (Ascii.eqb a c) eqn:E.
  - intros [= <- <-]. apply Ascii.eqb_eq in E. subst. split; reflexivity.
  - destruct (split1 c s) as [[x' y']|]; [|discriminate].
    intros [= <- <-]. destruct (IH x' y' eq_refl) as [-> H]. cbn. rewrite E. auto.
Qed.

(** *** Stripping *)
Lemma rstrip_app_all p a b :
  (forall c, has_char c b = true -> p c = true) -> rstrip p (append a b) = rstrip p a.
Proof.
  intros Hb.
  assert (Hb0 : rstrip p b = EmptyString).
  { induction b as [|c b IH]; cbn; [reflexivity|].
    rewrite IH.
    - rewrite Hb; [reflexivity|]. cbn. now rewrite Ascii.eqb_refl.
    - intros c' Hc'. apply Hb. cbn. now rewrite Hc', orb_true_r. }
  induction a as [|x a IH]; cbn; [exact Hb0|]. now rewrite IH.
Qed.

Lemma rstrip_app_ne p a b :
  rstrip p b <> EmptyString -> rstrip p (append a b) = append a (rstrip p b).
Proof.
  intros Hne. induction a as [|x a IH]; cbn; [reflexivity|].
  rewrite IH. destruct (append a (rstrip p b)) eqn:E; [|reflexivity].
  exfalso. destruct a; cbn in E; [congruence|discriminate].
Qed.

Lemma rstrip_idem p s : rstrip p (rstrip p s) = rstrip p s.
Proof.
  induction s as [|c s IH]; cbn; [reflexivity|].
  destruct (rstrip p s) as [|c' s'] eqn:E.
  - destruct (p c) eqn:Ep; cbn; [reflexivity|now rewrite Ep].
  - cbn. cbn in IH. now rewrite IH.
Qed.

Lemma rstrip_weaken p q s :
  (forall c, p c = true -> q c = true) -> rstrip q (rstrip p s) = rstrip q s.
Proof.
  intros Hpq. induction s as [|c s IH]; cbn; [reflexivity|].
  destruct (rstrip p s) as [|c' s'] eqn:E; cbn in IH.
  - rewrite <- IH. destruct (p c) eqn:Ep; cbn; [now rewrite (Hpq _ Ep)|reflexivity].
  - cbn. cbn in IH. now rewrite IH.
Qed.

Lemma rstrip_length p s : String.length (rstrip p s) <= String.length s.
Proof.
  induction s as [|c s IH]; cbn; [lia|].
  destruct (rstrip p s) as [|c' s']; cbn in *; [destruct (p c); cbn; lia|lia].
Qed.

Lemma rstrip_prefix p s : exists t, s = append (rstrip p s) t /\
  forall c, has_char c t = true -> p c = true.
Proof.
  induction s as [|c s [t [Ht Hp]]]; cbn.
  - exists EmptyString. split; [reflexivity|]. discriminate.
  - destruct (rstrip p s) as [|c' s'] eqn:E.
    + cbn in Ht. subst t. destruct (p c) eqn:Ep.
      * exists (String c s). split; [reflexivity|]. cbn. intros d.
        rewrite orb_true_iff. intros [Hd|Hd]; [|auto].
        apply Ascii.eqb_eq in Hd. now subst.
      * exists s. split; [reflexivity|exact Hp].
    + exists t. split; [|exact Hp]. cbn. f_equal. exact Ht.
Qed.

Lemma blank_space c : is_blank c = true -> is_space c = true.
Proof. unfold is_blank. rewrite Ascii.eqb_eq. intros ->. reflexivity. Qed.

(** *** Numbers *)
Definition digit_char (c : ascii) : Prop := exists d, digit_val c = Some d.

Fixpoint all_digits (s : string) : Prop :=
  match s with EmptyString => True | String c r => digit_char c /\ all_digits r end.

Lemma string_of_uint_digits u : all_digits (NilEmpty.string_of_uint u).
Proof. induction u; cbn; (split; [eexists; reflexivity|assumption]) || exact I. Qed.

Lemma digit_not_space c : digit_char c -> is_space c = false.
Proof.
  intros [d Hd]. unfold digit_val in Hd. unfold is_space.
  destruct ((48 <=? N_of_ascii c)%N && (N_of_ascii c <=? 57)%N)%bool eqn:E; [|discriminate].
  apply andb_true_iff in E as [E1 E2].
  apply N.leb_le in E1, E2.
  destruct (N_of_ascii c <=? 13)%N eqn:A; [apply N.leb_le in A; lia|].
  destruct (N_of_ascii c <=? 32)%N eqn:B; [apply N.leb_le in B; lia|].
  destruct (N_of_ascii c =? 133)%N eqn:C; [apply N.eqb_eq in C; lia|].
  destruct (N_of_ascii c =? 160)%N eqn:D; [apply N.eqb_eq in D; lia|].
  now rewrite !andb_false_r.
Qed.

Lemma digit_not_char c x : digit_char c -> digit_val x = None -> Ascii.eqb c x = false.
Proof.
  intros [d Hd] Hx. destruct (Ascii.eqb c x) eqn:E; [|reflexivity].
  apply Ascii.eqb_eq in E. congruence.
Qed.

Lemma all_digits_has_char s x : all_digits s -> digit_val x = None -> has_char x s = false.
Proof.
  intros Hs Hx. induction s as [|c s IH]; cbn; [reflexivity|].
  destruct Hs as [Hc Hs]. rewrite (digit_not_char _ _ Hc Hx). now apply IH.
Qed.

Lemma all_digits_rstrip s : all_digits s -> rstrip is_space s = s.
Proof.
  induction s as [|c s IH]; cbn; [reflexivity|]. intros [Hc Hs].
  rewrite (IH Hs). destruct s; [|reflexivity]. now rewrite (digit_not_space _ Hc).
Qed.

Lemma all_digits_strip s : all_digits s -> py_strip s = s.
Proof.
  intros Hs. unfold py_strip. destruct s as [|c s]; [reflexivity|].
  cbn [lstrip]. pose proof Hs as [Hc _]. rewrite (digit_not_space _ Hc).
  now apply all_digits_rstrip.
Qed.

Lemma parse_digits_cons c s acc d :
  digit_val c = Some d -> parse_digits (String c s) acc = parse_digits s (acc * 10 + d)%Z.
Proof. intros H. cbn [parse_digits]. now rewrite H. Qed.

Lemma parse_digits_uint u p :
  parse_digits (NilEmpty.string_of_uint u) (Zpos p) = Some (Zpos (Pos.of_uint_acc u p)).
Proof.
  revert p. induction u as [|u IH|u IH|u IH|u IH|u IH|u IH|u IH|u IH|u IH|u IH];
    intros p; cbn [NilEmpty.string_of_uint Pos.of_uint_acc]; [reflexivity|..];
    (rewrite <- IH; erewrite parse_digits_cons by (vm_compute; reflexivity); f_equal; lia).
Qed.

Lemma parse_digits_of_uint u :
  parse_digits (NilEmpty.string_of_uint u) 0 = Some (Z.of_N (Pos.of_uint u)).
Proof.
  induction u as [|u IH|u IH|u IH|u IH|u IH|u IH|u IH|u IH|u IH|u IH];
    cbn [NilEmpty.string_of_uint Pos.of_uint]; [reflexivity|..];
    (erewrite parse_digits_cons by (vm_compute; reflexivity));
    [exact IH|..]; apply parse_digits_uint.
Qed.

Lemma to_uint_nonnil n : NilEmpty.string_of_uint (N.to_uint n) <> EmptyString.
Proof.
  intros H.
  assert (Hu : N.to_uint n = Nil) by (destruct (N.to_uint n); cbn in H; congruence).
  pose proof (DecimalN.Unsigned.of_to n) as Hof. rewrite Hu in Hof. cbn in Hof. subst n.
  cbn in Hu. discriminate.
Qed.

Lemma show_N_digits n : all_digits (show_N n).
Proof. apply string_of_uint_digits. Qed.

Lemma show_N_ne n : show_N n <> EmptyString.
Proof. apply to_uint_nonnil. Qed.

Lemma parse_uint_show n : parse_uint (show_N n) = Some (Z.of_N n).
Proof.
  unfold parse_uint. pose proof (show_N_digits n) as Hd. pose proof (show_N_ne n) as Hne.
  destruct (show_N n) as [|c s] eqn:E; [congruence|].
  destruct Hd as [[d Hd] _]. rewrite Hd. rewrite <- E. unfold show_N.
  rewrite parse_digits_of_uint. f_equal. f_equal. apply DecimalN.Unsigned.of_to.
Qed.

Lemma py_int_show n : py_int (show_N n) = Some (Z.of_N n).
Proof.
  unfold py_int. rewrite all_digits_strip by apply show_N_digits.
  pose proof (show_N_digits n) as Hd. pose proof (show_N_ne n) as Hne.
  destruct (show_N n) as [|c s] eqn:E; [congruence|].
  destruct Hd as [Hc _].
  rewrite (digit_not_char c "-"%char Hc eq_refl).
  rewrite (digit_not_char c "+"%char Hc eq_refl).
  rewrite <- E. apply parse_uint_show.
Qed.

Lemma py_int_show_Z z : py_int (show_Z z) = Some z.
Proof.
  unfold show_Z. destruct (z <? 0)%Z eqn:E.
  - apply Z.ltb_lt in E. unfold py_int.
    assert (Hs : py_strip (String "-" (show_N (Z.to_N (- z)))) =
                 String "-" (show_N (Z.to_N (- z)))).
    { unfold py_strip. cbn [lstrip]. change (is_space "-") with false.
      cbn [rstrip]. rewrite all_digits_rstrip by apply show_N_digits.
      destruct (show_N _) eqn:E2; [|reflexivity]. exfalso. revert E2. apply show_N_ne. }
    rewrite Hs. cbn [Ascii.eqb]. change (Ascii.eqb "-" "-") with true. cbn [option_map].
    rewrite parse_uint_show. cbn. f_equal. lia.
  - apply Z.ltb_ge in E. rewrite py_int_show. f_equal. lia.
Qed.

Lemma show_N_no_colon n : has_char ":" (show_N n) = false.
Proof. apply all_digits_has_char; [apply show_N_digits|reflexivity]. Qed.

Lemma show_N_inj a b : show_N a = show_N b -> a = b.
Proof.
  intros H. apply (f_equal py_int) in H. rewrite !py_int_show in H. injection H as H. lia.
Qed.

Lemma show_Z_inj a b : show_Z a = show_Z b -> a = b.
Proof. intros H. apply (f_equal py_int) in H. rewrite !py_int_show_Z in H. congruence. Qed.
