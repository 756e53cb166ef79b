(** Lemmas: splitting at a doubled character. *)
From Verif Require Import M_Base M_Codec S_Codec L_Base.

Section D.
  Variable c : ascii.
  Notation one := (String c EmptyString).
  Notation sep := (String c (String c EmptyString)).

  Lemma splitd_nomatch a s : starts_with sep (String a s) = false ->
    py_split sep (String a s) = cons_head a (py_split sep s).
  Proof. intros H. unfold py_split at 1. cbn [split_go]. now rewrite H. Qed.
  Lemma splitd_sep s : py_split sep (append sep s) = EmptyString :: py_split sep s.
  Proof.
    unfold py_split. cbn [append split_go starts_with String.length]. now rewrite Ascii.eqb_refl.
  Qed.
  Lemma splitd_ne s : py_split sep s <> [].
  Proof.
    unfold py_split. assert (H : forall k, split_go sep s k <> []); [|apply H].
    induction s as [|a s IH]; intros k; cbn [split_go]; [discriminate|].
    destruct k; [|apply IH]. destruct (starts_with _ _); [discriminate|].
    destruct (split_go sep s 0); discriminate.
  Qed.
  Lemma nod_spec s : contains sep s = false <-> ~ occurs_in sep s.
  Proof.
    unfold occurs_in. rewrite <- contains_spec. destruct (contains sep s); split; intros; congruence.
  Qed.
  Lemma nod_cons a s : contains sep (String a s) = false ->
    starts_with sep (String a s) = false /\ contains sep s = false.
  Proof. cbn [contains]. rewrite orb_false_iff. tauto. Qed.
  Lemma splitd_plain s : ~ occurs_in sep s -> py_split sep s = [s].
  Proof.
    rewrite <- nod_spec. induction s as [|a s IH]; intros H; [reflexivity|].
    apply nod_cons in H as [H1 H2]. rewrite splitd_nomatch by exact H1. now rewrite (IH H2).
  Qed.
  Lemma splitd_app x y : ~ occurs_in sep x -> ~ ends_in one x ->
    py_split sep (append x (append sep y)) = x :: py_split sep y.
  Proof.
    rewrite <- nod_spec. induction x as [|a x IH]; intros Hn He; [apply splitd_sep|].
    apply nod_cons in Hn as [Hs Hn]. cbn [append]. destruct x as [|a' x'].
    - change (append "" (String c (String c y))) with (append sep y). rewrite splitd_nomatch.
      + now rewrite splitd_sep.
      + cbn [starts_with append]. destruct (Ascii.eqb c a) eqn:E; [|reflexivity].
        exfalso. apply Ascii.eqb_eq in E. subst a. apply He. exists EmptyString. reflexivity.
    - change (append (String a' x') (String c (String c y))) with (append (String a' x') (append sep y)).
      rewrite splitd_nomatch.
      + rewrite IH; [reflexivity|exact Hn|]. intros [z Hz]. apply He. exists (String a z). now rewrite Hz.
      + exact Hs.
  Qed.
  Lemma splitd_join s : py_join sep (py_split sep s) = s.
  Proof.
    remember (String.length s) as n eqn:Hn. revert s Hn.
    induction n as [n IH] using lt_wf_ind. intros s Hn.
    destruct s as [|a s]; [reflexivity|].
    destruct (starts_with sep (String a s)) eqn:E.
    - apply starts_with_spec in E as [t Ht]. rewrite Ht. rewrite splitd_sep.
      pose proof (splitd_ne t) as Hne.
      assert (Hj : py_join sep (EmptyString :: py_split sep t) = append sep (py_join sep (py_split sep t)))
        by (destruct (py_split sep t); [congruence|reflexivity]).
      rewrite Hj. rewrite (IH (String.length t)); [reflexivity| |reflexivity].
      subst n. rewrite Ht. cbn. lia.
    - rewrite splitd_nomatch by exact E. pose proof (splitd_ne s) as Hne.
      assert (Hj : py_join sep (cons_head a (py_split sep s)) = String a (py_join sep (py_split sep s))).
      { destruct (py_split sep s) as [|x [|y r]]; [congruence|reflexivity|reflexivity]. }
      rewrite Hj. f_equal. apply (IH (String.length s)); [subst n; cbn; lia|reflexivity].
  Qed.

  (** What comes before the first separator neither holds it nor ends in its
      first half. *)
  Lemma splitd_head s x r : py_split sep s = x :: r ->
    ~ occurs_in sep x /\ (r <> [] -> ~ ends_in one x).
  Proof.
    rewrite <- nod_spec. revert x. induction s as [|a s IH]; intros x.
    - cbn. intros [= <- <-]. split; [reflexivity|congruence].
    - destruct (starts_with sep (String a s)) eqn:E.
      + unfold py_split. cbn [split_go]. rewrite E. intros [= <- _]. split; [reflexivity|].
        intros _ [[|z1 z] Z]; discriminate.
      + rewrite splitd_nomatch by exact E. pose proof (splitd_join s) as J.
        pose proof (splitd_ne s) as N.
        destruct (py_split sep s) as [|y l] eqn:Es; [congruence|]. cbn [cons_head].
        intros [= <- <-]. destruct (IH y eq_refl) as [H1 H2].
        assert (P : exists t, s = append y t /\ (l <> [] -> exists t', t = append sep t')).
        { destruct l as [|z l]; [exists EmptyString; rewrite sapp_nil_r; split; [symmetry; exact J|congruence]|].
          exists (append sep (py_join sep (z :: l))). split; [symmetry; exact J|eauto]. }
        destruct P as (t & St & T). split.
        * cbn [contains]. rewrite H1, orb_false_r.
          destruct (starts_with sep (String a y)) eqn:F; [|reflexivity].
          apply starts_with_spec in F as [v F]. exfalso.
          assert (starts_with sep (String a s) = true); [|congruence].
          apply starts_with_spec. exists (append v t). rewrite St.
          change (String a (append y t)) with (append (String a y) t). rewrite F.
          now rewrite sapp_assoc.
        * intros Hl [z Hz]. destruct z as [|z1 z].
          -- cbn in Hz. injection Hz as -> ->. destruct (T Hl) as [t' ->].
             rewrite St in E. cbn in E. rewrite Ascii.eqb_refl in E. discriminate.
          -- cbn in Hz. injection Hz as _ Hz. apply (H2 Hl). exists z. exact Hz.
  Qed.

  Lemma splitd_tail s x r : py_split sep s = x :: r -> r <> [] ->
    exists t, s = append x (append sep t) /\ py_split sep t = r.
  Proof.
    intros E N. pose proof (splitd_join s) as J. rewrite E in J. destruct (splitd_head _ _ _ E) as [H1 H2].
    destruct r as [|y r]; [congruence|].
    exists (py_join sep (y :: r)). split; [symmetry; exact J|].
    assert (K : py_split sep (append x (append sep (py_join sep (y :: r)))) = x :: py_split sep (py_join sep (y :: r))).
    { apply splitd_app; auto. }
    change (append x (append sep (py_join sep (y :: r)))) with (py_join sep (x :: y :: r)) in K.
    rewrite J, E in K. injection K as K. symmetry. exact K.
  Qed.

  Lemma splitd_two s a b : py_split sep s = [a; b] <->
    s = append a (append sep b) /\ ~ occurs_in sep a /\ ~ ends_in one a /\ ~ occurs_in sep b.
  Proof.
    split.
    - intros E. destruct (splitd_head _ _ _ E) as [H1 H2].
      destruct (splitd_tail _ _ _ E ltac:(discriminate)) as (t & -> & T).
      destruct (splitd_head _ _ _ T) as [H3 _]. pose proof (splitd_join t) as J. rewrite T in J. cbn in J. subst t.
      split; [reflexivity|]. split; [exact H1|]. split; [apply H2; discriminate|exact H3].
    - intros (-> & Na & Ea & Nb). rewrite splitd_app by assumption. now rewrite splitd_plain by exact Nb.
  Qed.
End D.
