(** Lemmas: splitting at a single character. *)
From Verif Require Import M_Base M_Codec S_Codec L_Base.

Section C.
  Variable c : ascii.
  Notation sep := (String c EmptyString).

  Lemma splitc_nil : py_split sep EmptyString = [EmptyString].
  Proof. reflexivity. Qed.
  Lemma splitc_cons a s : py_split sep (String a s) =
    if Ascii.eqb a c then EmptyString :: py_split sep s else cons_head a (py_split sep s).
  Proof.
    unfold py_split. cbn [split_go starts_with String.length]. rewrite andb_true_r, Ascii.eqb_sym.
    change (1 - 1) with 0. reflexivity.
  Qed.
  Lemma splitc_ne s : py_split sep s <> [].
  Proof.
    destruct s as [|a s]; [discriminate|]. rewrite splitc_cons. destruct (Ascii.eqb a c); [discriminate|].
    destruct (py_split sep s); discriminate.
  Qed.
  Lemma joinc_cons x l : l <> [] -> py_join sep (x :: l) = append x (String c (py_join sep l)).
  Proof. destruct l; [congruence|]. reflexivity. Qed.

  Lemma splitc_join s : py_join sep (py_split sep s) = s.
  Proof.
    induction s as [|a s IH]; [reflexivity|]. rewrite splitc_cons. pose proof (splitc_ne s) as N.
    destruct (Ascii.eqb a c) eqn:E.
    - apply Ascii.eqb_eq in E. subst a. rewrite joinc_cons by exact N. cbn. now rewrite IH.
    - destruct (py_split sep s) as [|x l]; [congruence|]. destruct l as [|y l].
      + cbn in *. congruence.
      + rewrite joinc_cons in * by discriminate. cbn in *. congruence.
  Qed.

  Lemma occurs_char s : occurs_in sep s <-> has_char c s = true.
  Proof.
    induction s as [|a s IH]; cbn.
    - split; [|discriminate]. intros (x & y & E). destruct x; discriminate.
    - split.
      + intros (x & y & E). destruct x as [|a' x]; cbn in E.
        * injection E as -> _. rewrite Ascii.eqb_refl. reflexivity.
        * injection E as _ E. apply orb_true_iff. right. apply IH. exists x, y. exact E.
      + intros H. apply orb_true_iff in H as [H|H].
        * apply Ascii.eqb_eq in H. subst. exists EmptyString, s. reflexivity.
        * apply IH in H as (x & y & ->). exists (String a x), y. reflexivity.
  Qed.

  Lemma splitc_elems s x : In x (py_split sep s) -> ~ occurs_in sep x.
  Proof.
    rewrite occurs_char. revert x. induction s as [|a s IH]; intros x; [cbn; intros [<-|[]]; cbn; discriminate|].
    rewrite splitc_cons. destruct (Ascii.eqb a c) eqn:E.
    - cbn. intros [<-|I]; [cbn; discriminate|]. auto.
    - pose proof (splitc_ne s). destruct (py_split sep s) as [|y l]; [congruence|]. cbn.
      intros [<-|I]; [|apply IH; now right]. cbn. intros H2. apply orb_true_iff in H2 as [H2|H2].
      + congruence.
      + apply (IH y); [now left|exact H2].
  Qed.

  Lemma splitc_plain s : ~ occurs_in sep s -> py_split sep s = [s].
  Proof.
    rewrite occurs_char. induction s as [|a s IH]; [reflexivity|]. cbn [has_char]. intros H.
    rewrite splitc_cons. rewrite not_true_iff_false, orb_false_iff in H. destruct H as [H1 H2].
    rewrite H1, IH; [reflexivity|]. congruence.
  Qed.
  Lemma splitc_app x s : ~ occurs_in sep x -> py_split sep (append x (String c s)) = x :: py_split sep s.
  Proof.
    rewrite occurs_char. induction x as [|a x IH]; intros H.
    - cbn [append]. rewrite splitc_cons, Ascii.eqb_refl. reflexivity.
    - cbn [append]. rewrite splitc_cons. cbn [has_char] in H. rewrite not_true_iff_false, orb_false_iff in H.
      destruct H as [H1 H2]. rewrite H1, IH; [reflexivity|congruence].
  Qed.
  Lemma joinc_split l : l <> [] -> (forall x, In x l -> ~ occurs_in sep x) -> py_split sep (py_join sep l) = l.
  Proof.
    induction l as [|x l IH]; intros N H; [congruence|]. destruct l as [|y l].
    - cbn. apply splitc_plain. apply H. now left.
    - rewrite joinc_cons by discriminate. rewrite splitc_app by (apply H; now left). rewrite IH; [reflexivity|discriminate|].
      intros z I. apply H. now right.
  Qed.

  Lemma splitc_two s a b : py_split sep s = [a; b] <->
    s = append a (String c b) /\ ~ occurs_in sep a /\ ~ occurs_in sep b.
  Proof.
    split.
    - intros E. pose proof (splitc_join s) as J. rewrite E in J. split; [symmetry; exact J|].
      split; apply (splitc_elems s); rewrite E; cbn; auto.
    - intros (-> & Na & Nb). rewrite splitc_app by exact Na. rewrite splitc_plain by exact Nb. reflexivity.
  Qed.
End C.
