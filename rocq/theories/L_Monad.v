(** Inversion of computations in the state-and-exception monad. *)
From Verif Require Import M_Base.

Lemma bind_ok {S A B} (m : M S A) (f : A -> M S B) s b s' :
  bind m f s = (Ok b, s') -> exists a s1, m s = (Ok a, s1) /\ f a s1 = (Ok b, s').
Proof. unfold bind. destruct (m s) as [[a|x] s1] eqn:E; intros H; [eauto|discriminate]. Qed.

Lemma bind_inv {S A B} (m : M S A) (f : A -> M S B) s r s' :
  bind m f s = (r, s') ->
  (exists a s1, m s = (Ok a, s1) /\ f a s1 = (r, s'))
  \/ (exists x, m s = (Raise x, s') /\ r = Raise x).
Proof.
  unfold bind. destruct (m s) as [[a|x] s1] eqn:E; intros H.
  - left; eauto.
  - right. injection H as <- <-. eauto.
Qed.

Lemma ret_ok {S A} (a b : A) (s s' : S) : ret a s = (Ok b, s') -> a = b /\ s = s'.
Proof. unfold ret. intros H; injection H; auto. Qed.
Lemma ret_inv {S A} (a : A) r (s s' : S) : ret a s = (r, s') -> r = Ok a /\ s = s'.
Proof. unfold ret. intros H; injection H; auto. Qed.
Lemma raise_ok {S A} x (b : A) (s s' : S) : raise x s = (Ok b, s') -> False.
Proof. discriminate. Qed.
Lemma raise_inv {S A} x (r : res A) (s s' : S) : raise x s = (r, s') -> r = Raise x /\ s = s'.
Proof. unfold raise. intros H; injection H; auto. Qed.
Lemma lift_ok {S A} (r : res A) (b : A) (s s' : S) : lift r s = (Ok b, s') -> r = Ok b /\ s = s'.
Proof. unfold lift. intros H; injection H; auto. Qed.
Lemma lift_inv {S A} (r r' : res A) (s s' : S) : lift r s = (r', s') -> r = r' /\ s = s'.
Proof. unfold lift. intros H; injection H; auto. Qed.

Lemma bind_run {S A B} (m : M S A) (f : A -> M S B) s a s1 :
  m s = (Ok a, s1) -> bind m f s = f a s1.
Proof. unfold bind. now intros ->. Qed.
Lemma bind_run_raise {S A B} (m : M S A) (f : A -> M S B) s x s1 :
  m s = (Raise x, s1) -> bind m f s = (Raise x, s1).
Proof. unfold bind. now intros ->. Qed.

Lemma rbind_ok {A B} (x : res A) (f : A -> res B) b :
  rbind x f = Ok b -> exists a, x = Ok a /\ f a = Ok b.
Proof. destruct x; cbn; [eauto|discriminate]. Qed.

Lemma catch_inv {S A} (m : M S A) h s r s' :
  catch m h s = (r, s') ->
  (exists a, m s = (Ok a, s') /\ r = Ok a)
  \/ (exists x s1 k, m s = (Raise x, s1) /\ h x = Some k /\ k s1 = (r, s'))
  \/ (exists x, m s = (Raise x, s') /\ h x = None /\ r = Raise x).
Proof.
  unfold catch. destruct (m s) as [[a|x] s1]; intros H.
  - injection H as <- <-. left; eauto.
  - destruct (h x) as [k|] eqn:E.
    + right; left. eauto 6.
    + injection H as <- <-. right; right. eauto.
Qed.

(** Take apart a successful run. *)
Ltac minv1 H :=
  lazymatch type of H with
  | bind _ _ _ = (Ok _, _) =>
      let a := fresh "a" in let s := fresh "s" in let Ha := fresh "H" in
      apply bind_ok in H; destruct H as [a [s [Ha H]]]
  | ret _ _ = (Ok _, _) =>
      let E1 := fresh "E" in let E2 := fresh "E" in
      apply ret_ok in H; destruct H as [E1 E2]
  | lift _ _ = (Ok _, _) =>
      let E1 := fresh "E" in let E2 := fresh "E" in
      apply lift_ok in H; destruct H as [E1 E2]
  | raise _ _ = (Ok _, _) => destruct (raise_ok _ _ _ _ H)
  end.
