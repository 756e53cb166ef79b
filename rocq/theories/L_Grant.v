(** Lemmas about tokens and grants. *)
From Verif Require Import M_Base M_Types M_Grant S_Grant L_Base.
From Coq Require Import FinFun.

Lemma item_active_live mx used rev nbf exp now :
  item_active mx used rev nbf exp now = true <-> live mx used rev nbf exp now.
Proof.
  unfold item_active, max_usage_reached, live.
  split.
  - destruct mx as [m|].
    + destruct (Z.leb_spec m used); [discriminate|].
      destruct rev; [discriminate|].
      destruct (Z.eqb_spec nbf 0), (Z.eqb_spec exp 0); cbn [negb andb];
      destruct (Z.ltb_spec now nbf), (Z.ltb_spec exp now); cbn [negb andb]; try discriminate;
      repeat split; intros; try lia; try congruence.
      all: try (inversion H3; subst; lia). all: try (inversion H2; subst; lia).
      all: match goal with K : Some _ = Some _ |- _ => inversion K; subst; lia | _ => idtac end.
    + destruct rev; [discriminate|].
      destruct (Z.eqb_spec nbf 0), (Z.eqb_spec exp 0); cbn [negb andb];
      destruct (Z.ltb_spec now nbf), (Z.ltb_spec exp now); cbn [negb andb]; try discriminate;
      repeat split; intros; try lia; try congruence.
  - intros (-> & Hm & Hn & He).
    assert (match mx with Some m => (m <=? used)%Z | None => false end = false) as ->.
    { destruct mx as [m|]; [|reflexivity]. specialize (Hm m eq_refl). apply Z.leb_gt; lia. }
    destruct (Z.eqb_spec nbf 0), (Z.eqb_spec exp 0); cbn [negb andb]; auto;
    destruct (Z.ltb_spec now nbf), (Z.ltb_spec exp now); auto; lia.
Qed.

Lemma tok_active_live now t : tok_active now t = true <-> token_live t now.
Proof. apply item_active_live. Qed.
Lemma grant_active_live now g : grant_active now g = true <-> grant_live g now.
Proof. apply item_active_live. Qed.

(** *** Lists *)
Lemma upd_nth_length {A} i (f : A -> A) l : List.length (upd_nth i f l) = List.length l.
Proof. revert i; induction l as [|x l IH]; intros [|i]; cbn; auto. Qed.

Lemma nth_upd_nth_same {A} i (f : A -> A) l :
  nth_error (upd_nth i f l) i = option_map f (nth_error l i).
Proof. revert i; induction l as [|x l IH]; intros [|i]; cbn; auto. Qed.

Lemma nth_upd_nth_other {A} i j (f : A -> A) l : i <> j ->
  nth_error (upd_nth i f l) j = nth_error l j.
Proof. revert i j; induction l as [|x l IH]; intros [|i] [|j] H; cbn; auto; try congruence. Qed.

(** *** Everything but the revoked flag *)
Lemma sbr_refl t : same_but_revoked t t.
Proof. unfold same_but_revoked; tauto. Qed.
Lemma sbr_trans a b c : same_but_revoked a b -> same_but_revoked b c -> same_but_revoked a c.
Proof. unfold same_but_revoked; intuition congruence. Qed.
Lemma sbr_revoke t : same_but_revoked t (tok_set_revoked t).
Proof. unfold same_but_revoked; destruct t; cbn; tauto. Qed.

(** The skeleton of a token list. *)
Definition skel (ts : list token) : list token := map tok_set_revoked ts.

Lemma skel_eq_sbr t t' : tok_set_revoked t = tok_set_revoked t' -> same_but_revoked t t'.
Proof. destruct t, t'; cbn; intros E; inversion E; subst; unfold same_but_revoked; cbn; tauto. Qed.
Lemma sbr_skel_eq t t' : same_but_revoked t t' -> tok_set_revoked t = tok_set_revoked t'.
Proof. destruct t, t'; unfold same_but_revoked; cbn; intros; intuition subst; reflexivity. Qed.

Lemma skel_nth ts ts' i t : skel ts = skel ts' -> nth_error ts i = Some t ->
  exists t', nth_error ts' i = Some t' /\ same_but_revoked t t'.
Proof.
  intros E H. assert (nth_error (skel ts) i = Some (tok_set_revoked t)) as K
    by (unfold skel; rewrite nth_error_map, H; reflexivity).
  rewrite E in K. unfold skel in K. rewrite nth_error_map in K.
  destruct (nth_error ts' i) as [t'|]; [|discriminate]. cbn in K. inversion K.
  exists t'; split; auto. apply skel_eq_sbr; congruence.
Qed.

Lemma skel_length ts ts' : skel ts = skel ts' -> List.length ts = List.length ts'.
Proof. intros E. apply (f_equal (@List.length _)) in E. unfold skel in E. now rewrite !map_length in E. Qed.

Lemma skel_upd ts i : skel (upd_nth i tok_set_revoked ts) = skel ts.
Proof. revert i; induction ts as [|t ts IH]; intros [|i]; cbn; auto; f_equal; auto. Qed.

Lemma skel_values ts ts' : skel ts = skel ts' -> map t_value ts = map t_value ts'.
Proof.
  intros E. apply (f_equal (map t_value)) in E. unfold skel in E.
  rewrite !map_map in E. cbn in E. exact E.
Qed.

Lemma skel_in ts ts' t : skel ts = skel ts' -> In t ts ->
  exists t', In t' ts' /\ same_but_revoked t t'.
Proof.
  intros E H. apply In_nth_error in H as [i H].
  destruct (skel_nth _ _ _ _ E H) as (t' & H' & S). exists t'; split; auto. eapply nth_error_In; eauto.
Qed.

Lemma forest_skel ts ts' : skel ts = skel ts' -> forest ts -> forest ts'.
Proof.
  intros E (N & NE & F). rewrite (skel_values _ _ E) in *. repeat split; auto.
  intros j t b H B. symmetry in E. destruct (skel_nth _ _ _ _ E H) as (t0 & H0 & S).
  destruct S as (_ & V & B0 & _). rewrite <- B0 in B.
  destruct (F j t0 b H0 B) as (i & p & L & P & Vp). symmetry in E.
  destruct (skel_nth _ _ _ _ E P) as (p' & P' & S').
  exists i, p'. repeat split; auto. destruct S' as (_ & V' & _); congruence.
Qed.

Lemma descends_skel ts ts' v t : skel ts = skel ts' -> descends ts v t ->
  exists t', In t' ts' /\ same_but_revoked t t' /\ descends ts' v t'.
Proof.
  intros E D. induction D as [t I B | u t D IH I B].
  - destruct (skel_in _ _ _ E I) as (t' & I' & S). exists t'; repeat split; try apply S; auto.
    apply desc_child; auto. destruct S as (_ & _ & B' & _); congruence.
  - destruct IH as (u' & Iu & Su & Du).
    destruct (skel_in _ _ _ E I) as (t' & I' & S). exists t'; repeat split; try apply S; auto.
    apply desc_trans with u'; auto.
    destruct S as (_ & _ & B' & _), Su as (_ & V' & _); congruence.
Qed.

Lemma descends_In ts v t : descends ts v t -> In t ts.
Proof. destruct 1; auto. Qed.

Lemma forest_value_inj ts i j t u : forest ts ->
  nth_error ts i = Some t -> nth_error ts j = Some u -> t_value t = t_value u -> i = j.
Proof.
  intros (N & _) Hi Hj E.
  eapply (NoDup_nth_error (map t_value ts)); eauto.
  - rewrite map_length. apply nth_error_Some; congruence.
  - rewrite !nth_error_map, Hi, Hj; cbn; congruence.
Qed.

Lemma forest_In_inj ts t u : forest ts -> In t ts -> In u ts -> t_value t = t_value u -> t = u.
Proof.
  intros F I J E. apply In_nth_error in I as [i I]. apply In_nth_error in J as [j J].
  assert (i = j) by (eapply forest_value_inj; eauto). subst. congruence.
Qed.

Lemma descends_sbr ts ts' v t t' : forest ts' -> skel ts = skel ts' -> In t' ts' ->
  same_but_revoked t t' -> descends ts v t -> descends ts' v t'.
Proof.
  intros F E I S D. destruct (descends_skel _ _ _ _ E D) as (t'' & I'' & S'' & D'').
  replace t' with t''; auto. eapply forest_In_inj; eauto.
  destruct S as (_ & V & _), S'' as (_ & V'' & _); congruence.
Qed.

(** The position of children. *)
Lemma child_pos ts i j t u : forest ts -> nth_error ts i = Some t -> nth_error ts j = Some u ->
  t_based u = Some (t_value t) -> i < j.
Proof.
  intros F Hi Hj B. pose proof F as (_ & _ & G).
  destruct (G j u _ Hj B) as (i' & p & L & P & V).
  assert (i' = i) by (eapply (forest_value_inj ts); eauto).
  lia.
Qed.

(** *** Revocation of everything based on a value *)

(** One turn of the loop "revoke all that is based on [v]". *)
Definition based_on_b (v : string) (t : token) : bool :=
  match t_based t with Some b => String.eqb b v | None => false end.

Lemma based_on_b_spec v t : based_on_b v t = true <-> t_based t = Some v.
Proof.
  unfold based_on_b. destruct (t_based t) as [b|]; [|split; discriminate].
  destruct (String.eqb_spec b v); split; congruence.
Qed.

(** An abstract revocation step: given that revoking the descendants of each
    child works, the loop does. [rec] is the recursive call. *)
Section Loop.
  Variable rec : string -> M (list token) unit.
  Variable v : string.
  Variable body : nat -> M (list token) unit.
  Hypothesis body_spec : forall i ts,
    body i ts = match nth_error ts i with
                | None => (Ok tt, ts)
                | Some t => if based_on_b v t then (revoke_nth i ;; rec (t_value t)) ts
                            else (Ok tt, ts)
                end.
  Variable ts0 : list token.
  Hypothesis F : forest ts0.
  Hypothesis rec_ok : forall j t ts, nth_error ts0 j = Some t -> t_based t = Some v ->
    skel ts = skel ts0 ->
    exists ts', rec (t_value t) ts = (Ok tt, ts') /\ skel ts' = skel ts0
      /\ forall i u u', nth_error ts i = Some u -> nth_error ts' i = Some u' ->
           (t_revoked u' = true <-> t_revoked u = true \/ descends ts (t_value t) u).

  Lemma loop_ok : forall is ts, skel ts = skel ts0 ->
    exists ts', for_pos body is ts = (Ok tt, ts') /\ skel ts' = skel ts0
      /\ forall i u u', nth_error ts i = Some u -> nth_error ts' i = Some u' ->
           (t_revoked u' = true <-> t_revoked u = true
             \/ exists j w, In j is /\ nth_error ts j = Some w /\ t_based w = Some v
                  /\ (i = j \/ descends ts (t_value w) u)).
  Proof.
    induction is as [|j is IH]; intros ts E.
    - exists ts. repeat split; auto. intros; cbn. rewrite H in H0; inversion H0; subst. tauto.
      intros [H1|(j & _ & [] & _)]. congruence.
    - cbn [for_pos]. unfold bind at 1. rewrite body_spec.
      destruct (nth_error ts j) as [w|] eqn:W.
      2:{ destruct (IH ts E) as (ts' & R & E' & H). exists ts'. repeat split; auto.
          - intros Hr. apply (H i u u') in Hr; auto. destruct Hr as [|(j' & w & I & Hw & Hb & D)]; auto.
            right; exists j', w; cbn; intuition.
          - intros Hr. apply (H i u u'); auto. destruct Hr as [|(j' & w & I & Hw & Hb & D)]; auto.
            cbn in I; destruct I as [->|I]; [congruence|]. right; exists j', w; tauto. }
      destruct (based_on_b v w) eqn:B.
      2:{ destruct (IH ts E) as (ts' & R & E' & H). exists ts'. repeat split; auto.
          - intros Hr. apply (H i u u') in Hr; auto. destruct Hr as [|(j' & w' & I & Hw & Hb & D)]; auto.
            right; exists j', w'; cbn; intuition.
          - intros Hr. apply (H i u u'); auto. destruct Hr as [|(j' & w' & I & Hw & Hb & D)]; auto.
            cbn in I; destruct I as [->|I].
            + rewrite W in Hw; inversion Hw; subst. apply based_on_b_spec in Hb. congruence.
            + right; exists j', w'; tauto. }
      apply based_on_b_spec in B.
      unfold bind, revoke_nth at 1.
      set (ts1 := upd_nth j tok_set_revoked ts) in *.
      assert (E1 : skel ts1 = skel ts0) by (unfold ts1; rewrite skel_upd; auto).
      destruct (skel_nth _ _ _ _ E W) as (w0 & W0 & S0).
      assert (Sw := S0). destruct Sw as (_ & V0 & B0 & _).
      destruct (rec_ok j w0 ts1 W0) as (ts2 & R2 & E2 & H2); [congruence|auto|].
      rewrite V0 in R2. rewrite R2.
      destruct (IH ts2 E2) as (ts' & R & E' & H). exists ts'. split; [exact R|]. split; [exact E'|].
      intros i u u' Hu Hu'.
      assert (Hu1 : exists u1, nth_error ts1 i = Some u1 /\ same_but_revoked u u1
                /\ (t_revoked u1 = true <-> t_revoked u = true \/ i = j)).
      { unfold ts1. destruct (Nat.eq_dec j i) as [->|NE].
        - exists (tok_set_revoked u). rewrite nth_upd_nth_same, Hu. cbn. repeat split; auto; try tauto.
        - exists u. rewrite nth_upd_nth_other by auto. repeat split; auto; try tauto.
          intros [|K]; auto. }
      destruct Hu1 as (u1 & Hu1 & Su1 & Ru1).
      assert (E12 : skel ts1 = skel ts2) by congruence.
      assert (ET2 : skel ts = skel ts2) by congruence.
      assert (ET1 : skel ts = skel ts1) by congruence.
      destruct (skel_nth _ _ _ _ E12 Hu1) as (u2 & Hu2 & Su2).
      rewrite (H i u2 u' Hu2 Hu'), (H2 i u1 u2 Hu1 Hu2), Ru1, V0.
      assert (Fts : forest ts) by (eapply forest_skel; [symmetry; exact E|auto]).
      assert (Fts1 : forest ts1) by (eapply forest_skel; [symmetry; exact E1|auto]).
      assert (Fts2 : forest ts2) by (eapply forest_skel; [symmetry; exact E2|auto]).
      assert (S2 : same_but_revoked u u2) by (eapply sbr_trans; eauto).
      assert (sym : forall a b, same_but_revoked a b -> same_but_revoked b a)
        by (unfold same_but_revoked; intuition congruence).
      assert (D1 : forall x, descends ts x u <-> descends ts1 x u1).
      { intros x; split; intros D.
        - eapply descends_sbr; [exact Fts1|exact ET1|eapply nth_error_In; eauto|exact Su1|exact D].
        - eapply descends_sbr; [exact Fts|symmetry; exact ET1|eapply nth_error_In; eauto|apply sym; exact Su1|exact D]. }
      assert (D2 : forall x, descends ts x u <-> descends ts2 x u2).
      { intros x; split; intros D.
        - eapply descends_sbr; [exact Fts2|exact ET2|eapply nth_error_In; eauto|exact S2|exact D].
        - eapply descends_sbr; [exact Fts|symmetry; exact ET2|eapply nth_error_In; eauto|apply sym; exact S2|exact D]. }
      rewrite <- D1. cbn [In]. split.
      + intros [[[K|K]|K]|(j' & w' & I & Hw' & Hb & D)].
        * auto.
        * subst. right; exists j, w; repeat split; auto; congruence.
        * right; exists j, w; repeat split; auto; congruence.
        * right. destruct (skel_nth _ _ _ _ (eq_sym ET2) Hw') as (w'' & Hw'' & Sw'').
          destruct Sw'' as (_ & Vw & Bw & _).
          exists j', w''. repeat split; auto; try congruence.
          destruct D as [|D]; auto. right. rewrite Vw. apply D2; auto.
      + intros [K|(j' & w' & I & Hw' & Hb & D)]; auto.
        destruct I as [<-|I].
        * rewrite W in Hw'; inversion Hw'; subst w'. destruct D; auto.
        * right. destruct (skel_nth _ _ _ _ ET2 Hw') as (w'' & Hw'' & Sw'').
          destruct Sw'' as (_ & Vw & Bw & _).
          exists j', w''. repeat split; auto; try congruence.
          destruct D as [|D]; auto. right. rewrite Vw. apply D2; auto.
  Qed.
End Loop.

Lemma descends_cases ts v u : forest ts ->
  descends ts v u <->
  exists w, In w ts /\ t_based w = Some v /\ (u = w \/ descends ts (t_value w) u).
Proof.
  intros F. split.
  - intros D. induction D as [t I B|x t D IH I B].
    + exists t; auto.
    + destruct IH as (w & Iw & Bw & [->|Dw]).
      * exists w; repeat split; auto. right. apply desc_child; auto.
      * exists w; repeat split; auto. right. apply desc_trans with x; auto.
  - intros (w & I & B & [->|D]).
    + apply desc_child; auto.
    + induction D as [t I' B'|x t D IH I' B'].
      * apply desc_trans with w; auto. apply desc_child; auto.
      * apply desc_trans with x; auto.
Qed.

(** The loop over all positions revokes exactly the descendants. *)
Lemma full_loop ts (i : nat) u (v : string) : forest ts -> nth_error ts i = Some u ->
  (exists j w, In j (seq 0 (List.length ts)) /\ nth_error ts j = Some w /\ t_based w = Some v
               /\ (i = j \/ descends ts (t_value w) u)) <-> descends ts v u.
Proof.
  intros F Hu. rewrite (descends_cases ts v u F). split.
  - intros (j & w & _ & Hw & B & D). exists w. repeat split; auto.
    + eapply nth_error_In; eauto.
    + destruct D as [->|D]; auto. left; congruence.
  - intros (w & I & B & D). apply In_nth_error in I as [j Hj]. exists j, w.
    repeat split; auto.
    + apply in_seq. assert (j < List.length ts) by (apply nth_error_Some; congruence). lia.
    + destruct D as [->|D]; auto. left. eapply forest_value_inj; eauto.
Qed.

Lemma revoked_exactly_of ts ts' P : skel ts' = skel ts ->
  (forall i u u', nth_error ts i = Some u -> nth_error ts' i = Some u' ->
     (t_revoked u' = true <-> t_revoked u = true \/ P u)) ->
  revoked_exactly P ts ts'.
Proof.
  unfold revoked_exactly. revert ts'. induction ts as [|t ts IH]; intros [|t' ts'] E H;
    cbn in E; try discriminate; constructor.
  - inversion E. split; [apply skel_eq_sbr; congruence|]. apply (H 0); reflexivity.
  - apply IH; [inversion E; auto|]. intros i u u'. apply (H (S i)).
Qed.

Lemma revoke_dependent_ok : forall k v ts, forest ts ->
  (1 <= k) ->
  (forall j t, nth_error ts j = Some t -> t_based t = Some v -> List.length ts < j + k) ->
  exists ts', revoke_dependent k v ts = (Ok tt, ts') /\ skel ts' = skel ts
    /\ forall i u u', nth_error ts i = Some u -> nth_error ts' i = Some u' ->
         (t_revoked u' = true <-> t_revoked u = true \/ descends ts v u).
Proof.
  induction k as [|k IH]; intros v ts F K1 K; [lia|].
  cbn [revoke_dependent].
  edestruct (loop_ok (fun x => revoke_dependent k x) v) with (ts0 := ts) as (ts' & R & E & H).
  - intros i ts1. reflexivity.
  - exact F.
  - intros j t ts1 Hj B E1.
    pose proof (forest_skel _ _ (eq_sym E1) F) as F1.
    assert (P : forall j' t', nth_error ts1 j' = Some t' -> t_based t' = Some (t_value t) -> j < j').
    { intros j' t' H' B'. destruct (skel_nth _ _ _ _ E1 H') as (t2 & H2 & (_ & _ & B2 & _)).
      eapply (child_pos ts j j' t t2); eauto; congruence. }
    assert (Lj : j < List.length ts) by (apply nth_error_Some; congruence).
    pose proof (K j t Hj B) as Kj.
    destruct (IH (t_value t) ts1 F1) as (ts2 & R2 & E2 & H2).
    + lia.
    + intros j' t' H' B'. specialize (P j' t' H' B'). rewrite (skel_length _ _ E1). lia.
    + exists ts2. repeat split; auto; try congruence; apply (H2 i u u'); auto.
  - reflexivity.
  - exists ts'. repeat split; [exact R|exact E| |].
    + intros Hr. apply (H i u u') in Hr; auto. destruct Hr as [Hr|Hr]; auto.
      right. eapply full_loop; eauto.
    + intros Hr. apply (H i u u'); auto. destruct Hr as [Hr|Hr]; auto.
      right. eapply full_loop; eauto.
Qed.

Lemma forest_child_nonempty ts j t : forest ts -> nth_error ts j = Some t -> str_true (t_value t) = true.
Proof.
  intros (_ & NE & _) H. destruct (t_value t) eqn:V; auto.
  exfalso. apply NE. rewrite <- V. apply in_map. eapply nth_error_In; eauto.
Qed.

Lemma revoke_based_ok : forall k v ts, forest ts -> str_true v = true ->
  (1 <= k) ->
  (forall j t, nth_error ts j = Some t -> t_based t = Some v -> List.length ts < j + k) ->
  exists ts', revoke_token k "" v true ts = (Ok tt, ts') /\ skel ts' = skel ts
    /\ forall i u u', nth_error ts i = Some u -> nth_error ts' i = Some u' ->
         (t_revoked u' = true <-> t_revoked u = true \/ descends ts v u).
Proof.
  induction k as [|k IH]; intros v ts F Sv K1 K; [lia|].
  cbn [revoke_token].
  match goal with |- exists ts', for_pos ?b _ _ = _ /\ _ =>
    destruct (loop_ok (fun x => revoke_token k "" x true) v b) with (ts0 := ts)
      (is := seq 0 (List.length ts)) (ts := ts) as (ts' & R & E & H) end.
  - intros i ts1. cbn [str_true]. rewrite Sv. cbn [negb andb]. reflexivity.
  - exact F.
  - intros j t ts1 Hj B E1.
    pose proof (forest_skel _ _ (eq_sym E1) F) as F1.
    assert (P : forall j' t', nth_error ts1 j' = Some t' -> t_based t' = Some (t_value t) -> j < j').
    { intros j' t' H' B'. destruct (skel_nth _ _ _ _ E1 H') as (t2 & H2 & (_ & _ & B2 & _)).
      eapply (child_pos ts j j' t t2); eauto; congruence. }
    assert (Lj : j < List.length ts) by (apply nth_error_Some; congruence).
    pose proof (K j t Hj B) as Kj.
    destruct (IH (t_value t) ts1 F1) as (ts2 & R2 & E2 & H2).
    + exact (forest_child_nonempty ts j t F Hj).
    + lia.
    + intros j' t' H' B'. specialize (P j' t' H' B'). rewrite (skel_length _ _ E1). lia.
    + exists ts2. repeat split; auto; try congruence; apply (H2 i u u'); auto.
  - reflexivity.
  - exists ts'. repeat split; [exact R|exact E| |].
    + intros Hr. apply (H i u u') in Hr; auto. destruct Hr as [Hr|Hr]; auto.
      right. eapply full_loop; eauto.
    + intros Hr. apply (H i u u'); auto. destruct Hr as [Hr|Hr]; auto.
      right. eapply full_loop; eauto.
Qed.

(** *** Revocation by value *)
Lemma for_pos_noop {S} (body : nat -> M S unit) is (s : S) :
  (forall i, In i is -> body i s = (Ok tt, s)) -> for_pos body is s = (Ok tt, s).
Proof.
  induction is as [|i is IH]; intros H; cbn; auto.
  unfold bind. rewrite H by (cbn; auto). apply IH. intros; apply H; cbn; auto.
Qed.

Lemma for_pos_single {S} (body : nat -> M S unit) (I : S -> Prop) p is s s' :
  NoDup is -> In p is -> I s -> I s' ->
  (forall i s, I s -> i <> p -> body i s = (Ok tt, s)) ->
  body p s = (Ok tt, s') -> for_pos body is s = (Ok tt, s').
Proof.
  intros N IN Is Is' H Hp. induction is as [|i is IH]; [destruct IN|].
  inversion N; subst. cbn. unfold bind. destruct (Nat.eq_dec i p) as [->|NE].
  - rewrite Hp. apply for_pos_noop. intros j Hj. apply H; auto. congruence.
  - rewrite H by auto. apply IH; auto. destruct IN; congruence.
Qed.

Lemma value_in_dec (ts : list token) (v : string) :
  {p | exists t, nth_error ts p = Some t /\ t_value t = v} + {forall t, In t ts -> t_value t <> v}.
Proof.
  induction ts as [|t ts IH]; [right; intros t []|].
  destruct (string_dec (t_value t) v) as [E|NE].
  - left; exists 0, t; auto.
  - destruct IH as [[p H]|H]; [left; exists (S p); exact H|].
    right; intros u [<-|I]; auto.
Qed.

Lemma revoke_value_ok : forall k v ts, forest ts -> str_true v = true ->
  List.length ts < k ->
  exists ts', revoke_token k v "" true ts = (Ok tt, ts')
    /\ revoked_exactly (fun t => t_value t = v \/ descends ts v t) ts ts'.
Proof.
  intros [|k] v ts F Sv K; [lia|]. cbn [revoke_token].
  destruct (value_in_dec ts v) as [(p & t & Hp & Vt)|NV].
  - assert (Lp : p < List.length ts) by (apply nth_error_Some; congruence).
    set (ts1 := upd_nth p tok_set_revoked ts).
    assert (E1 : skel ts1 = skel ts) by (unfold ts1; apply skel_upd).
    assert (F1 : forest ts1) by (eapply forest_skel; [symmetry; exact E1|auto]).
    destruct (revoke_based_ok k v ts1 F1 Sv) as (ts2 & R2 & E2 & H2); [lia| |].
    { intros j u Hj B. rewrite (skel_length _ _ E1).
      destruct (skel_nth _ _ _ _ E1 Hj) as (u0 & H0 & (_ & _ & B0 & _)).
      assert (p < j). { eapply (child_pos ts p j t u0); eauto. congruence. } lia. }
    exists ts2. split.
    + apply (for_pos_single _ (fun s => skel s = skel ts) p).
      * apply seq_NoDup.
      * apply in_seq; lia.
      * reflexivity.
      * congruence.
      * intros i s Es NE. destruct (nth_error s i) as [u|] eqn:Hi; auto.
        rewrite Sv. cbn [negb andb str_true].
        destruct (String.eqb_spec (t_value u) v) as [Vu|]; auto.
        destruct (skel_nth _ _ _ _ Es Hi) as (u0 & H0 & (_ & V0 & _)).
        exfalso; apply NE. eapply (forest_value_inj ts); eauto. congruence.
      * rewrite Hp, Sv. cbn [negb andb str_true]. rewrite Vt, String.eqb_refl.
        unfold bind, revoke_nth. fold ts1. exact R2.
    + apply revoked_exactly_of; [congruence|].
      intros i u u' Hu Hu'.
      assert (X : exists u1, nth_error ts1 i = Some u1 /\ same_but_revoked u u1
        /\ (t_revoked u1 = true <-> t_revoked u = true \/ t_value u = v)).
      { unfold ts1. destruct (Nat.eq_dec p i) as [->|NE].
        - exists (tok_set_revoked u). rewrite nth_upd_nth_same, Hu.
          assert (u = t) by congruence. subst.
          repeat split; auto; cbn; auto.
        - exists u. rewrite nth_upd_nth_other by auto. repeat split; auto.
          intros [|V]; auto. exfalso; apply NE. eapply (forest_value_inj ts); eauto. congruence. }
      destruct X as (u1 & Hu1 & S1 & R1).
      rewrite (H2 i u1 u' Hu1 Hu'), R1.
      assert (D : descends ts1 v u1 <-> descends ts v u).
      { split; intros D.
        - eapply descends_sbr; [exact F|exact E1|eapply nth_error_In; eauto| |exact D].
          unfold same_but_revoked in *; intuition congruence.
        - eapply descends_sbr; [exact F1|symmetry; exact E1|eapply nth_error_In; eauto|exact S1|exact D]. }
      rewrite D. tauto.
  - exists ts. split.
    + apply for_pos_noop. intros i _. destruct (nth_error ts i) as [u|] eqn:Hi; auto.
      rewrite Sv. cbn [negb andb str_true].
      destruct (String.eqb_spec (t_value u) v) as [Vu|]; auto.
      exfalso; eapply NV; eauto. eapply nth_error_In; eauto.
    + apply revoked_exactly_of; [reflexivity|]. intros i u u' Hu Hu'.
      assert (u = u') by congruence; subst. split; auto.
      intros [|[V|D]]; auto.
      * exfalso; eapply NV; eauto. eapply nth_error_In; eauto.
      * exfalso. clear -D NV F. induction D as [t I B|]; auto.
        apply In_nth_error in I as [j Hj]. destruct F as (_ & _ & G).
        destruct (G j t v Hj B) as (i & p & _ & P & Vp).
        eapply NV; eauto. eapply nth_error_In; eauto.
Qed.

(** Without recursion, or without a selector. *)
Lemma for_pos_pointwise (c : token -> bool) (ts : list token) :
  (forall t, c (tok_set_revoked t) = c t) ->
  for_pos (fun i ts => match nth_error ts i with
                       | None => (Ok tt, ts)
                       | Some t => if c t then revoke_nth i ts else (Ok tt, ts)
                       end) (seq 0 (List.length ts)) ts
  = (Ok tt, map (fun t => if c t then tok_set_revoked t else t) ts).
Proof.
  intros Hc.
  assert (G : forall n ts1 ts2, n = List.length ts2 ->
    for_pos (fun i ts => match nth_error ts i with
                       | None => (Ok tt, ts)
                       | Some t => if c t then revoke_nth i ts else (Ok tt, ts)
                       end) (seq (List.length ts1) n) (ts1 ++ ts2)
    = (Ok tt, ts1 ++ map (fun t => if c t then tok_set_revoked t else t) ts2)).
  { induction n as [|n IH]; intros ts1 ts2 L.
    - destruct ts2; [|discriminate]. reflexivity.
    - destruct ts2 as [|t ts2]; [discriminate|]. inversion L.
      cbn [seq for_pos]. unfold bind at 1.
      rewrite nth_error_app2 by lia. rewrite Nat.sub_diag. cbn [nth_error].
      assert (U : upd_nth (List.length ts1) tok_set_revoked (ts1 ++ t :: ts2)
                  = ts1 ++ tok_set_revoked t :: ts2).
      { clear. induction ts1; cbn; auto. f_equal; auto. }
      specialize (IH (ts1 ++ [if c t then tok_set_revoked t else t]) ts2 H0).
      rewrite app_length, Nat.add_comm in IH. cbn [List.length Nat.add] in IH.
      rewrite <- !app_assoc in IH. cbn [app] in IH. subst n. cbn [map app].
      unfold revoke_nth at 1. rewrite U.
      destruct (c t); exact IH. }
  exact (G _ [] ts eq_refl).
Qed.

Lemma for_pos_ext {S} (f g : nat -> M S unit) is s :
  (forall i s, f i s = g i s) -> for_pos f is s = for_pos g is s.
Proof.
  intros H; revert s; induction is as [|i is IH]; intros s; cbn; auto.
  unfold bind. rewrite H. destruct (g i s) as [[|] s']; auto.
Qed.

Lemma revoked_exactly_map (c : token -> bool) ts :
  revoked_exactly (fun t => c t = true) ts (map (fun t => if c t then tok_set_revoked t else t) ts).
Proof.
  unfold revoked_exactly. induction ts as [|t ts IH]; cbn; constructor; auto.
  destruct (c t) eqn:C.
  - split; [apply sbr_revoke|]. cbn; tauto.
  - split; [apply sbr_refl|]. intuition congruence.
Qed.

Lemma revoked_exactly_iff P Q ts ts' : (forall t, In t ts -> (P t <-> Q t)) ->
  revoked_exactly P ts ts' -> revoked_exactly Q ts ts'.
Proof.
  intros H R. unfold revoked_exactly in *. revert H. induction R as [|t t' ts ts' [A B] R IH]; intros H.
  - constructor.
  - constructor.
    + split; auto. rewrite B, (H t) by (cbn; auto). tauto.
    + apply IH. intros; apply H; cbn; auto.
Qed.

Lemma revoke_value_only k v ts : str_true v = true ->
  exists ts', revoke_token (S k) v "" false ts = (Ok tt, ts')
    /\ revoked_exactly (fun t => t_value t = v) ts ts'.
Proof.
  intros Sv. cbn [revoke_token].
  exists (map (fun t => if String.eqb (t_value t) v then tok_set_revoked t else t) ts). split.
  - rewrite <- for_pos_pointwise by reflexivity. apply for_pos_ext. intros i s.
    destruct (nth_error s i) as [t|]; auto. rewrite Sv. cbn [negb andb str_true].
    destruct (String.eqb (t_value t) v); auto.
  - eapply revoked_exactly_iff; [|apply revoked_exactly_map]. intros; apply String.eqb_eq.
Qed.

Lemma revoke_all k rec ts :
  exists ts', revoke_token (S k) "" "" rec ts = (Ok tt, ts')
    /\ revoked_exactly (fun _ => True) ts ts'.
Proof.
  cbn [revoke_token]. exists (map tok_set_revoked ts). split.
  - rewrite <- (for_pos_pointwise (fun _ => true)) by reflexivity. apply for_pos_ext.
    intros i s. destruct (nth_error s i); auto.
  - eapply revoked_exactly_iff; [|apply (revoked_exactly_map (fun _ => true))]. tauto.
Qed.

(** *** Forests *)
Lemma forest_nil : forest [].
Proof.
  repeat split; [constructor|intros []|]. intros [|j] t b H; discriminate.
Qed.

Lemma forest_snoc ts t : forest ts -> ~ In (t_value t) (map t_value ts) -> t_value t <> "" ->
  (forall b, t_based t = Some b -> In b (map t_value ts)) -> forest (ts ++ [t]).
Proof.
  intros (N & NE & G) Fr Ne B. repeat split.
  - rewrite map_app. cbn.
    clear -N Fr. induction ts as [|u ts IH]; cbn in *.
    + constructor; [intros []|constructor].
    + inversion N; subst. constructor.
      * rewrite in_app_iff. cbn. intuition.
      * apply IH; auto.
  - rewrite map_app, in_app_iff. cbn. intuition.
  - intros j u b H Hb.
    destruct (Nat.lt_ge_cases j (List.length ts)) as [L|L].
    + rewrite nth_error_app1 in H by auto. destruct (G j u b H Hb) as (i & p & Li & P & V).
      exists i, p. rewrite nth_error_app1 by lia. auto.
    + rewrite nth_error_app2 in H by auto.
      destruct (j - List.length ts) as [|d] eqn:D; [|destruct d; discriminate].
      inversion H; subst u. specialize (B b Hb). apply in_map_iff in B as (p & V & I).
      apply In_nth_error in I as [i Hi]. exists i, p.
      assert (i < List.length ts) by (apply nth_error_Some; congruence).
      rewrite nth_error_app1 by auto. repeat split; auto. lia.
Qed.

(** *** Scope look-up *)
Lemma get_token_In g v t : get_token g v = Some t -> In t (g_tokens g) /\ t_value t = v.
Proof.
  unfold get_token. intros H. apply find_some in H as [I E]. apply String.eqb_eq in E. auto.
Qed.

Lemma get_token_None g v : get_token g v = None <-> ~ In v (map t_value (g_tokens g)).
Proof.
  unfold get_token. split.
  - intros H I. apply in_map_iff in I as (t & V & I).
    eapply find_none in H; eauto. cbn in H. rewrite V, String.eqb_refl in H. discriminate.
  - intros H. destruct (find _ _) as [t|] eqn:E; auto.
    apply find_some in E as [I V]. apply String.eqb_eq in V.
    exfalso; apply H. rewrite <- V. apply in_map; auto.
Qed.

Lemma get_token_forest g t : forest (g_tokens g) -> In t (g_tokens g) ->
  get_token g (t_value t) = Some t.
Proof.
  intros F I. destruct (get_token g (t_value t)) as [u|] eqn:E.
  - apply get_token_In in E as [J V]. f_equal. eapply forest_In_inj; eauto.
  - apply get_token_None in E. exfalso; apply E. apply in_map; auto.
Qed.

Lemma find_scope_ok : forall k g t j, forest (g_tokens g) -> nth_error (g_tokens g) j = Some t ->
  j < k ->
  exists sc, find_scope k g (Some t) = Ok sc
    /\ inherited_scope (g_tokens g) (g_scope g) (Some (t_value t)) sc.
Proof.
  induction k as [|k IH]; intros g t j F Hj L; [lia|].
  cbn [find_scope]. pose proof (nth_error_In _ _ Hj) as It.
  destruct (t_scope t) as [|x l] eqn:Sc; cbn [list_true].
  - destruct (t_based t) as [b|] eqn:B.
    + destruct F as (N & NE & G) eqn:EF. destruct (G j t b Hj B) as (i & p & Li & P & V).
      pose proof (nth_error_In _ _ P) as Ip.
      assert (str_true b = true) as ->.
      { subst b. eapply forest_child_nonempty; [exact (conj N (conj NE G))|exact P]. }
      rewrite <- V, get_token_forest by (auto; exact (conj N (conj NE G))).
      destruct (IH g p i (conj N (conj NE G)) P) as (sc & R & I); [lia|].
      exists sc; split; auto. apply inh_up with t; auto. rewrite B, <- V. auto.
    + exists (g_scope g); split; auto. apply inh_up with t; auto. rewrite B. constructor.
  - exists (x :: l); split; auto. rewrite <- Sc. apply inh_own; auto. congruence.
Qed.

Lemma find_scope_sub : forall k g b sc, find_scope k g b = Ok sc ->
  (forall t, In t (g_tokens g) -> incl (t_scope t) (g_scope g)) ->
  (forall t, b = Some t -> incl (t_scope t) (g_scope g)) -> incl sc (g_scope g).
Proof.
  induction k as [|k IH]; intros g b sc H HA HB; cbn in H; [discriminate|].
  destruct b as [t|]; [|inversion H; apply incl_refl].
  destruct (list_true (t_scope t)) eqn:L.
  - inversion H; subst. auto.
  - destruct (t_based t) as [v|]; [|inversion H; apply incl_refl].
    destruct (str_true v); [|inversion H; apply incl_refl].
    eapply IH; eauto. intros u E. apply get_token_In in E as [I _]. auto.
Qed.

(** *** Minting *)
Lemma mint_ok_inv limit g now sid tc based rules scope ttype tid mkval t g' :
  mint_token limit g now sid tc based rules scope ttype tid mkval = Ok (Some (t, g')) ->
  grant_active now g = true
  /\ (forall b, based = Some b -> supports_minting b tc = true /\ tok_active now b = true)
  /\ known_class tc = true
  /\ (exists sc v,
       (match scope with
        | Some s => Ok s
        | None => match based with Some b => find_scope limit g (Some b) | None => Ok (g_scope g) end
        end) = Ok sc
       /\ mkval sc = Ok v
       /\ t = new_token now sid tc (option_map t_value based)
                (match rules with Some r => Some r | None => dget (g_rules g) tc end) sc ttype tid v)
  /\ g' = g_add_token t g.
Proof.
  unfold mint_token. destruct (grant_active now g) eqn:A; [|discriminate]. cbn [negb].
  destruct based as [b|].
  - destruct (supports_minting b tc) eqn:S; [|discriminate].
    destruct (tok_active now b) eqn:TA; [|discriminate]. cbn [negb rbind].
    destruct (known_class tc) eqn:KC; [|discriminate]. cbn [negb].
    destruct scope as [s|].
    + cbn [rbind]. destruct (mkval s) as [v|] eqn:MV; [|discriminate]. cbn [rbind].
      intros E; inversion E; subst. repeat split; auto.
      1,2: congruence.
      exists s, v; repeat split; auto.
    + destruct (find_scope limit g (Some b)) as [s|] eqn:FS; [|discriminate].
      cbn [rbind]. destruct (mkval s) as [v|] eqn:MV; [|discriminate]. cbn [rbind].
      intros E; inversion E; subst. repeat split; auto.
      1,2: congruence.
      exists s, v; repeat split; auto.
  - cbn [rbind]. destruct (known_class tc) eqn:KC; [|discriminate]. cbn [negb].
    destruct scope as [s|]; cbn [rbind];
    (match goal with |- context [mkval ?s] => destruct (mkval s) as [v|] eqn:MV; [|discriminate] end);
    cbn [rbind]; intros E; inversion E; subst; repeat split; auto; try discriminate;
    eexists _, v; repeat split; eauto.
Qed.

Lemma mint_inactive limit g now sid tc based rules scope ttype tid mkval :
  grant_active now g = false ->
  mint_token limit g now sid tc based rules scope ttype tid mkval = Ok None.
Proof. unfold mint_token. intros ->. reflexivity. Qed.

Lemma mint_refused limit g now sid tc b rules scope ttype tid mkval :
  grant_active now g = true ->
  supports_minting b tc = false \/ tok_active now b = false ->
  mint_token limit g now sid tc (Some b) rules scope ttype tid mkval = Raise MintingNotAllowed.
Proof.
  unfold mint_token. intros -> H. cbn [negb].
  destruct (supports_minting b tc); cbn [negb rbind]; auto.
  destruct H as [ | -> ]; [discriminate|]. reflexivity.
Qed.

Lemma mint_not_none limit g now sid tc based rules scope ttype tid mkval :
  mint_token limit g now sid tc based rules scope ttype tid mkval = Ok None ->
  grant_active now g = false.
Proof.
  unfold mint_token. destruct (grant_active now g); auto. cbn [negb].
  destruct (match based with Some b => _ | None => _ end); [|discriminate]. cbn [rbind].
  destruct (known_class tc); [|discriminate]. cbn [negb].
  destruct (match scope with Some s => _ | None => _ end); [|discriminate]. cbn [rbind].
  destruct (mkval _); discriminate.
Qed.

(** *** A chain longer than the recursion limit *)
Fixpoint xs (n : nat) : string := match n with O => "x" | S k => String "x" (xs k) end.

Definition link (i : nat) : token :=
  mk_token REFRESH (xs i) (match i with O => None | S k => Some (xs k) end)
    empty_rule 0 0 0 false 0 "" [] [] None "".
Definition chain (n : nat) : list token := map link (seq 0 n).

Lemma xs_inj i j : xs i = xs j -> i = j.
Proof. revert j; induction i as [|i IH]; intros [|j] H; cbn in H; auto; inversion H.
  - destruct j; discriminate.
  - destruct i; discriminate.
  - f_equal; auto.
Qed.
Lemma xs_true i : str_true (xs i) = true.
Proof. destruct i; reflexivity. Qed.

Lemma chain_length n : List.length (chain n) = n.
Proof. unfold chain. now rewrite map_length, seq_length. Qed.

Lemma chain_nth n i t : nth_error (chain n) i = Some t -> t = link i /\ i < n.
Proof.
  intros H. assert (L : i < n) by (rewrite <- (chain_length n); apply nth_error_Some; congruence).
  split; auto. unfold chain in H. rewrite nth_error_map in H.
  rewrite (nth_error_nth' _ 0) in H by (rewrite seq_length; auto).
  rewrite seq_nth in H by auto. cbn in H. congruence.
Qed.
Lemma chain_nth' n i : i < n -> nth_error (chain n) i = Some (link i).
Proof.
  intros L. destruct (nth_error (chain n) i) as [t|] eqn:E.
  - apply chain_nth in E as [-> _]; auto.
  - apply nth_error_None in E. rewrite chain_length in E. lia.
Qed.

Lemma chain_forest n : forest (chain n).
Proof.
  repeat split.
  - unfold chain. rewrite map_map. cbn.
    apply Injective_map_NoDup; [intros i j; apply xs_inj|apply seq_NoDup].
  - unfold chain. rewrite map_map. cbn. intros I. apply in_map_iff in I as (i & E & _).
    destruct i; discriminate.
  - intros j t b H B. apply chain_nth in H as [-> L]. destruct j as [|j]; cbn in B; [discriminate|].
    inversion B. exists j, (link j). repeat split; auto. apply chain_nth'; lia.
Qed.

Lemma for_pos_raise {S} (body : nat -> M S unit) p n s s' e :
  p < n -> (forall i, i < p -> body i s = (Ok tt, s)) -> body p s = (Raise e, s') ->
  for_pos body (seq 0 n) s = (Raise e, s').
Proof.
  intros L H Hp.
  assert (G : forall k m, m <= p -> p < m + k ->
     for_pos body (seq m k) s = (Raise e, s')).
  { induction k as [|k IH]; intros m Lm Lk; [lia|].
    cbn [seq for_pos]. unfold bind. destruct (Nat.eq_dec m p) as [->|NE].
    - rewrite Hp. reflexivity.
    - rewrite H by lia. apply IH; lia. }
  apply G; lia.
Qed.

Lemma chain_raise : forall k n i ts, skel ts = skel (chain n) -> i + k < n ->
  (forall j t, i + k < j -> nth_error ts j = Some t -> t_revoked t = false) ->
  exists ts', revoke_token k "" (xs i) true ts = (Raise RecursionError, ts')
    /\ skel ts' = skel (chain n)
    /\ (forall j t, i + k < j -> nth_error ts' j = Some t -> t_revoked t = false).
Proof.
  induction k as [|k IH]; intros n i ts E L R.
  - exists ts; auto.
  - cbn [revoke_token].
    set (ts1 := upd_nth (S i) tok_set_revoked ts).
    destruct (IH n (S i) ts1) as (ts' & R' & E' & H').
    + unfold ts1. now rewrite skel_upd.
    + lia.
    + intros j t Lj Hj. unfold ts1 in Hj. rewrite nth_upd_nth_other in Hj by lia.
      apply (R j t); auto; lia.
    + exists ts'. split; [|split; [exact E'|intros j t Lj; apply H'; lia]].
      rewrite (skel_length _ _ E), chain_length.
      apply for_pos_raise with (S i); [lia| |].
      * intros j Lj. destruct (nth_error ts j) as [t|] eqn:Hj; auto.
        destruct (skel_nth _ _ _ _ E Hj) as (t0 & H0 & (_ & V0 & B0 & _)).
        apply chain_nth in H0 as [-> _].
        rewrite xs_true. cbn [str_true negb andb]. rewrite <- B0. cbn [t_based link].
        destruct j as [|j]; auto.
        destruct (String.eqb_spec (xs j) (xs i)) as [Q|]; auto. apply xs_inj in Q. lia.
      * destruct (nth_error ts (S i)) as [t|] eqn:Hj.
        2:{ apply nth_error_None in Hj. rewrite (skel_length _ _ E), chain_length in Hj. lia. }
        destruct (skel_nth _ _ _ _ E Hj) as (t0 & H0 & (_ & V0 & B0 & _)).
        apply chain_nth in H0 as [-> _].
        rewrite xs_true. cbn [str_true negb andb]. rewrite <- B0. cbn [t_based link].
        rewrite String.eqb_refl. unfold bind, revoke_nth. fold ts1. rewrite <- V0. exact R'.
Qed.

Lemma chain_revoke_raises k :
  exists ts', revoke_token (S k) (xs 0) "" true (chain (k + 2)) = (Raise RecursionError, ts')
    /\ skel ts' = skel (chain (k + 2))
    /\ exists t, nth_error ts' (k + 1) = Some t /\ t_revoked t = false.
Proof.
  cbn [revoke_token].
  set (ts1 := upd_nth 0 tok_set_revoked (chain (k + 2))).
  destruct (chain_raise k (k + 2) 0 ts1) as (ts' & R & E & H).
  - unfold ts1. now rewrite skel_upd.
  - lia.
  - intros j t Lj Hj. unfold ts1 in Hj. rewrite nth_upd_nth_other in Hj by lia.
    apply chain_nth in Hj as [-> _]. reflexivity.
  - exists ts'. split; [|split; [exact E|]].
    + rewrite chain_length. apply for_pos_raise with 0; [lia|lia|].
      rewrite chain_nth' by lia. rewrite xs_true. cbn [str_true negb andb].
      change (t_value (link 0)) with (xs 0). rewrite String.eqb_refl.
      unfold bind, revoke_nth. fold ts1. exact R.
    + destruct (nth_error ts' (k + 1)) as [t|] eqn:Hj.
      * exists t; split; auto. apply (H (k + 1)); auto. lia.
      * apply nth_error_None in Hj. rewrite (skel_length _ _ E), chain_length in Hj. lia.
Qed.

Lemma chain_descends n j : 0 < j < n -> descends (chain n) (xs 0) (link j).
Proof.
  intros [L L']. induction j as [|j IH]; [lia|].
  destruct j as [|j].
  - apply desc_child; [|reflexivity]. eapply nth_error_In, chain_nth'; lia.
  - apply desc_trans with (link (S j)); [apply IH; lia| |reflexivity].
    eapply nth_error_In, chain_nth'; lia.
Qed.

(** *** Wrap-ups for the property file *)
Lemma revoke_dependent_exact limit v ts : forest ts -> List.length ts < limit ->
  exists ts', revoke_dependent limit v ts = (Ok tt, ts') /\ revoked_exactly (descends ts v) ts ts'.
Proof.
  intros F L. destruct (revoke_dependent_ok limit v ts F) as (ts' & R & E & H); [lia| |].
  - intros; lia.
  - exists ts'; split; auto. apply revoked_exactly_of; auto.
Qed.

Lemma str_true_ne v : v <> "" -> str_true v = true.
Proof. destruct v; auto; congruence. Qed.

Lemma revoke_single_exact limit v ts : v <> "" -> 0 < limit ->
  exists ts', revoke_token limit v "" false ts = (Ok tt, ts')
    /\ revoked_exactly (fun t => t_value t = v) ts ts'.
Proof. intros N L. destruct limit as [|k]; [lia|]. apply revoke_value_only, str_true_ne, N. Qed.

Lemma revoke_all_exact limit rec ts : 0 < limit ->
  exists ts', revoke_token limit "" "" rec ts = (Ok tt, ts')
    /\ revoked_exactly (fun _ => True) ts ts'.
Proof. intros L. destruct limit as [|k]; [lia|]. apply revoke_all. Qed.

Lemma long_chain_refuted limit :
  exists ts v ts' t t', forest ts /\ v <> ""
    /\ revoke_token limit v "" true ts = (Raise RecursionError, ts')
    /\ descends ts v t /\ same_but_revoked t t' /\ In t' ts' /\ t_revoked t' = false.
Proof.
  destruct limit as [|k].
  - exists (chain 2), (xs 0), (chain 2), (link 1), (link 1).
    repeat split; try apply chain_forest; try discriminate; auto.
    + apply chain_descends; lia.
    + cbn; auto.
  - destruct (chain_revoke_raises k) as (ts' & R & E & t & Ht & Rt).
    symmetry in E.
    assert (C : nth_error (chain (k + 2)) (k + 1) = Some (link (k + 1))) by (apply chain_nth'; lia).
    destruct (skel_nth _ _ _ _ E C) as (t2 & Ht2 & S).
    assert (t2 = t) by congruence; subst.
    exists (chain (k + 2)), (xs 0), ts', (link (k + 1)), t.
    split; [apply chain_forest|]. split; [discriminate|]. split; [exact R|].
    split; [apply chain_descends; lia|]. split; [exact S|]. split; auto.
    eapply nth_error_In; eauto.
Qed.

Lemma supports_minting_spec b tc :
  supports_minting b tc = true <-> exists l, r_minting (t_rules b) = Some l /\ In tc l.
Proof.
  unfold supports_minting. destruct (r_minting (t_rules b)) as [l|].
  - rewrite smem_In. split; [eauto|]. intros (l' & E & I); congruence.
  - split; [discriminate|]. intros (l & E & _); discriminate.
Qed.

Lemma mint_guard limit g now sid tc based rules scope ttype tid mkval t g' :
  mint_token limit g now sid tc based rules scope ttype tid mkval = Ok (Some (t, g')) ->
  grant_live g now
  /\ (forall b, based = Some b ->
        token_live b now
        /\ (exists l, r_minting (t_rules b) = Some l /\ In tc l)
        /\ t_based t = Some (t_value b))
  /\ (based = None -> t_based t = None)
  /\ t_class t = tc /\ t_revoked t = false /\ t_used t = 0%Z
  /\ g' = mk_grant (g_scope g) (g_claims g) (g_resources g) (g_areq g) (g_aevent g)
            (g_tokens g ++ [t]) (g_rules g) (g_max g) (g_issued g) (g_exp g) (g_nbf g)
            (g_revoked g) (g_used g + 1) (g_id g) (g_sub g) (g_extra g).
Proof.
  intros H. apply mint_ok_inv in H as (A & B & K & (sc & v & _ & _ & Et) & Eg).
  split; [now apply grant_active_live|]. split.
  { intros b E. destruct (B b E) as [S T]. split; [now apply tok_active_live|].
    split; [now apply supports_minting_spec|]. subst; reflexivity. }
  subst. repeat split; auto. intros ->; reflexivity.
Qed.

Lemma mint_guard_otherwise limit g now sid tc based rules scope ttype tid mkval :
  ~ grant_live g now
  \/ (exists b, based = Some b
       /\ (~ token_live b now \/ ~ (exists l, r_minting (t_rules b) = Some l /\ In tc l))) ->
  forall t g', mint_token limit g now sid tc based rules scope ttype tid mkval <> Ok (Some (t, g')).
Proof.
  intros H t g' E. apply mint_guard in E as (A & B & _).
  destruct H as [H|(b & Eb & [H|H])]; auto; destruct (B b Eb) as (X & Y & _); auto.
Qed.

Lemma mint_succeeds limit g now sid tc based rules sc ttype tid mkval v :
  grant_live g now ->
  (forall b, based = Some b ->
     token_live b now /\ exists l, r_minting (t_rules b) = Some l /\ In tc l) ->
  In tc ["authorization_code"; "access_token"; "refresh_token"; "id_token"] ->
  mkval sc = Ok v ->
  exists t g', mint_token limit g now sid tc based rules (Some sc) ttype tid mkval
               = Ok (Some (t, g'))
    /\ t_value t = v /\ t_scope t = sc.
Proof.
  intros A B K V. apply grant_active_live in A.
  assert (known_class tc = true) as KC by (apply smem_In; exact K).
  unfold mint_token. rewrite A, KC. cbn [negb rbind].
  destruct based as [b|].
  - destruct (B b eq_refl) as [T S]. apply tok_active_live in T. apply supports_minting_spec in S.
    rewrite T, S. cbn [negb rbind]. rewrite V. cbn [rbind].
    eexists _, _; repeat split; reflexivity.
  - cbn [rbind]. rewrite V. cbn [rbind]. eexists _, _; repeat split; reflexivity.
Qed.

Lemma mint_forest limit g now sid tc based rules scope ttype tid mkval t g' :
  mint_token limit g now sid tc based rules scope ttype tid mkval = Ok (Some (t, g')) ->
  forest (g_tokens g) ->
  (forall b, based = Some b -> In b (g_tokens g)) ->
  t_value t <> "" -> ~ In (t_value t) (map t_value (g_tokens g)) ->
  forest (g_tokens g').
Proof.
  intros H F B N Fr. apply mint_guard in H as (_ & P & Q & _ & _ & _ & ->).
  cbn [g_tokens].
  apply forest_snoc; auto. intros b E. destruct based as [p|].
  - destruct (P p eq_refl) as (_ & _ & X). rewrite X in E. inversion E; subst.
    apply in_map; auto.
  - rewrite Q in E by auto. discriminate.
Qed.

Lemma scope_walk limit g t :
  forest (g_tokens g) -> In t (g_tokens g) -> List.length (g_tokens g) <= limit ->
  exists sc, find_scope limit g (Some t) = Ok sc
    /\ inherited_scope (g_tokens g) (g_scope g) (Some (t_value t)) sc.
Proof.
  intros F I L. apply In_nth_error in I as [j Hj]. eapply find_scope_ok; eauto.
  assert (j < List.length (g_tokens g)) by (apply nth_error_Some; congruence). lia.
Qed.

Lemma ex_forest4 t0 t1 t2 t3 :
  t_value t0 = "c" -> t_based t0 = None -> t_value t1 = "r" -> t_based t1 = Some "c" ->
  t_value t2 = "a" -> t_based t2 = Some "r" -> t_value t3 = "b" -> t_based t3 = None ->
  forest [t0; t1; t2; t3].
Proof.
  intros V0 B0 V1 B1 V2 B2 V3 B3.
  assert (F1 : forest [t0]).
  { apply (forest_snoc [] t0 forest_nil); [intros []|congruence|congruence]. }
  assert (F2 : forest ([t0] ++ [t1])).
  { apply forest_snoc; auto; cbn; rewrite ?V0, ?V1; try intuition congruence. }
  assert (F3 : forest (([t0] ++ [t1]) ++ [t2])).
  { apply forest_snoc; auto; cbn; rewrite ?V0, ?V1, ?V2; try intuition congruence. }
  apply (forest_snoc _ t3 F3); cbn; rewrite ?V0, ?V1, ?V2, ?V3; intuition congruence.
Qed.
