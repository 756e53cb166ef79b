(** Lemmas on the choice of an authentication method. *)
From Verif Require Import M_Base M_Uri M_Broker S_Broker L_Base.

Lemma seqb_sym a b : String.eqb a b = String.eqb b a.
Proof. destruct (String.eqb b a) eqn:E; [apply seqb_eq in E; subst; apply seqb_refl|]. apply seqb_neq in E. apply seqb_neq. congruence. Qed.
Lemma filter_all {X} (f : X -> bool) l : (forall x, In x l -> f x = true) -> filter f l = l.
Proof. induction l as [|x l IH]; intros H; [reflexivity|]. cbn. rewrite (H x (or_introl eq_refl)), IH; [reflexivity|]. intros y I. apply H. now right. Qed.
Lemma In_dget {V} (d : dict V) k v : NoDup (dkeys d) -> In (k, v) d -> dget d k = Some v.
Proof.
  induction d as [|[k' v'] d IH]; intros N I; [destruct I|]. cbn in *. inversion N; subst. destruct I as [[= -> ->]|I].
  - now rewrite seqb_refl.
  - destruct (String.eqb k k') eqn:E; [|auto]. apply seqb_eq in E. subst. exfalso. apply H1. apply in_map_iff. exists (k', v). auto.
Qed.

Definition ids_of (r : list (string * minfo)) (a : string) : list string :=
  map fst (filter (fun p => String.eqb (mi_acr (snd p)) a) r).
Definition binv (b : broker) (r : list (string * minfo)) : Prop :=
  br_db b = r /\ NoDup (dkeys (br_db b)) /\ NoDup (dkeys (br_ids b)) /\
  forall a, match dget (br_ids b) a with
            | None => ids_of r a = []
            | Some l => l = ids_of r a /\ l <> []
            end.

Lemma dset_new {V} (d : dict V) k v : ~ In k (dkeys d) -> dset d k v = d ++ [(k, v)].
Proof.
  induction d as [|[k' v'] d IH]; intros N; [reflexivity|]. cbn in *. destruct (String.eqb k k') eqn:E.
  - apply seqb_eq in E. subst. tauto.
  - now rewrite IH by tauto.
Qed.
Lemma ddel_filter {V} (d : dict V) k : NoDup (dkeys d) -> ddel d k = filter (fun p => negb (String.eqb (fst p) k)) d.
Proof.
  induction d as [|[k' v'] d IH]; intros N; [reflexivity|]. cbn in *. inversion N; subst.
  rewrite (seqb_sym k' k). destruct (String.eqb k k') eqn:E; cbn.
  - apply seqb_eq in E. subst k'. symmetry. apply filter_all. intros [x y] I. cbn. apply negb_true_iff, seqb_neq.
    intros ->. apply H1. apply in_map_iff. exists (k, y). auto.
  - now rewrite IH.
Qed.
Lemma ids_app r s a : ids_of (r ++ s) a = ids_of r a ++ ids_of s a.
Proof. unfold ids_of. now rewrite filter_app, map_app. Qed.
Lemma ids_in r a k : In k (ids_of r a) -> In k (map fst r).
Proof. unfold ids_of. rewrite !in_map_iff. intros (p & <- & I). apply filter_In in I as [I _]. eauto. Qed.

Lemma ids_del r k a : NoDup (map fst r) ->
  ids_of (filter (fun p => negb (String.eqb (fst p) k)) r) a = filter (fun x => negb (String.eqb x k)) (ids_of r a).
Proof.
  intros _. unfold ids_of. induction r as [|[k' i] r IH]; [reflexivity|]. cbn.
  destruct (String.eqb k' k) eqn:E; cbn; destruct (String.eqb (mi_acr i) a); cbn; rewrite ?E; cbn; rewrite IH; reflexivity.
Qed.
Lemma ids_nodup r a : NoDup (map fst r) -> NoDup (ids_of r a).
Proof.
  unfold ids_of. induction r as [|[k i] r IH]; cbn; intros N; [constructor|]. inversion N; subst.
  destruct (String.eqb (mi_acr i) a); cbn; auto. constructor; auto. intros I. apply H1. now apply (ids_in r a).
Qed.
Lemma list_remove_filter k l : NoDup l -> In k l -> list_remove k l = Ok (filter (fun x => negb (String.eqb x k)) l).
Proof.
  induction l as [|y l IH]; intros N I; [destruct I|]. inversion N; subst. cbn. rewrite (seqb_sym y k).
  destruct (String.eqb k y) eqn:E; cbn.
  - apply seqb_eq in E. subst y. f_equal. symmetry. apply filter_all. intros x Ix. apply negb_true_iff, seqb_neq. intros ->. auto.
  - destruct I as [->|I]; [rewrite seqb_refl in E; discriminate|]. rewrite IH by auto. reflexivity.
Qed.

Lemma step_inv b r o : binv b r -> match o with BSet k _ _ => ~ In k (map fst r) | BDel _ => True end ->
  binv (bstep b o) (reg_step r o).
Proof.
  intros (Ed & N & Ni & I) T. destruct o as [k [a|] [m|]|k]; cbn [bstep reg_step br_set]; try (repeat split; assumption).
  - repeat split; cbn [br_db br_ids].
    + rewrite dset_new; [now rewrite Ed|]. unfold dkeys. now rewrite Ed.
    + now apply dset_keys_nodup.
    + destruct (dget (br_ids b) a); now apply dset_keys_nodup.
    + intros a'. rewrite ids_app. destruct (String.eqb a' a) eqn:E.
      * apply seqb_eq in E. subst a'. pose proof (I a) as Ia. unfold ids_of at 2 4. cbn. rewrite seqb_refl. cbn.
        destruct (dget (br_ids b) a) as [l|]; rewrite dget_dset_same.
        -- destruct Ia as [-> _]. split; [reflexivity|]. destruct (ids_of r a); discriminate.
        -- rewrite Ia. split; [reflexivity|discriminate].
      * apply seqb_neq in E. pose proof (I a') as Ia. unfold ids_of at 2 4. cbn.
        assert (String.eqb a a' = false) as -> by (apply seqb_neq; congruence). cbn. rewrite app_nil_r.
        destruct (dget (br_ids b) a); rewrite dget_dset_other by exact E; exact Ia.
  - unfold br_del. destruct (dget (br_db b) k) as [i|] eqn:Ek.
    2:{ cbn [snd]. assert (filter (fun p => negb (String.eqb (fst p) k)) r = r) as ->.
        { apply filter_all. intros [x y] Ix. cbn. apply negb_true_iff, seqb_neq. intros ->.
          apply dget_None_keys in Ek. apply Ek. rewrite Ed. apply in_map_iff. exists (k, y). auto. }
        repeat split; assumption. }
    assert (Ikr : In (k, i) r) by (rewrite <- Ed; now apply dget_In).
    assert (Ika : In k (ids_of r (mi_acr i))).
    { unfold ids_of. apply in_map_iff. exists (k, i). split; [reflexivity|]. apply filter_In. split; [exact Ikr|]. cbn. apply seqb_refl. }
    pose proof (I (mi_acr i)) as Ia. destruct (dget (br_ids b) (mi_acr i)) as [l|] eqn:El; [|rewrite Ia in Ika; destruct Ika].
    destruct Ia as [-> _]. assert (Nr : NoDup (map fst r)) by (rewrite <- Ed; exact N).
    rewrite (list_remove_filter _ _ (ids_nodup _ _ Nr) Ika).
    assert (Oth : forall a, a <> mi_acr i -> ids_of (filter (fun p => negb (String.eqb (fst p) k)) r) a = ids_of r a).
    { intros a Na. rewrite ids_del by exact Nr. apply filter_all. intros x Ix. apply negb_true_iff, seqb_neq. intros ->.
      unfold ids_of in Ix. apply in_map_iff in Ix as ([k0 j] & E0 & Ix). cbn in E0. subst k0. apply filter_In in Ix as [Ix Ej].
      cbn in Ej. apply seqb_eq in Ej. assert (j = i); [|congruence].
      assert (dget (br_db b) k = Some j); [|congruence]. rewrite Ed. now apply In_dget. }
    pose proof (ids_del r k (mi_acr i) Nr) as Edel.
    destruct (filter (fun x => negb (String.eqb x k)) (ids_of r (mi_acr i))) as [|y l'] eqn:Ef; cbn [snd].
    + repeat split; cbn [br_db br_ids].
      * rewrite ddel_filter by exact N. now rewrite Ed.
      * now apply ddel_keys_nodup.
      * now apply ddel_keys_nodup.
      * intros a. destruct (String.eqb a (mi_acr i)) eqn:E.
        -- apply seqb_eq in E. subst a. rewrite dget_ddel_same by exact Ni. exact Edel.
        -- apply seqb_neq in E. rewrite dget_ddel_other by exact E. rewrite Oth by exact E. apply I.
    + repeat split; cbn [br_db br_ids].
      * rewrite ddel_filter by exact N. now rewrite Ed.
      * now apply ddel_keys_nodup.
      * now apply dset_keys_nodup.
      * intros a. destruct (String.eqb a (mi_acr i)) eqn:E.
        -- apply seqb_eq in E. subst a. rewrite dget_dset_same. split; [congruence|discriminate].
        -- apply seqb_neq in E. rewrite dget_dset_other by exact E. rewrite Oth by exact E. apply I.
Qed.

Lemma run_inv ops : forall b r, binv b r -> tidy_from r ops -> binv (fold_left bstep ops b) (fold_left reg_step ops r).
Proof.
  induction ops as [|o ops IH]; intros b r I T; [exact I|]. destruct T as [T1 T2]. cbn. apply IH; [|exact T2]. now apply step_inv.
Qed.
Lemma after_inv ops : tidy ops -> binv (after ops) (methods ops).
Proof.
  intros T. apply run_inv; [|exact T]. repeat split; cbn; try constructor.
Qed.

Lemma pick_spec b r a : binv b r -> pick b a = Ok (map snd (filter (fun p => String.eqb (mi_acr (snd p)) a) r)).
Proof.
  intros (Ed & N & _ & I). unfold pick. specialize (I a).
  assert (L : forall l, (forall p, In p l -> In p r) -> look_all (br_db b) (map fst l) = Ok (map snd l)).
  { induction l as [|[k i] l IH]; intros H; [reflexivity|]. cbn.
    assert (dget (br_db b) k = Some i) as ->.
    { apply In_dget; [exact N|]. rewrite Ed. apply H. now left. }
    rewrite IH; [reflexivity|]. intros p Ip. apply H. now right. }
  unfold ids_of in I. destruct (dget (br_ids b) a) as [l|].
  - destruct I as [-> _]. apply L. intros p Ip. apply filter_In in Ip. apply Ip.
  - destruct (filter _ r); [reflexivity|discriminate].
Qed.

Lemma first_of {X} (f : X -> bool) l x t : filter f l = x :: t ->
  exists l1 l2, l = l1 ++ x :: l2 /\ f x = true /\ forall y, In y l1 -> f y = false.
Proof.
  induction l as [|y l IH]; cbn; [discriminate|]. destruct (f y) eqn:E.
  - intros [= -> _]. exists [], l. cbn. split; [reflexivity|]. split; [exact E|]. intros y [].
  - intros H. destruct (IH H) as (l1 & l2 & -> & F & G). exists (y :: l1), l2. split; [reflexivity|]. split; [exact F|].
    intros z [<-|Iz]; auto.
Qed.

Lemma first_pick_spec b r acrs : binv b r ->
  (exists x, first_pick b acrs = Ok (Some x) /\ best r acrs x) \/
  (first_pick b acrs = Ok None /\ forall p a, In p r -> In a acrs -> mi_acr (snd p) <> a).
Proof.
  intros I. induction acrs as [|a acrs IH]; cbn [first_pick].
  - right. split; [reflexivity|]. intros p a _ [].
  - rewrite (pick_spec b r a I). cbn [rbind].
    destruct (filter (fun p => String.eqb (mi_acr (snd p)) a) r) as [|[k x] t] eqn:Ef; cbn [map].
    + assert (None_a : forall p, In p r -> mi_acr (snd p) <> a).
      { intros p Ip E. assert (In p []) as []. rewrite <- Ef. apply filter_In. split; [exact Ip|]. now apply seqb_eq. }
      destruct IH as [(x & E & pre & b0 & post & l1 & k & l2 & -> & -> & A & B & C)|[E C]].
      * left. exists x. split; [exact E|]. exists (a :: pre), b0, post, l1, k, l2. repeat split; auto.
        intros p c Ip [<-|Ic]; auto.
      * right. split; [exact E|]. intros p c Ip [<-|Ic]; auto.
    + left. apply first_of in Ef as (l1 & l2 & -> & F & G). exists x. split; [reflexivity|].
      exists [], a, acrs, l1, k, l2. repeat split; auto.
      * now apply seqb_eq in F.
      * intros p Ip E. apply G in Ip. apply seqb_neq in Ip. auto.
Qed.

Lemma wanted_asks hints q acrs : wanted hints q = Ok acrs <-> asks hints q acrs.
Proof.
  split.
  - unfold wanted. destruct (bq_acr_values q) as [l|] eqn:Ev.
    { intros [= ->]. now apply asks_values. }
    assert (NC : no_class q ->
      match bq_hint q with
          | Some (Some a) => Ok (if str_true a then [a] else [])
          | Some None => Ok []
          | None =>
              match bq_login_hint q, hints with
              | Some h, Some m => if str_true h then hint2acrs m h else Ok []
              | _, _ => Ok []
              end
          end = Ok acrs -> asks hints q acrs).
    { intros Nc H. destruct (bq_hint q) as [[a|]|] eqn:Eh.
      - injection H as <-. eapply asks_hint; eauto. destruct a as [|c a]; cbn; [left; auto|].
        right. exists (String c a). split; [reflexivity|]. split; [discriminate|reflexivity].
      - injection H as <-. eapply asks_hint; eauto.
      - destruct (bq_login_hint q) as [h|] eqn:El; [|injection H as <-; apply asks_nothing; auto].
        destruct hints as [m|]; [|injection H as <-; apply asks_nothing; auto].
        destruct h as [|c h]; cbn [str_true] in H; [injection H as <-; apply asks_nothing; auto|].
        unfold hint2acrs in H. destruct (urlsplit (String c h)) as [p|] eqn:Eu; [|discriminate]. cbn in H.
        injection H as H. eapply asks_login; eauto; [discriminate|]. destruct (dget m (us_scheme p)); [left|right]; subst; auto. }
    unfold acr_claim. destruct (bq_claims q) as [[|[v|] vs]|] eqn:Ec; cbn [rbind]; [discriminate| | |].
    + intros [= <-]. apply asks_claim; auto. left. eauto.
    + destruct vs as [[|x l]|]; cbn [rbind].
      * apply NC. right. right. exact Ec.
      * intros [= <-]. apply asks_claim; auto. right. split; [exact Ec|discriminate].
      * apply NC. right. left. exact Ec.
    + apply NC. left. exact Ec.
  - unfold wanted. intros H. inversion H as [l E|l E C|a l E C Eh Hl|h m p l E C Eh El Nh -> Eu Hl|E C Eh Hl]; subst; rewrite E; try reflexivity.
    + destruct C as [(v & vs & Ec & ->)|[Ec Nl]]; unfold acr_claim.
      * rewrite Ec. reflexivity.
      * rewrite Ec. cbn. destruct acrs; [congruence|reflexivity].
    + assert (exists c, acr_claim q = Ok c /\ (c = None \/ c = Some [])) as (c & -> & Hc).
      { unfold acr_claim. destruct C as [-> |[-> | ->]]; eauto. }
      cbn [rbind]. destruct Hc as [-> | ->]; rewrite Eh; destruct Hl as [[-> [-> | ->]]|(x & -> & Nx & ->)]; try reflexivity;
        destruct x; try congruence; reflexivity.
    + assert (exists c, acr_claim q = Ok c /\ (c = None \/ c = Some [])) as (c & -> & Hc).
      { unfold acr_claim. destruct C as [-> |[-> | ->]]; eauto. }
      cbn [rbind]. destruct Hc as [-> | ->]; rewrite Eh, El; destruct h; try congruence; cbn [str_true]; unfold hint2acrs;
        rewrite Eu; cbn [rbind]; destruct Hl as [-> |[-> ->]]; reflexivity.
    + assert (exists c, acr_claim q = Ok c /\ (c = None \/ c = Some [])) as (c & -> & Hc).
      { unfold acr_claim. destruct C as [-> |[-> | ->]]; eauto. }
      cbn [rbind]. destruct Hc as [-> | ->]; rewrite Eh; destruct Hl as [Hl|[Hl|Hl]]; rewrite Hl; try reflexivity;
        first [destruct hints; reflexivity | destruct (bq_login_hint q); reflexivity].
Qed.

Lemma best_unique r acrs x y : best r acrs x -> best r acrs y -> x = y.
Proof.
  intros (pre & a & post & l1 & k & l2 & Ea & Er & Ax & F & G) (pre' & a' & post' & l1' & k' & l2' & Ea' & Er' & Ay & F' & G').
  assert (Ix : In (k, x) r) by (rewrite Er; apply in_app_iff; right; now left).
  assert (Iy : In (k', y) r) by (rewrite Er'; apply in_app_iff; right; now left).
  assert (Haa : a = a').
  { rewrite Ea in Ea'. clear -Ea' Ix Iy Ax Ay G G'. revert pre' Ea' G'. induction pre as [|b pre IH]; intros [|b' pre'] E G'.
    - cbn in E. congruence.
    - cbn in E. injection E as <- _. exfalso. apply (G' (k, x) a Ix); [now left|exact Ax].
    - cbn in E. injection E as -> _. exfalso. apply (G (k', y) a' Iy); [now left|exact Ay].
    - cbn in E. injection E as -> E. apply (IH (fun p b Hp Hb => G p b Hp (or_intror Hb)) pre' E).
      intros p b Hp Hb. apply G'; [exact Hp|now right]. }
  destruct Haa. rewrite Er in Er'. clear - Er' F F' Ax Ay. 
  assert (H0 : forall l1 l1', l1 ++ (k, x) :: l2 = l1' ++ (k', y) :: l2' -> (forall p, In p l1 -> mi_acr (snd p) <> a) ->
     (forall p, In p l1' -> mi_acr (snd p) <> a) -> x = y).
  { clear -Ax Ay. induction l1 as [|p l1 IH]; intros [|p' l1'] E F F'; cbn in E.
    - congruence.
    - injection E as <- _. exfalso. apply (F' (k, x)); [now left|exact Ax].
    - injection E as -> _. exfalso. apply (F (k', y)); [now left|exact Ay].
    - injection E as -> E. eapply IH; [exact E| |]; intros q Iq; [apply F|apply F']; now right. }
  eapply H0; eauto.
Qed.

(** The choice. *)
Theorem pick_auth_spec ops hints q acrs : tidy ops -> asks hints q acrs -> List.length (methods ops) <> 1 -> acrs <> [] ->
  (forall x, pick_auth (after ops) hints q = Ok (Some x) <-> best (methods ops) acrs x) /\
  (pick_auth (after ops) hints q = Ok None <->
     forall p a, In p (methods ops) -> In a acrs -> mi_acr (snd p) <> a).
Proof.
  intros T A N1 Na. pose proof (after_inv ops T) as I. destruct I as (Ed & I'). apply wanted_asks in A.
  assert (P : pick_auth (after ops) hints q = first_pick (after ops) acrs).
  { unfold pick_auth. rewrite Ed. apply Nat.eqb_neq in N1. rewrite N1, A. cbn. destruct acrs; [congruence|reflexivity]. }
  rewrite P. destruct (first_pick_spec (after ops) (methods ops) acrs (conj Ed I')) as [(x & -> & B)|[-> C]].
  - split.
    + intros y. split; [intros [= <-]; exact B|]. intros B'. now rewrite (best_unique _ _ _ _ B B').
    + split; [discriminate|]. intros H. exfalso. destruct B as (pre & a & post & l1 & k & l2 & -> & Er & Ax & _).
      apply (H (k, x) a); [rewrite Er; apply in_app_iff; right; now left|apply in_app_iff; right; now left|exact Ax].
  - split.
    + intros y. split; [discriminate|]. intros (pre & a & post & l1 & k & l2 & -> & Er & Ax & _). exfalso.
      apply (C (k, y) a); [rewrite Er; apply in_app_iff; right; now left|apply in_app_iff; right; now left|exact Ax].
    + split; auto.
Qed.
Theorem default_spec ops hints q : tidy ops -> (List.length (methods ops) = 1 \/ asks hints q []) ->
  pick_auth (after ops) hints q = Ok (match methods ops with [] => None | (_, x) :: _ => Some x end).
Proof.
  intros T H. destruct (after_inv ops T) as (Ed & _). unfold pick_auth, br_default. rewrite Ed.
  destruct (Nat.eqb (List.length (methods ops)) 1) eqn:E; [reflexivity|]. destruct H as [H|H].
  - rewrite H in E. discriminate.
  - apply wanted_asks in H. rewrite H. reflexivity.
Qed.

(** What setup_auth goes on with. *)
Theorem choose_spec ops hints q x : tidy ops -> choose (after ops) hints None None q = Ok x ->
  (exists acrs, asks hints q acrs /\ acrs <> [] /\ best (methods ops) acrs x) \/
  ((List.length (methods ops) = 1 \/ asks hints q []) /\ exists k l, methods ops = (k, x) :: l).
Proof.
  intros T H. unfold choose in H. destruct (pick_auth (after ops) hints q) as [[y|]|] eqn:P; try discriminate.
  injection H as ->. destruct (Nat.eq_dec (List.length (methods ops)) 1) as [E|E].
  - right. rewrite (default_spec ops hints q T (or_introl E)) in P. split; [now left|].
    destruct (methods ops) as [|[k z] l]; [discriminate|]. injection P as ->. eauto.
  - assert (W : exists acrs, wanted hints q = Ok acrs).
    { unfold pick_auth in P. destruct (Nat.eqb _ 1) eqn:El.
      - apply Nat.eqb_eq in El. destruct (after_inv ops T) as (Ed & _). rewrite Ed in El. congruence.
      - destruct (wanted hints q); [eauto|discriminate]. }
    destruct W as [acrs W]. apply wanted_asks in W. destruct acrs as [|a acrs].
    + right. rewrite (default_spec ops hints q T (or_intror W)) in P. split; [now right|].
      destruct (methods ops) as [|[k z] l]; [discriminate|]. injection P as ->. eauto.
    + left. exists (a :: acrs). split; [exact W|]. split; [discriminate|].
      apply (pick_auth_spec ops hints q (a :: acrs) T W E ltac:(discriminate)). exact P.
Qed.
