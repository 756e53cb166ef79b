(** Proofs about claims and scopes. *)
From Verif Require Import M_Base M_Types M_Codec M_Grant M_Env M_Session M_Claims M_Handler
  L_Base L_Monad S_Claims.

(** ** Equality of JSON values *)
Section JvalInd.
  Variable P : jval -> Prop.
  Hypothesis Hnull : P JNull.
  Hypothesis Hbool : forall b, P (JBool b).
  Hypothesis Hint : forall z, P (JInt z).
  Hypothesis Hstr : forall s, P (JStr s).
  Hypothesis Hlist : forall l, Forall P l -> P (JList l).
  Hypothesis Hobj : forall l, Forall (fun kv => P (snd kv)) l -> P (JObj l).
  Fixpoint jval_ind' (v : jval) : P v :=
    match v with
    | JNull => Hnull
    | JBool b => Hbool b
    | JInt z => Hint z
    | JStr s => Hstr s
    | JList l => Hlist l ((fix go (l : list jval) : Forall P l :=
        match l with [] => Forall_nil _ | x :: r => Forall_cons _ (jval_ind' x) (go r) end) l)
    | JObj l => Hobj l ((fix go (l : list (string * jval)) : Forall (fun kv => P (snd kv)) l :=
        match l with [] => Forall_nil _
                   | (k, x) :: r => Forall_cons (k, x) (jval_ind' x) (go r) end) l)
    end.
End JvalInd.

Lemma jval_eqb_eq : forall a b, jval_eqb a b = true <-> a = b.
Proof.
  induction a using jval_ind'; intros w; destruct w; cbn;
    try (split; [discriminate|discriminate]); try tauto.
  - rewrite Bool.eqb_true_iff. split; congruence.
  - rewrite Z.eqb_eq. split; congruence.
  - rewrite seqb_eq. split; congruence.
  - assert (E : forall x y, Forall (fun a => forall b, jval_eqb a b = true <-> a = b) x ->
      ((fix go (x y : list jval) : bool :=
         match x, y with
         | [], [] => true
         | u :: x', v :: y' => jval_eqb u v && go x' y'
         | _, _ => false
         end) x y = true <-> x = y)).
    { clear. induction x as [|u x IH]; intros [|v y] F; try tauto; try (split; discriminate).
      inversion F; subst. rewrite andb_true_iff, H1, IH by assumption.
      split; [intros [-> ->]; reflexivity|intros [= -> ->]; auto]. }
    rewrite E by assumption. split; congruence.
  - assert (E : forall x y, Forall (fun kv => forall b, jval_eqb (snd kv) b = true <-> snd kv = b) x ->
      ((fix go (x y : list (string * jval)) : bool :=
         match x, y with
         | [], [] => true
         | (ku, u) :: x', (kv, v) :: y' => String.eqb ku kv && jval_eqb u v && go x' y'
         | _, _ => false
         end) x y = true <-> x = y)).
    { clear. induction x as [|[ku u] x IH]; intros [|[kv v] y] F; try tauto; try (split; discriminate).
      inversion F; subst. cbn in H1.
      rewrite !andb_true_iff, seqb_eq, H1, IH by assumption.
      split; [intros [[-> ->] ->]; reflexivity|intros [= -> -> ->]; auto]. }
    rewrite E by assumption. split; congruence.
Qed.

(** ** C25 *)
Lemma claims_loop_spec v d : (forall x, In ("values", x) d -> exists l, x = JList l) ->
  exists b, claims_loop v d = Ok b
    /\ (b = true <-> In ("value", v) d \/ exists l, In ("values", JList l) d /\ In v l).
Proof.
  induction d as [|[k val] r IH]; intros W.
  - exists false. cbn. split; [reflexivity|]. split; [discriminate|].
    intros [[]|[l [[] _]]].
  - destruct IH as [b [E1 E2]]. { intros x Hx. apply W. now right. }
    cbn [claims_loop].
    destruct (String.eqb k "value") eqn:Kv.
    + apply seqb_eq in Kv; subst k. destruct (jval_eqb v val) eqn:J.
      * apply jval_eqb_eq in J; subst val. exists true. split; [reflexivity|].
        split; [|reflexivity]. intros _. left. now left.
      * exists b. split; [exact E1|]. rewrite E2. split.
        -- intros [H|[l [H1 H2]]]; [left; now right|right; exists l; split; [now right|exact H2]].
        -- intros [[H|H]|[l [[H|H] H2]]]; try congruence.
           ++ injection H as <-. assert (jval_eqb val val = true) by now apply jval_eqb_eq. congruence.
           ++ now left.
           ++ right. eauto.
    + destruct (String.eqb k "values") eqn:Kvs.
      * apply seqb_eq in Kvs; subst k. destruct (W val) as [l ->]; [now left|].
        cbn [jval_in rbind]. destruct (existsb (jval_eqb v) l) eqn:X.
        -- exists true. split; [reflexivity|]. split; [|reflexivity]. intros _. right.
           exists l. split; [now left|]. apply existsb_exists in X. destruct X as [y [Hy J]].
           apply jval_eqb_eq in J. now subst.
        -- exists b. split; [exact E1|]. rewrite E2. split.
           ++ intros [H|[l' [H1 H2]]]; [left; now right|right; exists l'; split; [now right|exact H2]].
           ++ intros [[H|H]|[l' [[H|H] H2]]]; try discriminate; [now left| |right; eauto].
              injection H as <-. exfalso.
              assert (existsb (jval_eqb v) l = true); [|congruence].
              apply existsb_exists. exists v. split; [exact H2|]. now apply jval_eqb_eq.
      * exists b. split; [exact E1|]. rewrite E2. apply seqb_neq in Kv, Kvs. split.
        -- intros [H|[l [H1 H2]]]; [left; now right|right; exists l; split; [now right|exact H2]].
        -- intros [[H|H]|[l [[H|H] H2]]]; try congruence; [now left|right; eauto].
Qed.

Lemma claims_match_spec v s : well_formed s ->
  exists b, claims_match v s = Ok b
    /\ (b = true <-> exists x, v = Some x /\ x <> JNull /\ accepts x s).
Proof.
  intros W. unfold claims_match.
  destruct v as [v|].
  2: { exists false. split; [reflexivity|]. split; [discriminate|]. intros [x [H _]]. discriminate. }
  assert (N : v = JNull \/ v <> JNull) by (destruct v; (left; congruence) || (right; congruence)).
  destruct N as [->|N].
  { exists false. split; [reflexivity|]. split; [discriminate|].
    intros [x [[= <-] [H _]]]. congruence. }
  assert (G : exists b,
    match s with
      | None => Ok true
      | Some d =>
          rbind (claims_loop v d)
            (fun m => if m then Ok true
                      else match d with
                           | [(k, _)] => Ok (String.eqb k "essential")
                           | _ => Ok false
                           end)
      end = Ok b /\ (b = true <-> accepts v s)).
  { destruct s as [d|].
    2: { exists true. split; [reflexivity|]. split; [constructor|reflexivity]. }
    destruct (claims_loop_spec v d) as [b [E1 E2]]. { intros x Hx. now apply (W d). }
    rewrite E1. cbn [rbind]. destruct b.
    - exists true. split; [reflexivity|]. split; [|reflexivity]. intros _.
      destruct (proj1 E2 eq_refl) as [H|[l [H1 H2]]]; [now constructor 2|now apply (acc_values _ _ l)].
    - assert (NN : ~ (In ("value", v) d \/ exists l, In ("values", JList l) d /\ In v l))
        by (intros H; apply E2 in H; discriminate).
      assert (Z : (exists x, d = [("essential", x)]) \/
                  (match d with [(k, _)] => Ok (String.eqb k "essential") | _ => Ok false end
                     = Ok false /\ forall x, d <> [("essential", x)])).
      { destruct d as [|[k x] [|? ?]]; try (right; split; [reflexivity|discriminate]).
        destruct (String.eqb k "essential") eqn:K.
        - apply seqb_eq in K; subst. left. eauto.
        - right. split; [reflexivity|]. intros y [= -> ->]. cbn in K. discriminate. }
      destruct Z as [[x ->]|[-> Z]].
      + exists true. split; [reflexivity|]. split; [intros _; apply acc_essential|reflexivity].
      + exists false. split; [reflexivity|]. split; [discriminate|].
        intros A. inversion A; subst; exfalso; [apply NN; now left|apply NN; right; eauto|].
        now apply (Z v0). }
  destruct G as [b [E1 E2]]. exists b. split.
  - destruct v; try exact E1. congruence.
  - rewrite E2. split.
    + intros A. exists v. auto.
    + intros [x [[= <-] [_ A]]]. exact A.
Qed.

(** ** Dicts as sets of keys *)
Lemma dset_In {V} (d : dict V) k v x y : In (x, y) (dset d k v) -> (x = k /\ y = v) \/ In (x, y) d.
Proof.
  induction d as [|[k' v'] r IH]; cbn.
  - intros [[= <- <-]|[]]. now left.
  - destruct (String.eqb k k') eqn:E; cbn.
    + apply seqb_eq in E; subst. intros [[= <- <-]|H]; [now left|now right; right].
    + intros [H|H]; [right; now left|]. destruct (IH H); [now left|right; now right].
Qed.

Lemma dupdate_In {V} (d f : dict V) x y : In (x, y) (dupdate d f) -> In (x, y) d \/ In (x, y) f.
Proof.
  unfold dupdate. revert d. induction f as [|[k v] r IH]; intros d; cbn; [tauto|].
  intros H. destruct (IH _ H) as [H1|H1]; [|tauto].
  apply dset_In in H1. destruct H1 as [[-> ->]|H1]; tauto.
Qed.

Lemma dget_dupdate_notin {V} (d f : dict V) k : dget f k = None -> dget (dupdate d f) k = dget d k.
Proof.
  unfold dupdate. revert d. induction f as [|[k' v] r IH]; intros d; cbn; [reflexivity|].
  destruct (String.eqb k k') eqn:E; [discriminate|]. intros H. rewrite IH by exact H.
  apply seqb_neq in E. now apply dget_dset_other.
Qed.

Lemma dget_dupdate {V} (d f : dict V) k : NoDup (dkeys f) ->
  dget (dupdate d f) k = match dget f k with Some v => Some v | None => dget d k end.
Proof.
  revert d. induction f as [|[k' v] r IH]; intros d N; [reflexivity|].
  inversion N; subst. change (dupdate d ((k', v) :: r)) with (dupdate (dset d k' v) r).
  rewrite IH by assumption. cbn.
  destruct (String.eqb k k') eqn:E.
  - apply seqb_eq in E; subst. assert (dget r k' = None) as -> by now apply dget_None_keys.
    apply dget_dset_same.
  - destruct (dget r k); [reflexivity|]. apply seqb_neq in E. now apply dget_dset_other.
Qed.

Lemma dset_keys_in {V} (d : dict V) k v x : In x (dkeys (dset d k v)) <-> x = k \/ In x (dkeys d).
Proof.
  split; intros H.
  - unfold dkeys in H. apply in_map_iff in H. destruct H as [[a b] [<- H]].
    apply dset_In in H. destruct H as [[-> _]|H]; [now left|right].
    unfold dkeys. apply in_map_iff. now exists (a, b).
  - destruct (in_dec string_dec x (dkeys (dset d k v))) as [|N]; [assumption|exfalso].
    apply dget_None_keys in N. rewrite dget_dset in N.
    destruct (String.eqb x k) eqn:E; [discriminate|]. apply seqb_neq in E.
    destruct H; [congruence|]. apply dget_None_keys in N. contradiction.
Qed.

Lemma add_null_keys {V} names (d : dict (option V)) x :
  In x (dkeys (add_null names d)) <-> In x names \/ In x (dkeys d).
Proof.
  unfold add_null. revert d. induction names as [|n r IH]; intros d; cbn [fold_left].
  - cbn. tauto.
  - rewrite IH, dset_keys_in. cbn. intuition congruence.
Qed.

Lemma add_null_val {V} names (d : dict (option V)) x v :
  In (x, v) (add_null names d) -> v = None \/ In (x, v) d.
Proof.
  unfold add_null. revert d. induction names as [|n r IH]; intros d; cbn [fold_left]; [tauto|].
  intros H. destruct (IH _ H) as [H1|H1]; [tauto|]. apply dset_In in H1. tauto.
Qed.

Definition eff_map (m : dict (list string)) : dict (list string) :=
  match m with [] => SCOPE2CLAIMS | _ => m end.

Lemma convert_keys {V} scopes m x :
  In x (dkeys (@convert_scopes2claims V scopes m))
  <-> exists s l, In s scopes /\ dget (eff_map m) s = Some l /\ In x l.
Proof.
  unfold convert_scopes2claims. fold (eff_map m).
  assert (G : forall d, In x (dkeys (fold_left
      (fun acc s => add_null (match dget (eff_map m) s with Some l => l | None => [] end) acc)
      scopes (d : dict (option V)))) <->
      (exists s l, In s scopes /\ dget (eff_map m) s = Some l /\ In x l) \/ In x (dkeys d)).
  { induction scopes as [|s r IH]; intros d; cbn [fold_left].
    - split; [tauto|]. intros [[s [l [[] _]]]|H]; exact H.
    - rewrite IH, add_null_keys. split.
      + intros [[s' [l [H1 [H2 H3]]]]|[H|H]].
        * left. exists s', l. cbn. tauto.
        * destruct (dget (eff_map m) s) as [l|] eqn:E; [|destruct H].
          left. exists s, l. cbn. tauto.
        * now right.
      + intros [[s' [l [[<-|H1] [H2 H3]]]]|H].
        * right. left. now rewrite H2.
        * left. eauto.
        * tauto. }
  rewrite G. cbn. tauto.
Qed.

Lemma convert_null {V} scopes m x v :
  In (x, v) (@convert_scopes2claims V scopes m) -> v = None.
Proof.
  unfold convert_scopes2claims. fold (eff_map m).
  assert (G : forall d : dict (option V), (forall x v, In (x, v) d -> v = None) ->
     forall x v, In (x, v) (fold_left
      (fun acc s => add_null (match dget (eff_map m) s with Some l => l | None => [] end) acc)
      scopes d) -> v = None).
  { induction scopes as [|s r IH]; intros d Hd; cbn [fold_left]; [exact Hd|].
    apply IH. intros x' v' H. apply add_null_val in H. destruct H; [assumption|eauto]. }
  apply G. intros ? ? [].
Qed.

(** ** C27 *)
Lemma str_true_iff s : str_true s = true <-> s <> "".
Proof. destruct s; cbn; split; congruence. Qed.

Lemma allowed_spec e cid s : In s (get_allowed_scopes e cid) <-> scope_allowed e cid s.
Proof.
  unfold get_allowed_scopes. destruct (str_true cid) eqn:S.
  - apply str_true_iff in S. destruct (dget (e_clients e) cid) as [c|] eqn:D.
    + assert (R : registered e cid c) by (split; assumption).
      assert (U : forall c', registered e cid c' -> c' = c) by (intros c' [_ H]; congruence).
      destruct (c_allowed_scopes c) as [l|] eqn:A.
      * split; [intros H; now apply (sa_own _ _ _ c l)|].
        intros [c' l' R' A' H|c' m l' R' A' M H|N H].
        -- apply U in R'; subst. congruence.
        -- apply U in R'; subst. congruence.
        -- destruct (N c R). congruence.
      * destruct (c_scopes_to_claims c) as [m|] eqn:M.
        -- split.
           ++ intros H. unfold dkeys in H. apply in_map_iff in H. destruct H as [[k l] [<- H]].
              now apply (sa_map _ _ _ c m l).
           ++ intros [c' l' R' A' H|c' m' l' R' A' M' H|N H].
              ** apply U in R'; subst. congruence.
              ** apply U in R'; subst. assert (m' = m) by congruence. subst.
                 unfold dkeys. apply in_map_iff. now exists (s, l').
              ** destruct (N c R). congruence.
        -- split.
           ++ intros H. apply sa_provider; [|exact H]. intros c' R'. apply U in R'. now subst.
           ++ intros [c' l' R' A' H|c' m' l' R' A' M' H|N H]; try exact H;
                apply U in R'; subst; congruence.
    + split.
      * intros H. apply sa_provider; [|exact H]. intros c [_ R]. congruence.
      * intros [c' l' [_ R'] A' H|c' m' l' [_ R'] A' M' H|N H]; [congruence|congruence|exact H].
  - split.
    + intros H. apply sa_provider; [|exact H]. intros c [R _].
      apply str_true_iff in R. congruence.
    + intros [c' l' [R' _] A' H|c' m' l' [R' _] A' M' H|N H]; try exact H;
        apply str_true_iff in R'; congruence.
Qed.

Lemma mapping_spec e cid m : mapping e cid m <-> m = get_scopes_mapping e cid.
Proof.
  unfold get_scopes_mapping. destruct (str_true cid) eqn:S.
  - apply str_true_iff in S. destruct (dget (e_clients e) cid) as [c|] eqn:D.
    + assert (R : registered e cid c) by (split; assumption).
      assert (U : forall c', registered e cid c' -> c' = c) by (intros c' [_ H]; congruence).
      destruct (c_scopes_to_claims c) as [m'|] eqn:M; split.
      * intros [c' m2 R' M'|N]; [apply U in R'; subst; congruence|]. rewrite (N c R) in M. discriminate.
      * intros ->. now apply (mp_own _ _ c).
      * intros [c' m2 R' M'|N]; [apply U in R'; subst; congruence|reflexivity].
      * intros ->. apply mp_provider. intros c' R'. apply U in R'. now subst.
    + split.
      * intros [c' m2 [_ R'] M'|N]; [congruence|reflexivity].
      * intros ->. apply mp_provider. intros c' [_ R']. congruence.
  - split.
    + intros [c' m2 [R' _] M'|N]; [apply str_true_iff in R'; congruence|reflexivity].
    + intros ->. apply mp_provider. intros c' [R' _]. apply str_true_iff in R'; congruence.
Qed.

Lemma scopes_to_claims_keys e scopes cid k :
  In k (dkeys (scopes_to_claims e scopes cid))
  <-> exists s l, In s scopes /\ scope_allowed e cid s
        /\ dget (eff_map (get_scopes_mapping e cid)) s = Some l /\ In k l.
Proof.
  unfold scopes_to_claims. etransitivity; [apply (@convert_keys (dict jval))|].
  unfold filter_scopes. split.
  - intros [s [l [H1 [H2 H3]]]]. apply filter_In in H1. destruct H1 as [H1 H4].
    apply smem_In, allowed_spec in H4. eauto 6.
  - intros [s [l [H1 [H2 [H3 H4]]]]]. exists s, l. split; [|auto]. apply filter_In.
    split; [exact H1|]. now apply smem_In, allowed_spec.
Qed.

Lemma scopes_to_claims_spec e scopes cid m k : mapping e cid m -> m <> [] ->
  (In k (dkeys (scopes_to_claims e scopes cid))
   <-> exists s l, In s scopes /\ scope_allowed e cid s /\ dget m s = Some l /\ In k l).
Proof.
  intros Hm Hn. rewrite scopes_to_claims_keys. apply mapping_spec in Hm. rewrite <- Hm.
  destruct m; [congruence|reflexivity].
Qed.

Lemma scopes_to_claims_null e scopes cid k sp :
  In (k, sp) (scopes_to_claims e scopes cid) -> sp = None.
Proof. apply convert_null. Qed.

Lemma check_unknown_spec e deny sc cid :
  check_unknown_scopes e deny (Some sc) cid
  = if deny then if forallb (fun s => smem s (get_allowed_scopes e cid)) sc
                 then Ok tt else Raise UnAuthorizedClientScope
    else Ok tt.
Proof.
  unfold check_unknown_scopes. destruct deny; [|reflexivity]. cbn [negb].
  assert (E : (subset_b sc (filter_scopes e sc cid) && subset_b (filter_scopes e sc cid) sc)%bool
              = forallb (fun s => smem s (get_allowed_scopes e cid)) sc).
  { apply eq_true_iff_eq. rewrite andb_true_iff, !subset_b_incl, forallb_forall.
    unfold filter_scopes. split.
    - intros [H _] x Hx. apply H in Hx. apply filter_In in Hx. tauto.
    - intros H. split; intros x Hx.
      + apply filter_In. auto.
      + apply filter_In in Hx. tauto. }
  now rewrite E.
Qed.

Lemma check_unknown_ok e sc cid :
  check_unknown_scopes e true (Some sc) cid = Ok tt
  <-> forall s, In s sc -> scope_allowed e cid s.
Proof.
  rewrite check_unknown_spec. destruct (forallb _ sc) eqn:F.
  - split; [|reflexivity]. intros _ s Hs. rewrite forallb_forall in F.
    apply allowed_spec, smem_In, F, Hs.
  - split; [discriminate|]. intros H. exfalso.
    assert (forallb (fun s => smem s (get_allowed_scopes e cid)) sc = true); [|congruence].
    apply forallb_forall. intros s Hs. apply smem_In, allowed_spec, H, Hs.
Qed.

Lemma check_unknown_no e sc cid s : In s sc -> ~ scope_allowed e cid s ->
  check_unknown_scopes e true (Some sc) cid = Raise UnAuthorizedClientScope.
Proof.
  intros Hs Hn. rewrite check_unknown_spec. destruct (forallb _ sc) eqn:F; [|reflexivity].
  exfalso. apply Hn. rewrite forallb_forall in F. apply allowed_spec, smem_In, F, Hs.
Qed.

(** ** C26 *)
Lemma release_In info restr out k v : release info restr = Ok out -> In (k, v) out ->
  exists sp, In (k, sp) restr /\ dget info k = Some v /\ claims_match (Some v) sp = Ok true.
Proof.
  revert out. induction restr as [|[k' sp] r IH]; intros out; cbn.
  - intros [= <-] [].
  - intros H. apply rbind_ok in H. destruct H as [b [E1 H]].
    apply rbind_ok in H. destruct H as [rest [E2 H]].
    destruct b.
    + destruct (dget info k') as [v'|] eqn:D; injection H as <-.
      * intros [[= <- <-]|Hin].
        -- exists sp. split; [now left|]. split; assumption.
        -- destruct (IH _ E2 Hin) as [sp' [H1 H2]]. exists sp'. split; [now right|exact H2].
      * intros Hin. destruct (IH _ E2 Hin) as [sp' [H1 H2]]. exists sp'. split; [now right|exact H2].
    + injection H as <-. intros Hin.
      destruct (IH _ E2 Hin) as [sp' [H1 H2]]. exists sp'. split; [now right|exact H2].
Qed.

Lemma user_claims_In e uid restr out k v users : e_users e = Some users ->
  get_user_claims e uid (Some restr) = Ok out -> In (k, v) out ->
  exists sp, In (k, sp) restr /\ dget (users uid) k = Some v /\ claims_match (Some v) sp = Ok true.
Proof.
  intros U. unfold get_user_claims. rewrite U. destruct restr as [|x r].
  - intros [= <-] [].
  - intros H Hin. eapply release_In in H; eauto.
Qed.

Lemma client_by_scope_on e cid m point second :
  m_per_client m = true -> dmem (e_clients e) cid = true ->
  client_by_scope e cid m point second = true -> by_scope_on e cid m point second.
Proof.
  intros Hp Hm. apply dmem_true in Hm. destruct Hm as [c D].
  unfold client_by_scope, by_scope_on. rewrite D. destruct (c_by_scope c) as [|x d] eqn:C; [auto|].
  rewrite <- C. destruct (dget (c_by_scope c) point) as [[|]|] eqn:P; cbn [negb andb].
  - intros _. right. split; [assumption|]. exists c. auto.
  - destruct (str_true second) eqn:S; cbn; [|auto].
    destruct (dget (c_by_scope c) second) as [[|]|] eqn:P2; auto.
    intros _. right. split; [assumption|]. exists c. split; [reflexivity|]. right.
    split; [now apply str_true_iff|assumption].
  - destruct (str_true second) eqn:S; cbn; [|auto].
    destruct (dget (c_by_scope c) second) as [[|]|] eqn:P2; auto.
    intros _. right. split; [assumption|]. exists c. split; [reflexivity|]. right.
    split; [now apply str_true_iff|assumption].
Qed.

Definition same_core (s s' : st) : Prop :=
  s_heap s' = s_heap s /\ s_db s' = s_db s /\ s_ctr s' = s_ctr s.

Lemma client_always_run cid point second s :
  exists l s', client_always cid point second s = (Ok l, s') /\ same_core s s'
    /\ forall k, In k l -> exists cfg p l', dget (s_always s) cid = Some cfg
         /\ (p = point \/ (second <> "" /\ p = second)) /\ In (p, l') cfg /\ In k l'.
Proof.
  unfold client_always.
  assert (A : forall p k, In k (match dget (match dget (s_always s) cid with
                 Some d => d | None => [] end) p with Some l => l | None => [] end) ->
              exists cfg l', dget (s_always s) cid = Some cfg /\ In (p, l') cfg /\ In k l').
  { intros p k. destruct (dget (s_always s) cid) as [cfg|]; [|cbn; tauto].
    destruct (dget cfg p) as [l|] eqn:E; [|cbn; tauto]. intros H.
    exists cfg, l. repeat split; auto. now apply dget_In. }
  destruct (str_true second) eqn:S.
  - apply str_true_iff in S.
    assert (B : forall k, In k (match dget (match dget (s_always s) cid with
                 Some d => d | None => [] end) point with Some l => l | None => [] end ++
                match dget (match dget (s_always s) cid with
                 Some d => d | None => [] end) second with Some l => l | None => [] end) ->
              exists cfg p l', dget (s_always s) cid = Some cfg
         /\ (p = point \/ (second <> "" /\ p = second)) /\ In (p, l') cfg /\ In k l').
    { intros k H. apply in_app_or in H. destruct H as [H|H]; apply A in H;
        destruct H as [cfg [l' [H1 [H2 H3]]]]; [exists cfg, point, l'|exists cfg, second, l']; tauto. }
    destruct (dget (match dget (s_always s) cid with
                 Some d => d | None => [] end) point) as [l1|] eqn:L1.
    + eexists _, _. split; [reflexivity|]. split; [repeat split|]. exact B.
    + eexists _, _. split; [reflexivity|]. split; [repeat split|]. exact B.
  - eexists _, _. split; [reflexivity|]. split; [repeat split|].
    intros k H. apply A in H. destruct H as [cfg [l' [H1 [H2 H3]]]]. exists cfg, point, l'. tauto.
Qed.

Lemma request_claims_In ar point k sp : In (k, sp) (request_claims ar point) ->
  exists a cl d, ar = Some a /\ ar_claims a = Some cl /\ In (point, d) cl /\ In (k, sp) d.
Proof.
  unfold request_claims. destruct ar as [a|]; [|intros []].
  destruct (ar_claims a) as [cl|] eqn:C; [|intros []].
  destruct (dget cl point) as [d|] eqn:D; [|intros []].
  intros H. exists a, cl, d. repeat split; auto. now apply dget_In.
Qed.


Lemma In_keys {V} (d : dict V) k v : In (k, v) d -> In k (dkeys d).
Proof. intros H. unfold dkeys. apply in_map_iff. now exists (k, v). Qed.

Lemma get_module_In e point m : get_module e point = Ok (Some m) -> In (point, m) (e_modules e).
Proof.
  unfold get_module. destruct (smem point (release_points e)); [|discriminate].
  destruct (dget (e_modules e) point) as [m'|] eqn:D.
  - intros [= <-]. now apply dget_In.
  - destruct (String.eqb point "id_token"); discriminate.
Qed.

Lemma gcfr_run e ar point scopes cid second s r s' :
  get_claims_from_request e ar point scopes cid second s = (r, s') ->
  same_core s s' /\
  forall d, r = Ok d -> forall k sp, In (k, sp) d ->
    asked_for e s ar point scopes (eff_client cid ar) second k.
Proof.
  unfold get_claims_from_request. intros H.
  destruct (get_module e point) as [om|x] eqn:G.
  2: { unfold bind, lift in H. injection H as <- <-. split; [repeat split|]. discriminate. }
  unfold bind at 1 in H. unfold lift in H.
  destruct om as [m|].
  2: { unfold ret in H. injection H as <- <-. split; [repeat split|].
       intros d [= <-] ? ? []. }
  apply get_module_In in G. cbv zeta in H. fold (eff_client cid ar) in H.
  set (cl := eff_client cid ar) in *.
  assert (B : exists bs al s1,
    (if (m_per_client m && dmem (e_clients e) cl)%bool then
               l <- client_always cl point second ;;
               ret (client_by_scope e cl m point second,
                    map (fun k => (k, None : cspec)) l)
             else ret (m_by_scope m, m_always m)) s = (Ok (bs, al), s1)
    /\ same_core s s1
    /\ (bs = true -> by_scope_on e cl m point second)
    /\ (forall k sp, In (k, sp) al -> asked_for e s ar point scopes cl second k)).
  { destruct (m_per_client m && dmem (e_clients e) cl)%bool eqn:PC.
    - apply andb_true_iff in PC. destruct PC as [P1 P2].
      destruct (client_always_run cl point second s) as [l [s1 [E1 [E2 E3]]]].
      eexists _, _, s1. split; [unfold bind; rewrite E1; reflexivity|]. split; [exact E2|].
      split; [now apply client_by_scope_on|].
      intros k sp Hin. apply in_map_iff in Hin. destruct Hin as [k' [[= <- <-] Hin]].
      destruct (E3 _ Hin) as [cfg [p [l' [Q1 [Q2 [Q3 Q4]]]]]]. eapply af_client; eauto.
    - eexists _, _, s. split; [reflexivity|]. split; [repeat split|]. split; [intros Q; now left|].
      intros k sp Hin. eapply af_always; eauto. }
  destruct B as [bs [al [s1 [E1 [C1 [B1 B2]]]]]].
  unfold bind in H. unfold bind in E1. rewrite E1 in H. unfold ret in H.
  injection H as <- <-. split; [exact C1|].
  intros d [= <-] k sp Hin.
  set (sc := match scopes with
             | Some s => Some s
             | None => match ar with Some a => ar_scope a | None => None end
             end) in *.
  assert (Base : forall k sp, In (k, sp) (dupdate (m_base m) al) ->
     asked_for e s ar point scopes cl second k).
  { intros k' sp' H'. apply dupdate_In in H'. destruct H' as [H'|H']; [|eauto].
    eapply af_base; eauto. }
  set (base := (if bs then match sc with
             | Some s0 => dupdate (dupdate (m_base m) al) (scopes_to_claims e s0 cl)
             | None => dupdate (m_base m) al
             end else dupdate (m_base m) al)) in *.
  assert (Base2 : forall k sp, In (k, sp) base -> asked_for e s ar point scopes cl second k).
  { unfold base. destruct bs; [|exact Base]. destruct sc as [sc'|] eqn:SC; [|exact Base].
    intros k' sp' H'. apply dupdate_In in H'. destruct H' as [H'|H']; [now apply Base in H'|].
    apply In_keys, scopes_to_claims_keys in H'. destruct H' as [x [l [Q1 [Q2 [Q3 Q4]]]]].
    apply (af_scope _ _ _ _ _ _ _ _ m sc' x l (eff_map (get_scopes_mapping e cl))); auto.
    - unfold sc in SC. destruct scopes as [z|]; [left; congruence|].
      right. split; [reflexivity|]. destruct ar as [a|]; [|discriminate]. eauto.
    - destruct (get_scopes_mapping e cl) as [|y ys] eqn:MM.
      + right. split; [|reflexivity]. now apply mapping_spec.
      + left. split; [|discriminate]. now apply mapping_spec.
    - now apply dget_In. }
  apply dupdate_In in Hin. destruct Hin as [Hin|Hin]; [eauto|].
  apply request_claims_In in Hin. destruct Hin as [a [c' [d [Q1 [Q2 [Q3 Q4]]]]]].
  eapply af_request; eauto.
Qed.

Lemma dupdate_nodup {V} (f d : dict V) : NoDup (dkeys d) -> NoDup (dkeys (dupdate d f)).
Proof.
  revert d. induction f as [|[k v] r IH]; intros d N; [exact N|].
  change (dupdate d ((k, v) :: r)) with (dupdate (dset d k v) r).
  apply IH, dset_keys_nodup, N.
Qed.

(** A restriction in the claims parameter prevails over the other sources. *)
Lemma gcfr_restr e ar point scopes cid second s d s' :
  (forall m, In (point, m) (e_modules e) -> NoDup (dkeys (m_base m))) ->
  (forall a cl c, ar = Some a -> ar_claims a = Some cl -> In (point, c) cl -> NoDup (dkeys c)) ->
  get_claims_from_request e ar point scopes cid second s = (Ok d, s') ->
  NoDup (dkeys d)
  /\ (d = [] \/ forall k sp, dget (request_claims ar point) k = Some sp -> dget d k = Some sp).
Proof.
  intros NB NR. unfold get_claims_from_request. intros H.
  minv1 H. minv1 H0. destruct a as [m|]; [|minv1 H; subst; split; [constructor|now left]].
  apply get_module_In in E. apply bind_ok in H. destruct H as [[bs al] [s1 [_ H]]].
  minv1 H. subst d.
  assert (N1 : NoDup (dkeys (dupdate (m_base m) al))) by (apply dupdate_nodup; eauto).
  assert (NR' : NoDup (dkeys (request_claims ar point))).
  { unfold request_claims. destruct ar as [a|]; [|constructor].
    destruct (ar_claims a) as [cl|] eqn:C; [|constructor].
    destruct (dget cl point) as [c|] eqn:D; [|constructor].
    eapply NR; eauto. now apply dget_In. }
  split.
  - apply dupdate_nodup. destruct bs; [|exact N1].
    match goal with |- context [match ?x with Some _ => _ | None => _ end] => destruct x end;
      [now apply dupdate_nodup|exact N1].
  - right. intros k sp R. rewrite dget_dupdate by exact NR'. now rewrite R.
Qed.

Lemma filter_scopes_spec e scopes cid s :
  In s (filter_scopes e scopes cid) <-> In s scopes /\ scope_allowed e cid s.
Proof. unfold filter_scopes. rewrite filter_In, smem_In, allowed_spec. reflexivity. Qed.
