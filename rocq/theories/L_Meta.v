(** Lemmas about the advertised algorithms. *)
From Coq Require Import Permutation.
From Verif Require Import M_Base M_Meta S_Meta L_Base L_Claims.

(** ** Sorting *)
Lemma insert_perm a l : Permutation (a :: l) (insert a l).
Proof.
  induction l as [|b l IH]; cbn; [auto|]. destruct (alg_le a b); [auto|].
  eapply Permutation_trans; [apply perm_swap|]. now constructor.
Qed.
Lemma sort_perm l : Permutation l (sort_algs l).
Proof.
  induction l as [|a l IH]; cbn; [auto|]. eapply Permutation_trans; [|apply insert_perm]. now constructor.
Qed.

(** ** One capability *)
Lemma rbind_inv {A B} (x : res A) (f : A -> res B) b : rbind x f = Ok b -> exists a, x = Ok a /\ f a = Ok b.
Proof. destruct x; cbn; [eauto|discriminate]. Qed.

Definition pool (L : lib) (k : akind) : list string :=
  match k with KSign => l_sign L | KAlg => l_alg L | KEnc => l_enc L end.
Lemma assign_perm L k l : assign_algorithms L k = Ok l -> Permutation (pool L k) l.
Proof.
  destruct k; cbn; [|intros E; injection E as <-; auto..].
  unfold signing_algs. match goal with |- (if ?b then _ else _) = _ -> _ => destruct b end; [discriminate|].
  intros E. injection E as <-. apply sort_perm.
Qed.

Definition is_weak (k : akind) (x : string) : bool :=
  match k with KSign => String.eqb x "none" | KAlg => smem x weak_algs | KEnc => false end.

Lemma one_ok L kw attr k v : attr_kind attr = Some k -> pool L k <> [] -> NoDup (l_sign L) ->
  one_capability L kw attr None = Ok v ->
  exists x l, v = Some x /\ iter x = Ok l /\ incl l (pool L k)
    /\ (dget kw attr = Some x \/
        (dget kw attr = None /\ x = CList l /\ forall y, In y l <-> In y (pool L k) /\ is_weak k y = false)).
Proof.
  intros K P N E. unfold one_capability in E. apply rbind_inv in E. destruct E as (v' & E & E').
  assert (v' = v) as ->.
  { destruct (alg_like attr); [|congruence]. destruct v' as [x|]; [|discriminate].
    apply rbind_inv in E'. destruct E' as (? & _ & E'). congruence. }
  clear E'. rewrite K in E. destruct (dget kw attr) as [pr|] eqn:G.
  - apply rbind_inv in E. destruct E as (pm & E1 & E). apply rbind_inv in E1.
    destruct E1 as (l & E1 & E2). injection E2 as <-. apply assign_perm in E1.
    destruct l as [|a l].
    { apply Permutation_sym, Permutation_nil in E1. congruence. }
    apply rbind_inv in E. destruct E as (q & E3 & E4).
    destruct (subset_b q (a :: l)) eqn:S; [|discriminate]. injection E4 as <-.
    exists pr, q. split; [auto|]. split; [auto|]. split; [|auto].
    apply subset_b_incl in S. intros y Hy. eapply Permutation_in; [apply Permutation_sym, E1|auto].
  - destruct k; apply rbind_inv in E; destruct E as (l & E1 & E2); injection E2 as <-;
      apply assign_perm in E1; eexists; eexists; (split; [reflexivity|]); (split; [reflexivity|]);
      cbn [pool is_weak] in *.
    + assert (NoDup l) as Nl by (eapply Permutation_NoDup; eauto).
      assert (H : forall y, In y (if smem "none" l then sremove "none" l else l) <->
                            In y (l_sign L) /\ String.eqb y "none" = false).
      { intros y. split.
        - intros Hy. assert (In y l) as Hl.
          { destruct (smem "none" l); auto. eapply sremove_In; eauto. }
          split; [eapply Permutation_in; [apply Permutation_sym, E1|auto]|].
          apply seqb_neq. intros ->. destruct (smem "none" l) eqn:M.
          + now apply (sremove_nodup_notin "none" l).
          + apply smem_false in M. auto.
        - intros [Hy Nn]. apply seqb_neq in Nn. pose proof (Permutation_in _ E1 Hy) as Hl.
          destruct (smem "none" l); auto. now apply sremove_In_other. }
      split; [intros y Hy; now apply H|]. right. auto.
    + split.
      * intros y Hy. apply filter_In in Hy. eapply Permutation_in; [apply Permutation_sym, E1|tauto].
      * right. split; [auto|]. split; [auto|]. intros y. rewrite filter_In, negb_true_iff.
        split; intros [A B]; split; auto; [eapply Permutation_in; [apply Permutation_sym, E1|auto]|
          eapply Permutation_in; [exact E1|auto]].
    + split; [intros y Hy; eapply Permutation_in; [apply Permutation_sym, E1|auto]|].
      right. split; [auto|]. split; [auto|]. intros y. split.
      * intros Hy. split; auto. eapply Permutation_in; [apply Permutation_sym, E1|auto].
      * intros [Hy _]. eapply Permutation_in; [exact E1|auto].
Qed.

(** ** Dicts *)
Lemma dset_In {V} (d : dict V) k v x y : In (x, y) (dset d k v) -> (x = k /\ y = v) \/ In (x, y) d.
Proof.
  induction d as [|[k' v'] d IH]; cbn.
  - intros [E|[]]. injection E as <- <-. auto.
  - destruct (String.eqb k k') eqn:E; cbn; intros [H|H]; auto.
    + injection H as <- <-. apply seqb_eq in E. subst. auto.
    + destruct (IH H); auto.
Qed.

Lemma construct_In L kw : forall ds info i attr v, construct_info L ds kw info = Ok i ->
  In (attr, v) i -> In (attr, v) info \/ exists d, In (attr, d) ds /\ one_capability L kw attr d = Ok (Some v).
Proof.
  induction ds as [|[a d] ds IH]; cbn [construct_info]; intros info i attr v E H.
  - injection E as <-. auto.
  - apply rbind_inv in E. destruct E as (o & E1 & E2).
    destruct (IH _ _ _ _ E2 H) as [H'|(d' & A & B)]; [|right; exists d'; cbn; auto].
    destruct o as [x|]; [|auto]. apply dset_In in H'. destruct H' as [[-> ->]|H']; auto.
    right. exists d. cbn. auto.
Qed.
Lemma construct_all L kw : forall ds info i attr d, construct_info L ds kw info = Ok i ->
  In (attr, d) ds -> exists o, one_capability L kw attr d = Ok o.
Proof.
  induction ds as [|[a d0] ds IH]; cbn [construct_info]; intros info i attr d E H; [destruct H|].
  apply rbind_inv in E. destruct E as (o & E1 & E2). destruct H as [H|H]; eauto.
  injection H as -> ->. eauto.
Qed.
Lemma construct_nodup L kw : forall ds info i, construct_info L ds kw info = Ok i ->
  NoDup (dkeys info) -> NoDup (dkeys i).
Proof.
  induction ds as [|[a d0] ds IH]; cbn [construct_info]; intros info i E N; [congruence|].
  apply rbind_inv in E. destruct E as ([x|] & E1 & E2); eapply IH; eauto. now apply dset_keys_nodup.
Qed.
Lemma construct_has L kw : forall ds info i attr, construct_info L ds kw info = Ok i ->
  dmem info attr = true \/ (exists d v, In (attr, d) ds /\ one_capability L kw attr d = Ok (Some v)) ->
  dmem i attr = true.
Proof.
  induction ds as [|[a d0] ds IH]; cbn [construct_info]; intros info i attr E H.
  - injection E as <-. destruct H as [H|(d & v & [] & _)]. exact H.
  - apply rbind_inv in E. destruct E as (o & E1 & E2). eapply IH; eauto.
    destruct H as [H|(d & v & [H|H] & O)].
    + left. destruct o; auto. rewrite dmem_dset, H. now rewrite orb_true_r.
    + injection H as -> ->. left. rewrite O in E1. injection E1 as <-. now rewrite dmem_dset, seqb_refl.
    + right. eauto.
Qed.

Lemma add_new_In info : forall cap x y, In (x, y) (add_new cap info) -> In (x, y) cap \/ In (x, y) info.
Proof.
  unfold add_new. induction info as [|[k v] r IH]; cbn; intros cap x y H; auto.
  destruct (IH _ _ _ H) as [H'|H']; auto.
  destruct (dmem cap k); auto. apply dset_In in H'. destruct H' as [[-> ->]|H']; auto.
Qed.
Lemma add_new_keeps info : forall cap x v, dget cap x = Some v -> dget (add_new cap info) x = Some v.
Proof.
  unfold add_new. induction info as [|[k u] r IH]; cbn; intros cap x v H; auto.
  apply IH. destruct (dmem cap k) eqn:E; auto. rewrite dget_dset. destruct (String.eqb x k) eqn:X; auto.
  apply seqb_eq in X. subst. unfold dmem in E. rewrite H in E. discriminate.
Qed.

(** A capability of the result that the configuration does not set comes from
    the info of an endpoint. *)
Lemma get_cap_from eps : forall cap x v, dget (get_capabilities cap eps) x = Some v ->
  dget cap x = Some v \/ exists n i, In (n, Some i) eps /\ In (x, v) i.
Proof.
  unfold get_capabilities. induction eps as [|[n o] r IH]; cbn; intros cap x v H; auto.
  destruct (IH _ _ _ H) as [H'|(n' & i & A & B)]; [|right; exists n', i; auto].
  destruct (String.eqb n "webfinger" || (String.eqb n "provider_config" || false)); auto.
  destruct o as [i|]; auto. destruct (dget cap x) as [w|] eqn:C.
  - left. pose proof (add_new_keeps i _ _ _ C). congruence.
  - apply dget_In, add_new_In in H'. destruct H' as [H'|H'].
    + exfalso. apply dget_None_keys in C. apply C. unfold dkeys.
      change x with (fst (x, v)). now apply in_map.
    + right. exists n, i. auto.
Qed.

Lemma build_In L : forall ps acc eps n o, build_endpoints L ps acc = Ok eps -> In (n, o) eps ->
  In (n, o) acc \/ exists p, In p ps /\ endpoint_info L p = Ok o.
Proof.
  induction ps as [|p ps IH]; cbn [build_endpoints]; intros acc eps n o E H.
  - injection E as <-. auto.
  - apply rbind_inv in E. destruct E as (i & E1 & E2).
    destruct (IH _ _ _ _ E2 H) as [H'|(q & A & B)]; [|right; exists q; cbn; auto].
    apply dset_In in H'. destruct H' as [[-> ->]|H']; auto. right. exists p. cbn. auto.
Qed.
Lemma build_all L : forall ps acc eps p, build_endpoints L ps acc = Ok eps -> In p ps ->
  exists o, endpoint_info L p = Ok o.
Proof.
  induction ps as [|p0 ps IH]; cbn [build_endpoints]; intros acc eps p E H; [destruct H|].
  apply rbind_inv in E. destruct E as (i & E1 & E2). destruct H as [->|H]; eauto.
Qed.

(** ** The attributes *)
Definition all_attrs : list string := signing_attrs ++ alg_attrs ++ enc_attrs.
Definition own_kind (attr : string) : option akind :=
  if smem attr signing_attrs then Some KSign else if smem attr alg_attrs then Some KAlg
  else if smem attr enc_attrs then Some KEnc else None.

Lemma attrs_kind attr : In attr all_attrs -> exists k, attr_kind attr = Some k /\ own_kind attr = Some k.
Proof.
  intros H. cbn in H. repeat destruct H as [<-|H]; try destruct H;
    vm_compute; eexists; split; reflexivity.
Qed.
Lemma attrs_usual attr L k : usual L -> own_kind attr = Some k -> pool L k <> [].
Proof. intros (A & B & C & _) _. destruct k; assumption. Qed.

Lemma supports_kind L attr l : S_Meta.supports L attr l ->
  exists k, In attr all_attrs /\ own_kind attr = Some k /\ l = pool L k.
Proof.
  intros [[H ->]|[[H ->]|[H ->]]]; [exists KSign|exists KAlg|exists KEnc]; (split; [
    unfold all_attrs; rewrite !in_app_iff; auto|]);
    cbn in H; repeat destruct H as [<-|H]; try destruct H; split; reflexivity.
Qed.

Lemma shipped_default o d attr dv : In o shipped -> o = Some d -> In attr all_attrs -> In (attr, dv) d -> dv = None.
Proof.
  intros S -> A H.
  assert (G : forallb (fun o => match o with None => true | Some d =>
     forallb (fun kv => negb (smem (fst kv) all_attrs) || match snd kv with None => true | Some _ => false end) d end)
     shipped = true) by (vm_compute; reflexivity).
  rewrite forallb_forall in G. specialize (G _ S). cbn beta iota in G. rewrite forallb_forall in G.
  specialize (G _ H). cbn [fst snd] in G. apply smem_In in A. rewrite A in G. cbn in G.
  destruct dv; [discriminate|reflexivity].
Qed.

Lemma shipped_name p attr : shipped_endpoint p -> In attr all_attrs -> ep_endpoint_name p <> attr.
Proof.
  intros [_ H] A E. rewrite E in H.
  cbn in A; repeat destruct A as [<-|A]; try destruct A; cbn in H; intuition discriminate.
Qed.

Lemma endpoint_from L p o attr v : shipped_endpoint p -> In attr all_attrs ->
  endpoint_info L p = Ok (Some o) -> In (attr, v) o ->
  exists d, ep_defaults p = Some d /\ In (attr, None) d /\ one_capability L (ep_kwargs p) attr None = Ok (Some v).
Proof.
  intros S A E H. unfold endpoint_info in E. apply rbind_inv in E. destruct E as (i & E1 & E2).
  assert (exists j, i = Some j /\ In (attr, v) j) as (j & -> & Hj).
  { destruct (str_true (ep_endpoint_name p)).
    - injection E2 as <-. apply dset_In in H. destruct H as [[N _]|H].
      + exfalso. eapply shipped_name; eauto.
      + destruct i; [eauto|destruct H].
    - injection E2 as ->. eauto. }
  destruct (ep_defaults p) as [d|] eqn:D; [|discriminate].
  apply rbind_inv in E1. destruct E1 as (j' & E1 & X). injection X as <-.
  destruct (construct_In _ _ _ _ _ _ _ E1 Hj) as [[]|(dv & B & C)].
  exists d. split; auto. destruct S as [S _]. rewrite D in S.
  pose proof (shipped_default _ _ _ _ S eq_refl A B). subst dv. auto.
Qed.

Lemma providerinfo_get c cap attr : In attr all_attrs -> dget (create_providerinfo c cap) attr = dget cap attr.
Proof.
  intros A.
  assert (forall k v (d : dict cval), In k ["issuer"; "version"; "acr_values_supported"; "jwks_uri";
    "scopes_supported"; "claims_supported"] -> dget (dset d k v) attr = dget d attr) as Q.
  { intros k v d K. apply dget_dset_other. intros ->.
    cbn in A; repeat destruct A as [<-|A]; try destruct A; cbn in K; intuition discriminate. }
  unfold create_providerinfo. cbv zeta.
  repeat match goal with
  | |- context [match mc_acrs c with _ => _ end] => destruct (mc_acrs c)
  | |- context [match mc_jwks_uri c with _ => _ end] => destruct (mc_jwks_uri c)
  | |- context [if dmem ?p "claims_supported" then _ else _] => destruct (dmem p "claims_supported")
  | |- context [if dmem ?p "scopes_supported" then _ else _] => destruct (dmem p "scopes_supported")
  end; rewrite ?Q by (cbn; tauto); reflexivity.
Qed.

Lemma id_attr_default attr dv : In (attr, dv) id_token_defaults -> dv = None.
Proof. cbn. intros [E|[E|[E|[]]]]; congruence. Qed.

Lemma meta_from L c p attr v : usual L -> only_shipped c -> In attr all_attrs -> metadata L c = Ok p ->
  ~ fixes c attr -> dget p attr = Some v ->
  exists kw, one_capability L kw attr None = Ok (Some v)
    /\ ((exists q d, In q (mc_endpoints c) /\ ep_kwargs q = kw /\ ep_defaults q = Some d /\ In attr (map fst d))
        \/ (mc_id_token c = Some kw /\ In attr (map fst id_token_defaults))).
Proof.
  intros U S A E F G. unfold metadata in E. apply rbind_inv in E. destruct E as (eps & E1 & E2).
  cbv zeta in E2.
  set (p0 := create_providerinfo c (get_capabilities (mc_capabilities c) eps)) in *.
  set (p1 := match mc_dpop c with Some a => dset p0 _ _ | None => p0 end) in *.
  assert (P1 : dget p1 attr = dget (get_capabilities (mc_capabilities c) eps) attr).
  { transitivity (dget p0 attr).
    - subst p1. destruct (mc_dpop c); auto. apply dget_dset_other. intros ->.
      cbn in A. intuition discriminate.
    - apply providerinfo_get. auto. }
  assert (Base : dget p1 attr = Some v -> dget (mc_capabilities c) attr = None ->
    exists kw, one_capability L kw attr None = Ok (Some v)
    /\ ((exists q d, In q (mc_endpoints c) /\ ep_kwargs q = kw /\ ep_defaults q = Some d /\ In attr (map fst d))
        \/ (mc_id_token c = Some kw /\ In attr (map fst id_token_defaults)))).
  { intros G1 Fc. rewrite P1 in G1. destruct (get_cap_from _ _ _ _ G1) as [X|(n & i & X & Y)]; [congruence|].
    destruct (build_In _ _ _ _ _ _ E1 X) as [[]|(q & Q1 & Q2)].
    pose proof (proj1 (Forall_forall _ _) S q Q1) as Sq.
    destruct (endpoint_from _ _ _ _ _ Sq A Q2 Y) as (d & D1 & D2 & D3).
    exists (ep_kwargs q). split; auto. left. exists q, d. do 3 (split; auto).
    change attr with (fst (attr, @None cval)). now apply in_map. }
  destruct (mc_id_token c) as [kw|] eqn:I.
  - apply rbind_inv in E2. destruct E2 as (i & E3 & E4). injection E4 as <-.
    rewrite dget_dupdate in G by (eapply construct_nodup; [exact E3|constructor]).
    destruct (dget i attr) as [w|] eqn:Gi.
    + injection G as ->. apply dget_In in Gi.
      destruct (construct_In _ _ _ _ _ _ _ E3 Gi) as [[]|(dv & B & C)].
      pose proof (id_attr_default _ _ B). subst dv. exists kw. split; auto. right. split; auto.
      change attr with (fst (attr, @None cval)). now apply in_map.
    + assert (NI : ~ In attr (map fst id_token_defaults)).
      { intros H. apply in_map_iff in H. destruct H as ([a dv] & Ea & H). cbn in Ea. subst a.
        pose proof (id_attr_default _ _ H). subst dv.
        destruct (construct_all _ _ _ _ _ _ _ E3 H) as (o & O).
        destruct (attrs_kind _ A) as (k & K & K'). destruct U as (U1 & U2 & U3 & U4).
        assert (pool L k <> []) as Pk by (destruct k; assumption).
        destruct (one_ok _ _ _ _ _ K Pk U4 O) as (x & l & -> & _).
        assert (dmem i attr = true) as D by (eapply construct_has; eauto).
        unfold dmem in D. rewrite Gi in D. discriminate. }
      apply Base; auto. destruct (dget (mc_capabilities c) attr) eqn:Fc; auto.
      exfalso. apply F. split; [congruence|auto].
  - injection E2 as <-. apply Base; auto. destruct (dget (mc_capabilities c) attr) eqn:Fc; auto.
    exfalso. apply F. split; [congruence|auto].
Qed.

Lemma advertised_supported L c p attr l v : usual L -> only_shipped c -> metadata L c = Ok p ->
  S_Meta.supports L attr l -> ~ fixes c attr -> dget p attr = Some v ->
  exists l', iter v = Ok l' /\ incl l' l.
Proof.
  intros U S E H F G. destruct (supports_kind _ _ _ H) as (k & A & K & ->).
  destruct (meta_from _ _ _ _ _ U S A E F G) as (kw & O & _).
  destruct (attrs_kind _ A) as (k' & K1 & K2). assert (k' = k) as -> by congruence.
  pose proof U as (_ & _ & _ & N).
  destruct (one_ok _ _ _ _ _ K1 (attrs_usual _ _ _ U K) N O) as (x & l' & X & I & J & _).
  injection X as <-. eauto.
Qed.

Lemma is_weak_spec attr k y : own_kind attr = Some k -> In attr all_attrs -> (is_weak k y = true <-> weak attr y).
Proof.
  intros K A. unfold weak.
  assert (H : (k = KSign /\ In attr signing_attrs /\ ~ In attr alg_attrs)
     \/ (k = KAlg /\ In attr alg_attrs /\ ~ In attr signing_attrs)
     \/ (k = KEnc /\ ~ In attr alg_attrs /\ ~ In attr signing_attrs)).
  { unfold own_kind in K. rewrite <- !smem_In.
    cbn in A; repeat destruct A as [<-|A]; try destruct A; vm_compute in K |- *; injection K as <-;
      intuition congruence. }
  destruct H as [(-> & H1 & H2)|[(-> & H1 & H2)|(-> & H1 & H2)]]; cbn [is_weak].
  - rewrite seqb_eq. intuition.
  - rewrite smem_In. cbn. intuition congruence.
  - intuition congruence.
Qed.

Lemma default_not_weak L c p attr l v : usual L -> only_shipped c -> metadata L c = Ok p ->
  S_Meta.supports L attr l -> ~ fixes c attr -> (forall w, ~ proposes c attr w) -> dget p attr = Some v ->
  forall x, lists v x <-> In x l /\ ~ weak attr x.
Proof.
  intros U S E H F NP G. destruct (supports_kind _ _ _ H) as (k & A & K & ->).
  destruct (meta_from _ _ _ _ _ U S A E F G) as (kw & O & W).
  destruct (attrs_kind _ A) as (k' & K1 & K2). assert (k' = k) as -> by congruence.
  pose proof U as (_ & _ & _ & N).
  destruct (one_ok _ _ _ _ _ K1 (attrs_usual _ _ _ U K) N O) as (x & l' & X & I & J & [D|(D & -> & Q)]).
  - exfalso. apply (NP x). destruct W as [(q & d & Q1 & Q2 & Q3 & Q4)|(Q1 & Q2)].
    + left. exists q, d. rewrite Q2. auto.
    + right. exists kw. auto.
  - injection X as ->. intros x. unfold lists. split.
    + intros (l2 & E2 & Hx). injection E2 as <-. apply Q in Hx. destruct Hx as [Hx Hw]. split; auto.
      rewrite <- (is_weak_spec _ _ _ K A). congruence.
    + intros [Hx Hw]. exists l'. split; auto. apply Q. split; auto.
      destruct (is_weak k x) eqn:Wk; auto. exfalso. apply Hw. now apply (is_weak_spec _ _ _ K A).
Qed.

Lemma bad_list_refused L c attr l v x : usual L -> only_shipped c ->
  S_Meta.supports L attr l -> proposes c attr v -> lists v x -> ~ In x l -> exists y, metadata L c = Raise y.
Proof.
  intros U S H P (lv & -> & Hx) Nx. destruct (metadata L c) as [p|y] eqn:E; [exfalso|eauto].
  destruct (supports_kind _ _ _ H) as (k & A & K & ->).
  destruct (attrs_kind _ A) as (k' & K1 & K2). assert (k' = k) as -> by congruence.
  pose proof U as (_ & _ & _ & N).
  assert (exists kw o, dget kw attr = Some (CList lv) /\ one_capability L kw attr None = Ok o) as (kw & o & D & O).
  { unfold metadata in E. apply rbind_inv in E. destruct E as (eps & E1 & E2). cbv zeta in E2.
    destruct P as [(q & d & Q1 & Q2 & Q3 & Q4)|(kw & Q1 & Q2 & Q3)].
    - destruct (build_all _ _ _ _ _ E1 Q1) as (o & O). unfold endpoint_info in O.
      apply rbind_inv in O. destruct O as (i & O1 & _). rewrite Q2 in O1.
      apply rbind_inv in O1. destruct O1 as (j & O1 & _).
      apply in_map_iff in Q3. destruct Q3 as ([a dv] & Ea & Q3). cbn in Ea. subst a.
      pose proof (proj1 (Forall_forall _ _) S q Q1) as [Sq _]. rewrite Q2 in Sq.
      pose proof (shipped_default _ _ _ _ Sq eq_refl A Q3). subst dv.
      destruct (construct_all _ _ _ _ _ _ _ O1 Q3) as (o' & O'). eauto.
    - rewrite Q1 in E2. apply rbind_inv in E2. destruct E2 as (i & O1 & _).
      apply in_map_iff in Q2. destruct Q2 as ([a dv] & Ea & Q2). cbn in Ea. subst a.
      pose proof (id_attr_default _ _ Q2). subst dv.
      destruct (construct_all _ _ _ _ _ _ _ O1 Q2) as (o' & O'). eauto. }
  destruct (one_ok _ _ _ _ _ K1 (attrs_usual _ _ _ U K) N O) as (w & l' & -> & I & J & [D'|(D' & _)]); [|congruence].
  rewrite D in D'. injection D' as <-. injection I as <-. apply Nx, J, Hx.
Qed.
