(** Lemmas about the session store seen as a map from paths to records. *)
From Verif Require Import M_Base M_Types M_Codec M_Grant M_Env M_Session S_Codec S_Store
  L_Base L_Codec L_Grant L_Monad L_Store.
From Coq Require Import Lia.

Section Maps.
  Variable isuser : string -> Prop.
  Notation tree := (tree_ok isuser).

  Lemma holds_iff s p o : tree s -> valid_path p ->
    (holds s p o <-> exists l, dbk s p = Some l /\ hp s l = Some o).
  Proof.
    intros T V. split; intros [l [R H]]; exists l; (split; [|exact H]);
      now apply (db_get_iff isuser s p l T V).
  Qed.

  (** Two stores agree on a user path when it has the same location and that
      location the same record. *)
  Lemma holds_same s s' p : tree s -> tree s' -> valid_path p -> dbk s' p = dbk s p ->
    (forall l, dbk s p = Some l -> hp s' l = hp s l) -> forall o, holds s' p o <-> holds s p o.
  Proof.
    intros T T' V D H o. rewrite (holds_iff s p o T V), (holds_iff s' p o T' V), D.
    split; intros [l [X Y]]; exists l; (split; [exact X|]).
    - now rewrite <- (H l X).
    - now rewrite (H l X).
  Qed.

  Lemma absent_holds s p : tree s -> valid_path p -> (absent s p <-> forall o, ~ holds s p o).
  Proof.
    intros T V. rewrite (absent_iff isuser s p T V). split.
    - intros D o Ho. apply holds_iff in Ho; auto. destruct Ho as [l [X _]]. congruence.
    - intros N. destruct (dbk s p) as [l|] eqn:D; [|reflexivity]. exfalso.
      destruct (tk_some _ _ T p l V D) as [o [Ho _]]. apply (N o). apply holds_iff; eauto.
  Qed.

  Lemma parents3 p u c g : p <> [] -> parent_of p [u; c; g] -> p = [u] \/ p = [u; c].
  Proof.
    intros N [r [Nr E]]. destruct p as [|a [|b [|d [|]]]]; cbn in E; try congruence.
    - injection E as <- _. auto.
    - injection E as <- <- _. auto.
  Qed.
  Lemma parents2 p u c : p <> [] -> parent_of p [u; c] -> p = [u].
  Proof.
    intros N [r [Nr E]]. destruct p as [|a [|b [|]]]; cbn in E; try congruence.
  Qed.
  Lemma parent31 u c g : parent_of [u] [u; c; g].
  Proof. exists [c; g]. split; [discriminate|reflexivity]. Qed.
  Lemma parent32 u c g : parent_of [u; c] [u; c; g].
  Proof. exists [g]. split; [discriminate|reflexivity]. Qed.
  Lemma parent21 u c : parent_of [u] [u; c].
  Proof. exists [c]. split; [discriminate|reflexivity]. Qed.

  Lemma more_children_add x i : more_children (OInfo i) (OInfo (si_add x i)).
  Proof.
    exists i, (si_sub (si_add x i)). split; [reflexivity|]. split.
    - intros y I. apply si_add_sub. auto.
    - unfold si_add. destruct (smem x (si_sub i)); [now destruct i|reflexivity].
  Qed.

  (** *** Parents of stored paths *)
  Lemma parents_exist s p q x : tree s -> user_path isuser q -> (exists o, holds s q o) ->
    q = p ++ [x] -> p <> [] -> exists i, holds s p (OInfo i) /\ In x (si_sub i).
  Proof.
    intros T [V U] [o Ho] E Np. apply holds_iff in Ho; auto. destruct Ho as [l [D H]].
    destruct p as [|a [|b [|d p]]]; [congruence| | |]; subst q; cbn in *.
    - destruct (tk_sub1 _ _ T a x l V D) as [lu [iu [A [B C]]]]. exists iu. split; [|exact C].
      apply holds_iff; auto; [now apply valid_1 in V|eauto].
    - destruct (tk_sub2 _ _ T a b x l V D) as [lu [iu [A [B C]]]]. exists iu. split; [|exact C].
      apply holds_iff; auto; [now apply valid_2 in V|eauto].
    - destruct V as [_ [L _]]. cbn in L. rewrite app_length in L. cbn in L. lia.
  Qed.

  (** A child that is listed is stored. *)
  Lemma listed_exist s p i x : tree s -> user_path isuser p -> List.length p <= 2 ->
    holds s p (OInfo i) -> In x (si_sub i) -> valid_path (p ++ [x]) /\ exists o, holds s (p ++ [x]) o.
  Proof.
    intros T [V U] L Ho I. apply holds_iff in Ho; auto. destruct Ho as [l [D H]].
    assert (G : valid_path (p ++ [x]) /\ exists l', dbk s (p ++ [x]) = Some l').
    { destruct p as [|a [|b [|d p]]]; cbn in *; [destruct V; congruence| | |lia].
      - exact (tk_list1 _ _ T a l i x V U D H I).
      - exact (tk_list2 _ _ T a b l i x V D H I). }
    destruct G as [W [l' D']]. split; [exact W|].
    destruct (tk_some _ _ T _ l' W D') as [o [Ho _]]. exists o. apply holds_iff; eauto.
  Qed.

  (** *** Storing a new grant *)
  Lemma store_grant_run s u c g gr : built isuser s -> valid_path [u; c; g] -> isuser u ->
    exists s', (l <- new_obj (OGrant gr) ;; db_set [u; c; g] l) s = (Ok tt, s')
      /\ built isuser s'
      /\ holds s' [u; c; g] (OGrant gr)
      /\ (forall p o, user_path isuser p -> p <> [u; c; g] -> ~ parent_of p [u; c; g] ->
            (holds s' p o <-> holds s p o))
      /\ (forall p, p <> [] -> parent_of p [u; c; g] ->
            exists o', holds s' p o' /\ forall o, holds s p o -> more_children o o')
      /\ s_ctr s' = s_ctr s /\ s_always s' = s_always s.
  Proof.
    intros B V U. pose proof (built_tree isuser s B) as T.
    pose proof (valid_2 _ _ _ V) as V2. pose proof (valid_1 _ _ V2) as V1.
    set (s1 := mk_st (s_heap s ++ [OGrant gr]) (s_db s) (s_ctr s) (s_always s)).
    assert (T1 : tree s1) by (apply tree_alloc; auto).
    assert (F1 : unused (dbk s1) (List.length (s_heap s))) by (apply (fresh_unused isuser); auto).
    assert (Hl : hp s1 (List.length (s_heap s)) = Some (OGrant gr)) by apply hp_app_same.
    destruct (set_grant_run isuser s1 u c g (List.length (s_heap s)) gr T1 V U Hl)
      as [s2 [lu [lc [iu [ic [R2 S2]]]]]].
    pose proof (set_grant_tree isuser s1 u c g (List.length (s_heap s)) gr s2 lu lc iu ic T1 V U Hl F1 S2) as T2.
    assert (R : (l <- new_obj (OGrant gr) ;; db_set [u; c; g] l) s = (Ok tt, s2)) by exact R2.
    exists s2. split; [exact R|].
    split; [exact (built_step _ _ _ B (sto_grant isuser u c g gr s _ s2 V U R))|].
    destruct S2 as [ND [D [Dc [Du [Nlcu [Nlc [Nlu [Hlc [Hlu [Hf [Hle [C1 C2]]]]]]]]]]]].
    change (dbk s1 [u]) with (dbk s [u]) in Du. change (dbk s1 [u; c]) with (dbk s [u; c]) in Dc.
    assert (Vg : forall q l', valid_path q -> dbk s1 q = Some l' -> l' < List.length (s_heap s)).
    { intros q l' Vq E. exact (tree_loc isuser s q l' T Vq E). }
    split.
    { apply holds_iff; auto. exists (List.length (s_heap s)). split.
      - rewrite D by exact V. destruct (list_eq_dec string_dec [u; c; g] [u; c; g]); congruence.
      - rewrite Hf by congruence. exact Hl. }
    split.
    { intros p o [Vp Up] N1 N2. apply (holds_same s s2 p T T2 Vp).
      - rewrite D by exact Vp. destruct (list_eq_dec string_dec p [u; c; g]); [congruence|].
        destruct (list_eq_dec string_dec p [u; c]); [subst; exfalso; apply N2, parent32|].
        destruct (list_eq_dec string_dec p [u]); [subst; exfalso; apply N2, parent31|]. reflexivity.
      - intros l' E. pose proof (tree_loc isuser s p l' T Vp E) as Lt'.
        rewrite Hf.
        + apply hp_app_other. lia.
        + intros ->. destruct Dc as [[X _]|[_ [X _]]].
          * apply N2. rewrite (tk_inj _ _ T p [u; c] lc (conj Vp Up) (conj V2 U) E X). apply parent32.
          * cbn in X. rewrite app_length in X. cbn in X. lia.
        + intros ->. destruct Du as [[X _]|[_ [X _]]].
          * apply N2. rewrite (tk_inj _ _ T p [u] lu (conj Vp Up) (conj V1 U) E X). apply parent31.
          * cbn in X. rewrite app_length in X. cbn in X. lia. }
    split; [|auto].
    intros p Np Pp. destruct (parents3 _ _ _ _ Np Pp) as [-> | ->].
    - exists (OInfo (si_add c iu)). split.
      + apply holds_iff; auto. exists lu. split; [|exact Hlu]. rewrite D by exact V1.
        repeat (destruct (list_eq_dec string_dec _ _); try congruence).
      + intros o Ho. apply holds_iff in Ho; auto. destruct Ho as [l' [X Y]].
        destruct Du as [[Z W]|[Z _]]; [|congruence].
        assert (l' = lu) by congruence. subst l'.
        unfold s1 in W. rewrite hp_app_other in W by (apply hp_lt in Y; lia).
        assert (o = OInfo iu) by congruence. subst. apply more_children_add.
    - exists (OInfo (si_add g ic)). split.
      + apply holds_iff; auto. exists lc. split; [|exact Hlc]. rewrite D by exact V2.
        repeat (destruct (list_eq_dec string_dec _ _); try congruence).
      + intros o Ho. apply holds_iff in Ho; auto. destruct Ho as [l' [X Y]].
        destruct Dc as [[Z W]|[Z _]]; [|congruence].
        assert (l' = lc) by congruence. subst l'.
        unfold s1 in W. rewrite hp_app_other in W by (apply hp_lt in Y; lia).
        assert (o = OInfo ic) by congruence. subst. apply more_children_add.
  Qed.

  (** *** Storing the info of a client *)
  Lemma store_client_run s u c l0 : built isuser s -> valid_path [u; c] -> isuser u ->
    reads s [u] l0 -> absent s [u; c] ->
    exists s', (l <- new_obj (OInfo (new_client_info c)) ;; db_set [u; c] l) s = (Ok tt, s')
      /\ built isuser s'
      /\ holds s' [u; c] (OInfo (new_client_info c))
      /\ (forall p o, user_path isuser p -> p <> [u; c] -> p <> [u] ->
            (holds s' p o <-> holds s p o))
      /\ (exists o', holds s' [u] o' /\ forall o, holds s [u] o -> more_children o o')
      /\ s_ctr s' = s_ctr s /\ s_always s' = s_always s.
  Proof.
    intros B V U Rd Ab. pose proof (built_tree isuser s B) as T. pose proof (valid_1 _ _ V) as V1.
    assert (Ab' := Ab). apply (absent_iff isuser) in Ab'; auto.
    set (s1 := mk_st (s_heap s ++ [OInfo (new_client_info c)]) (s_db s) (s_ctr s) (s_always s)).
    assert (T1 : tree s1) by (apply tree_alloc; auto).
    assert (F1 : unused (dbk s1) (List.length (s_heap s))) by (apply (fresh_unused isuser); auto).
    assert (Hl : hp s1 (List.length (s_heap s)) = Some (OInfo (new_client_info c))) by apply hp_app_same.
    destruct (set_client_run isuser s1 u c (List.length (s_heap s)) T1 V U) as [s2 [lu [iu [R2 S2]]]].
    { cbn. rewrite app_length. cbn. lia. }
    { apply F1. exact V1. }
    pose proof (set_client_tree isuser s1 u c (List.length (s_heap s)) (new_client_info c) s2 lu iu
      T1 V U Hl eq_refl F1 Ab' S2) as T2.
    assert (R : (l <- new_obj (OInfo (new_client_info c)) ;; db_set [u; c] l) s = (Ok tt, s2)) by exact R2.
    exists s2. split; [exact R|].
    split; [exact (built_step _ _ _ B (sto_client isuser u c l0 s s2 V U Rd Ab R))|].
    destruct S2 as [ND [D [Du [Nlu [Hlu [Hf [Hle [C1 C2]]]]]]]].
    change (dbk s1 [u]) with (dbk s [u]) in Du.
    split.
    { apply holds_iff; auto. exists (List.length (s_heap s)). split.
      - rewrite D by exact V. destruct (list_eq_dec string_dec [u; c] [u; c]); congruence.
      - apply Hf; [congruence|exact Hl]. }
    split.
    { intros p o [Vp Up] N1 N2. apply (holds_same s s2 p T T2 Vp).
      - rewrite D by exact Vp. destruct (list_eq_dec string_dec p [u; c]); [congruence|].
        destruct (list_eq_dec string_dec p [u]); [congruence|]. reflexivity.
      - intros l' E. pose proof (tree_loc isuser s p l' T Vp E) as Lt'.
        destruct (tk_some _ _ T p l' Vp E) as [o' [Ho' _]]. rewrite Ho'. apply Hf.
        + intros ->. destruct Du as [[X _]|[_ [X _]]].
          * apply N2. exact (tk_inj _ _ T p [u] lu (conj Vp Up) (conj V1 U) E X).
          * cbn in X. rewrite app_length in X. cbn in X. lia.
        + unfold s1. rewrite hp_app_other by lia. exact Ho'. }
    split; [|auto].
    exists (OInfo (si_add c iu)). split.
    - apply holds_iff; auto. exists lu. split; [|exact Hlu]. rewrite D by exact V1.
      repeat (destruct (list_eq_dec string_dec _ _); try congruence).
    - intros o Ho. apply holds_iff in Ho; auto. destruct Ho as [l' [X Y]].
      destruct Du as [[Z W]|[Z _]]; [|congruence].
      assert (l' = lu) by congruence. subst l'.
      unfold s1 in W. rewrite hp_app_other in W by (apply hp_lt in Y; lia).
      assert (o = OInfo iu) by congruence. subst. apply more_children_add.
  Qed.

  (** *** Storing the info of a user *)
  Lemma store_user_run s u : built isuser s -> valid_path [u] -> isuser u -> absent s [u] ->
    exists s', (l <- new_obj (OInfo (new_user_info u)) ;; db_set [u] l) s = (Ok tt, s')
      /\ built isuser s'
      /\ holds s' [u] (OInfo (new_user_info u))
      /\ (forall p o, user_path isuser p -> p <> [u] -> (holds s' p o <-> holds s p o))
      /\ s_ctr s' = s_ctr s /\ s_always s' = s_always s.
  Proof.
    intros B V U Ab. pose proof (built_tree isuser s B) as T.
    assert (Ab' := Ab). apply (absent_iff isuser) in Ab'; auto.
    set (s1 := mk_st (s_heap s ++ [OInfo (new_user_info u)]) (s_db s) (s_ctr s) (s_always s)).
    assert (T1 : tree s1) by (apply tree_alloc; auto).
    assert (F1 : unused (dbk s1) (List.length (s_heap s))) by (apply (fresh_unused isuser); auto).
    assert (Hl : hp s1 (List.length (s_heap s)) = Some (OInfo (new_user_info u))) by apply hp_app_same.
    destruct (set_one_run s1 u (List.length (s_heap s)) (tk_nodup _ _ T1) V) as [s2 [R2 S2]].
    pose proof (set_user_tree isuser s1 u (List.length (s_heap s)) (new_user_info u) s2
      T1 V U Hl eq_refl F1 Ab' S2) as T2.
    assert (R : (l <- new_obj (OInfo (new_user_info u)) ;; db_set [u] l) s = (Ok tt, s2)) by exact R2.
    exists s2. split; [exact R|].
    split; [exact (built_step _ _ _ B (sto_user isuser u s s2 V U Ab R))|].
    destruct S2 as [ND [D [Hf [Hle [C1 C2]]]]].
    split.
    { apply holds_iff; auto. exists (List.length (s_heap s)). split.
      - rewrite D by exact V. destruct (list_eq_dec string_dec [u] [u]); congruence.
      - now apply Hf. }
    split; [|auto].
    intros p o [Vp Up] N1. apply (holds_same s s2 p T T2 Vp).
    - rewrite D by exact Vp. destruct (list_eq_dec string_dec p [u]); [congruence|]. reflexivity.
    - intros l' E. pose proof (tree_loc isuser s p l' T Vp E) as Lt'.
      destruct (tk_some _ _ T p l' Vp E) as [o' [Ho' _]]. rewrite Ho'. apply Hf.
      unfold s1. rewrite hp_app_other by lia. exact Ho'.
  Qed.

  (** *** Changing a record in place *)
  Lemma upd_built s l f s' : (forall o, same_children o (f o)) -> built isuser s ->
    upd_obj l f s = (Ok tt, s') -> built isuser s'.
  Proof.
    intros Sf B R. unfold upd_obj in R. injection R as <-.
    apply (built_step _ _ _ B). apply sto_other; [reflexivity| |].
    - cbn. now rewrite upd_nth_length.
    - intros l' o Ho. cbn. destruct (Nat.eq_dec l' l) as [->|N].
      + exists (f o). split; [|apply Sf]. rewrite nth_upd_nth_same, Ho. reflexivity.
      + exists o. split; [|apply same_children_refl]. rewrite nth_upd_nth_other by congruence; exact Ho.
  Qed.

  Lemma change_run s p l f : built isuser s -> user_path isuser p -> reads s p l ->
    (forall o, same_children o (f o)) ->
    exists s', upd_obj l f s = (Ok tt, s') /\ built isuser s'
      /\ (forall o, holds s p o -> holds s' p (f o))
      /\ (forall q o, user_path isuser q -> q <> p -> (holds s' q o <-> holds s q o)).
  Proof.
    intros B [V U] Rd Sf. pose proof (built_tree isuser s B) as T.
    exists (mk_st (upd_nth l f (s_heap s)) (s_db s) (s_ctr s) (s_always s)).
    assert (R : upd_obj l f s = (Ok tt, mk_st (upd_nth l f (s_heap s)) (s_db s) (s_ctr s) (s_always s)))
      by reflexivity.
    split; [exact R|]. pose proof (upd_built s l f _ Sf B R) as B'. split; [exact B'|].
    pose proof (built_tree isuser _ B') as T'. apply (db_get_iff isuser s p l T V) in Rd.
    split.
    - intros o Ho. apply holds_iff in Ho; auto. destruct Ho as [l' [X Y]].
      assert (l' = l) by congruence. subst l'. apply holds_iff; auto. exists l. split; [exact X|].
      rewrite hp_upd_same, Y. reflexivity.
    - intros q o [Vq Uq] Nq. apply (holds_same _ _ q T T' Vq); [reflexivity|].
      intros l' E. apply hp_upd_other. intros ->. apply Nq.
      exact (tk_inj _ _ T q p l (conj Vq Uq) (conj V U) E Rd).
  Qed.

  (** *** Deleting *)
  Lemma sremove_iff x l y : NoDup l -> (In y (sremove x l) <-> In y l /\ y <> x).
  Proof.
    intros ND. split.
    - intros I. split; [now apply sremove_In in I|]. intros ->. exact (sremove_nodup_notin x l ND I).
    - intros [I N]. now apply sremove_In_other.
  Qed.
  Lemma list_true_false {A} (l : list A) : list_true l = false -> l = [].
  Proof. destruct l; [auto|discriminate]. Qed.

  Lemma delete_holds s u c g l : built isuser s -> valid_path [u; c; g] -> isuser u -> ~ isuser c ->
    reads s [u; c; g] l ->
    exists s', db_delete [u; c; g] s = (Ok tt, s') /\ built isuser s' /\ absent s' [u; c; g]
      /\ (forall p o, user_path isuser p -> p <> [u; c; g] -> ~ parent_of p [u; c; g] ->
            (holds s' p o <-> holds s p o))
      /\ (forall p i, p <> [] -> parent_of p [u; c; g] -> holds s p (OInfo i) ->
            (exists x, holds s' p (OInfo (mk_sinfo x (si_revoked i) (si_client i) (si_id i)))
               /\ (forall y, In y x <-> In y (si_sub i) /\ exists o, holds s' (p ++ [y]) o))
            \/ (absent s' p /\ forall y, In y (si_sub i) -> absent s' (p ++ [y]))).
  Proof.
    intros B V U NU Rd. pose proof (built_tree isuser s B) as T.
    pose proof (valid_2 _ _ _ V) as V2. pose proof (valid_1 _ _ V2) as V1.
    assert (Dg := Rd). apply (db_get_iff isuser s _ l T V) in Dg.
    destruct (delete_run isuser s u c g l T V U NU Dg) as [s' [R [T' [lu [lc [iu [ic S]]]]]]].
    exists s'. split; [exact R|].
    split; [exact (built_step _ _ _ B (sto_delete isuser u c g l s _ s' V U NU Rd R))|].
    destruct S as [ND [Du [Hu [Dc [Hc [Ig [Ic [Ncu [D' [Hc' [Hu' [Hf _]]]]]]]]]]]].
    assert (Ab : absent s' [u; c; g]).
    { apply (absent_iff isuser); auto. rewrite D' by exact V.
      destruct (list_eq_dec string_dec [u; c; g] [u; c; g]); congruence. }
    assert (Fr : forall p o, user_path isuser p -> p <> [u; c; g] -> ~ parent_of p [u; c; g] ->
            (holds s' p o <-> holds s p o)).
    { intros p o [Vp Up] N1 N2. apply (holds_same s s' p T T' Vp).
      - rewrite D' by exact Vp.
        destruct (list_eq_dec string_dec p [u; c; g]); [congruence|].
        destruct (list_eq_dec string_dec p [u; c]); [subst; exfalso; apply N2, parent32|].
        destruct (list_eq_dec string_dec p [u]); [subst; exfalso; apply N2, parent31|].
        destruct (list_eq_dec string_dec p [c]) as [E|E]; [subst; now destruct NU|].
        now destruct (list_true (sremove g (si_sub ic))), (list_true (sremove c (si_sub iu))).
      - intros l' E. apply Hf; intros ->; apply N2.
        + rewrite (tk_inj _ _ T p [u; c] lc (conj Vp Up) (conj V2 U) E Dc). apply parent32.
        + rewrite (tk_inj _ _ T p [u] lu (conj Vp Up) (conj V1 U) E Du). apply parent31. }
    split; [exact Ab|]. split; [exact Fr|].
    pose proof (tk_subnd _ _ T [u; c] lc ic (conj V2 U) Dc Hc) as NDc.
    pose proof (tk_subnd _ _ T [u] lu iu (conj V1 U) Du Hu) as NDu.
    (* which children of the client session are still there *)
    assert (Gr : forall y, In y (si_sub ic) ->
              (exists o, holds s' [u; c; y] o) <-> y <> g).
    { intros y Iy. destruct (tk_list2 _ _ T u c lc ic y V2 Dc Hc Iy) as [Vy [ly Dy]].
      destruct (string_dec y g) as [->|Ny].
      - split; [|congruence]. intros [o Ho]. exfalso.
        exact (proj1 (absent_holds s' _ T' V) Ab o Ho).
      - split; [auto|]. intros _. destruct (tk_some _ _ T _ ly Vy Dy) as [o [Ho _]].
        exists o. apply Fr; [split; auto|congruence| |apply holds_iff; eauto].
        intros P. apply parents3 in P; [|discriminate]. destruct P; discriminate. }
    destruct (list_true (sremove g (si_sub ic))) eqn:Lg.
    - (* other grants remain *)
      assert (Dc2 : dbk s' [u; c] = Some lc).
      { rewrite D' by exact V2. repeat (destruct (list_eq_dec string_dec _ _); try congruence). }
      intros p i Np Pp Hi. left. apply holds_iff in Hi; auto.
      2:{ now destruct (parents3 _ _ _ _ Np Pp) as [-> | ->]. }
      destruct Hi as [l' [X Y]].
      destruct (parents3 _ _ _ _ Np Pp) as [-> | ->].
      + assert (l' = lu) by congruence. subst. assert (i = iu) by congruence. subst.
        exists (si_sub iu). split.
        * apply holds_iff; auto. exists lu. split; [|now destruct iu].
          rewrite D' by exact V1. repeat (destruct (list_eq_dec string_dec _ _); try congruence).
        * intros y. split; [|tauto]. intros Iy. split; [exact Iy|].
          destruct (tk_list1 _ _ T u lu iu y V1 U Du Hu Iy) as [Vy [ly Dy]].
          destruct (string_dec y c) as [->|Ny].
          -- exists (OInfo (si_rem g ic)). apply holds_iff; eauto.
          -- destruct (tk_some _ _ T _ ly Vy Dy) as [o [Ho _]].
             exists o. apply Fr; [split; auto|discriminate| |apply holds_iff; eauto].
             intros P. apply parents3 in P; [|discriminate]. destruct P; cbn in *; congruence.
      + assert (l' = lc) by congruence. subst. assert (i = ic) by congruence. subst.
        exists (sremove g (si_sub ic)). split.
        * apply holds_iff; auto. exists lc. split; [exact Dc2|]. rewrite Hc'. now destruct ic.
        * intros y. cbn [app]. rewrite (sremove_iff g (si_sub ic) y NDc). split.
          -- intros [Iy Ny]. split; [exact Iy|]. now apply Gr.
          -- intros [Iy Ey]. split; [exact Iy|]. now apply Gr.
    - apply list_true_false in Lg.
      assert (Abc : absent s' [u; c]).
      { apply (absent_iff isuser); auto. rewrite D' by exact V2.
        repeat (destruct (list_eq_dec string_dec _ _); try congruence). }
      intros p i Np Pp Hi. apply holds_iff in Hi; auto.
      2:{ now destruct (parents3 _ _ _ _ Np Pp) as [-> | ->]. }
      destruct Hi as [l' [X Y]].
      destruct (parents3 _ _ _ _ Np Pp) as [-> | ->].
      + assert (l' = lu) by congruence. subst. assert (i = iu) by congruence. subst.
        assert (Cr : forall y, In y (si_sub iu) ->
                  (exists o, holds s' [u; y] o) <-> y <> c).
        { intros y Iy. destruct (tk_list1 _ _ T u lu iu y V1 U Du Hu Iy) as [Vy [ly Dy]].
          destruct (string_dec y c) as [->|Ny].
          - split; [|congruence]. intros [o Ho]. exfalso.
            exact (proj1 (absent_holds s' _ T' V2) Abc o Ho).
          - split; [auto|]. intros _. destruct (tk_some _ _ T _ ly Vy Dy) as [o [Ho _]].
            exists o. apply Fr; [split; auto|discriminate| |apply holds_iff; eauto].
            intros P. apply parents3 in P; [|discriminate]. destruct P; cbn in *; congruence. }
        destruct (list_true (sremove c (si_sub iu))) eqn:Lc.
        * left. exists (sremove c (si_sub iu)). split.
          -- apply holds_iff; auto. exists lu. split; [|rewrite Hu'; now destruct iu].
             rewrite D' by exact V1. repeat (destruct (list_eq_dec string_dec _ _); try congruence).
          -- intros y. cbn [app]. rewrite (sremove_iff c (si_sub iu) y NDu). split.
             ++ intros [Iy Ny]. split; [exact Iy|]. now apply Cr.
             ++ intros [Iy Ey]. split; [exact Iy|]. now apply Cr.
        * apply list_true_false in Lc. right. split.
          -- apply (absent_iff isuser); auto. rewrite D' by exact V1.
             repeat (destruct (list_eq_dec string_dec _ _); try congruence).
          -- intros y Iy. cbn [app]. destruct (string_dec y c) as [->|Ny]; [exact Abc|].
             exfalso. assert (In y (sremove c (si_sub iu))) by (apply sremove_iff; auto).
             rewrite Lc in H. destruct H.
      + assert (l' = lc) by congruence. subst. assert (i = ic) by congruence. subst.
        right. split; [exact Abc|]. intros y Iy. cbn [app].
        destruct (string_dec y g) as [->|Ny]; [exact Ab|].
        exfalso. assert (In y (sremove g (si_sub ic))) by (apply sremove_iff; auto).
        rewrite Lg in H. destruct H.
  Qed.
End Maps.
