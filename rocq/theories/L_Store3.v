(** Lemmas about the operations of the session manager on the store. *)
From Verif Require Import M_Base M_Types M_Codec M_Grant M_Env M_Session S_Codec S_Store
  L_Base L_Codec L_Grant L_Monad L_Store L_Store2.
From Coq Require Import Lia.

Section Manager.
  Variable isuser : string -> Prop.
  Notation tree := (tree_ok isuser).

  (** Changing the counter changes nothing in the store. *)
  Lemma ctr_built s n a : built isuser s -> built isuser (mk_st (s_heap s) (s_db s) n a).
  Proof.
    intros B. apply (built_step _ _ _ B). apply sto_other; cbn; [reflexivity|lia|].
    intros l o H. exists o. split; [exact H|apply same_children_refl].
  Qed.
  Lemma ctr_holds s n a p o : built isuser s -> valid_path p ->
    (holds (mk_st (s_heap s) (s_db s) n a) p o <-> holds s p o).
  Proof.
    intros B V. apply (holds_same isuser); auto.
    - now apply built_tree.
    - apply built_tree. now apply ctr_built.
  Qed.

  Lemma absent1_exn s u : tree s -> valid_path [u] -> absent s [u] -> db_get [u] s = (Raise KeyError, s).
  Proof.
    intros T V A. apply (absent_iff isuser) in A; auto. unfold dbk in A. rewrite key1 in A.
    unfold db_get. cbn [eval_path]. unfold bind at 1, lift. unfold bind, db_lookup. now rewrite A.
  Qed.
  Lemma absent2_exn s u c l : tree s -> valid_path [u; c] -> isuser u -> reads s [u] l -> absent s [u; c] ->
    exists x, db_get [u; c] s = (Raise x, s) /\ (x = ValueError \/ x = NoSuchClientSession).
  Proof.
    intros T V U Rd A. pose proof (valid_1 _ _ V) as V1. apply (absent_iff isuser) in A; auto.
    apply (db_get_iff isuser) in Rd; auto.
    destruct (tk_user _ _ T u l V1 U Rd) as [i Hi].
    unfold dbk in *. rewrite key1 in Rd.
    unfold db_get. cbn [eval_path]. unfold bind at 1, lift. rewrite db_lookup_bind, Rd.
    rewrite (bind_run _ _ _ _ _ (deref_run _ _ _ Hi)).
    rewrite (bind_run _ _ _ _ _ (subordinate_run _ _ _ Hi)).
    destruct (negb (smem c (si_sub i))); [exists ValueError; auto|].
    rewrite db_lookup_bind. cbn beta. rewrite A. exists NoSuchClientSession; auto.
  Qed.

  Definition as_before (s s' : st) (p : list string) : Prop := forall o, holds s' p o <-> holds s p o.

  (** The store after the user's record has been ensured. *)
  Lemma ensure_user_run s u : built isuser s -> valid_path [u] -> isuser u ->
    exists s', catch (db_get [u] ;; ret tt)
      (fun x => if is_KeyError x
                then Some (l <- new_obj (OInfo (new_user_info u)) ;; db_set [u] l)
                else None) s = (Ok tt, s')
      /\ built isuser s' /\ (exists l, reads s' [u] l)
      /\ (forall p, user_path isuser p -> p <> [u] -> as_before s s' p)
      /\ (forall o, holds s [u] o -> holds s' [u] o)
      /\ s_ctr s' = s_ctr s /\ s_always s' = s_always s.
  Proof.
    intros B V U. pose proof (built_tree isuser s B) as T.
    destruct (db_get_cases [u] s) as [[l R]|A].
    - exists s. unfold catch. rewrite (bind_run _ _ _ _ _ R). unfold ret.
      split; [reflexivity|]. split; [exact B|]. split; [eauto|]. split; [intros p _ _ o; reflexivity|auto].
    - destruct (store_user_run isuser s u B V U A) as [s' [R [B' [H1 [F [C1 C2]]]]]].
      exists s'. unfold catch. rewrite (bind_run_raise _ _ _ _ _ (absent1_exn s u T V A)).
      cbn [is_KeyError]. split; [exact R|]. split; [exact B'|].
      split. { destruct H1 as [l [Rl _]]. eauto. }
      split; [intros p Vp Np o; now apply F|].
      split; [|auto]. intros o Ho. exfalso. exact (proj1 (absent_holds isuser s [u] T V) A o Ho).
  Qed.

  Lemma ensure_client_run s u c l0 : built isuser s -> valid_path [u; c] -> isuser u -> reads s [u] l0 ->
    exists s', catch (db_get [u; c] ;; ret tt)
      (fun x => match x with
                | NoSuchClientSession | ValueError =>
                    Some (l <- new_obj (OInfo (new_client_info c)) ;; db_set [u; c] l)
                | _ => None
                end) s = (Ok tt, s')
      /\ built isuser s' /\ (exists l, reads s' [u; c] l)
      /\ (forall p, user_path isuser p -> p <> [u; c] -> p <> [u] -> as_before s s' p)
      /\ (forall o, holds s [u; c] o -> holds s' [u; c] o)
      /\ (forall o, holds s [u] o -> exists o', holds s' [u] o' /\ more_children o o')
      /\ s_ctr s' = s_ctr s /\ s_always s' = s_always s.
  Proof.
    intros B V U Ru. pose proof (built_tree isuser s B) as T.
    destruct (db_get_cases [u; c] s) as [[l R]|A].
    - exists s. unfold catch. rewrite (bind_run _ _ _ _ _ R). unfold ret.
      split; [reflexivity|]. split; [exact B|]. split; [eauto|].
      split; [intros p _ _ _ o; reflexivity|]. split; [auto|]. split; [|auto].
      intros o Ho. exists o. split; [exact Ho|].
      apply (holds_iff isuser) in Ho; auto; [|now apply valid_1 in V]. destruct Ho as [l' [X Y]].
      destruct (tk_user _ _ T u l' (valid_1 _ _ V) U X) as [i Hi].
      exists i, (si_sub i). split; [congruence|]. split; [apply incl_refl|]. destruct i; cbn; congruence.
    - destruct (store_client_run isuser s u c l0 B V U Ru A) as [s' [R [B' [H1 [F [H2 [C1 C2]]]]]]].
      exists s'. unfold catch. destruct (absent2_exn s u c l0 T V U Ru A) as [x [Rx Ex]].
      rewrite (bind_run_raise _ _ _ _ _ Rx).
      assert (E : match x with
                | NoSuchClientSession | ValueError =>
                    Some (l <- new_obj (OInfo (new_client_info c)) ;; db_set [u; c] l)
                | _ => None
                end = Some (l <- new_obj (OInfo (new_client_info c)) ;; db_set [u; c] l))
        by (destruct Ex; subst; reflexivity).
      rewrite E. split; [exact R|]. split; [exact B'|].
      split. { destruct H1 as [l [Rl _]]. eauto. }
      split; [intros p Vp Np Np2 o; now apply F|].
      split; [intros o Ho; exfalso; exact (proj1 (absent_holds isuser s [u; c] T V) A o Ho)|].
      split; [|auto]. destruct H2 as [o' [H3 H4]]. intros o Ho. exists o'. auto.
  Qed.

  Lemma more_children_trans a b c : more_children a b -> more_children b c -> more_children a c.
  Proof.
    intros [i [x [-> [I1 ->]]]] [j [y [E [I2 ->]]]]. injection E as <-. cbn in *.
    exists i, y. split; [reflexivity|]. split; [|reflexivity]. eapply incl_tran; eauto.
  Qed.

  Lemma create_session_run e now ae ar s u c rules scopes :
    let gid := e_uuid e (s_ctr s) in
    built isuser s -> isuser u -> valid_path [u; c; gid] ->
    exists s' sid, create_session e now ae ar u c rules scopes s = (Ok sid, s')
      /\ sid = encrypted_session_id (e_crypto e) (e_skey e) (e_rnd e (S (s_ctr s))) (S (s_ctr s)) [u; c; gid]
      /\ built isuser s'
      /\ holds s' [u; c; gid]
           (OGrant (new_grant now ar ae (e_sub e u (ar_sector ar)) gid rules scopes))
      /\ (forall p, user_path isuser p -> p <> [u; c; gid] -> ~ parent_of p [u; c; gid] -> as_before s s' p)
      /\ (forall p o, p <> [] -> parent_of p [u; c; gid] -> holds s p o ->
            exists o', holds s' p o' /\ more_children o o')
      /\ s_ctr s' = S (S (s_ctr s)).
  Proof.
    intros gid B U V. pose proof (valid_2 _ _ _ V) as V2. pose proof (valid_1 _ _ V2) as V1.
    assert (Nc : c <> "").
    { destruct (valid_cases _ V2) as [[? [X _]]|[[? [? [X [_ N]]]]|[? [? [? [X _]]]]]]; try discriminate.
      injection X as _ <-. exact N. }
    destruct (ensure_user_run s u B V1 U) as [s1 [R1 [B1 [[l1 Rd1] [F1 [P1 [C1 A1]]]]]]].
    destruct (ensure_client_run s1 u c l1 B1 V2 U Rd1) as [s2 [R2 [B2 [[l2 Rd2] [F2 [P2 [Q2 [C2 A2]]]]]]]].
    set (s3 := mk_st (s_heap s2) (s_db s2) (S (s_ctr s2)) (s_always s2)).
    assert (B3 : built isuser s3) by now apply ctr_built.
    set (gr := new_grant now ar ae (e_sub e u (ar_sector ar)) gid rules scopes).
    destruct (store_grant_run isuser s3 u c gid gr B3 V U) as [s4 [R4 [B4 [H4 [F4 [P4 [C4 A4]]]]]]].
    set (s5 := mk_st (s_heap s4) (s_db s4) (S (s_ctr s4)) (s_always s4)).
    assert (B5 : built isuser s5) by now apply ctr_built.
    assert (Cs : s_ctr s2 = s_ctr s) by congruence.
    exists s5, (encrypted_session_id (e_crypto e) (e_skey e) (e_rnd e (S (s_ctr s))) (S (s_ctr s)) [u; c; gid]).
    split.
    { unfold create_session. rewrite (bind_run _ _ _ _ _ R1). cbv zeta.
      apply str_true_ne' in Nc. rewrite Nc. rewrite (bind_run _ _ _ _ _ R2).
      unfold create_grant. unfold bind at 1, tick. rewrite Cs. fold gid. cbn zeta. fold gr.
      unfold bind in R4 |- *. unfold new_obj in *. cbn [s_heap s_db s_ctr s_always] in *.
      unfold s3 in R4. cbn [s_heap s_db s_ctr s_always] in R4. rewrite Cs in R4. rewrite R4.
      unfold enc_sid, tick, bind, ret. unfold s5. f_equal. f_equal.
      cbn in C4. rewrite C4, Cs. reflexivity. }
    split; [reflexivity|]. split; [exact B5|].
    split. { unfold s5. apply ctr_holds; auto. }
    split.
    { intros p Vp N1 N2 o. unfold s5. rewrite ctr_holds by (auto; apply Vp).
      rewrite F4 by auto. unfold s3. rewrite ctr_holds by (auto; apply Vp).
      transitivity (holds s1 p o).
      - apply F2; auto; intros ->; apply N2; [apply parent32|apply parent31].
      - apply F1; auto. intros ->. apply N2, parent31. }
    split.
    { intros p o Np Pp Ho. destruct (P4 p Np Pp) as [o4 [H5 H6]]. exists o4.
      assert (Vp : valid_path p) by (destruct (parents3 _ _ _ _ Np Pp) as [-> | ->]; auto).
      split; [unfold s5; now apply ctr_holds|].
      destruct (parents3 _ _ _ _ Np Pp) as [-> | ->].
      - apply P1 in Ho. destruct (Q2 o Ho) as [o2 [Ho2 M2]].
        eapply more_children_trans; [exact M2|]. apply H6. unfold s3. now apply ctr_holds.
      - apply H6. unfold s3. apply ctr_holds; auto. apply P2. apply F1; auto; [split; auto|discriminate]. }
    unfold s5. cbn. cbn in C4. congruence.
  Qed.

  (** *** Revoking a client session *)
  Definition revoked_obj (o : obj) : Prop :=
    match o with
    | OInfo i => si_revoked i = true
    | OGrant g => g_revoked g = true
    | ONone => False
    end.

  Lemma revoke_obj_same o : same_children o (revoke_obj o).
  Proof. destruct o; cbn; auto. Qed.

  (** Revoking each grant of a list: every one of them has been changed, other
      records have not. *)
  Lemma revoke_grants_run gids : forall s u c,
    built isuser s -> valid_path [u; c] -> isuser u ->
    (forall g, In g gids -> valid_path [u; c; g] /\ exists gr, holds s [u; c; g] (OGrant gr)) ->
    exists s', revoke_grants u c gids s = (Ok tt, s') /\ built isuser s'
      /\ (forall p o, user_path isuser p -> (forall g, In g gids -> p <> [u; c; g]) ->
            (holds s' p o <-> holds s p o))
      /\ (forall g gr, In g gids -> holds s [u; c; g] (OGrant gr) ->
            holds s' [u; c; g] (OGrant (g_set_revoked gr)))
      /\ s_db s' = s_db s /\ s_ctr s' = s_ctr s /\ s_always s' = s_always s.
  Proof.
    induction gids as [|g gids IH]; intros s u c B V2 U Hs.
    - exists s. cbn. split; [reflexivity|]. split; [exact B|]. split; [tauto|]. split; [contradiction|auto].
    - destruct (Hs g (or_introl eq_refl)) as [Vg [gr Hg]]. destruct Hg as [l [Rl Hl]].
      assert (Up : user_path isuser [u; c; g]) by (split; auto).
      destruct (change_run isuser s [u; c; g] l revoke_obj B Up Rl revoke_obj_same) as [s1 [R1 [B1 [H1 F1]]]].
      assert (C1 : s_db s1 = s_db s /\ s_ctr s1 = s_ctr s /\ s_always s1 = s_always s).
      { unfold upd_obj in R1. injection R1 as <-. auto. }
      assert (Hs1 : forall g0 gr0, holds s [u; c; g0] (OGrant gr0) -> valid_path [u; c; g0] ->
                exists gr1, holds s1 [u; c; g0] (OGrant gr1)
                  /\ (gr1 = if string_dec g0 g then g_set_revoked gr0 else gr0)).
      { intros g0 gr0 H0 V0. destruct (string_dec g0 g) as [->|N].
        - eexists. split; [exact (H1 _ H0)|reflexivity].
        - eexists. split; [|reflexivity]. apply F1; auto; [split; auto|congruence]. }
      destruct (IH s1 u c B1 V2 U) as [s2 [R2 [B2 [F2 [H2 [Db2 [C2 A2]]]]]]].
      { intros g0 I0. destruct (Hs g0 (or_intror I0)) as [V0 [gr0 H0]]. split; [exact V0|].
        destruct (Hs1 g0 gr0 H0 V0) as [gr1 [X _]]. eauto. }
      exists s2. split.
      { cbn. rewrite (bind_run _ _ _ _ _ Rl). rewrite (bind_run _ _ _ _ _ (deref_run _ _ _ Hl)).
        rewrite (bind_run _ _ _ _ _ R1). exact R2. }
      split; [exact B2|]. split.
      { intros p o Vp N. rewrite F2 by (auto; intros g0 I0; apply N; now right).
        apply F1; auto. apply N. now left. }
      split; [|intuition congruence].
      intros g0 gr0 I0 H0. destruct (in_dec string_dec g0 gids) as [I|NI].
      + destruct (Hs g0 (or_intror I)) as [V0 _]. destruct (Hs1 g0 gr0 H0 V0) as [gr1 [X Y]].
        pose proof (H2 g0 gr1 I X) as Z. subst gr1.
        destruct (string_dec g0 g); [|exact Z]. now destruct gr0.
      + destruct I0 as [<-|]; [|contradiction].
        apply F2; [split; auto| |exact (H1 _ H0)].
        intros g1 I1. congruence.
  Qed.

  Lemma revoke_client_session_run e s sid u c rest i : built isuser s -> valid_path [u; c] -> isuser u ->
    dec_sid e sid = Ok (u :: c :: rest) -> List.length rest <= 1 ->
    holds s [u; c] (OInfo i) ->
    exists s', revoke_client_session e sid s = (Ok tt, s') /\ built isuser s'
      /\ holds s' [u; c] (OInfo (si_revoke i))
      /\ (forall g gr, valid_path [u; c; g] -> holds s [u; c; g] (OGrant gr) ->
            holds s' [u; c; g] (OGrant (g_set_revoked gr)))
      /\ (forall p o, user_path isuser p -> p <> [u; c] -> ~ parent_of [u; c] p ->
            (holds s' p o <-> holds s p o)).
  Proof.
    intros B V U Dec Ln Hi. pose proof (built_tree isuser s B) as T.
    destruct Hi as [l [Rl Hl]].
    destruct (change_run isuser s [u; c] l revoke_obj B (conj V U) Rl revoke_obj_same) as [s1 [R1 [B1 [H1 F1]]]].
    pose proof (built_tree isuser s1 B1) as T1.
    assert (Hi1 : holds s1 [u; c] (OInfo (si_revoke i))).
    { apply (H1 (OInfo i)). exists l. auto. }
    assert (Rl1 : reads s1 [u; c] l).
    { apply (db_get_iff isuser); auto. apply (db_get_iff isuser) in Rl; auto.
      unfold upd_obj in R1. injection R1 as <-. exact Rl. }
    assert (Hl1 : nth_error (s_heap s1) l = Some (OInfo (si_revoke i))).
    { destruct Hi1 as [l' [Rl' Hl']]. unfold reads in *. assert (l' = l) by congruence. subst. exact Hl'. }
    pose proof (set_again isuser s1 [u; c] l T1 V Rl1) as R2.
    assert (Hg : forall g, In g (si_sub i) -> valid_path [u; c; g] /\ exists gr, holds s1 [u; c; g] (OGrant gr)).
    { intros g I. assert (D : dbk s1 [u; c] = Some l) by now apply (db_get_iff isuser).
      destruct (tk_list2 _ _ T1 u c l (si_revoke i) g V D Hl1 I) as [W [lg Dg]].
      split; [exact W|]. destruct (tk_grant _ _ T1 u c g lg W Dg) as [gr Hgr].
      exists gr. apply (holds_iff isuser); eauto. }
    destruct (revoke_grants_run (si_sub i) s1 u c B1 V U Hg) as [s3 [R3 [B3 [F3 [H3 _]]]]].
    exists s3. split.
    { unfold revoke_client_session. unfold bind at 1, lift. rewrite Dec.
      assert (E : (match u :: c :: rest with
                   | [u; c] => ret (u, c)
                   | [u; c; _] => ret (u, c)
                   | _ => raise ValueError
                   end : M st (string * string)) s = (Ok (u, c), s)).
      { destruct rest as [|? [|]]; cbn in Ln; try lia; reflexivity. }
      rewrite (bind_run _ _ _ _ _ E). rewrite (bind_run _ _ _ _ _ Rl).
      rewrite (bind_run _ _ _ _ _ (deref_run _ _ _ Hl)). rewrite (bind_run _ _ _ _ _ R1).
      rewrite (bind_run _ _ _ _ _ R2). rewrite (bind_run _ _ _ _ _ (subordinate_run _ _ _ Hl1)).
      exact R3. }
    split; [exact B3|]. split.
    { apply F3; [split; auto| |exact Hi1]. intros g _. discriminate. }
    split.
    { intros g gr Vg Hgr.
      assert (Hgr1 : holds s1 [u; c; g] (OGrant gr)) by (apply F1; auto; [split; auto|discriminate]).
      apply H3; [|exact Hgr1].
      destruct (parents_exist isuser s1 [u; c] [u; c; g] g T1 (conj Vg U) (ex_intro _ _ Hgr1) eq_refl
        ltac:(discriminate)) as [j [Hj Ij]].
      destruct Hj as [l' [Rl' Hl']]. unfold reads in *. assert (l' = l) by congruence. subst.
      rewrite Hl1 in Hl'. injection Hl' as <-. exact Ij. }
    intros p o Vp N1 N2. rewrite F3; auto. intros g _ ->. apply N2, parent32.
  Qed.

  (** *** Revoking one grant *)
  Lemma revoke_grant_run e s sid u c g gr : built isuser s -> valid_path [u; c; g] -> isuser u ->
    dec_sid e sid = Ok [u; c; g] -> holds s [u; c; g] (OGrant gr) ->
    exists s', revoke_grant e sid s = (Ok tt, s') /\ built isuser s'
      /\ holds s' [u; c; g] (OGrant (g_set_revoked gr))
      /\ (forall p o, user_path isuser p -> p <> [u; c; g] -> (holds s' p o <-> holds s p o)).
  Proof.
    intros B V U Dec [l [Rl Hl]].
    destruct (change_run isuser s _ l revoke_obj B (conj V U) Rl revoke_obj_same) as [s1 [R1 [B1 [H1 F1]]]].
    pose proof (built_tree isuser s B) as T. pose proof (built_tree isuser s1 B1) as T1.
    assert (Rl1 : reads s1 [u; c; g] l).
    { apply (db_get_iff isuser); auto. apply (db_get_iff isuser) in Rl; auto.
      unfold upd_obj in R1. injection R1 as <-. exact Rl. }
    exists s1. split.
    { unfold revoke_grant. unfold bind at 1, lift. rewrite Dec. rewrite (bind_run _ _ _ _ _ Rl).
      rewrite (bind_run _ _ _ _ _ (deref_run _ _ _ Hl)). rewrite (bind_run _ _ _ _ _ R1).
      exact (set_again isuser s1 _ l T1 V Rl1). }
    split; [exact B1|]. split; [|exact F1]. apply (H1 (OGrant gr)). exists l. auto.
  Qed.

  Lemma remove_session_run e s sid u c g l : built isuser s -> valid_path [u; c; g] -> isuser u ->
    ~ isuser c -> dec_sid3 e sid = Ok (u, c, g) -> reads s [u; c; g] l ->
    exists s', remove_session e sid s = (Ok tt, s') /\ built isuser s' /\ absent s' [u; c; g]
      /\ (forall p o, user_path isuser p -> p <> [u; c; g] -> ~ parent_of p [u; c; g] ->
            (holds s' p o <-> holds s p o))
      /\ (forall p i, p <> [] -> parent_of p [u; c; g] -> holds s p (OInfo i) ->
            (exists x, holds s' p (OInfo (mk_sinfo x (si_revoked i) (si_client i) (si_id i)))
               /\ (forall y, In y x <-> In y (si_sub i) /\ exists o, holds s' (p ++ [y]) o))
            \/ (absent s' p /\ forall y, In y (si_sub i) -> absent s' (p ++ [y]))).
  Proof.
    intros B V U NU Dec Rd. destruct (delete_holds isuser s u c g l B V U NU Rd) as [s' [R X]].
    exists s'. split; [|exact X]. unfold remove_session. unfold bind at 1, lift. rewrite Dec. exact R.
  Qed.
End Manager.
