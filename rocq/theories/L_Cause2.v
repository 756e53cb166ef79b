(** What each call can revoke. *)
From Verif Require Import M_Base M_Types M_Codec M_Grant M_Env M_Session M_Claims M_Handler
  M_Authz M_TokenEP M_PKCE M_AuthzEP M_Info M_Logout M_History S_Codec S_Grant S_Store S_History S_Revoke S_Logout S_Cause
  L_Base L_Codec L_Monad L_Grant L_Claims L_Store L_Hist1 L_Hist2 L_Hist3 L_Hist4 L_Hist5 L_Hist6
  L_Hist7 L_Hist8 L_Emit L_Hist9 L_Hist10 L_Hist11 L_Logout L_Logout2 L_Revoke M_Dump L_Dump L_Cause.

(** ** Revoking inside a list of tokens *)
Section Hits.
  Variable ts0 : list token.

  (** Started on the tokens [ts0], some of which may have got revoked since, [m]
      revokes only tokens at the positions [P]. *)
  Definition hits (P : nat -> Prop) (m : M (list token) unit) : Prop :=
    forall ts r ts', skel ts = skel ts0 -> m ts = (r, ts') -> skel ts' = skel ts0
      /\ forall i t', nth_error ts' i = Some t' -> t_revoked t' = true ->
           P i \/ exists t, nth_error ts i = Some t /\ t_revoked t = true.

  Lemma hits_ret (P : nat -> Prop) : hits P (ret tt).
  Proof. intros ts r ts' K E. apply ret_inv in E as [_ <-]. split; auto. intros i t N R. right. eauto. Qed.
  Lemma hits_raise (P : nat -> Prop) x : hits P (raise x).
  Proof. intros ts r ts' K E. apply raise_inv in E as [_ <-]. split; auto. intros i t N R. right. eauto. Qed.
  Lemma hits_bind (P : nat -> Prop) m k : hits P m -> hits P k -> hits P (m ;; k).
  Proof.
    intros H K ts r ts' S E. apply bind_inv in E as [(a & s1 & E1 & E2)|(x & E1 & ->)].
    - destruct (H _ _ _ S E1) as [S1 R1]. destruct (K _ _ _ S1 E2) as [S2 R2]. split; auto.
      intros i t' N R. destruct (R2 i t' N R) as [X|(t & Nt & Rt)]; auto. apply (R1 i t Nt Rt).
    - apply (H _ _ _ S E1).
  Qed.
  Lemma hits_nth (P : nat -> Prop) i : P i -> hits P (revoke_nth i).
  Proof.
    intros Pi ts r ts' S H. unfold revoke_nth in H. injection H as _ <-. split; [rewrite skel_upd; auto|].
    intros j t N R. destruct (Nat.eq_dec j i) as [->|Ne]; auto. right.
    rewrite nth_upd_nth_other in N by auto. eauto.
  Qed.
  Lemma hits_for (P : nat -> Prop) f is : (forall i, hits P (f i)) -> hits P (for_pos f is).
  Proof. intros H. induction is as [|i is IH]; cbn; [apply hits_ret|]. apply hits_bind; auto. Qed.
  Lemma hits_weak (P Q : nat -> Prop) m : (forall i, P i -> Q i) -> hits P m -> hits Q m.
  Proof.
    intros I H ts r ts' S E. destruct (H _ _ _ S E) as [A B]. split; auto. intros i t' N R.
    destruct (B i t' N R); auto.
  Qed.
  Lemma skel_nth ts i t : skel ts = skel ts0 -> nth_error ts i = Some t ->
    exists t0, nth_error ts0 i = Some t0 /\ t_value t0 = t_value t /\ t_based t0 = t_based t.
  Proof.
    intros S N. apply (f_equal (fun l => nth_error l i)) in S. unfold skel in S. rewrite !nth_error_map, N in S.
    destruct (nth_error ts0 i) as [t0|]; [|discriminate]. cbn [option_map] in S.
    assert (tok_set_revoked t = tok_set_revoked t0) as S' by congruence. exists t0. split; [reflexivity|].
    apply skel_eq_sbr in S' as (_ & A & B & _). auto.
  Qed.

  Definition below (v : string) (i : nat) : Prop := exists t, nth_error ts0 i = Some t /\ descends ts0 v t.
  Lemma below_child v i t : nth_error ts0 i = Some t -> t_based t = Some v -> below v i.
  Proof. intros N B. exists t. split; auto. apply desc_child; auto. eapply nth_error_In; eauto. Qed.
  Lemma descends_up v t x : In t ts0 -> t_based t = Some v -> descends ts0 (t_value t) x -> descends ts0 v x.
  Proof.
    intros It B D. induction D as [y Iy By|y z D IH Iz Bz].
    - eapply desc_trans; [apply desc_child; [exact It|exact B]| |]; auto.
    - eapply desc_trans; eauto.
  Qed.
  Lemma below_up v i t : nth_error ts0 i = Some t -> t_based t = Some v -> forall j, below (t_value t) j -> below v j.
  Proof.
    intros N B j (x & Nx & D). exists x. split; auto. eapply descends_up; eauto. eapply nth_error_In; eauto.
  Qed.

  Lemma hits_dependent k : forall v, hits (below v) (revoke_dependent k v).
  Proof.
    induction k as [|k IH]; intros v; [apply hits_raise|]. cbn [revoke_dependent].
    intros ts r ts' S E. revert E. set (body := fun i => _). intros E.
    assert (forall i, hits (below v) (body i)) as B.
    2:{ eapply hits_for in B. eapply B; eauto. }
    intros i us r' us' Su E'. unfold body in E'. destruct (nth_error us i) as [t|] eqn:Nu.
    2:{ injection E' as _ <-. split; auto. intros j t N R. right. eauto. }
    destruct (skel_nth _ _ _ Su Nu) as (t0 & N0 & V0 & B0).
    destruct (t_based t) as [b|] eqn:Bt; [|injection E' as _ <-; split; auto; intros j t1 N R; right; eauto].
    destruct (String.eqb_spec b v) as [->|Ne]; [|injection E' as _ <-; split; auto; intros j t1 N R; right; eauto].
    revert E'. apply hits_bind; auto.
    - apply hits_nth. eapply below_child; eauto.
    - eapply hits_weak; [|apply IH]. rewrite <- V0. eapply below_up; eauto.
  Qed.

  Lemma hits_revoke_token k : (forall t, In t ts0 -> t_value t <> EmptyString) -> forall v, v <> EmptyString ->
    hits (below v) (revoke_token k "" v true).
  Proof.
    intros Ne. induction k as [|k IH]; intros v Nv; [apply hits_raise|]. cbn [revoke_token].
    intros ts r ts' S E. revert E. set (body := fun i => _). intros E.
    assert (forall i, hits (below v) (body i)) as B.
    2:{ eapply hits_for in B. eapply B; eauto. }
    intros i us r' us' Su E'. unfold body in E'. destruct (nth_error us i) as [t|] eqn:Nu.
    2:{ injection E' as _ <-. split; auto. intros j t N R. right. eauto. }
    destruct (skel_nth _ _ _ Su Nu) as (t0 & N0 & V0 & B0).
    assert (str_true v = true) as Tv by (destruct v; [congruence|reflexivity]).
    assert (str_true "" = false) as Te by reflexivity. rewrite Tv, Te in E'. cbn [negb andb] in E'.
    destruct (t_based t) as [b|] eqn:Bt; [|injection E' as _ <-; split; auto; intros j t1 N R; right; eauto].
    destruct (String.eqb_spec b v) as [->|Nb]; [|injection E' as _ <-; split; auto; intros j t1 N R; right; eauto].
    revert E'. apply hits_bind; auto.
    - apply hits_nth. eapply below_child; eauto.
    - eapply hits_weak; [|apply IH]; [rewrite <- V0; eapply below_up; eauto|].
      rewrite <- V0. apply Ne. eapply nth_error_In; eauto.
  Qed.
End Hits.

(** ** The causes, by call *)
Section Causes.
  Variables (e : env) (W : laws e).

  Definition cause_G (o : op) (g : grant) : Prop :=
    match o with
    | ORevokeGrant _ sid => exists u c, dec_sid3 e sid = Ok (u, c, g_id g) /\ belongs e g u c
    | ORevokeClient _ sid => exists u c rest, dec_sid e sid = Ok (u :: c :: rest) /\ belongs e g u c
    | OLogout _ sid false => exists u c g0, dec_sid3 e sid = Ok (u, c, g0) /\ belongs e g u c
    | OLogout _ sid true => exists u c c0 g0, dec_sid3 e sid = Ok (u, c0, g0) /\ belongs e g u c
    | _ => False
    end.
  Definition cause_T (o : op) (ev : event) (s : st) (l i : nat) : Prop :=
    exists g t, hp s l = Some (OGrant g) /\ nth_error (g_tokens g) i = Some t
    /\ match o with
       | ORevokeToken _ sid v rec => sid_of e g sid /\ meant (g_tokens g) v rec t
       | OProcess _ _ _ => exists q r c, ev = EvToken q r /\ presents q (t_value t) REFRESH
           /\ tr_client q = Some c /\ rotates e c
       | OParse _ _ q => e_oidc e = true /\ exists j t0, nth_error (g_tokens g) j = Some t0 /\ t_used t0 <> 0%Z
           /\ t_class t0 = CODE /\ presents q (t_value t0) CODE /\ descends (g_tokens g) (t_value t0) t
       | _ => False
       end.
  Definition cause_U (ev : event) (s : st) (l i : nat) : Prop :=
    exists g t q r, hp s l = Some (OGrant g) /\ nth_error (g_tokens g) i = Some t
    /\ ev = EvToken q r /\ presents q (t_value t) (t_class t).

  Lemma cause_G_ident o g g' : ident g g' -> cause_G o g -> cause_G o g'.
  Proof.
    intros Ig. destruct o; cbn; auto.
    - destruct alla.
      + intros (u & c & c0 & g0 & D & B). exists u, c, c0, g0. split; auto. eapply ident_belongs; eauto.
      + intros (u & c & g0 & D & B). exists u, c, g0. split; auto. eapply ident_belongs; eauto.
    - intros (u & c & D & B). exists u, c. destruct Ig as (I1 & I2). rewrite I1. split; auto. eapply ident_belongs; [|eauto].
      split; auto.
    - intros (u & c & rest & D & B). exists u, c, rest. split; auto. eapply ident_belongs; eauto.
  Qed.

  (** *** Grants *)
  Section Grants.
    Variables (RG : grant -> Prop) (RT RU : nat -> nat -> Prop).
    Hypothesis RGi : forall g g', ident g g' -> RG g -> RG g'.
    Notation kept := (kept RG RT RU).

    Lemma revoke_obj_kept l s r s' : (forall g, hp s l = Some (OGrant g) -> RG g) ->
      upd_obj l revoke_obj s = (r, s') -> forall l' g', hp s' l' = Some (OGrant g') -> kept s l' g'.
    Proof.
      intros H E l' g' X. unfold upd_obj in E. injection E as _ <-.
      destruct (Nat.eq_dec l' l) as [->|N]; [|rewrite hp_upd_other in X by auto; now apply kept_here].
      rewrite hp_upd_same in X. destruct (hp s l) as [o|] eqn:Ho; [|discriminate]. cbn in X.
      destruct o as [i|g|]; cbn in X; try discriminate. injection X as <-. split.
      - intros _. left. eapply RGi; [|apply (H g); reflexivity]. repeat split.
      - cbn. intros i t' N. split; intros R; right; exists g, t'; auto.
    Qed.

    Lemma revoke_grants_kept (now : Z) u c gids : apart u c -> (forall g, belongs e g u c -> RG g) ->
      forall s r s', Inv e s -> (forall x, In x gids -> ~ occurs_in ";;" x) ->
      revoke_grants u c gids s = (r, s') -> forall l g', hp s' l = Some (OGrant g') -> kept s l g'.
    Proof.
      intros Ap Rg. induction gids as [|gid gids IH]; intros s r s' Iv Cl E l g' X; cbn [revoke_grants] in E.
      - apply ret_inv in E as [_ <-]. now apply kept_here.
      - apply bind_inv in E as [(k & s1 & E1 & E)|(x & E1 & _)].
        2:{ rewrite (reader_db_get _ _ _ _ E1) in X. now apply kept_here. }
        pose proof (reader_db_get _ _ _ _ E1). subst s1.
        apply bind_inv in E as [(o & s1 & E2 & E)|(x & E2 & _)].
        2:{ rewrite (reader_deref _ _ _ _ E2) in X. now apply kept_here. }
        pose proof (reader_deref _ _ _ _ E2). subst s1.
        assert (owns e s k u c gid) as (g0 & Hg & Id & Bl).
        { eapply db_get_owns; [exact Iv| |exact E1]. apply Ap, Cl. now left. }
        assert (o = OGrant g0) as ->. { rewrite (deref_some _ _ _ Hg) in E2. congruence. }
        apply bind_inv in E as [([] & s1 & E3 & E)|(x & E3 & _)].
        + eapply kept_trans; [exact RGi| |eapply IH; [|intros; apply Cl; now right|exact E|exact X]].
          * intros l1 g1 H1. eapply revoke_obj_kept; [|exact E3|exact H1]. intros g2 H2. assert (g2 = g0) as -> by congruence. auto.
          * destruct (keeps_revoke_obj e now k _ _ _ Iv Logic.I E3) as (I' & _). exact I'.
        + eapply revoke_obj_kept; [|exact E3|exact X]. intros g2 H2. assert (g2 = g0) as -> by congruence. auto.
    Qed.

    Lemma revoke_client_kept (now : Z) sid : (forall u c rest g, dec_sid e sid = Ok (u :: c :: rest) -> belongs e g u c -> RG g) ->
      (forall u c rest, dec_sid e sid = Ok (u :: c :: rest) -> apart u c) ->
      forall s r s', Inv e s -> revoke_client_session e sid s = (r, s') ->
      forall l g', hp s' l = Some (OGrant g') -> kept s l g'.
    Proof.
      intros Rg Ap s r s' Iv E l g' X. unfold revoke_client_session in E.
      apply bind_inv in E as [(p & s1 & E1 & E)|(x & E1 & _)].
      2:{ apply lift_inv in E1 as [_ <-]. now apply kept_here. }
      apply lift_ok in E1 as [D <-].
      apply bind_inv in E as [([u c] & s1 & E1 & E)|(x & E1 & _)].
      2:{ destruct p as [|? [|? [|? [|? ?]]]]; try (apply raise_inv in E1 as [_ <-]; now apply kept_here); discriminate. }
      assert (s1 = s /\ exists rest, p = u :: c :: rest) as (-> & rest & ->).
      { destruct p as [|? [|? [|? [|? ?]]]]; try discriminate; apply ret_ok in E1 as [Y <-]; injection Y as <- <-; eauto. }
      apply bind_inv in E as [(k & s1 & E2 & E)|(x & E2 & _)].
      2:{ rewrite (reader_db_get _ _ _ _ E2) in X. now apply kept_here. }
      pose proof (reader_db_get _ _ _ _ E2). subst s1.
      apply bind_inv in E as [(o & s1 & E3 & E)|(x & E3 & _)].
      2:{ rewrite (reader_deref _ _ _ _ E3) in X. now apply kept_here. }
      pose proof (reader_deref _ _ _ _ E3). subst s1.
      assert (hp s k = Some o) as Ho.
      { unfold deref in E3. unfold hp. destruct (nth_error (s_heap s) k); [congruence|discriminate]. }
      assert (separable [u; c]) as Sp.
      { pose proof D as D'. apply dec_sid_separable in D' as [_ D']. apply (separable_prefix [u; c] rest). exact D'. }
      destruct o as [i|g|].
      - apply bind_inv in E as [([] & s1 & E4 & E)|(x & E4 & _)]; [|discriminate].
        assert (forall l1 g1, hp s1 l1 = Some (OGrant g1) -> kept s l1 g1) as K1.
        { intros l1 g1 H1. eapply revoke_obj_kept; [|exact E4|exact H1]. intros g2 H2. congruence. }
        assert (Inv e s1) as I1. { destruct (keeps_revoke_obj e now k _ _ _ Iv Logic.I E4) as (I' & _). exact I'. }
        assert (hp s1 k = Some (OInfo (si_revoke i))) as Hk1.
        { unfold upd_obj in E4. injection E4 as <-. rewrite hp_upd_same, Ho. reflexivity. }
        eapply kept_trans; [exact RGi|exact K1|]. clear K1.
        apply bind_inv in E as [([] & s2 & E5 & E)|(x & E5 & _)]; [|eapply ca_db_set; eauto].
        assert (Inv e s2) as I2.
        { destruct (keeps_set2 e now W u c k Sp _ _ _ I1 (ex_intro _ _ Hk1) E5) as (I' & _). exact I'. }
        eapply kept_trans; [exact RGi|intros l1 g1 H1; eapply ca_db_set; eauto|].
        apply bind_inv in E as [(gids & s3 & E6 & E)|(x & E6 & _)].
        2:{ rewrite (reader_subordinate _ _ _ _ E6) in X. now apply kept_here. }
        apply subordinate_ok in E6 as (-> & i2 & Hi2 & ->).
        eapply (revoke_grants_kept now); [eapply Ap; eauto| |exact I2| |exact E|exact X].
        + intros g. eapply Rg; eauto.
        + intros y Iy. apply (inv_sub _ _ I2 _ _ _ Hi2 Iy).
      - exfalso. destruct (db_get2_info e _ _ _ _ _ Iv Sp E2) as (i & Hi). congruence.
      - apply raise_inv in E as [_ <-]. now apply kept_here.
    Qed.
    Lemma revoke_grant_kept (now : Z) sid :
      (forall u c g, dec_sid3 e sid = Ok (u, c, g_id g) -> belongs e g u c -> RG g) ->
      (forall p, dec_sid e sid = Ok p -> List.length p = 2 \/ List.length p = 3) ->
      forall s r s', Inv e s -> revoke_grant e sid s = (r, s') ->
      forall l g', hp s' l = Some (OGrant g') -> kept s l g'.
    Proof.
      intros Rg Lp s r s' Iv E l g' X. unfold revoke_grant in E.
      apply bind_inv in E as [(p & s1 & E1 & E)|(x & E1 & _)].
      2:{ apply lift_inv in E1 as [_ <-]. now apply kept_here. }
      apply lift_ok in E1 as [D <-].
      apply bind_inv in E as [(k & s1 & E2 & E)|(x & E2 & _)].
      2:{ rewrite (reader_db_get _ _ _ _ E2) in X. now apply kept_here. }
      pose proof (reader_db_get _ _ _ _ E2). subst s1.
      apply bind_inv in E as [(o & s1 & E3 & E)|(x & E3 & _)].
      2:{ rewrite (reader_deref _ _ _ _ E3) in X. now apply kept_here. }
      pose proof (reader_deref _ _ _ _ E3). subst s1.
      assert (forall g, hp s k = Some (OGrant g) -> RG g) as Hk.
      { intros g Hg. pose proof (dec_sid_separable _ _ _ D) as [_ Sp].
        destruct (Lp _ D) as [L2|L3].
        - destruct p as [|u [|c [|]]]; try discriminate L2. destruct (db_get2_info e _ _ _ _ _ Iv Sp E2) as (i & Hi). congruence.
        - destruct p as [|u [|c [|gid [|]]]]; try discriminate L3.
          destruct (db_get_owns _ _ _ _ _ _ _ Iv Sp E2) as (g0 & Hg0 & Id & Bl). assert (g0 = g) as -> by congruence.
          apply (Rg u c); auto. unfold dec_sid3. rewrite D. cbn [rbind]. now rewrite Id. }
      assert (forall r s', (upd_obj k revoke_obj ;; db_set p k) s = (r, s') -> forall l g', hp s' l = Some (OGrant g') -> kept s l g') as K.
      { intros r1 s1 E1 l1 g1 H1. apply bind_inv in E1 as [([] & s2 & E4 & E1)|(x & E4 & _)].
        - eapply kept_trans; [exact RGi| |eapply ca_db_set; eauto]. intros l2 g2 H2. eapply revoke_obj_kept; eauto.
        - eapply revoke_obj_kept; eauto. }
      destruct o; [eapply K; eauto|eapply K; eauto|]. apply raise_inv in E as [_ <-]. now apply kept_here.
    Qed.

    Lemma clean_kept (now : Z) sids :
      (forall sid, In sid sids -> exists u c g0, dec_sid3 e sid = Ok (u, c, g0) /\ forall g, belongs e g u c -> RG g) ->
      forall s r s', Inv e s -> clean_sessions e sids s = (r, s') ->
      forall l g', hp s' l = Some (OGrant g') -> kept s l g'.
    Proof.
      induction sids as [|sid sids IH]; intros Hs s r s' Iv E l g' X; cbn [clean_sessions] in E.
      - apply ret_inv in E as [_ <-]. now apply kept_here.
      - destruct (Hs sid (or_introl eq_refl)) as (u & c & g0 & D & Rg).
        assert (forall u1 c1 rest, dec_sid e sid = Ok (u1 :: c1 :: rest) -> u1 = u /\ c1 = c) as Du.
        { intros u1 c1 rest D1. apply dec_sid3_ok in D. rewrite D in D1. injection D1 as <- <- _. auto. }
        assert (forall r1 s1, revoke_client_session e sid s = (r1, s1) -> forall l g', hp s1 l = Some (OGrant g') -> kept s l g') as K.
        { intros r1 s1 E1 l1 g1 H1. eapply (revoke_client_kept now); [| |exact Iv|exact E1|exact H1].
          - intros u1 c1 rest g D1. destruct (Du _ _ _ D1) as [-> ->]. apply Rg.
          - intros u1 c1 rest D1. destruct (Du _ _ _ D1) as [-> ->]. eapply apart_3; eauto. }
        apply bind_inv in E as [([] & s1 & E1 & E)|(x & E1 & _)]; [|eapply K; eauto].
        destruct (keeps_revoke_client e now W sid _ _ _ Iv Logic.I E1) as (I1 & _).
        eapply kept_trans; [exact RGi|eapply K; eauto|]. eapply IH; eauto. intros y Iy. apply Hs. now right.
    Qed.

    Lemma quiet_kept s s1 : quiet s s1 -> forall l g, hp s1 l = Some (OGrant g) -> kept s l g.
    Proof. intros (Q & _) l g H. apply kept_here. unfold hp in *. now rewrite <- Q. Qed.

    Lemma logout_one_kept (now : Z) sid :
      (forall u c g0 g, dec_sid3 e sid = Ok (u, c, g0) -> belongs e g u c -> RG g) ->
      forall s r s', Inv e s -> logout_from_client e now sid s = (r, s') ->
      forall l g', hp s' l = Some (OGrant g') -> kept s l g'.
    Proof.
      intros Rg s r s' Iv E l g' X. unfold logout_from_client in E.
      apply bind_inv in E as [(i & s1 & E1 & E)|(x & E1 & _)].
      2:{ rewrite (reader_get_session_info _ _ _ _ _ E1) in X. now apply kept_here. }
      pose proof (reader_get_session_info _ _ _ _ _ E1). subst s1.
      assert (exists u c g0, dec_sid3 e sid = Ok (u, c, g0)) as (u & c & g0 & D).
      { unfold get_session_info in E1. apply bind_ok in E1 as ([[u c] g0] & s1 & E1 & _). apply lift_ok in E1 as [E1 _]. eauto. }
      apply bind_inv in E as [(ci & s1 & E2 & E)|(x & E2 & _)].
      2:{ destruct (dget (e_clients e) (ss_client i)); [discriminate|]. apply raise_inv in E2 as [_ <-]. now apply kept_here. }
      assert (s1 = s) as ->. { destruct (dget (e_clients e) (ss_client i)); [|discriminate]. now apply ret_ok in E2 as [_ <-]. }
      match type of E with bind ?m _ _ = _ => assert (quietm m) as Qm end.
      { destruct (c_bc_logout ci); [|destruct (c_fc_logout ci); apply reader_quiet, reader_ret].
        apply quiet_bind; [apply quiet_back|]. intros; apply reader_quiet, reader_ret. }
      apply bind_inv in E as [(m & s1 & E3 & E)|(x & E3 & _)]; [|eapply quiet_kept; eauto].
      pose proof (Qm _ _ _ E3) as Q. eapply kept_trans; [exact RGi|eapply quiet_kept; eauto|].
      assert (Inv e s1) as I1 by (eapply quiet_inv; eauto).
      assert (forall r s', clean_sessions e [sid] s1 = (r, s') -> forall l g', hp s' l = Some (OGrant g') -> kept s1 l g') as K.
      { intros r1 s2 E4 l1 g1 H1. eapply (clean_kept now); [|exact I1|exact E4|exact H1].
        intros y [<-|[]]. exists u, c, g0. split; auto. intros g. eapply Rg; eauto. }
      apply bind_inv in E as [([] & s2 & E4 & E)|(x & E4 & _)]; [|eapply K; eauto].
      apply ret_inv in E as [_ <-]. eapply K; eauto.
    Qed.

    Lemma logout_all_kept (now : Z) sid : (forall c ci, dget (e_clients e) c = Some ci -> good_id c) ->
      (forall u c c0 g0 g, dec_sid3 e sid = Ok (u, c0, g0) -> belongs e g u c -> RG g) ->
      forall s r s', Inv e s -> logout_all_clients e now sid s = (r, s') ->
      forall l g', hp s' l = Some (OGrant g') -> kept s l g'.
    Proof.
      intros Gc Rg s r s' Iv E l g' X. unfold logout_all_clients in E.
      apply bind_inv in E as [([[u c0] g0] & s1 & E1 & E)|(x & E1 & _)].
      2:{ apply lift_inv in E1 as [_ <-]. now apply kept_here. }
      apply lift_ok in E1 as [D <-].
      do 3 (apply bind_inv in E as [(? & s1 & E1 & E)|(? & E1 & _)];
        [pose proof (reader_db_get _ _ _ _ E1); subst s1; clear E1
        |rewrite (reader_db_get _ _ _ _ E1) in X; now apply kept_here]).
      apply bind_inv in E as [(cids & s1 & E1 & E)|(? & E1 & _)].
      2:{ rewrite (reader_subordinate _ _ _ _ E1) in X. now apply kept_here. }
      apply subordinate_ok in E1 as (-> & i & Hi & ->).
      apply bind_inv in E as [(rs & s1 & E1 & E)|(? & E1 & _)]; [|eapply quiet_kept; [eapply quiet_collect; eauto|eauto]].
      pose proof (quiet_collect _ _ _ _ _ _ _ E1) as Q. eapply kept_trans; [exact RGi|eapply quiet_kept; eauto|].
      assert (Inv e s1) as I1 by (eapply quiet_inv; eauto).
      destruct (collect_ok e Gc now u c0 g0 sid _ D _ _ _ Iv E1) as (F & _).
      assert (forall y, In y (fst rs) -> exists u c g0, dec_sid3 e y = Ok (u, c, g0) /\ forall g, belongs e g u c -> RG g) as Hs.
      { clear E. intros y Iy. induction F as [|a m xs ms T F IH]; [destruct Iy|]. destruct Iy as [<-|Iy]; [|now apply IH].
        destruct T as (c & gid & ci & _ & D1 & _). exists u, c, gid. split; auto. intros g. eapply Rg; eauto. }
      assert (forall r s', clean_sessions e (fst rs) s1 = (r, s') -> forall l g', hp s' l = Some (OGrant g') -> kept s1 l g') as K.
      { intros r1 s2 E4 l1 g1 H1. eapply (clean_kept now); [exact Hs|exact I1|exact E4|exact H1]. }
      apply bind_inv in E as [([] & s2 & E4 & E)|(? & E4 & _)]; [|eapply K; eauto].
      apply ret_inv in E as [_ <-]. eapply K; eauto.
    Qed.

    (** *** Tokens *)
    Lemma on_tokens_kept l0 m s r s' (P : nat -> Prop) g0 : hp s l0 = Some (OGrant g0) -> hits (g_tokens g0) P m ->
      (forall i, P i -> RT l0 i) -> on_tokens l0 m s = (r, s') ->
      forall l g', hp s' l = Some (OGrant g') -> kept s l g'.
    Proof.
      intros H0 Hm Pi E l g' X. unfold on_tokens in E.
      apply bind_inv in E as [(g & s1 & E1 & E)|(x & E1 & _)].
      2:{ rewrite (reader_grant_at _ _ _ _ E1) in X. now apply kept_here. }
      apply grant_at_ok in E1 as [-> Hl]. assert (g = g0) as -> by congruence.
      destruct (m (g_tokens g0)) as [r0 ts] eqn:Em. destruct (Hm _ _ _ eq_refl Em) as [Sk Hr].
      apply bind_inv in E as [([] & s2 & E2 & E)|(x & E2 & _)]; [|discriminate].
      apply lift_inv in E as [_ <-]. unfold upd_obj in E2. injection E2 as <-.
      destruct (Nat.eq_dec l l0) as [->|N]; [|rewrite hp_upd_other in X by auto; now apply kept_here].
      rewrite hp_upd_same, H0 in X. cbn in X. injection X as <-. split; cbn.
      - intros R. right. exists g0. split; auto. split; auto. repeat split.
      - intros i t' N. split; intros R.
        + destruct (Hr i t' N R) as [Y|(t & Nt & Rt)]; auto. right. exists g0, t. auto.
        + right. apply (f_equal (fun l => nth_error l i)) in Sk. unfold skel in Sk. rewrite !nth_error_map, N in Sk.
          destruct (nth_error (g_tokens g0) i) as [t|] eqn:Et; [|discriminate]. cbn [option_map] in Sk.
          assert (tok_set_revoked t = tok_set_revoked t') as S' by congruence.
          apply skel_eq_sbr in S' as (_ & _ & _ & _ & _ & _ & _ & U & _). exists g0, t. split; auto. split; auto. congruence.
    Qed.

    Lemma mgr_revoke_token_kept (now : Z) sid v rec s r s' : Inv e s ->
      (forall l g i t, hp s l = Some (OGrant g) -> nth_error (g_tokens g) i = Some t -> sid_of e g sid ->
         meant (g_tokens g) v rec t -> RT l i) ->
      mgr_revoke_token e sid v rec s = (r, s') -> forall l g', hp s' l = Some (OGrant g') -> kept s l g'.
    Proof.
      intros Iv Rt E l g' X. unfold mgr_revoke_token in E.
      apply bind_inv in E as [([[u c] gid] & s1 & E1 & E)|(x & E1 & _)].
      2:{ apply lift_inv in E1 as [_ <-]. now apply kept_here. }
      apply lift_ok in E1 as [D <-].
      apply bind_inv in E as [(k & s1 & E2 & E)|(x & E2 & _)].
      2:{ rewrite (reader_db_get _ _ _ _ E2) in X. now apply kept_here. }
      pose proof (reader_db_get _ _ _ _ E2). subst s1.
      apply bind_inv in E as [(g & s1 & E3 & E)|(x & E3 & _)].
      2:{ rewrite (reader_grant_at _ _ _ _ E3) in X. now apply kept_here. }
      apply grant_at_ok in E3 as [-> Hk].
      destruct (db_get_owns _ _ _ _ _ _ _ Iv (dec_sid3_separable _ _ _ _ _ D) E2) as (g0 & Hg0 & Id & Bl).
      assert (g0 = g) as -> by congruence. clear Hg0.
      assert (sid_of e g sid) as Sg by (exists u, c; rewrite Id; auto).
      destruct (find_pos v (g_tokens g) 0) as [i|] eqn:Fp; [|apply raise_inv in E as [_ <-]; now apply kept_here].
      destruct (find_pos_ok _ _ _ Fp) as (t & Nt & Vt).
      assert (RT k i) as Ri by (eapply Rt; eauto; left; auto).
      apply bind_inv in E as [([] & s1 & E4 & E)|(x & E4 & _)]; [|eapply ca_set_revoked; eauto].
      eapply kept_trans; [exact RGi|intros l1 g1 H1; eapply ca_set_revoked; eauto|].
      destruct rec; [|apply ret_inv in E as [_ <-]; now apply kept_here].
      apply bind_inv in E as [(k' & s2 & E5 & E)|(x & E5 & _)].
      2:{ rewrite (reader_mgr_get _ _ _ _ _ E5) in X. now apply kept_here. }
      pose proof (reader_mgr_get _ _ _ _ _ E5). subst s2.
      set (g1 := g_set_tokens (upd_nth i tok_set_revoked (g_tokens g)) g).
      assert (s1 = mk_st (upd_nth k (on_grant (fun g => g_set_tokens (upd_nth i tok_set_revoked (g_tokens g)) g)) (s_heap s)) (s_db s) (s_ctr s) (s_always s)) as Es1.
      { unfold upd_tok, upd_obj in E4. injection E4 as <-. reflexivity. }
      assert (hp s1 k = Some (OGrant g1)) as H1. { rewrite Es1, hp_upd_same, Hk. reflexivity. }
      assert (Inv e s1) as I1.
      { destruct (keeps_mgr_revoke_token e now sid v false s (Ok tt) s1 Iv Logic.I) as (I' & _); [|exact I'].
        unfold mgr_revoke_token. unfold bind at 1. unfold lift at 1. rewrite D.
        unfold bind at 1. rewrite E2. unfold bind at 1. unfold grant_at, bind at 1. rewrite (deref_some _ _ _ Hk).
        unfold ret at 1. rewrite Fp. unfold bind at 1. rewrite E4. reflexivity. }
      assert (k' = k) as ->.
      { unfold mgr_get in E5. apply bind_ok in E5 as (p & s2 & E6 & E5). apply lift_ok in E6 as [D6 <-].
        apply dec_sid3_ok in D. rewrite D in D6. injection D6 as <-.
        destruct (db_get_owns _ _ _ _ _ _ _ I1 (proj2 (dec_sid_separable _ _ _ D)) E5) as (g2 & Hg2 & Id2 & _).
        eapply (inv_uniq _ _ I1 _ _ _ _ Hg2 H1). cbn. congruence. }
      eapply (on_tokens_kept _ _ _ _ _ _ _ H1 (hits_dependent _ _ _)); [|exact E|exact X].
      intros j (t1 & N1 & D1). cbn [g1 g_tokens g_set_tokens] in N1, D1.
      assert (skel (upd_nth i tok_set_revoked (g_tokens g)) = skel (g_tokens g)) as Sk by apply skel_upd.
      destruct (skel_nth _ _ _ _ Sk N1) as (t2 & N2 & V2 & B2).
      eapply Rt; [exact Hk|exact N2|exact Sg|]. right. split; auto.
      assert (forall x, descends (upd_nth i tok_set_revoked (g_tokens g)) v x -> forall y j, nth_error (upd_nth i tok_set_revoked (g_tokens g)) j = Some x -> nth_error (g_tokens g) j = Some y -> descends (g_tokens g) v y) as Tr.
      { intros x Dx. induction Dx as [x Ix Bx|x z Dx IH Iz Bz]; intros y j' Nx Ny.
        - apply desc_child; [eapply nth_error_In; eauto|]. destruct (skel_nth _ _ _ _ Sk Nx) as (y' & Ny' & _ & By).
          assert (y' = y) as -> by congruence. congruence.
        - assert (In x (upd_nth i tok_set_revoked (g_tokens g))) as Ix by (destruct Dx; auto).
          apply In_nth_error in Ix as [jx Njx]. destruct (skel_nth _ _ _ _ Sk Njx) as (x0 & Nx0 & Vx0 & Bx0).
          destruct (skel_nth _ _ _ _ Sk Nx) as (y' & Ny' & _ & By). assert (y' = y) as -> by congruence.
          eapply desc_trans; [eapply IH; eauto|eapply nth_error_In; eauto|congruence]. }
      eapply Tr; eauto.
    Qed.

    Lemma inv_values s l g t : Inv e s -> hp s l = Some (OGrant g) -> In t (g_tokens g) -> t_value t <> EmptyString.
    Proof. intros Iv H It. destruct (inv_made _ _ Iv _ _ _ H It) as (n & Mn & _). apply (law_text _ W _ _ Mn). Qed.

    Lemma code_parse_kept (now : Z) q s r s' : Inv e s -> tr_grant_type q = CODE ->
      (forall l g i t j t0, hp s l = Some (OGrant g) -> nth_error (g_tokens g) i = Some t -> e_oidc e = true ->
         nth_error (g_tokens g) j = Some t0 -> t_used t0 <> 0%Z -> t_class t0 = CODE -> presents q (t_value t0) CODE ->
         descends (g_tokens g) (t_value t0) t -> RT l i) ->
      code_parse e now q s = (r, s') -> forall l g', hp s' l = Some (OGrant g') -> kept s l g'.
    Proof.
      intros Iv Gt Rt E l g' X.
      destruct (found_dec e now q s) as [(v & i & s1 & Ev & El)|Nf].
      2:{ destruct (code_parse_not_found e now q s Nf _ _ E) as (Q & _). eapply quiet_kept; eauto. }
      rewrite (code_parse_found e now q v s i s1 Ev El) in E.
      pose proof (quiet_by_token _ _ _ _ _ _ El) as Q. pose proof (quiet_inv e _ _ Q Iv) as I1.
      eapply kept_trans; [exact RGi|eapply quiet_kept; eauto|].
      apply bind_inv in E as [(g & s2 & E1 & E)|(x & E1 & _)].
      2:{ rewrite (reader_grant_at _ _ _ _ E1) in X. now apply kept_here. }
      apply grant_at_ok in E1 as [-> Hg].
      destruct (get_token g v) as [t|] eqn:Gv; [|apply ret_inv in E as [_ <-]; now apply kept_here].
      apply get_token_In in Gv as [It Vt].
      destruct (String.eqb_spec (t_class t) CODE) as [Ct|_]; cbn [negb] in E; [|apply ret_inv in E as [_ <-]; now apply kept_here].
      destruct (e_oidc e && negb (Z.eqb (t_used t) 0)) eqn:Oi.
      - apply andb_true_iff in Oi as [Oi Us]. apply negb_true_iff, Z.eqb_neq in Us.
        assert (forall r s', on_tokens (ss_grant i) (revoke_token (e_limit e) "" v true) s1 = (r, s') ->
          forall l g', hp s' l = Some (OGrant g') -> kept s1 l g') as K.
        { intros r1 s2 E1 l1 g1 H1. eapply (on_tokens_kept _ _ _ _ _ (below (g_tokens g) v) _ Hg); [| |exact E1|exact H1].
          - apply hits_revoke_token.
            + intros t1 It1. eapply inv_values; eauto.
            + rewrite <- Vt. eapply inv_values; eauto.
          - intros j (t1 & N1 & D1). apply In_nth_error in It as [j0 N0]. destruct Q as (Q & _).
            eapply (Rt _ g j t1 j0 t); eauto; [unfold hp in *; now rewrite <- Q| |rewrite Vt; auto].
            left. rewrite Vt. split; [reflexivity|]. split; [exact Gt|auto]. }
        apply bind_inv in E as [([] & s2 & E1 & E)|(x & E1 & _)]; [|eapply K; eauto].
        apply ret_inv in E as [_ <-]. eapply K; eauto.
      - assert (s' = s1) as ->; [|now apply kept_here].
        destruct (negb (tok_active now t)); [now apply ret_inv in E as [_ <-]|].
        destruct (tr_client q); [now apply ret_inv in E as [_ <-]|].
        destruct (g_areq g); [now apply ret_inv in E as [_ <-]|now apply raise_inv in E as [_ <-]].
    Qed.

    Lemma parse_all_kept (now : Z) cid q s r s' : Inv e s ->
      (forall l g i t j t0, hp s l = Some (OGrant g) -> nth_error (g_tokens g) i = Some t -> e_oidc e = true ->
         nth_error (g_tokens g) j = Some t0 -> t_used t0 <> 0%Z -> t_class t0 = CODE -> presents q (t_value t0) CODE ->
         descends (g_tokens g) (t_value t0) t -> RT l i) ->
      token_parse_all e now cid q s = (r, s') -> forall l g', hp s' l = Some (OGrant g') -> kept s l g'.
    Proof.
      intros Iv Rt E l g' X. unfold token_parse_all in E.
      assert (forall r s', token_parse e now cid q s = (r, s') -> forall l g', hp s' l = Some (OGrant g') -> kept s l g') as K.
      { intros r1 s1 E1 l1 g1 H1. unfold token_parse in E1.
        destruct (dget (e_clients e) cid) as [ci|]; [|apply raise_inv in E1 as [_ <-]; now apply kept_here].
        destruct (match c_grant_types ci with Some _ => _ | None => _ end); [apply ret_inv in E1 as [_ <-]; now apply kept_here|].
        destruct (negb (smem (tr_grant_type q) (e_helpers e))); [apply ret_inv in E1 as [_ <-]; now apply kept_here|].
        destruct (String.eqb_spec (tr_grant_type q) CODE) as [Gt|_]; [eapply code_parse_kept; eauto|].
        destruct (String.eqb (tr_grant_type q) REFRESH); [|apply ret_inv in E1 as [_ <-]; now apply kept_here].
        assert (calm RG RT RU (refresh_parse e now q)) as C by (unfold refresh_parse; ca). eapply C; eauto. }
      apply bind_inv in E as [(o & s1 & E1 & E)|(x & E1 & _)]; [|eapply K; eauto].
      eapply kept_trans; [exact RGi|eapply K; eauto|].
      match type of E with ?m _ = _ => assert (calm RG RT RU m) as C by (unfold pkce_check; ca) end. eapply C; eauto.
    Qed.

    (** *** Uses *)
    Lemma pending_class s l0 i0 t0 l g i t : Inv e s -> has l0 i0 t0 s -> hp s l = Some (OGrant g) ->
      nth_error (g_tokens g) i = Some t -> t_value t = t_value t0 -> t_class t = t_class t0.
    Proof.
      intros Iv (g1 & t1 & H1 & N1 & L1) H N V. destruct L1 as (C1 & V1 & _).
      destruct (inv_vals _ _ Iv _ _ _ _ _ _ _ _ H H1 N N1) as [-> ->]; [congruence|]. rewrite H in H1. injection H1 as <-.
      rewrite N in N1. injection N1 as <-. exact C1.
    Qed.
    Lemma ca_some_bind {A B} (a : A) (f : A -> M st B) : calm RG RT RU (f a) -> calm RG RT RU (bind (need (Some a)) f).
    Proof. intros H s r s' E. apply (H s r s'). exact E. Qed.
    Lemma ca_none_bind {A B} (f : A -> M st B) : calm RG RT RU (bind (need None) f).
    Proof. intros s r s' E l g' X. unfold bind, need, raise in E. injection E as _ <-. now apply kept_here. Qed.

    Lemma code_process_kept (now : Z) q issue s r s' : Inv e s -> pending e q s ->
      (forall l g i t, hp s l = Some (OGrant g) -> nth_error (g_tokens g) i = Some t -> presents q (t_value t) (t_class t) -> RU l i) ->
      code_process e now q issue s = (r, s') -> forall l g', hp s' l = Some (OGrant g') -> kept s l g'.
    Proof.
      intros Iv Pq Ru E l g' X. unfold code_process in E.
      destruct (String.eqb_spec (tr_grant_type q) CODE) as [Gt|_]; cbn [negb] in E; [|apply ret_inv in E as [_ <-]; now apply kept_here].
      destruct (proj1 Pq Gt) as (v & l0 & i0 & t0 & Ev & Ht0 & Vt0 & Ct0).
      destruct (has_made e _ _ _ _ Iv Ht0) as (n & Mn). rewrite Ev in E.
      rewrite replace_char_id in E by (rewrite <- Vt0; apply (law_text _ W _ _ Mn)). cbv zeta in E.
      apply bind_inv in E as [(i & s1 & El & E)|(x & El & _)]; [|eapply quiet_kept; [eapply quiet_by_token|]; eauto].
      pose proof (quiet_by_token _ _ _ _ _ _ El) as Q.
      eapply kept_trans; [exact RGi|eapply quiet_kept; eauto|].
      apply bind_inv in E as [(rc & s2 & E1 & E)|(x & E1 & _)].
      2:{ destruct (tr_client q); [discriminate|]. apply raise_inv in E1 as [_ <-]. now apply kept_here. }
      assert (s2 = s1) as ->. { destruct (tr_client q); [|discriminate]. now apply ret_ok in E1 as [_ <-]. }
      destruct (negb (String.eqb (ss_client i) rc)); [apply ret_inv in E as [_ <-]; now apply kept_here|].
      apply bind_inv in E as [(gts & s2 & E2 & E)|(x & E2 & _)]; apply lift_inv in E2 as [_ <-]; [|now apply kept_here].
      apply bind_inv in E as [(g & s2 & E3 & E)|(x & E3 & _)].
      2:{ rewrite (reader_grant_at _ _ _ _ E3) in X. now apply kept_here. }
      apply grant_at_ok in E3 as [-> Hg].
      assert (forall pos, find_pos v (g_tokens g) 0 = Some pos -> RU (ss_grant i) pos) as Rp.
      { intros pos Fp. destruct (find_pos_ok _ _ _ Fp) as (t & Nt & Vt). destruct Q as (Q & _).
        assert (hp s (ss_grant i) = Some (OGrant g)) as Hs by (unfold hp in *; now rewrite <- Q).
        apply (Ru _ g pos t); auto. rewrite (pending_class _ _ _ _ _ _ _ _ Iv Ht0 Hs Nt) by congruence. rewrite Ct0. left. rewrite Vt. auto. }
      match type of E with ?m _ = _ => assert (calm RG RT RU m) as C end; [|eapply C; eauto].
      destruct (find_pos v (g_tokens g) 0) as [pos|]; [specialize (Rp pos eq_refl)|clear Rp]; unfold except_minting, except_jwe.
      - assert (calm RG RT RU (upd_tok (ss_grant i) pos tok_register)) as Cr by (apply ca_register; auto).
        apply ca_bind; [exact RGi|ca; apply ca_set_extra|]. intros _.
        apply ca_some_bind. ca.
        all: try solve [apply ca_set_extra | apply ca_mint_value; auto | apply ca_mgr_put; auto].
      - apply ca_bind; [exact RGi| |].
        + ca. apply ca_set_extra.
        + intros _. apply ca_none_bind.
    Qed.

    Lemma refresh_process_kept (now : Z) q issue s r s' : Inv e s -> pending e q s ->
      (forall l g i t, hp s l = Some (OGrant g) -> nth_error (g_tokens g) i = Some t -> presents q (t_value t) (t_class t) -> RU l i) ->
      (forall l g i t c, hp s l = Some (OGrant g) -> nth_error (g_tokens g) i = Some t -> presents q (t_value t) REFRESH ->
         tr_client q = Some c -> revoke_refresh e c = true -> RT l i) ->
      refresh_process e now q issue s = (r, s') -> forall l g', hp s' l = Some (OGrant g') -> kept s l g'.
    Proof.
      intros Iv Pq Ru Rr E l g' X. unfold refresh_process in E.
      destruct (String.eqb_spec (tr_grant_type q) REFRESH) as [Gt|_]; cbn [negb] in E; [|apply ret_inv in E as [_ <-]; now apply kept_here].
      apply bind_inv in E as [(v & s1 & E1 & E)|(x & E1 & _)].
      2:{ destruct (tr_refresh q); [discriminate|]. apply raise_inv in E1 as [_ <-]. now apply kept_here. }
      assert (s1 = s /\ tr_refresh q = Some v) as [-> Ev].
      { destruct (tr_refresh q); [|discriminate]. apply ret_ok in E1 as [<- <-]. auto. }
      apply bind_inv in E as [(i & s1 & El & E)|(x & El & _)]; [|eapply quiet_kept; [eapply quiet_by_token|]; eauto].
      pose proof (quiet_by_token _ _ _ _ _ _ El) as Q.
      eapply kept_trans; [exact RGi|eapply quiet_kept; eauto|].
      apply bind_inv in E as [(rc & s2 & E2 & E)|(x & E2 & _)].
      2:{ destruct (tr_client q); [discriminate|]. apply raise_inv in E2 as [_ <-]. now apply kept_here. }
      assert (s2 = s1 /\ tr_client q = Some rc) as [-> Ec].
      { destruct (tr_client q); [|discriminate]. apply ret_ok in E2 as [<- <-]. auto. }
      destruct (negb (String.eqb (ss_client i) rc)); [apply ret_inv in E as [_ <-]; now apply kept_here|].
      cbv zeta in E. apply bind_inv in E as [(g & s2 & E3 & E)|(x & E3 & _)].
      2:{ rewrite (reader_grant_at _ _ _ _ E3) in X. now apply kept_here. }
      apply grant_at_ok in E3 as [-> Hg].
      assert (forall pos, find_pos v (g_tokens g) 0 = Some pos -> RU (ss_grant i) pos
        /\ (revoke_refresh e rc = true -> RT (ss_grant i) pos)) as Rp.
      { intros pos Fp. destruct (find_pos_ok _ _ _ Fp) as (t & Nt & Vt). destruct Q as (Q & _).
        assert (hp s (ss_grant i) = Some (OGrant g)) as Hs by (unfold hp in *; now rewrite <- Q).
        assert (presents q (t_value t) REFRESH) as Pr by (right; rewrite Vt; auto).
        split; [apply (Ru _ g pos t); auto|].
        { destruct (proj2 Pq Gt) as (v0 & l0 & i0 & t0 & Ev0 & Ht0 & Vt0 & Ct0 & _).
          rewrite (pending_class _ _ _ _ _ _ _ _ Iv Ht0 Hs Nt) by congruence. rewrite Ct0. exact Pr. } intros Rv. apply (Rr _ g pos t rc); auto. }
      match type of E with ?m _ = _ => assert (calm RG RT RU m) as C end; [|eapply C; eauto].
      destruct (find_pos v (g_tokens g) 0) as [pos|]; [destruct (Rp pos eq_refl) as [Rp1 Rp2]|clear Rp]; unfold except_jwe.
      - apply ca_bind; [exact RGi|ca; apply ca_set_extra|]. intros _. apply ca_some_bind.
        destruct (revoke_refresh e rc).
        + assert (calm RG RT RU (upd_tok (ss_grant i) pos tok_register)) as Cr by (apply ca_register; auto).
          assert (calm RG RT RU (upd_tok (ss_grant i) pos tok_set_revoked)) as Cv by (apply ca_set_revoked; auto).
          ca; try solve [apply ca_mint_value; auto | apply ca_rotated; auto].
        + assert (calm RG RT RU (upd_tok (ss_grant i) pos tok_register)) as Cr by (apply ca_register; auto).
          ca; try solve [apply ca_mint_value; auto | apply ca_rotated; auto].
      - apply ca_bind; [exact RGi|ca; apply ca_set_extra|]. intros _. apply ca_none_bind.
    Qed.

    Lemma process_kept (now : Z) q issue s r s' : Inv e s -> pending e q s ->
      (forall l g i t, hp s l = Some (OGrant g) -> nth_error (g_tokens g) i = Some t -> presents q (t_value t) (t_class t) -> RU l i) ->
      (forall l g i t c, hp s l = Some (OGrant g) -> nth_error (g_tokens g) i = Some t -> presents q (t_value t) REFRESH ->
         tr_client q = Some c -> revoke_refresh e c = true -> RT l i) ->
      token_process e now q issue s = (r, s') -> forall l g', hp s' l = Some (OGrant g') -> kept s l g'.
    Proof.
      intros Iv Pq Ru Rr E l g' X. unfold token_process in E.
      match type of E with bind ?m _ _ = _ => assert (forall r s', m s = (r, s') -> forall l g', hp s' l = Some (OGrant g') -> kept s l g') as K end.
      { intros r1 s1 E1 l1 g1 H1.
        destruct (negb (smem (tr_grant_type q) (e_helpers e))); [apply ret_inv in E1 as [_ <-]; now apply kept_here|].
        assert (forall r s', (if String.eqb (tr_grant_type q) CODE then code_process e now q issue
                    else if String.eqb (tr_grant_type q) REFRESH then refresh_process e now q issue
                         else ret (Err "unmodelled helper")) s = (r, s') -> forall l g', hp s' l = Some (OGrant g') -> kept s l g') as K0.
        { intros r2 s2 E2 l2 g2 H2. destruct (String.eqb (tr_grant_type q) CODE); [eapply code_process_kept; eauto|].
          destruct (String.eqb (tr_grant_type q) REFRESH); [eapply refresh_process_kept; eauto|].
          apply ret_inv in E2 as [_ <-]. now apply kept_here. }
        apply catch_inv in E1 as [(a & E1 & ->)|[(x & s2 & k & E1 & E2 & E3)|(x & E1 & _ & ->)]]; [eapply K0; eauto| |eapply K0; eauto].
        eapply kept_trans; [exact RGi|eapply K0; eauto|]. destruct x; try discriminate. injection E2 as <-.
        apply ret_inv in E3 as [_ <-]. now apply kept_here. }
      apply bind_inv in E as [(o & s1 & E1 & E)|(x & E1 & _)]; [|eapply K; eauto].
      eapply kept_trans; [exact RGi|eapply K; eauto|].
      match type of E with ?m _ = _ => assert (calm RG RT RU m) as C by ca end. eapply C; eauto.
    Qed.
  End Grants.

  (** *** Calls and histories *)
  Hypothesis Gc : forall c ci, dget (e_clients e) c = Some ci -> good_id c.

  (** Revocations of grants and of clients' sessions name sessions. *)
  Definition sound_path (p : list string) : Prop :=
    exists u c, good_id c /\ (p = [u; c] \/ exists g, p = [u; c; g]).
  Definition sound_op (o : op) : Prop :=
    match o with
    | ORevokeGrant _ sid | ORevokeClient _ sid => forall p, dec_sid e sid = Ok p -> sound_path p
    | _ => True
    end.

  Lemma revoke_refresh_rotates c : revoke_refresh e c = true -> rotates e c.
  Proof.
    unfold revoke_refresh, rotates. destruct (dget (e_clients e) c) as [ci|]; auto.
    destruct (c_revoke_refresh ci) as [[]|]; auto; discriminate.
  Qed.

  Lemma step_kept h o ev h' l g' : HI e h -> proper e o -> sound_op o -> step e h o = (ev, h') ->
    hp (h_st h') l = Some (OGrant g') -> kept (cause_G o) (cause_T o ev (h_st h)) (cause_U ev (h_st h)) (h_st h) l g'.
  Proof.
    intros Hh Po So E X. pose proof (hi_inv _ _ Hh) as Iv.
    pose proof (cause_G_ident o) as Ri.
    assert (forall A (f : res A -> event) (m : M st A), calm (cause_G o) (cause_T o ev (h_st h)) (cause_U ev (h_st h)) m ->
      on_st h f m = (ev, h') -> kept (cause_G o) (cause_T o ev (h_st h)) (cause_U ev (h_st h)) (h_st h) l g') as K.
    { intros A f m C E0. unfold on_st in E0. destruct (m (h_st h)) as [r s] eqn:Em. injection E0 as _ <-. eapply C; eauto. }
    destruct o; cbn [step] in E.
    - eapply K; [|exact E]. now apply ca_authorize.
    - eapply K; [|exact E]. now apply ca_login.
    - destruct (token_parse_all e now cid req (h_st h)) as [r s] eqn:Ep. injection E as Ee <-. cbn [h_st] in X.
      eapply parse_all_kept; [exact Ri|exact Iv| |exact Ep|exact X].
      intros k g i t j t0 H N Oi N0 U Cl P D. exists g, t. split; auto. split; auto. split; auto. exists j, t0. auto.
    - destruct (nth_error (h_parsed h) i) as [q|] eqn:Nq.
      + unfold on_st in E. destruct (token_process e now q issue (h_st h)) as [r s] eqn:Ep. injection E as <- <-. cbn [h_st] in X.
        eapply process_kept; [exact Ri|exact Iv| | | |exact Ep|exact X].
        * pose proof (hi_parsed _ _ Hh) as P. rewrite Forall_forall in P. apply P. eapply nth_error_In; eauto.
        * intros k g j t H N P. exists g, t, q, r. auto.
        * intros k g j t c H N P Ec Rv. exists g, t. split; auto. split; auto. exists q, r, c. split; auto. split; auto. split; auto.
          now apply revoke_refresh_rotates.
      + injection E as _ <-. now apply kept_here.
    - eapply K; [|exact E]. apply ca_quiet, quiet_introspect.
    - eapply K; [|exact E]. apply ca_quiet, quiet_userinfo.
    - unfold on_st, do_verified_logout in E. destruct alla.
      + destruct (logout_all_clients e now sid (h_st h)) as [r s] eqn:Ep. injection E as _ <-.
        eapply (logout_all_kept _ _ _ Ri now); [exact Gc| |exact Iv|exact Ep|exact X]. intros u c c0 g0 g D B. exists u, c, c0, g0. auto.
      + destruct (logout_from_client e now sid (h_st h)) as [r s] eqn:Ep. injection E as _ <-.
        eapply (logout_one_kept _ _ _ Ri now); [|exact Iv|exact Ep|exact X]. intros u c g0 g D B. exists u, c, g0. auto.
    - unfold on_st in E. destruct (mgr_revoke_token e sid v recursive (h_st h)) as [r s] eqn:Ep. injection E as _ <-.
      eapply (mgr_revoke_token_kept _ _ _ Ri now); [exact Iv| |exact Ep|exact X].
      intros k g i t H N Sg Mt. exists g, t. auto.
    - unfold on_st in E. destruct (revoke_grant e sid (h_st h)) as [r s] eqn:Ep. injection E as _ <-.
      eapply (revoke_grant_kept _ _ _ Ri now); [| |exact Iv|exact Ep|exact X].
      + intros u c g D B. exists u, c. auto.
      + intros p D. destruct (So p D) as (u & c & _ & [->|(g & ->)]); auto.
    - unfold on_st in E. destruct (revoke_client_session e sid (h_st h)) as [r s] eqn:Ep. injection E as _ <-.
      eapply (revoke_client_kept _ _ _ Ri now); [| |exact Iv|exact Ep|exact X].
      + intros u c rest g D B. exists u, c, rest. auto.
      + intros u c rest D. destruct (So _ D) as (u1 & c1 & G & [Y|(g & Y)]); injection Y as <- <- Y; eapply apart_good; eauto.
    - eapply K; [|exact E]. now apply ca_remove.
    - eapply K; [|exact E]. now apply ca_flush.
    - unfold on_st in E. destruct (reload_ok e now (h_st h) Iv) as (s1 & E1 & R). rewrite E1 in E.
      injection E as _ <-. apply kept_here. eapply reloaded_grants; eauto.
  Qed.

  Lemma grant_cause ops : forall h evs h' l g', HI e h -> Forall (proper e) ops -> Forall sound_op ops ->
    exec e h ops = (evs, h') -> hp (h_st h') l = Some (OGrant g') -> g_revoked g' = true ->
    (exists g, hp (h_st h) l = Some (OGrant g) /\ ident g g' /\ g_revoked g = true)
    \/ exists j o, nth_error ops j = Some o /\ cause_G o g'.
  Proof.
    induction ops as [|o ops IH]; intros h evs h' l g' Hh Po So E H R; cbn in E.
    - injection E as _ <-. left. exists g'. split; auto. split; auto. apply ident_refl.
    - destruct (step e h o) as [ev h1] eqn:Es. destruct (exec e h1 ops) as [evs' h2] eqn:Ee. injection E as _ <-.
      inversion Po as [|? ? P0 P1]; subst. inversion So as [|? ? S0 S1]; subst.
      destruct (step_keeps e W _ _ _ _ Hh P0 Es) as (Hh1 & _).
      destruct (IH _ _ _ _ _ Hh1 P1 S1 Ee H R) as [(g & Hg & Ig & Rg)|(j & o' & A & B)].
      + destruct (step_kept _ _ _ _ _ _ Hh P0 S0 Es Hg) as [Kg _]. destruct (Kg Rg) as [C|(g0 & H0 & I0 & R0)].
        * right. exists 0, o. split; auto. eapply cause_G_ident; eauto.
        * left. exists g0. split; auto. split; auto. eapply ident_trans; eauto.
      + right. exists (S j), o'. auto.
  Qed.

  (** The place [l], [i] in the middle of a history. *)
  Definition at_call (h : hst) (ops : list op) (evs : list event) (j : nat) (P : op -> event -> st -> Prop) : Prop :=
    exists o ev hj, nth_error ops j = Some o /\ nth_error evs j = Some ev
      /\ exec e h (firstn j ops) = (firstn j evs, hj) /\ P o ev (h_st hj).
  Lemma at_call_cons h o ops ev evs h1 j P : step e h o = (ev, h1) -> at_call h1 ops evs j P ->
    at_call h (o :: ops) (ev :: evs) (S j) P.
  Proof.
    intros Es (o' & ev' & hj & A & B & C & D). exists o', ev', hj. cbn. split; auto. split; auto. split; auto.
    now rewrite Es, C.
  Qed.
  Lemma at_call_here h o ops ev evs (P : op -> event -> st -> Prop) : P o ev (h_st h) -> at_call h (o :: ops) (ev :: evs) 0 P.
  Proof. intros H. exists o, ev, h. cbn. auto. Qed.

  Lemma token_cause_at ops : forall h evs h' l i g' t', HI e h -> Forall (proper e) ops -> Forall sound_op ops ->
    exec e h ops = (evs, h') -> hp (h_st h') l = Some (OGrant g') -> nth_error (g_tokens g') i = Some t' ->
    (t_revoked t' = true ->
       (exists g t, hp (h_st h) l = Some (OGrant g) /\ nth_error (g_tokens g) i = Some t /\ t_revoked t = true)
       \/ exists j, at_call h ops evs j (fun o ev s => cause_T o ev s l i))
    /\ (t_used t' <> 0%Z ->
       (exists g t, hp (h_st h) l = Some (OGrant g) /\ nth_error (g_tokens g) i = Some t /\ t_used t <> 0%Z)
       \/ exists j, at_call h ops evs j (fun o ev s => cause_U ev s l i)).
  Proof.
    induction ops as [|o ops IH]; intros h evs h' l i g' t' Hh Po So E H N; cbn in E.
    - injection E as _ <-. split; intros R; left; exists g', t'; auto.
    - destruct (step e h o) as [ev h1] eqn:Es. destruct (exec e h1 ops) as [evs' h2] eqn:Ee. injection E as <- <-.
      inversion Po as [|? ? P0 P1]; subst. inversion So as [|? ? S0 S1]; subst.
      destruct (step_keeps e W _ _ _ _ Hh P0 Es) as (Hh1 & _).
      destruct (IH _ _ _ _ _ _ _ Hh1 P1 S1 Ee H N) as [A B]. split; intros R.
      + destruct (A R) as [(g & t & Hg & Nt & Rt)|(j & Aj)].
        * destruct (step_kept _ _ _ _ _ _ Hh P0 S0 Es Hg) as [_ Kt]. destruct (Kt _ _ Nt) as [K1 _].
          destruct (K1 Rt) as [C|C]; auto. right. exists 0. apply at_call_here. exact C.
        * right. exists (S j). eapply at_call_cons; eauto.
      + destruct (B R) as [(g & t & Hg & Nt & Rt)|(j & Aj)].
        * destruct (step_kept _ _ _ _ _ _ Hh P0 S0 Es Hg) as [_ Kt]. destruct (Kt _ _ Nt) as [_ K1].
          destruct (K1 Rt) as [C|C]; auto. right. exists 0. apply at_call_here. exact C.
        * right. exists (S j). eapply at_call_cons; eauto.
  Qed.
End Causes.

(** ** In histories *)
Lemma all_firstn {A} (P : A -> Prop) l : forall j, Forall P l -> Forall P (firstn j l).
Proof. induction l as [|x l IH]; intros [|j] F; cbn; auto. inversion F; subst. constructor; auto. Qed.
Lemma all_skipn {A} (P : A -> Prop) l : forall j, Forall P l -> Forall P (skipn j l).
Proof. induction l as [|x l IH]; intros [|j] F; cbn; auto. inversion F; subst. auto. Qed.
Section History.
  Variables (e : env) (W : laws e).
  Hypothesis Gc : forall c ci, dget (e_clients e) c = Some ci -> good_id c.

  Lemma sensible_sound o : sensible e o -> sound_op e o.
  Proof. destruct o; cbn; auto. Qed.
  Lemma grant_cause_meant o g u c : sensible e o -> belongs e g u c -> cause_G e o g -> meant_to_end e o u c (g_id g).
  Proof.
    intros So B. destruct o; cbn; auto.
    - destruct alla.
      + intros (u1 & c1 & c0 & g0 & D & B1). destruct (belongs_same _ _ _ _ _ _ B B1) as [<- <-].
        exists c0, g0. now apply dec_sid3_ok.
      + intros (u1 & c1 & g0 & D & B1). destruct (belongs_same _ _ _ _ _ _ B B1) as [<- <-].
        exists g0. now apply dec_sid3_ok.
    - intros (u1 & c1 & D & B1). destruct (belongs_same _ _ _ _ _ _ B B1) as [<- <-]. now apply dec_sid3_ok.
    - intros (u1 & c1 & rest & D & B1). destruct (belongs_same _ _ _ _ _ _ B B1) as [<- <-].
      destruct (So _ D) as (u2 & c2 & _ & [Y|(g2 & Y)]); injection Y as <- <- ->; [left; auto|right; eauto].
  Qed.
  Lemma grants_ended ops evs h gid g u c : history e ops evs h -> Forall (sensible e) ops -> grant_of h gid g ->
    belongs e g u c -> g_revoked g = true -> exists j o, nth_error ops j = Some o /\ meant_to_end e o u c gid.
  Proof.
    intros (Po & a & E) So (l & H & Id) B R.
    assert (Forall (sound_op e) ops) as So' by (eapply Forall_impl; [|exact So]; apply sensible_sound).
    destruct (grant_cause e W Gc ops _ _ _ l g (hi_init e a) Po So' E H R) as [(g0 & H0 & _)|(j & o & N & C)].
    - destruct l; discriminate.
    - exists j, o. split; auto. rewrite <- Id. apply grant_cause_meant; auto.
      rewrite Forall_forall in So. apply So. eapply nth_error_In; eauto.
  Qed.

  (** From a place in the middle of a history to its end. *)
  Lemma exec_from ops : forall j h evs h', exec e h ops = (evs, h') -> forall hj, exec e h (firstn j ops) = (firstn j evs, hj) ->
    exec e hj (skipn j ops) = (skipn j evs, h').
  Proof.
    induction ops as [|o ops IH]; intros [|j] h evs h' E hj Ej; cbn in *.
    - injection E as <- <-. injection Ej as <-. reflexivity.
    - injection E as <- <-. injection Ej as <-. reflexivity.
    - injection Ej as <-. exact E.
    - destruct (step e h o) as [ev h1] eqn:Es. destruct (exec e h1 ops) as [evs' h2] eqn:Ee. injection E as <- <-. cbn in *.
      destruct (exec e h1 (firstn j ops)) as [evs3 h3] eqn:E3. injection Ej as Ej1 <-. subst evs3. eapply IH; eauto.
  Qed.
  Definition grown (l : nat) (g : grant) (s : st) : Prop :=
    exists g', hp s l = Some (OGrant g') /\ ident g g'
      /\ forall i t, nth_error (g_tokens g) i = Some t -> exists t', nth_error (g_tokens g') i = Some t' /\ token_later t t'.
  Lemma grown_later l g (now : Z) : Stable now (grown l g).
  Proof.
    intros s s' L (g1 & H1 & I1 & T1). destruct (st_later_grant _ _ _ _ _ L H1) as (g2 & H2 & G2).
    exists g2. split; auto. destruct G2 as (A & B & C & D & G2). split.
    - eapply ident_trans; [exact I1|]. repeat split; auto.
    - intros i t N. destruct (T1 _ _ N) as (t1 & N1 & L1).
      assert (tokens_later (g_tokens g1) (g_tokens g2)) as Tl by (apply G2). destruct (Tl _ _ N1) as (t2 & N2 & L2).
      exists t2. split; auto. eapply token_later_trans; eauto.
  Qed.
  Lemma grown_descends g g' v t : (forall i t, nth_error (g_tokens g) i = Some t -> exists t', nth_error (g_tokens g') i = Some t' /\ token_later t t') ->
    descends (g_tokens g) v t -> forall i t', nth_error (g_tokens g) i = Some t -> nth_error (g_tokens g') i = Some t' ->
    descends (g_tokens g') v t'.
  Proof.
    intros T D. induction D as [x Ix Bx|x z Dx IH Iz Bz]; intros i t' N N'.
    - destruct (T _ _ N) as (t1 & N1 & L1). assert (t1 = t') as -> by congruence.
      apply desc_child; [eapply nth_error_In; eauto|]. destruct L1 as (_ & _ & -> & _). exact Bx.
    - destruct (T _ _ N) as (t1 & N1 & L1). assert (t1 = t') as -> by congruence.
      assert (In x (g_tokens g)) as Ix by (destruct Dx; auto). apply In_nth_error in Ix as [jx Nx].
      destruct (T _ _ Nx) as (x1 & Nx1 & Lx1).
      eapply desc_trans; [eapply IH; eauto|eapply nth_error_In; eauto|].
      destruct L1 as (_ & _ & -> & _). destruct Lx1 as (_ & -> & _). exact Bz.
  Qed.
  Lemma history_at ops evs h a j hj : Forall (proper e) ops -> exec e (h_init a) ops = (evs, h) ->
    exec e (h_init a) (firstn j ops) = (firstn j evs, hj) -> history e (firstn j ops) (firstn j evs) hj.
  Proof. intros Po E Ej. split; [|exists a; exact Ej]. apply all_firstn. exact Po. Qed.
  Lemma at_end ops evs h a j hj l g : Forall (proper e) ops -> exec e (h_init a) ops = (evs, h) ->
    exec e (h_init a) (firstn j ops) = (firstn j evs, hj) -> hp (h_st hj) l = Some (OGrant g) -> grown l g (h_st h).
  Proof.
    intros Po E Ej H. pose proof (exec_from _ _ _ _ _ E _ Ej) as E2.
    eapply (exec_stable e W); [intros now; apply grown_later| | |exact E2|].
    - eapply history_hi; auto. eapply history_at; eauto.
    - apply all_skipn. exact Po.
    - exists g. split; auto. split; [apply ident_refl|]. intros i t N. exists t. split; auto. apply token_later_refl.
  Qed.

  Lemma token_spent ops evs h a l i g t : Forall (proper e) ops -> Forall (sensible e) ops -> exec e (h_init a) ops = (evs, h) ->
    hp (h_st h) l = Some (OGrant g) -> nth_error (g_tokens g) i = Some t -> t_used t <> 0%Z ->
    exists j, spent_at evs j (t_value t) (t_class t) /\ j < List.length ops.
  Proof.
    intros Po So E H N U.
    assert (Forall (sound_op e) ops) as So' by (eapply Forall_impl; [|exact So]; apply sensible_sound).
    destruct (token_cause_at e W Gc ops _ _ _ l i g t (hi_init e a) Po So' E H N) as [_ B].
    destruct (B U) as [(g0 & t0 & H0 & _)|(j & o & ev & hj & No & Ne & Ej & g0 & t0 & q & r & H0 & N0 & -> & P)].
    { destruct l; discriminate. }
    exists j. split; [|apply nth_error_Some; congruence]. exists q, r. split; auto.
    destruct (at_end _ _ _ _ _ _ _ _ Po E Ej H0) as (g1 & H1 & _ & T1). rewrite H in H1. injection H1 as <-.
    destruct (T1 _ _ N0) as (t1 & N1 & L1). rewrite N in N1. injection N1 as <-. destruct L1 as (-> & -> & _). exact P.
  Qed.
  Lemma nth_firstn {A} (l : list A) : forall j i x, nth_error (firstn j l) i = Some x -> i < j /\ nth_error l i = Some x.
  Proof.
    induction l as [|y l IH]; intros [|j] [|i] x N; cbn in *; try discriminate; [split; [lia|auto]|].
    destruct (IH _ _ _ N). split; auto. lia.
  Qed.

  Lemma tokens_ended ops evs h gid g t : history e ops evs h -> Forall (sensible e) ops -> grant_of h gid g ->
    In t (g_tokens g) -> t_revoked t = true -> exists j, meant_to_end_token e ops evs j g t.
  Proof.
    intros (Po & a & E) So (l & H & Id) It R. apply In_nth_error in It as [i N].
    assert (Forall (sound_op e) ops) as So' by (eapply Forall_impl; [|exact So]; apply sensible_sound).
    destruct (token_cause_at e W Gc ops _ _ _ l i g t (hi_init e a) Po So' E H N) as [A _].
    destruct (A R) as [(g0 & t0 & H0 & _)|(j & o & ev & hj & No & Ne & Ej & g0 & t0 & H0 & N0 & C)].
    { destruct l; discriminate. }
    destruct (at_end _ _ _ _ _ _ _ _ Po E Ej H0) as (g1 & H1 & I1 & T1).
    change (hp (h_st h) l = Some (OGrant g)) in H. rewrite H in H1. injection H1 as <-.
    destruct (T1 _ _ N0) as (t1 & N1 & L1). rewrite N in N1. injection N1 as <-.
    exists j. unfold meant_to_end_token. rewrite No. destruct o; try contradiction.
    - destruct C as (Oi & k & c0 & Nc & Uc & Cc & P & D). split; auto.
      assert (Forall (sensible e) (firstn j ops)) as Sj by (apply all_firstn; auto).
      destruct (history_at _ _ _ _ _ _ Po E Ej) as (Pj & _).
      destruct (token_spent _ _ _ _ _ _ _ _ Pj Sj Ej H0 Nc Uc) as (m & (q & r & Nq & Pq) & _).
      apply nth_firstn in Nq as [Lm Nq]. exists (t_value c0), m. split; auto. split.
      { eapply grown_descends; eauto. }
      split; auto. exists q, r. split; auto. rewrite Cc in Pq. exact Pq.
    - destruct C as (q & r & c & -> & P & Ec & Rt). exists q, r, c. split; auto. split; auto.
      destruct L1 as (_ & -> & _). exact P.
    - destruct C as ((u & c & D & B) & Mt). split.
      + exists u, c. destruct I1 as (-> & _). now apply dec_sid3_ok.
      + destruct Mt as [V|[-> D']]; [left; destruct L1 as (_ & -> & _); exact V|right; split; auto; eapply grown_descends; eauto].
  Qed.
  Lemma tokens_spent ops evs h gid g t : history e ops evs h -> Forall (sensible e) ops -> grant_of h gid g ->
    In t (g_tokens g) -> t_used t <> 0%Z -> exists j, spent_at evs j (t_value t) (t_class t).
  Proof.
    intros (Po & a & E) So (l & H & Id) It U. apply In_nth_error in It as [i N].
    destruct (token_spent _ _ _ _ _ _ _ _ Po So E H N U) as (j & S & _). eauto.
  Qed.
  Lemma not_revoked (b : bool) (P : Prop) : (b = true -> P) -> ~ P -> b = false.
  Proof. destruct b; auto. intros H N. destruct N. auto. Qed.
  Lemma stays_live ops evs h gid g u c t now : history e ops evs h -> Forall (sensible e) ops -> grant_of h gid g ->
    belongs e g u c -> In t (g_tokens g) -> t_class t = "access_token" ->
    (forall m, r_max (t_rules t) = Some m -> (0 < m)%Z) ->
    (t_exp t <> 0 -> now <= t_exp t)%Z -> (g_exp g <> 0 -> now <= g_exp g)%Z ->
    (forall j o, nth_error ops j = Some o -> ~ meant_to_end e o u c gid) ->
    (forall j, ~ meant_to_end_token e ops evs j g t) ->
    token_live t now /\ grant_live g now.
  Proof.
    intros Hi So G B It Cl Mx Xt Xg Ng Nt.
    pose proof (history_hi e W _ _ _ Hi) as Hh. pose proof G as (l & H & Id).
    pose proof (inv_grants _ _ (hi_inv _ _ Hh) _ _ H) as Gi. pose proof (gi_tok _ _ Gi _ It) as To.
    split; split.
    - eapply not_revoked; [intros R; eapply tokens_ended; eauto|]. intros (j & Y). eapply Nt; eauto.
    - assert (t_used t = 0%Z) as ->.
      { destruct (Z.eq_dec (t_used t) 0) as [Y|N]; auto. exfalso.
        destruct (tokens_spent _ _ _ _ _ _ Hi So G It N) as (j & q & r & _ & [(Y & _)|(Y & _)]); rewrite Cl in Y; discriminate. }
      split; [exact Mx|]. split; [rewrite (to_nbf _ _ To); congruence|exact Xt].
    - eapply not_revoked; [intros R; eapply grants_ended; eauto|]. intros (j & o & Nj & Y). eapply Ng; eauto.
    - split; [rewrite (gi_max _ _ Gi); discriminate|]. split; [rewrite (gi_nbf _ _ Gi); congruence|exact Xg].
  Qed.
End History.
