(** Histories, part 4: issuing tokens, creating sessions, the authorization
    policy, revoking and deleting. *)
From Verif Require Import M_Base M_Types M_Codec M_Grant M_Env M_Session M_Claims M_Handler
  M_Authz M_TokenEP M_PKCE M_AuthzEP M_Info M_Logout M_History S_Codec S_Grant S_Store S_History
  L_Base L_Codec L_Monad L_Grant L_Store L_Hist1 L_Hist2 L_Hist3.

Lemma bind_assoc {S A B C} (m : M S A) (f : A -> M S B) (g : B -> M S C) s :
  bind (bind m f) g s = bind m (fun a => bind (f a) g) s.
Proof. unfold bind. destruct (m s) as [[a|x] s1]; reflexivity. Qed.

(** ** Flags of a token *)
Lemma obj_tok_change e now i f g :
  (forall t, nth_error (g_tokens g) i = Some t -> token_later t (f t)) ->
  obj_change e (OGrant g) (OGrant (g_set_tokens (upd_nth i f (g_tokens g)) g))
  /\ obj_later now (OGrant g) (OGrant (g_set_tokens (upd_nth i f (g_tokens g)) g)).
Proof.
  intros F.
  assert (forall j t, nth_error (upd_nth i f (g_tokens g)) j = Some t ->
            exists t0, nth_error (g_tokens g) j = Some t0 /\ token_later t0 t) as Bk.
  { intros j t N. destruct (Nat.eq_dec i j) as [<-|Ne].
    - rewrite nth_upd_nth_same in N. destruct (nth_error (g_tokens g) i) as [t0|] eqn:E; [|discriminate].
      injection N as <-. eauto.
    - rewrite nth_upd_nth_other in N by auto. eauto using token_later_refl. }
  assert (tokens_later (g_tokens g) (upd_nth i f (g_tokens g))) as Tl.
  { intros j t N. destruct (Nat.eq_dec i j) as [<-|Ne].
    - rewrite nth_upd_nth_same, N. cbn. eauto.
    - rewrite nth_upd_nth_other by auto. eauto using token_later_refl. }
  split.
  - cbn. do 4 (split; [reflexivity|]). split.
    + assert (forall ts ts', List.length ts' = List.length ts ->
                (forall j t, nth_error ts' j = Some t -> exists t0, nth_error ts j = Some t0 /\ token_later t0 t) ->
                map t_value ts' = map t_value ts) as X.
      { induction ts as [|a ts IH]; intros [|a' ts'] Ln H; cbn in Ln; try discriminate; auto. cbn. f_equal.
        - destruct (H 0 a' eq_refl) as (t0 & E0 & L). injection E0 as <-. apply L.
        - apply IH; [lia|]. intros j t N. apply (H (S j) t N). }
      apply X; auto. apply upd_nth_length.
    + intros G. constructor; cbn; try apply G.
      * intros t It. apply In_nth_error in It as [j Hj]. destruct (Bk _ _ Hj) as (t0 & E0 & L).
        destruct (gi_tok _ _ G t0 (nth_error_In _ _ E0)).
        destruct L as (L1 & L2 & L3 & L4 & L5 & L6 & L7 & L8 & L9 & L10 & L11 & L12 & L13 & L14).
        constructor; cbn; rewrite ?L1, ?L4, ?L7, ?L9, ?L11, ?L12; auto; lia.
      * intros j t v Hj B. destruct (Bk _ _ Hj) as (t0 & E0 & L).
        destruct L as (L1 & L2 & L3 & _). rewrite L3 in B.
        destruct (gi_parent _ _ G j t0 v E0 B) as (k & p & Lk & Hk & V & C).
        destruct (Tl _ _ Hk) as (p' & Hk' & Lp). exists k, p'. destruct Lp as (P1 & P2 & _).
        rewrite P1, P2. auto.
      * intros N. apply (gi_final _ _ G). intros Z. apply N. rewrite Z. now destruct i.
      * intros t It Cl. apply In_nth_error in It as [j Hj]. destruct (Bk _ _ Hj) as (t0 & E0 & L).
        assert (t_class t = t_class t0) as Ct by apply L.
        apply (sid_of_same e g); auto. assert (t_sid t = t_sid t0) as -> by apply L.
        apply (gi_sid _ _ G); [eapply nth_error_In; eauto|congruence].
  - cbn. unfold grant_later; cbn. repeat split; auto; try lia. now rewrite upd_nth_length.
Qed.

Lemma token_later_register t : token_later t (tok_register t).
Proof. unfold token_later, tok_register; cbn. intuition lia. Qed.
Lemma token_later_revoke t : token_later t (tok_set_revoked t).
Proof. unfold token_later, tok_set_revoked; cbn. intuition lia. Qed.

(** All tokens of a grant changed, flags only. *)
Lemma obj_toks_change e now ts g : skel ts = skel (g_tokens g) ->
  tokens_later (g_tokens g) ts ->
  obj_change e (OGrant g) (OGrant (g_set_tokens ts g))
  /\ obj_later now (OGrant g) (OGrant (g_set_tokens ts g)).
Proof.
  intros Sk Tl. pose proof (skel_length _ _ Sk) as Ln. pose proof (skel_values _ _ Sk) as Vs.
  assert (forall j t, nth_error ts j = Some t ->
            exists t0, nth_error (g_tokens g) j = Some t0 /\ token_later t0 t) as Bk.
  { intros j t N. assert (j < List.length (g_tokens g)) as L
      by (rewrite <- Ln; apply nth_error_Some; congruence).
    destruct (nth_error (g_tokens g) j) as [t0|] eqn:E; [|apply nth_error_None in E; lia].
    destruct (Tl _ _ E) as (t' & E' & L'). exists t0. split; auto. congruence. }
  split.
  - cbn. do 4 (split; [reflexivity|]). split; [exact Vs|]. intros G. constructor; cbn; try apply G.
    + intros t It. apply In_nth_error in It as [j Hj]. destruct (Bk _ _ Hj) as (t0 & E0 & L).
      destruct (gi_tok _ _ G t0 (nth_error_In _ _ E0)).
      destruct L as (L1 & L2 & L3 & L4 & L5 & L6 & L7 & L8 & L9 & L10 & L11 & L12 & L13 & L14).
      constructor; cbn; rewrite ?L1, ?L4, ?L7, ?L9, ?L11, ?L12; auto; lia.
    + intros j t v Hj B. destruct (Bk _ _ Hj) as (t0 & E0 & L).
      destruct L as (L1 & L2 & L3 & _). rewrite L3 in B.
      destruct (gi_parent _ _ G j t0 v E0 B) as (k & p & Lk & Hk & V & C).
      destruct (Tl _ _ Hk) as (p' & Hk' & Lp). exists k, p'. destruct Lp as (P1 & P2 & _).
      rewrite P1, P2. auto.
    + intros N. apply (gi_final _ _ G). intros Z. apply N. rewrite Z in Ln. now destruct ts.
    + intros t It Cl. apply In_nth_error in It as [j Hj]. destruct (Bk _ _ Hj) as (t0 & E0 & L).
      assert (t_class t = t_class t0) as Ct by apply L.
      apply (sid_of_same e g); auto. assert (t_sid t = t_sid t0) as -> by apply L.
      apply (gi_sid _ _ G); [eapply nth_error_In; eauto|congruence].
  - cbn. unfold grant_later; cbn. repeat split; auto; try lia.
Qed.

(** Revocation loops only set revoked flags, on and on. *)
Definition flags (m : M (list token) unit) : Prop :=
  forall ts r ts', m ts = (r, ts') -> skel ts' = skel ts /\ tokens_later ts ts'.
Lemma flags_ret : flags (ret tt).
Proof. intros ts r ts' H. apply ret_inv in H as [_ <-]. auto using tokens_later_refl. Qed.
Lemma flags_raise x : flags (raise x).
Proof. intros ts r ts' H. apply raise_inv in H as [_ <-]. auto using tokens_later_refl. Qed.
Lemma flags_bind m k : flags m -> flags k -> flags (m ;; k).
Proof.
  intros H K ts r ts' E. apply bind_inv in E as [(a & s1 & E1 & E2)|(x & E1 & ->)].
  - destruct (H _ _ _ E1), (K _ _ _ E2). split; [congruence|]. eapply tokens_later_trans; eauto.
  - apply (H _ _ _ E1).
Qed.
Lemma flags_nth i : flags (revoke_nth i).
Proof.
  intros ts r ts' H. unfold revoke_nth in H. injection H as _ <-. split; [apply skel_upd|].
  intros j t N. destruct (Nat.eq_dec i j) as [<-|Ne].
  - rewrite nth_upd_nth_same, N. cbn. eauto using token_later_revoke.
  - rewrite nth_upd_nth_other by auto. eauto using token_later_refl.
Qed.
Lemma flags_for f is : (forall i, flags (f i)) -> flags (for_pos f is).
Proof. intros H. induction is as [|i is IH]; cbn; [apply flags_ret|]. apply flags_bind; auto. Qed.
Lemma flags_revoke_token k v b rec : flags (revoke_token k v b rec).
Proof.
  revert v b. induction k as [|k IH]; intros v b; [apply flags_raise|]. cbn [revoke_token].
  intros ts r ts' E. revert E. set (body := fun i => _). intros E.
  assert (forall i, flags (body i)) as B; [|eapply flags_for in B; eapply B; exact E].
  intros i us r' us' E'. unfold body in E'. destruct (nth_error us i) as [t|].
  2:{ injection E' as _ <-. auto using tokens_later_refl. }
  assert (flags (revoke_nth i ;; if rec then revoke_token k "" (t_value t) true else ret tt)) as Rc.
  { apply flags_bind; [apply flags_nth|]. destruct rec; [|apply flags_ret]. 
    intros a1 a2 a3 a4. eapply IH; eauto. }
  destruct (negb (str_true v) && negb (str_true b)); [eapply flags_nth; eauto|].
  destruct (str_true v && str_true b).
  { destruct (_ && _); [eapply flags_nth; eauto|]. injection E' as _ <-. auto using tokens_later_refl. }
  destruct (_ && _); [eapply Rc; eauto|]. destruct (_ && _); [eapply Rc; eauto|].
  injection E' as _ <-. auto using tokens_later_refl.
Qed.
Lemma flags_revoke_dependent k v : flags (revoke_dependent k v).
Proof.
  revert v. induction k as [|k IH]; intros v; [apply flags_raise|]. cbn [revoke_dependent].
  intros ts r ts' E. revert E. set (body := fun i => _). intros E.
  assert (forall i, flags (body i)) as B; [|eapply flags_for in B; eapply B; exact E].
  intros i us r' us' E'. unfold body in E'. destruct (nth_error us i) as [t|].
  2:{ injection E' as _ <-. auto using tokens_later_refl. }
  destruct (match t_based t with Some b => _ | None => _ end).
  - revert E'. apply flags_bind; [apply flags_nth|apply IH].
  - injection E' as _ <-. auto using tokens_later_refl.
Qed.

Section Specs.
  Variables (e : env) (now : Z).
  Hypothesis W : laws e.

  Lemma st_within l sc : Stable now (within e l sc).
  Proof.
    intros s s' L (g & H & K). destruct (st_later_grant _ _ _ _ _ L H) as (g2 & H2 & K2).
    exists g2. split; auto. unfold authz_scope in *. destruct K2 as (_ & -> & _). exact K.
  Qed.
  Lemma st_fits sid l : Stable now (fits e sid l).
  Proof. unfold fits. stab. Qed.
  Lemma st_mint_pre l sid tc based scope : Stable now (mint_pre e l sid tc based scope).
  Proof.
    intros s s' L (A & F & B & C & D). split; [|split; [|split; [|split]]]; auto.
    - eapply st_final; eauto.
    - eapply st_fits; eauto.
    - intros b Eb. destruct (B b Eb) as ((i & H) & K). split; auto. exists i. eapply (st_has now); eauto.
    - intros sc Es N. eapply st_within; eauto.
  Qed.

  (** A token of class [tc] made during this call. *)
  Definition fresh_tok (l : nat) (tc : string) (based : option token)
      (scope : option (list string)) (t : token) (s : st) : Prop :=
    exists i g t0, has l i t0 s /\ has l i t s /\ token_later t0 t /\ sees now l g s
      /\ i = List.length (g_tokens g) /\ minted_from e now g tc based scope t0.
  Lemma st_fresh l tc based scope t : Stable now (fresh_tok l tc based scope t).
  Proof. unfold fresh_tok. stab. Qed.

  Lemma new_tok_fresh l tc based scope s s' i t t' :
    st_later now s s' -> new_tok e now l tc based scope s i t -> has l i t s' -> has l i t' s' ->
    token_later t t' -> fresh_tok l tc based scope t' s'.
  Proof.
    intros L (g & H & Ei & Mf & _) Ht Ht' Tl. exists i, g, t. split; auto. split; auto. split; auto.
    split; auto. eapply st_sees; eauto. now apply sees_here.
  Qed.

  Lemma mint_store_spec l sid tc based rules scope ttype ia x :
    spec e now (mint_pre e l sid tc based scope)
      (r <- mint_store e now l sid tc based rules scope ttype ia x ;; i <- need r ;; tok_at l i)
      (fresh_tok l tc based scope).
  Proof.
    intros s r s' I p E.
    apply bind_inv in E as [(o & s1 & E1 & E2)|(y & E1 & ->)].
    2:{ destruct (mint_store_run _ _ W _ _ _ _ _ _ _ _ _ _ _ _ I p E1) as (I1 & L1 & _).
        split; auto. split; auto. discriminate. }
    destruct (mint_store_run _ _ W _ _ _ _ _ _ _ _ _ _ _ _ I p E1) as (I1 & L1 & Q1).
    assert (s' = s1) as ->.
    { revert E2. apply reader_bind; [apply reader_need|]. intros; apply reader_tok_at. }
    split; auto. split; auto. intros t' ->. minv1 E2. destruct o as [i|]; [|discriminate H].
    cbn in H. injection H as <- <-. apply tok_at_ok in E2 as (_ & g1 & H1 & N1).
    destruct (Q1 i eq_refl) as (t & Nt & Ht). eapply new_tok_fresh; eauto.
    - eapply has_here; eauto.
    - destruct Ht as (g2 & t2 & H2 & N2 & L2). rewrite H1 in H2. injection H2 as <-. congruence.
  Qed.

  Definition lifetime_of (r : option Z) : option Z :=
    match r with Some x => if Z.eqb x 0 then None else Some x | None => None end.

  Lemma mint_value_spec l sid tc based scope ttype :
    spec e now (mint_pre e l sid tc based scope) (mint_value e now l sid tc based scope ttype)
      (fresh_tok l tc based scope).
  Proof.
    intros s r s' I p E. unfold mint_value, ep_mint in E. rewrite bind_assoc in E.
    apply bind_inv in E as [(g & s1 & E1 & E)|(y & E1 & ->)].
    2:{ apply reader_grant_at in E1. subst. split; auto. split; [apply st_later_refl|discriminate]. }
    apply reader_grant_at in E1. subst s1. rewrite bind_assoc in E.
    apply bind_inv in E as [(w & s1 & E1 & E)|(y & E1 & ->)].
    2:{ assert (s' = s) as -> by (destruct (dmem (e_handlers e) tc);
          [apply reader_ret in E1|apply reader_raise in E1]; auto).
        split; auto. split; [apply st_later_refl|discriminate]. }
    assert (s1 = s) as -> by (destruct (dmem (e_handlers e) tc);
          [apply reader_ret in E1|apply reader_raise in E1]; auto).
    eapply (mint_store_spec l sid tc based (dget (g_rules g) tc) scope ttype no_args
              (ep_lifetime (dget (g_rules g) tc))); eauto.
  Qed.

  Lemma az_value_spec l sid tc scope ia :
    spec e now (mint_pre e l sid tc None scope) (az_value e now l sid tc scope ia)
      (fresh_tok l tc None scope).
  Proof.
    intros s r s' I p E. unfold az_value, az_mint in E. rewrite bind_assoc in E.
    apply bind_inv in E as [(g & s1 & E1 & E)|(y & E1 & ->)].
    2:{ apply reader_grant_at in E1. subst. split; auto. split; [apply st_later_refl|discriminate]. }
    apply reader_grant_at in E1. subst s1.
    set (rules := match dget (g_rules g) tc with Some r => r | None => empty_rule end) in *.
    eapply (mint_store_spec l sid tc None (Some rules) scope "" ia (lifetime_of (r_exp rules)));
      [exact I|exact p|].
    unfold mint_store, lifetime_of. destruct (r_exp rules) as [x|]; [|exact E].
    destruct (Z.eqb x 0); exact E.
  Qed.

  (** A token that is newer than [s] may still be changed. *)
  Lemma later_fresh s s1 l g i f : hp s l = Some (OGrant g) -> List.length (g_tokens g) <= i ->
    st_later now s s1 ->
    st_later now s (mk_st (upd_nth l (on_grant (fun g => g_set_tokens (upd_nth i f (g_tokens g)) g)) (s_heap s1))
                      (s_db s1) (s_ctr s1) (s_always s1)).
  Proof.
    intros H Li L. destruct L as [C L]. split; auto. intros l' o E.
    destruct (L l' o E) as (o1 & E1 & L1). destruct (Nat.eq_dec l' l) as [->|N].
    - rewrite hp_upd_same, E1. cbn. rewrite H in E. injection E as <-.
      destruct o1 as [|g1|]; cbn in L1; try tauto. eexists. split; [reflexivity|]. cbn.
      destruct L1 as (A1 & A2 & A3 & A4 & A5 & A6 & A7 & A8 & A9 & A10 & A11 & A12).
      unfold grant_later; cbn. repeat (split; [assumption|]). split; [|split; [|assumption]].
      + intros j t Nj. destruct (A10 _ _ Nj) as (t' & Nt & Lt). exists t'. split; auto.
        rewrite nth_upd_nth_other; auto. intros ->.
        assert (j < List.length (g_tokens g)) by (apply nth_error_Some; congruence). lia.
      + intros D. rewrite upd_nth_length. auto.
    - rewrite hp_upd_other by auto. eauto.
  Qed.

  Lemma mint_rotated_spec l sid old sc :
    spec e now (mint_pre e l sid REFRESH (Some old) (Some sc)) (mint_rotated e now l sid old sc)
      (fresh_tok l REFRESH (Some old) (Some sc)).
  Proof.
    intros s r s' I p E. unfold mint_rotated, ep_mint in E. rewrite bind_assoc in E.
    apply bind_inv in E as [(g & s1 & E1 & E)|(y & E1 & ->)].
    2:{ apply reader_grant_at in E1. subst. split; auto. split; [apply st_later_refl|discriminate]. }
    apply reader_grant_at in E1. subst s1. rewrite bind_assoc in E.
    apply bind_inv in E as [(w & s1 & E1 & E)|(y & E1 & ->)].
    2:{ assert (s' = s) as -> by (destruct (dmem (e_handlers e) REFRESH);
          [apply reader_ret in E1|apply reader_raise in E1]; auto).
        split; auto. split; [apply st_later_refl|discriminate]. }
    assert (s1 = s) as -> by (destruct (dmem (e_handlers e) REFRESH);
          [apply reader_ret in E1|apply reader_raise in E1]; auto).
    clear E1 w.
    apply bind_inv in E as [(o & s1 & E1 & E2)|(y & E1 & ->)].
    2:{ destruct (mint_store_run e now W l sid REFRESH (Some old) (dget (g_rules g) REFRESH) (Some sc) "" no_args
                    (ep_lifetime (dget (g_rules g) REFRESH)) s (Raise y) s' I p E1) as (I1 & L1 & _).
        split; auto. split; auto. discriminate. }
    destruct (mint_store_run e now W l sid REFRESH (Some old) (dget (g_rules g) REFRESH) (Some sc) "" no_args
                    (ep_lifetime (dget (g_rules g) REFRESH)) s (Ok o) s1 I p E1) as (I1 & L1 & Q1).
    destruct o as [i|].
    2:{ cbn in E2. injection E2 as <- <-. split; auto. split; auto. discriminate. }
    destruct (Q1 i eq_refl) as (t & Nt & Ht).
    unfold need in E2. unfold bind at 1 in E2. unfold ret at 1 in E2.
    unfold upd_tok, upd_obj in E2. unfold bind at 1 in E2.
    match type of E2 with tok_at l i ?x = _ => set (s2 := x) in * end.
    pose proof (reader_tok_at l i _ _ _ E2) as ->.
    destruct Ht as (g1 & t1 & H1 & N1 & Lt). destruct Nt as (g0 & H0 & Ei & Mf & Mk).
    set (f := tok_set_rules (t_rules old)) in *.
    assert (st_later now s s2) as L2 by (eapply later_fresh; eauto; lia).
    assert (t_class t1 = REFRESH) as C1. { destruct Lt as (-> & _). apply Mf. }
    assert (Inv e s2) as I2.
    { apply inv_upd; auto. intros o Ho. rewrite H1 in Ho. injection Ho as <-. cbn.
      assert (forall j u, nth_error (upd_nth i f (g_tokens g1)) j = Some u ->
                exists u0, nth_error (g_tokens g1) j = Some u0 /\ (u = u0 \/ (u0 = t1 /\ u = f t1))) as Bk.
      { intros j u N. destruct (Nat.eq_dec i j) as [<-|Ne].
        - rewrite nth_upd_nth_same, N1 in N. cbn in N. injection N as <-. eauto.
        - rewrite nth_upd_nth_other in N by auto. eauto. }
      do 4 (split; [reflexivity|]). split.
      - assert (forall ts k, map t_value (upd_nth k f ts) = map t_value ts) as X.
        { induction ts as [|a ts IH]; intros [|k]; cbn; auto. now rewrite IH. }
        apply X.
      - intros G. constructor; cbn; try apply G.
        + intros u Iu. apply In_nth_error in Iu as [j Hj]. destruct (Bk _ _ Hj) as (u0 & E0 & X).
          pose proof (gi_tok _ _ G u0 (nth_error_In _ _ E0)) as [T1 T2 T3 T4 T5 T6 T7 T8].
          destruct X as [->|(-> & ->)]; constructor; cbn; auto. rewrite C1. discriminate.
        + intros j u v Hj B. destruct (Bk _ _ Hj) as (u0 & E0 & X).
          assert (t_based u0 = Some v) as B0 by (destruct X as [->|(-> & ->)]; exact B).
          destruct (gi_parent _ _ G j u0 v E0 B0) as (k & q & Lk & Hk & V & Cq).
          destruct (Nat.eq_dec i k) as [<-|Ne].
          * exists i, (f t1). rewrite nth_upd_nth_same, N1. cbn.
            assert (q = t1) as -> by congruence. auto.
          * exists k, q. rewrite nth_upd_nth_other by auto. auto.
        + intros N. apply (gi_final _ _ G). intros Z. rewrite Z in N1. now destruct i.
        + intros u Iu Cl. apply In_nth_error in Iu as [j Hj]. destruct (Bk _ _ Hj) as (u0 & E0 & X).
          assert (t_class u = t_class u0) as Ct by (destruct X as [->|(-> & ->)]; reflexivity).
          apply (sid_of_same e g1); auto.
          assert (t_sid u = t_sid u0) as -> by (destruct X as [->|(-> & ->)]; reflexivity).
          apply (gi_sid _ _ G); [eapply nth_error_In; eauto|congruence]. }
    split; auto. split; auto. intros t' ->. apply tok_at_ok in E2 as (_ & g2 & H2 & N2).
    assert (g2 = g_set_tokens (upd_nth i f (g_tokens g1)) g1) as Eg.
    { unfold s2 in H2. rewrite hp_upd_same, H1 in H2. cbn in H2. congruence. }
    assert (t' = f t1) as ->. { subst g2. cbn in N2. rewrite nth_upd_nth_same, N1 in N2. cbn in N2. congruence. }
    exists i, g0, (f t). 
    assert (token_later (f t) (f t1)) as Lf.
    { destruct Lt as (A1 & A2 & A3 & A4 & A5 & A6 & A7 & A8 & A9 & A10 & A11 & A12 & A13 & A14).
      unfold token_later, f, tok_set_rules; cbn. repeat split; auto. }
    split. { exists g2, (f t1). auto. }
    split. { exists g2, (f t1). split; auto. split; auto. apply token_later_refl. }
    split; auto. split. { eapply st_sees; eauto. now apply sees_here. }
    split; auto. destruct Mf as (M1 & M2 & M3 & M4 & M5 & M6 & M7 & M8 & M9 & M10 & M11 & M12 & M13).
    unfold minted_from, f, tok_set_rules; cbn. repeat split; auto; try (now apply M5); try (now apply M11). discriminate.
  Qed.

  (** *** Changing flags *)
  Lemma upd_tok_spec l i f P :
    (forall t, token_later t (f t)) ->
    spec e now P (upd_tok l i f)
      (fun _ s => forall t, has l i t s -> exists t0, has l i (f t0) s /\ True).
  Proof.
    intros F s r s' I p E. unfold upd_tok, upd_obj in E. injection E as <- <-.
    assert (forall o, hp s l = Some o ->
              obj_change e o (on_grant (fun g => g_set_tokens (upd_nth i f (g_tokens g)) g) o)
              /\ obj_later now o (on_grant (fun g => g_set_tokens (upd_nth i f (g_tokens g)) g) o)) as K.
    { intros [x|g|] Ho; [split; [cbn; auto|cbn; unfold info_later; auto]| |split; exact Logic.I].
      apply obj_tok_change. auto. }
    split. { apply inv_upd; auto. intros o Ho. now apply K. }
    split. { apply later_upd; auto. intros o Ho. now apply K. }
    intros _ _ t (g1 & t1 & H1 & N1 & L1). rewrite hp_upd_same in H1.
    destruct (hp s l) as [[x|g|]|] eqn:Hl; cbn in H1; try discriminate. injection H1 as <-. cbn in N1.
    rewrite nth_upd_nth_same in N1. destruct (nth_error (g_tokens g) i) as [t0|] eqn:N; [|discriminate].
    exists t0. split; auto.
    exists (g_set_tokens (upd_nth i f (g_tokens g)) g), (f t0).
    rewrite hp_upd_same, Hl. split; auto. cbn. rewrite nth_upd_nth_same, N. split; auto.
    apply token_later_refl.
  Qed.

  (** The token at a place, after one more use, or revoked. *)
  Lemma upd_tok_at l i f t :
    (forall t, token_later t (f t)) ->
    spec e now (has l i t) (upd_tok l i f) (fun _ s => exists t0, token_later t t0 /\ has l i (f t0) s).
  Proof.
    intros F s r s' I p E. destruct (upd_tok_spec l i f (fun _ => True) F _ _ _ I Logic.I E) as (I1 & L1 & _).
    split; auto. split; auto. intros _ _. unfold upd_tok, upd_obj in E. injection E as <- <-.
    destruct p as (g & t0 & H & N & L). exists t0. split; auto.
    exists (g_set_tokens (upd_nth i f (g_tokens g)) g), (f t0).
    rewrite hp_upd_same, H. split; auto. cbn. rewrite nth_upd_nth_same, N. split; auto.
    apply token_later_refl.
  Qed.

  Lemma keeps_upd_tok l i f : (forall t, token_later t (f t)) -> keeps e now (upd_tok l i f).
  Proof. intros F. eapply spec_keeps. apply upd_tok_spec; auto. Qed.

  Lemma keeps_on_tokens l m : flags m -> keeps e now (on_tokens l m).
  Proof.
    intros F s r s' I p E. unfold on_tokens in E.
    apply bind_inv in E as [(g & s1 & E1 & E)|(y & E1 & ->)].
    2:{ apply reader_grant_at in E1. subst. split; auto. split; [apply st_later_refl|auto]. }
    apply grant_at_ok in E1 as [-> Hl]. destruct (m (g_tokens g)) as [r1 ts] eqn:Em.
    destruct (F _ _ _ Em) as [Sk Tl]. unfold bind, upd_obj in E. apply lift_inv in E as [_ <-].
    destruct (obj_toks_change e now ts g Sk Tl) as [Oc Ol].
    split. { apply inv_upd; auto. intros o Ho. rewrite Hl in Ho. injection Ho as <-. exact Oc. }
    split; auto. apply later_upd; auto. intros o Ho. rewrite Hl in Ho. injection Ho as <-. exact Ol.
  Qed.

  (** A change of a grant that the invariant does not look at. *)
  Lemma keeps_upd_grant l f :
    (forall g, g_id (f g) = g_id g /\ g_areq (f g) = g_areq g /\ g_aevent (f g) = g_aevent g
       /\ g_sub (f g) = g_sub g /\ g_tokens (f g) = g_tokens g /\ g_max (f g) = g_max g
       /\ g_nbf (f g) = g_nbf g /\ g_scope (f g) = g_scope g /\ g_issued (f g) = g_issued g
       /\ g_used (f g) = g_used g /\ g_exp (f g) = g_exp g /\ (g_revoked g = true -> g_revoked (f g) = true)) ->
    keeps e now (upd_obj l (on_grant f)).
  Proof.
    intros F. apply upd_obj_spec; auto. intros s o _ _ _.
    destruct o as [x|g|]; cbn; [unfold info_later; auto| |auto].
    destruct (F g) as (F1 & F2 & F3 & F4 & F5 & F6 & F7 & F8 & F9 & F10 & F11 & F12).
    split.
    - rewrite F5. repeat (split; [solve [auto]|]). intros G. constructor; unfold authz_scope; rewrite ?F2, ?F5, ?F6, ?F7, ?F8;
        try apply G.
      + intros t It. destruct (gi_tok _ _ G t It). constructor; auto. all: now rewrite F8.
      + intros t It Cl. apply (sid_of_same e g); auto. apply (gi_sid _ _ G); auto.
    - unfold grant_later. rewrite F1, F2, F3, F4, F5, F6, F7, F8, F9, F10, F11.
      repeat split; auto using tokens_later_refl; lia.
  Qed.
  Lemma keeps_set_extra l j : keeps e now (upd_obj l (on_grant (fun g => g_set_extra (dset (g_extra g) "dpop_jkt" j) g))).
  Proof. apply keeps_upd_grant. intros g. cbn. repeat split; auto. Qed.
  Lemma keeps_set_claims l c : keeps e now (upd_obj l (on_grant (g_set_claims c))).
  Proof. apply keeps_upd_grant. intros g. cbn. repeat split; auto. Qed.
  Lemma revoke_obj_upd o : obj_change e o (revoke_obj o) /\ obj_later now o (revoke_obj o).
  Proof.
    destruct o as [x|g|]; cbn; [unfold info_later; auto| |auto]. split.
    - do 5 (split; [reflexivity|]). intros G. constructor; cbn; try apply G.
      intros t It. destruct (gi_tok _ _ G t It). constructor; auto.
    - unfold grant_later; cbn. repeat split; auto using tokens_later_refl; lia.
  Qed.
  Lemma keeps_revoke_obj l : keeps e now (upd_obj l revoke_obj).
  Proof. apply upd_obj_spec; auto. intros s o _ _ _. apply revoke_obj_upd. Qed.

  (** *** Deleting *)
  Lemma keeps_db_del k : keeps e now (db_del k).
  Proof.
    intros s r s' I _ E. unfold db_del in E. destruct (dget (s_db s) k).
    - injection E as <- <-. split; [|split; auto; apply later_db; auto].
      apply inv_db; auto; [apply ddel_keys_nodup, I| |].
      + intros u c g l S D. left. apply dget_ddel_sub in D; [apply D|apply I].
      + intros k' l D. left. apply dget_ddel_sub in D; [apply D|apply I].
    - injection E as <- <-. split; auto. split; auto. apply st_later_refl.
  Qed.
  Lemma keeps_db_put k l : (forall u c g, separable [u; c; g] -> session_key [u; c; g] <> k) ->
    spec e now (is_info l) (db_put k l) (fun _ _ => True).
  Proof.
    intros H. apply db_put_spec; auto.
    - intros s _ _ u c g S E. destruct (H _ _ _ S E).
    - intros s _ Hi. apply info_stored. exact Hi.
  Qed.
  Lemma keeps_discard k : keeps e now (db_discard k).
  Proof.
    unfold db_discard. apply keeps_bind; [apply keeps_reader, reader_lookup|].
    intros [?|]; [apply keeps_db_del|apply keeps_reader, reader_ret].
  Qed.
  Lemma sremove_sub y l x : In x (sremove y l) -> In x l.
  Proof. induction l as [|z l IH]; cbn; auto. destruct (String.eqb y z); cbn; intuition. Qed.
  Lemma keeps_set_sub l f : (forall i x, In x (f i) -> In x (si_sub i)) -> keeps e now (upd_obj l (on_info (fun i => si_set_sub (f i) i))).
  Proof. intros F. apply info_upd_spec; [intros i; unfold info_later; cbn; auto|]. cbn. auto. Qed.

End Specs.
