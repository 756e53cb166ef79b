(** What is stored stays there as long as nothing is deleted: proofs. *)
From Verif Require Import M_Base M_Types M_Codec M_Grant M_Env M_Session M_Claims M_Handler
  M_Authz M_TokenEP M_PKCE M_AuthzEP M_Info M_Logout M_History S_Codec S_Grant S_Store S_History S_Logout S_Last
  L_Base L_Codec L_Monad L_Grant L_Claims L_Store L_Hist1 L_Hist2 L_Hist3 L_Hist4 L_Hist5 L_Hist6 L_Emit
  L_Hist7 L_Hist8 M_Dump L_Dump L_Logout L_Lasting L_PKCE L_Answer.

(** ** No key is lost, and records name no fewer sessions *)
Definition wider (s s' : st) : Prop :=
  (forall l i, hp s l = Some (OInfo i) -> exists i', hp s' l = Some (OInfo i') /\ incl (si_sub i) (si_sub i'))
  /\ (forall k, dget (s_db s) k <> None -> dget (s_db s') k <> None).
Lemma wider_refl s : wider s s.
Proof. split; auto. intros l i H. exists i. split; [auto|apply incl_refl]. Qed.
Lemma wider_trans a b c : wider a b -> wider b c -> wider a c.
Proof.
  intros [A1 A2] [B1 B2]. split; auto. intros l i H. destruct (A1 _ _ H) as (i1 & H1 & I1).
  destruct (B1 _ _ H1) as (i2 & H2 & I2). exists i2. split; [auto|eapply incl_tran; eauto].
Qed.
Lemma wider_same s s' : s_heap s' = s_heap s -> s_db s' = s_db s -> wider s s'.
Proof.
  intros A B. split; [|rewrite B; auto]. intros l i H. exists i. unfold hp in *. rewrite A. split; [auto|apply incl_refl].
Qed.
Lemma wider_upd s l f d c a : d = s_db s ->
  (forall i, exists i', f (OInfo i) = OInfo i' /\ incl (si_sub i) (si_sub i')) ->
  wider s (mk_st (upd_nth l f (s_heap s)) d c a).
Proof.
  intros -> K. split; [|auto]. intros l' i H. destruct (Nat.eq_dec l' l) as [->|N].
  - rewrite hp_upd_same, H. cbn. destruct (K i) as (i' & E & I). exists i'. now rewrite E.
  - rewrite hp_upd_other by auto. exists i. split; [auto|apply incl_refl].
Qed.

Definition wm {A} (m : M st A) : Prop := forall s r s', m s = (r, s') -> wider s s'.

Lemma wm_quiet {A} (m : M st A) : quietm m -> wm m.
Proof. intros H s r s' E. destruct (H _ _ _ E) as (X & Y & _). now apply wider_same. Qed.
Lemma wm_reader {A} (m : M st A) : reader m -> wm m.
Proof. intros H. apply wm_quiet. now apply reader_quiet. Qed.
Lemma wm_bind {A B} (m : M st A) (f : A -> M st B) : wm m -> (forall a, wm (f a)) -> wm (bind m f).
Proof.
  intros H K s r s' E. apply bind_inv in E as [(a & s1 & E1 & E2)|(x & E1 & ->)].
  - eapply wider_trans; [eapply H; eauto|eapply K; eauto].
  - eapply H; eauto.
Qed.
Lemma wm_catch {A} (m : M st A) h : wm m -> (forall x k, h x = Some k -> wm k) -> wm (catch m h).
Proof.
  intros H K s r s' E. apply catch_inv in E as [(a & E1 & ->)|[(x & s1 & k & E1 & E2 & E3)|(x & E1 & _ & ->)]].
  - eapply H; eauto.
  - eapply wider_trans; [eapply H; eauto|eapply K; eauto].
  - eapply H; eauto.
Qed.
Lemma wm_ret {A} (a : A) : wm (ret a).
Proof. apply wm_reader, reader_ret. Qed.
Lemma wm_raise {A} x : wm (@raise st A x).
Proof. apply wm_reader, reader_raise. Qed.
Lemma wm_lift {A} (x : res A) : wm (lift x).
Proof. apply wm_reader, reader_lift. Qed.
Lemma wm_need {A} (x : option A) : wm (need x).
Proof. apply wm_reader, reader_need. Qed.
Lemma wm_upd l f : (forall i, exists i', f (OInfo i) = OInfo i' /\ incl (si_sub i) (si_sub i')) -> wm (upd_obj l f).
Proof. intros K s r s' E. unfold upd_obj in E. injection E as _ <-. now apply wider_upd. Qed.
Lemma wm_on_grant l f : wm (upd_obj l (on_grant f)).
Proof. apply wm_upd. intros i. exists i. split; [reflexivity|apply incl_refl]. Qed.
Lemma wm_upd_tok l i f : wm (upd_tok l i f).
Proof. apply wm_on_grant. Qed.
Lemma wm_revoke l : wm (upd_obj l revoke_obj).
Proof. apply wm_upd. intros i. eexists. split; [reflexivity|apply incl_refl]. Qed.
Lemma wm_add l x : wm (upd_obj l (on_info (si_add x))).
Proof.
  apply wm_upd. intros i. eexists. split; [reflexivity|]. unfold si_add. destruct (smem x (si_sub i)); [apply incl_refl|].
  cbn. apply incl_appl, incl_refl.
Qed.
Lemma wm_new o : wm (new_obj o).
Proof.
  intros s r s' E. unfold new_obj in E. injection E as _ <-. split; [|auto]. intros l i H. exists i.
  rewrite hp_app_other; [split; [auto|apply incl_refl]|]. apply hp_lt in H. lia.
Qed.
Lemma wm_put k l : wm (db_put k l).
Proof.
  intros s r s' E. unfold db_put in E. injection E as _ <-. split.
  - intros l' i H. exists i. split; [auto|apply incl_refl].
  - intros k' H. cbn [s_db]. destruct (string_dec k' k) as [->|N]; [rewrite dget_dset_same; discriminate|].
    rewrite dget_dset_other; auto.
Qed.
Lemma wm_lookup k : wm (db_lookup k).
Proof. intros s r s' E. unfold db_lookup in E. injection E as _ <-. apply wider_refl. Qed.
Lemma wm_on_tokens l m : wm (on_tokens l m).
Proof.
  unfold on_tokens. apply wm_bind; [apply wm_reader, reader_grant_at|]. intros g. destruct (m (g_tokens g)) as [r ts].
  apply wm_bind; [apply wm_on_grant|]. intros ?. apply wm_lift.
Qed.
Lemma wm_mint e now l sid tc b rules sc ty ia : wm (mint e now l sid tc b rules sc ty ia).
Proof.
  intros s r s' E. apply mint_run in E as [(Q & _)|(g & t & n & H & _ & Hp & Hd & _)].
  - destruct Q as (X & Y & _). now apply wider_same.
  - assert (s' = mk_st (upd_nth l (add_tok t) (s_heap s)) (s_db s) (s_ctr s') (s_always s')) as ->
      by (destruct s'; cbn in *; congruence).
    apply wider_upd; auto. intros i. exists i. split; [reflexivity|apply incl_refl].
Qed.

Ltac wm1 :=
  match goal with
  | |- wm (bind _ _) => apply wm_bind
  | |- wm (catch _ _) => apply wm_catch; [|let H := fresh in intros ? ? H; handler H]
  | |- wm (match ?x with _ => _ end) => destruct x
  | |- wm (let _ := _ in _) => cbv zeta
  | |- wm _ => first [apply wm_ret | apply wm_raise | apply wm_lift | apply wm_need | apply wm_on_grant
      | apply wm_upd_tok | apply wm_revoke | apply wm_add | apply wm_new | apply wm_put | apply wm_lookup
      | apply wm_on_tokens | apply wm_mint
      | solve [auto with wm] | apply wm_reader; solve [auto with emr] | apply wm_quiet; solve [auto with emq]]
  | |- forall _, _ => intro
  end.
Ltac wm := repeat wm1.

Section Calls.
  Variable e : env.
  Lemma wm_get_or k i : wm (db_get_or k i).
  Proof. unfold db_get_or. wm. Qed.
  Hint Resolve wm_get_or : wm.
  Lemma wm_db_set p l : wm (db_set p l).
  Proof.
    unfold db_set. wm; apply wm_reader, reader_subordinate.
  Qed.
  Hint Resolve wm_db_set : wm.
  Lemma wm_mgr_put sid l : wm (mgr_put e sid l).
  Proof. unfold mgr_put. wm. Qed.
  Hint Resolve wm_mgr_put : wm.
  Lemma wm_ep_mint now l sid tc b sc ty : wm (ep_mint e now l sid tc b sc ty).
  Proof. unfold ep_mint. wm. Qed.
  Hint Resolve wm_ep_mint : wm.
  Lemma wm_mint_value now l sid tc b sc ty : wm (mint_value e now l sid tc b sc ty).
  Proof. unfold mint_value. wm. Qed.
  Lemma wm_rotated now l sid old sc : wm (mint_rotated e now l sid old sc).
  Proof. unfold mint_rotated. wm. Qed.
  Hint Resolve wm_mint_value wm_rotated : wm.
  Lemma wm_process now q issue : wm (token_process e now q issue).
  Proof. unfold token_process, code_process, refresh_process, except_minting, except_jwe. wm. Qed.
  Lemma wm_parse now cid q : wm (token_parse e now cid q).
  Proof. unfold token_parse, code_parse, refresh_parse. wm. Qed.
  Hint Resolve wm_parse : wm.
  Lemma wm_parse_all now cid q : wm (token_parse_all e now cid q).
  Proof. unfold token_parse_all, pkce_check. wm. Qed.
  Lemma wm_revoke_token sid v rec : wm (mgr_revoke_token e sid v rec).
  Proof. unfold mgr_revoke_token. wm. Qed.
  Lemma wm_revoke_grants a b gs : wm (revoke_grants a b gs).
  Proof. induction gs; cbn [revoke_grants]; wm; auto. Qed.
  Hint Resolve wm_revoke_grants : wm.
  Lemma wm_revoke_client sid : wm (revoke_client_session e sid).
  Proof. unfold revoke_client_session. wm. Qed.
  Lemma wm_revoke_grant sid : wm (revoke_grant e sid).
  Proof. unfold revoke_grant. wm. Qed.
  Hint Resolve wm_revoke_client wm_revoke_grant : wm.
  Lemma wm_clean sids : wm (clean_sessions e sids).
  Proof. induction sids; cbn [clean_sessions]; wm; auto. Qed.
  Hint Resolve wm_clean : wm.
  Lemma wm_logout now sid alla : wm (do_verified_logout e now sid alla).
  Proof. unfold do_verified_logout, logout_all_clients, logout_from_client. wm. Qed.
  Lemma wm_create_session now ae ar a b rules sc : wm (create_session e now ae ar a b rules sc).
  Proof. unfold create_session, create_grant. wm. Qed.
  Hint Resolve wm_create_session : wm.
  Lemma wm_authz now sid ar : wm (authz e now sid ar).
  Proof. unfold authz. wm. Qed.
  Lemma wm_az_value now l sid tc sc ia : wm (az_value e now l sid tc sc ia).
  Proof. unfold az_value, az_mint. wm. Qed.
  Hint Resolve wm_authz wm_az_value : wm.
  Lemma wm_tokens now ar sid l sc : wm (authn_tokens e now ar sid l sc).
  Proof. unfold authn_tokens, except_jwe. wm. Qed.
  Hint Resolve wm_tokens : wm.
  Lemma wm_response now ar sid : wm (create_authn_response e now ar sid).
  Proof. unfold create_authn_response. wm. Qed.
  Hint Resolve wm_response : wm.
  Lemma wm_post now ar sid uri : wm (post_authentication e now ar sid uri).
  Proof. unfold post_authentication. wm. Qed.
  Hint Resolve wm_post : wm.
  Lemma wm_part2 now ifr ar sid uri : wm (authz_part2 e now ifr ar sid uri).
  Proof. unfold authz_part2. wm. Qed.
  Hint Resolve wm_part2 : wm.
  Lemma wm_login now ifr ar uid acr x uri : wm (login e now ifr ar uid acr x uri).
  Proof. unfold login, ep_create_session. wm. Qed.
  Lemma wm_setup now ar ru acr x ans : wm (setup_auth e now ar ru acr x ans).
  Proof. unfold setup_auth, ep_create_session, create_grant. wm. Qed.
  Hint Resolve wm_setup : wm.
  Lemma wm_authorize now deny ifr ar ru acr x ans uri : wm (authorize e now deny ifr ar ru acr x ans uri).
  Proof. unfold authorize. wm. Qed.

  Lemma step_wider h o ev h' : ~ deletes o -> (forall now, o <> OReload now) -> step e h o = (ev, h') ->
    wider (h_st h) (h_st h').
  Proof.
    intros Nd Nr E.
    assert (forall {A} (f : res A -> event) (m : M st A), wm m -> on_st h f m = (ev, h') -> wider (h_st h) (h_st h')) as K.
    { intros A f m Km Em. unfold on_st in Em. destruct (m (h_st h)) as [r s] eqn:Er. injection Em as _ <-.
      cbn [h_st]. eapply Km; eauto. }
    destruct o; cbn [step] in E; cbn [deletes] in Nd.
    - eapply K; [|exact E]. apply wm_authorize.
    - eapply K; [|exact E]. apply wm_login.
    - destruct (token_parse_all e now cid req (h_st h)) as [r s] eqn:Ep. injection E as _ <-. cbn [h_st].
      eapply wm_parse_all; eauto.
    - destruct (nth_error (h_parsed h) i) as [q|]; [|injection E as _ <-; apply wider_refl].
      unfold on_st in E. destruct (token_process e now q issue (h_st h)) as [r s] eqn:Ep. injection E as _ <-.
      cbn [h_st]. eapply wm_process; eauto.
    - eapply K; [|exact E]. apply wm_quiet, quiet_introspect.
    - eapply K; [|exact E]. apply wm_quiet, quiet_userinfo.
    - eapply K; [|exact E]. apply wm_logout.
    - eapply K; [|exact E]. apply wm_revoke_token.
    - eapply K; [|exact E]. apply wm_revoke_grant.
    - eapply K; [|exact E]. apply wm_revoke_client.
    - tauto.
    - tauto.
    - exfalso. eapply Nr; reflexivity.
  Qed.
End Calls.

(** ** A session that is found is found until it is deleted *)
Section Found.
  Variable e : env.
  Hypothesis W : laws e.

  Lemma step_found h o ev h' u c gid l : HI e h -> proper e o -> ~ deletes o -> step e h o = (ev, h') ->
    separable [u; c; gid] -> (forall p, dec_sid e u <> Ok p) ->
    found u c gid l (h_st h) -> found u c gid l (h_st h').
  Proof.
    intros Hh Po Nd Es Sp Nu (ul & iu & cl & ic & A1 & A2 & A3 & A4 & A5 & A6 & A7).
    destruct (step_keeps e W _ _ _ _ Hh Po Es) as (Hh' & L & _).
    pose proof (inv_keys _ _ (hi_inv _ _ Hh) _ _ _ _ Sp A7) as (g & Hg & Ig & _).
    destruct (op_reload_dec o) as [(now & ->)|Nr].
    - cbn [step] in Es. unfold on_st in Es.
      destruct (reload_ok e now (h_st h) (hi_inv _ _ Hh)) as (s1 & E1 & R). rewrite E1 in Es.
      injection Es as _ <-. cbn [h_st].
      destruct (rl_get _ _ R _ _ _ A1 A2) as (ul' & B1 & B2 & _).
      destruct (rl_get _ _ R _ _ _ A4 A5) as (cl' & B3 & B4 & _).
      destruct (rl_get _ _ R _ _ _ A7 Hg) as (l' & B5 & _ & B6). rewrite (B6 _ eq_refl) in B5.
      exists ul', iu, cl', ic. repeat split; auto.
    - destruct (step_wider e _ _ _ _ Nd Nr Es) as [V1 V2].
      assert (J u c cl false (h_st h)) as Jl.
      { split; [exact A4|]. split.
        - exists ic. split; [exact A5|]. intros X. destruct (inv_sub _ _ (hi_inv _ _ Hh) _ _ _ A5 X) as [N _]. congruence.
        - exists ul, (OInfo iu). split; [exact A1|]. split; [exact A2|]. cbn. now apply smem_In. }
      assert (separable [u; c]) as Sp2 by exact (separable_prefix [u; c] [gid] Sp).
      pose proof (step_lasts e W u c cl Sp2 false (fun _ => Nu) _ _ _ _ Po Nd Nr Es Jl) as (B4 & _ & ul' & o' & B1 & B2 & U).
      destruct o' as [iu'|g'|]; cbn in U; [|discriminate|tauto].
      destruct (V1 _ _ A5) as (ic' & B5 & In5).
      assert (dget (s_db (h_st h')) (session_key [u; c; gid]) = Some l) as B7.
      { destruct (dget (s_db (h_st h')) (session_key [u; c; gid])) as [l'|] eqn:D.
        2:{ exfalso. apply (V2 (session_key [u; c; gid])); [rewrite A7; discriminate|exact D]. }
        destruct (inv_keys _ _ (hi_inv _ _ Hh') _ _ _ _ Sp D) as (g1 & Hg1 & Ig1 & _).
        destruct (st_later_grant _ _ _ _ _ L Hg) as (g2 & Hg2 & (Ig2 & _)).
        f_equal. eapply (inv_uniq _ _ (hi_inv _ _ Hh')); eauto. congruence. }
      exists ul', iu', cl, ic'. split; [exact B1|]. split; [exact B2|]. split; [now apply smem_In|].
      split; [exact B4|]. split; [exact B5|]. split; [apply smem_In, In5, smem_In; exact A6|exact B7].
  Qed.
  Lemma exec_found ops : forall h evs h' u c gid l, HI e h -> Forall (proper e) ops ->
    (forall o, In o ops -> ~ deletes o) -> exec e h ops = (evs, h') ->
    separable [u; c; gid] -> (forall p, dec_sid e u <> Ok p) ->
    found u c gid l (h_st h) -> found u c gid l (h_st h').
  Proof.
    induction ops as [|o ops IH]; intros h evs h' u c gid l Hh Po Nd E Sp Nu F; cbn in E.
    - injection E as _ <-. exact F.
    - destruct (step e h o) as [ev h1] eqn:Es. destruct (exec e h1 ops) as [evs' h2] eqn:Ee.
      injection E as _ <-. inversion Po as [|? ? P0 P1]; subst.
      destruct (step_keeps e W _ _ _ _ Hh P0 Es) as (Hh1 & _).
      apply (IH h1 evs' h2 u c gid l Hh1 P1); auto.
      + intros o' I. apply Nd. now right.
      + apply (step_found h o ev h1 u c gid l); auto. apply Nd. now left.
  Qed.

  (** A text that leads to a grant leads to it until sessions are deleted. *)
  Lemma leads_lasts ops evs h ops2 evs2 h' now v gid g u c :
    history e ops evs h -> leads_to e now h v gid ->
    Forall (proper e) ops2 -> (forall o, In o ops2 -> ~ deletes o) -> exec e h ops2 = (evs2, h') ->
    grant_of h' gid g -> belongs e g u c -> (forall p, dec_sid e u <> Ok p) ->
    forall now', read_alike e v now now' -> leads_to e now' h' v gid.
  Proof.
    intros Hi (i & s1 & E & G) Po Nd Ex (lg & Hg & Ig) Bg Nu now' Ti.
    pose proof (history_hi e W _ _ _ Hi) as Hh.
    unfold leads_to, get_session_info_by_token in *. apply bind_ok in E as (ti & s2 & E1 & E). apply lift_ok in E1 as [E1 <-].
    rewrite (Ti _ E1). unfold bind at 1, lift at 1.
    destruct (str_true (ti_sid ti)); [|discriminate]. cbn [negb] in *.
    apply bind_ok in E as (sid & s3 & Ec & E).
    assert (exists sid' s3', compatible_sid e (ti_sid ti) (h_st h') = (Ok sid', s3') /\ quiet (h_st h') s3' /\ dec_sid3 e sid' = dec_sid3 e sid)
      as (sid' & s3' & Ec' & Q3 & D).
    { unfold compatible_sid in *. destruct (Nat.eqb _ _).
      - unfold enc_sid in *. unfold bind, tick, ret in Ec. injection Ec as <- <-.
        do 2 eexists. split; [reflexivity|]. split; [split; [reflexivity|split; [reflexivity|cbn; lia]]|].
        unfold dec_sid3. erewrite dec_any_nonce by exact W. reflexivity.
      - apply ret_ok in Ec as [<- <-]. exists (ti_sid ti), (h_st h'). split; [reflexivity|]. split; [apply quiet_refl|reflexivity]. }
    rewrite (bind_run _ _ _ _ _ Ec').
    pose proof (quiet_compatible _ _ _ _ _ Ec) as (Q41 & Q42 & _).
    unfold get_session_info in *. apply bind_ok in E as ([[u1 c1] g1] & s4 & Ed & E). apply lift_ok in Ed as [Ed <-].
    apply bind_ok in E as (l & s5 & Eg & E). apply ret_ok in E as [<- <-]. cbn [ss_gid] in G. subst g1.
    pose proof (reader_db_get _ _ _ _ Eg). subst s5. apply get_found in Eg.
    assert (separable [u1; c1; gid]) as Sp by (eapply dec_sid3_separable; eauto).
    assert (found u1 c1 gid l (h_st h)) as F by (eapply found_same; [| |exact Eg]; congruence).
    assert (u1 = u) as ->.
    { destruct F as (ul & iu & cl & ic & A1 & A2 & A3 & A4 & A5 & A6 & A7).
      pose proof (inv_keys _ _ (hi_inv _ _ Hh) _ _ _ _ Sp A7) as Ow.
      destruct (exec_keeps e W (fun x => owns e (h_st x) l u1 c1 gid) ops2 h evs2 h') as (Hh' & g1 & Hg1 & Ig1 & Bg1); auto.
      { intros h1 o ev h2 _ _ _ L. eapply owns_later; eauto. }
      assert (l = lg) as -> by (eapply (inv_uniq _ _ (hi_inv _ _ Hh')); eauto; congruence).
      unfold hp in Hg1. rewrite Hg in Hg1. injection Hg1 as <-.
      destruct Bg1 as (ar1 & ae1 & X1 & X2 & X3 & X4 & X5), Bg as (ar2 & ae2 & Y1 & Y2 & Y3 & Y4 & Y5). congruence. }
    pose proof (exec_found _ _ _ _ _ _ _ _ Hh Po Nd Ex Sp Nu F) as F'.
    exists (mk_sess sid' u c1 gid l), s3'. split; [|reflexivity]. rewrite D, Ed. unfold bind, lift.
    rewrite (found_get u c1 gid l s3'); [reflexivity|]. destruct Q3 as (Q31 & Q32 & _).
    eapply found_same; [| |exact F']; congruence.
  Qed.
End Found.
