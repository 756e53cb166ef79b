(** What a call can revoke and whose use it can count. *)
From Verif Require Import M_Base M_Types M_Codec M_Grant M_Env M_Session M_Claims M_Handler
  M_Authz M_TokenEP M_PKCE M_AuthzEP M_Info M_Logout M_History S_Codec S_Grant S_Store S_History
  L_Base L_Codec L_Monad L_Grant L_Claims L_Store L_Hist1 L_Hist2 L_Hist3 L_Hist4 L_Hist5 L_Hist6 L_Emit.

(** What identifies a grant. *)
Definition ident (g g' : grant) : Prop :=
  g_id g' = g_id g /\ g_areq g' = g_areq g /\ g_aevent g' = g_aevent g /\ g_sub g' = g_sub g.
Lemma ident_refl g : ident g g.
Proof. repeat split. Qed.
Lemma ident_trans a b c : ident a b -> ident b c -> ident a c.
Proof. intros (A & B & C & D) (A' & B' & C' & D'). repeat split; congruence. Qed.
Lemma ident_belongs e g g' u c : ident g g' -> belongs e g u c -> belongs e g' u c.
Proof. intros (_ & A & B & C) (ar & ae & E). exists ar, ae. rewrite A, B, C. exact E. Qed.

Section Calm.
  (** [RG]: grants that may get revoked; [RT]: tokens, by record and position,
      that may get revoked; [RU]: tokens whose use may be counted. *)
  Variables (RG : grant -> Prop) (RT RU : nat -> nat -> Prop).
  Hypothesis RGi : forall g g', ident g g' -> RG g -> RG g'.

  Definition kept (s : st) (l : nat) (g' : grant) : Prop :=
    (g_revoked g' = true -> RG g' \/ exists g, hp s l = Some (OGrant g) /\ ident g g' /\ g_revoked g = true)
    /\ (forall i t', nth_error (g_tokens g') i = Some t' ->
          (t_revoked t' = true -> RT l i \/ exists g t, hp s l = Some (OGrant g) /\ nth_error (g_tokens g) i = Some t
             /\ t_revoked t = true)
          /\ (t_used t' <> 0%Z -> RU l i \/ exists g t, hp s l = Some (OGrant g) /\ nth_error (g_tokens g) i = Some t
             /\ t_used t <> 0%Z)).
  Definition calm {A} (m : M st A) : Prop :=
    forall s r s', m s = (r, s') -> forall l g', hp s' l = Some (OGrant g') -> kept s l g'.

  Lemma kept_here s l g : hp s l = Some (OGrant g) -> kept s l g.
  Proof.
    intros H. split.
    - intros R. right. exists g. split; auto. split; auto. apply ident_refl.
    - intros i t N. split; intros R; right; exists g, t; auto.
  Qed.
  Lemma kept_same s s1 l g : s_heap s1 = s_heap s -> kept s1 l g -> kept s l g.
  Proof. unfold kept, hp. intros ->. auto. Qed.
  Lemma kept_trans s s1 l g2 :
    (forall l g, hp s1 l = Some (OGrant g) -> kept s l g) -> kept s1 l g2 -> kept s l g2.
  Proof.
    intros K [A B]. split.
    - intros R. destruct (A R) as [X|(g & H & Ig & Rg)]; auto.
      destruct (K _ _ H) as [A0 _]. destruct (A0 Rg) as [X|(g0 & H0 & I0 & R0)].
      + left. eapply RGi; eauto.
      + right. exists g0. split; auto. split; auto. eapply ident_trans; eauto.
    - intros i t' N. destruct (B i t' N) as [B1 B2]. split; intros R.
      + destruct (B1 R) as [X|(g & t & H & Nt & Rt)]; auto.
        destruct (K _ _ H) as [_ K0]. apply (proj1 (K0 _ _ Nt) Rt).
      + destruct (B2 R) as [X|(g & t & H & Nt & Rt)]; auto.
        destruct (K _ _ H) as [_ K0]. apply (proj2 (K0 _ _ Nt) Rt).
  Qed.

  Lemma ca_reader {A} (m : M st A) : reader m -> calm m.
  Proof. intros H s r s' E l g' K. apply H in E. subst. now apply kept_here. Qed.
  Lemma ca_quiet {A} (m : M st A) : quietm m -> calm m.
  Proof.
    intros H s r s' E l g' K. destruct (H _ _ _ E) as (X & _). apply kept_here. unfold hp in *. now rewrite <- X.
  Qed.
  Lemma ca_bind {A B} (m : M st A) (f : A -> M st B) : calm m -> (forall a, calm (f a)) -> calm (bind m f).
  Proof.
    intros H K s r s' E l g' X. apply bind_inv in E as [(a & s1 & E1 & E2)|(x & E1 & _)].
    - eapply kept_trans; [|eapply K; eauto]. intros l1 g Hg. eapply H; eauto.
    - eapply H; eauto.
  Qed.
  Lemma ca_catch {A} (m : M st A) h : calm m -> (forall x k, h x = Some k -> calm k) -> calm (catch m h).
  Proof.
    intros H K s r s' E l g' X.
    apply catch_inv in E as [(a & E1 & ->)|[(x & s1 & k & E1 & E2 & E3)|(x & E1 & _ & ->)]].
    - eapply H; eauto.
    - eapply kept_trans; [|eapply K; eauto]. intros l1 g Hg. eapply H; eauto.
    - eapply H; eauto.
  Qed.
  Lemma ca_ret {A} (a : A) : calm (ret a).
  Proof. apply ca_reader, reader_ret. Qed.
  Lemma ca_raise {A} x : calm (@raise st A x).
  Proof. apply ca_reader, reader_raise. Qed.
  Lemma ca_lift {A} (x : res A) : calm (lift x).
  Proof. apply ca_reader, reader_lift. Qed.
  Lemma ca_need {A} (x : option A) : calm (need x).
  Proof. apply ca_reader, reader_need. Qed.

  Lemma ca_heap {A} (m : M st A) : (forall s r s', m s = (r, s') -> s_heap s' = s_heap s) -> calm m.
  Proof. intros H s r s' E l g' X. apply kept_here. unfold hp in *. now rewrite <- (H _ _ _ E). Qed.
  Lemma ca_put k l : calm (db_put k l).
  Proof. apply ca_heap. intros s r s' E. unfold db_put in E. injection E as _ <-. reflexivity. Qed.
  Lemma ca_del k : calm (db_del k).
  Proof. apply ca_heap. intros s r s' E. unfold db_del in E. destruct (dget _ _); injection E as _ <-; reflexivity. Qed.
  Lemma ca_new o : match o with OGrant g => g_revoked g = false /\ g_tokens g = [] | _ => True end ->
    calm (new_obj o).
  Proof.
    intros K s r s' E l g' X. unfold new_obj in E. injection E as _ <-.
    destruct (Nat.eq_dec l (List.length (s_heap s))) as [->|N].
    - rewrite hp_app_same in X. injection X as ->. destruct K as (K0 & K1). split; [congruence|].
      rewrite K1. intros [|i] t; discriminate.
    - rewrite hp_app_other in X by auto. now apply kept_here.
  Qed.
  Lemma ca_info l f : calm (upd_obj l (on_info f)).
  Proof.
    intros s r s' E l' g' X. unfold upd_obj in E. injection E as _ <-.
    destruct (Nat.eq_dec l' l) as [->|N]; [|rewrite hp_upd_other in X by auto; now apply kept_here].
    rewrite hp_upd_same in X. destruct (hp s l) as [o|] eqn:Ho; [|discriminate]. cbn in X.
    destruct o; cbn in X; try discriminate. injection X as <-. now apply kept_here.
  Qed.
  Lemma ca_grant l f :
    (forall g, ident g (f g) /\ (g_revoked (f g) = true -> g_revoked g = true)
       /\ forall i t', nth_error (g_tokens (f g)) i = Some t' ->
            (t_revoked t' = true -> RT l i \/ exists t, nth_error (g_tokens g) i = Some t /\ t_revoked t = true)
            /\ (t_used t' <> 0%Z -> RU l i \/ exists t, nth_error (g_tokens g) i = Some t /\ t_used t <> 0%Z)) ->
    calm (upd_obj l (on_grant f)).
  Proof.
    intros K s r s' E l' g' X. unfold upd_obj in E. injection E as _ <-.
    destruct (Nat.eq_dec l' l) as [->|N]; [|rewrite hp_upd_other in X by auto; now apply kept_here].
    rewrite hp_upd_same in X. destruct (hp s l) as [o|] eqn:Ho; [|discriminate]. cbn in X.
    destruct o as [i|g|]; cbn in X; try discriminate. injection X as <-.
    destruct (K g) as (A & B & C). split.
    - intros R. right. exists g. auto.
    - intros i t' N. destruct (C i t' N) as [C1 C2]. split; intros R.
      + destruct (C1 R) as [Y|(t & Nt & Rt)]; auto. right. exists g, t. auto.
      + destruct (C2 R) as [Y|(t & Nt & Rt)]; auto. right. exists g, t. auto.
  Qed.
  Lemma ca_grant_same l f :
    (forall g, ident g (f g) /\ g_revoked (f g) = g_revoked g /\ g_tokens (f g) = g_tokens g) ->
    calm (upd_obj l (on_grant f)).
  Proof.
    intros K. apply ca_grant. intros g. destruct (K g) as (A & B & C). split; auto. split; [congruence|].
    rewrite C. intros i t' N. split; intros R; right; eauto.
  Qed.
  Lemma ca_upd_tok l i f :
    (forall t, (t_revoked (f t) = true -> t_revoked t = true \/ RT l i)
       /\ (t_used (f t) <> 0%Z -> t_used t <> 0%Z \/ RU l i)) ->
    calm (upd_tok l i f).
  Proof.
    intros K. apply ca_grant. intros g. cbn. split; [repeat split|]. split; auto. intros j t' N.
    destruct (Nat.eq_dec j i) as [->|D].
    - rewrite nth_upd_nth_same in N. destruct (nth_error (g_tokens g) i) as [t|] eqn:E; [|discriminate].
      cbn in N. injection N as <-. destruct (K t) as [K1 K2]. split; intros R.
      + destruct (K1 R); auto. right. eauto.
      + destruct (K2 R); auto. right. eauto.
    - rewrite nth_upd_nth_other in N by auto. split; intros R; right; eauto.
  Qed.

  Lemma ca_mint e now l sid tc based rules scope ttype ia :
    calm (mint e now l sid tc based rules scope ttype ia).
  Proof.
    intros s r s' E l' g' X.
    apply mint_run in E as [(Q & _)|(g & t & n & H & _ & Hp & _ & _ & _ & _ & M & _)].
    - apply kept_here. destruct Q as (Q & _). unfold hp in *. now rewrite <- Q.
    - assert (s' = mk_st (upd_nth l (add_tok t) (s_heap s)) (s_db s') (s_ctr s') (s_always s')) as Es.
      { destruct s'; cbn in *; congruence. }
      rewrite Es in X. destruct (Nat.eq_dec l' l) as [->|N].
      + rewrite hp_upd_same, H in X. cbn in X. injection X as <-. split.
        { intros R. right. exists g. cbn in R. split; auto. split; auto. repeat split. }
        cbn. intros i t' Nt. destruct (Nat.lt_ge_cases i (List.length (g_tokens g))) as [Lt|Ge].
        * rewrite nth_error_app1 in Nt by auto. split; intros R; right; exists g, t'; auto.
        * rewrite nth_error_app2 in Nt by auto. destruct (i - List.length (g_tokens g)) as [|[|k]]; try discriminate.
          cbn in Nt. injection Nt as <-. destruct M as (_ & _ & _ & _ & _ & Rv & Us & _). split; congruence.
      + rewrite hp_upd_other in X by auto. now apply kept_here.
  Qed.
End Calm.

Create HintDb ca.
Global Hint Resolve ca_ret ca_raise ca_lift ca_need ca_put ca_del ca_info ca_mint : ca.
Ltac ca1 :=
  match goal with
  | |- forall _, _ => intro
  | |- calm _ _ _ (bind _ _) => apply ca_bind; [assumption| |]
  | |- calm _ _ _ (catch _ _) => apply ca_catch; [assumption| |let H := fresh in intros ? ? H; handler H]
  | |- calm _ _ _ (match ?x with _ => _ end) => destruct x
  | |- calm _ _ _ (let _ := _ in _) => cbv zeta
  | |- calm _ _ _ _ => solve [auto with ca | apply ca_reader; auto with emr | apply ca_quiet; auto with emq]
  end.
Ltac ca := repeat ca1.

Section Calls.
  Variables (RG : grant -> Prop) (RT RU : nat -> nat -> Prop).
  Hypothesis RGi : forall g g', ident g g' -> RG g -> RG g'.
  Notation calm := (calm RG RT RU).

  Lemma ca_get_or k i : calm (db_get_or k i).
  Proof. unfold db_get_or. ca. apply ca_new. exact Logic.I. Qed.
  Hint Resolve ca_get_or : ca.
  Lemma ca_db_set p l : calm (db_set p l).
  Proof. unfold db_set. ca. Qed.
  Hint Resolve ca_db_set : ca.
  Lemma ca_mgr_put e sid l : calm (mgr_put e sid l).
  Proof. unfold mgr_put. ca. Qed.
  Hint Resolve ca_mgr_put : ca.
  Lemma ca_discard k : calm (db_discard k).
  Proof. unfold db_discard. ca. Qed.
  Hint Resolve ca_discard : ca.
  Lemma ca_delete p : calm (db_delete p).
  Proof. unfold db_delete. ca. Qed.
  Hint Resolve ca_delete : ca.
  Lemma ca_remove e sid : calm (remove_session e sid).
  Proof. unfold remove_session. ca. Qed.
  Lemma ca_flush : calm flush.
  Proof. apply ca_heap. intros s r s' E. unfold flush in E. injection E as _ <-. reflexivity. Qed.
  Lemma ca_new_none : calm (new_obj ONone).
  Proof. apply ca_new. exact Logic.I. Qed.
  Lemma ca_set_exp l i x : calm (upd_tok l i (tok_set_exp x)).
  Proof. apply ca_upd_tok. cbn. auto. Qed.
  Lemma ca_set_rules l i x : calm (upd_tok l i (tok_set_rules x)).
  Proof. apply ca_upd_tok. cbn. auto. Qed.
  Lemma ca_register l i : RU l i -> calm (upd_tok l i tok_register).
  Proof. intros H. apply ca_upd_tok. cbn. auto. Qed.
  Lemma ca_set_revoked l i : RT l i -> calm (upd_tok l i tok_set_revoked).
  Proof. intros H. apply ca_upd_tok. cbn. auto. Qed.
  Lemma ca_set_extra l (f : grant -> dict string) : calm (upd_obj l (on_grant (fun g => g_set_extra (f g) g))).
  Proof. apply ca_grant_same. intros g. repeat split. Qed.
  Hint Resolve ca_new_none ca_set_exp ca_set_rules ca_register ca_set_revoked ca_set_extra : ca.
  Lemma ca_mint_value e now l sid tc b sc ty : calm (mint_value e now l sid tc b sc ty).
  Proof. unfold mint_value, ep_mint. ca. Qed.
  Lemma ca_rotated e now l sid b sc : calm (mint_rotated e now l sid b sc).
  Proof. unfold mint_rotated, ep_mint. ca. Qed.
  Hint Resolve ca_mint_value ca_rotated : ca.

  (** ** Authorization endpoint *)
  Lemma ca_new_grant now ar ae sub gid rules sc : calm (new_obj (OGrant (new_grant now ar ae sub gid rules sc))).
  Proof. apply ca_new. split; reflexivity. Qed.
  Hint Resolve ca_new_grant : ca.
  Lemma ca_create_grant e now ae ar u c rules sc : calm (create_grant e now ae ar u c rules sc).
  Proof. unfold create_grant. ca. Qed.
  Hint Resolve ca_create_grant : ca.
  Lemma ca_new_info i : calm (new_obj (OInfo i)).
  Proof. apply ca_new. exact Logic.I. Qed.
  Hint Resolve ca_new_info : ca.
  Lemma ca_create_session e now ar u acr x : calm (ep_create_session e now ar u acr x).
  Proof. unfold ep_create_session, create_session. ca. Qed.
  Hint Resolve ca_create_session : ca.
  Lemma ca_setup e now ar ru acr x ans : calm (setup_auth e now ar ru acr x ans).
  Proof. unfold setup_auth. ca. Qed.
  Hint Resolve ca_setup : ca.
  Lemma ca_authz e now sid ar : calm (authz e now sid ar).
  Proof.
    unfold authz. ca; apply ca_grant_same; intros g; try solve [repeat split].
    unfold apply_gconf. destruct (gc_exp (e_authz e)), (gc_rules (e_authz e)), (gc_scope (e_authz e)); repeat split.
  Qed.
  Hint Resolve ca_authz : ca.
  Lemma ca_az_value e now l sid tc sc ia : calm (az_value e now l sid tc sc ia).
  Proof. unfold az_value, az_mint. ca. Qed.
  Hint Resolve ca_az_value : ca.
  Lemma ca_tokens e now ar sid l sc : calm (authn_tokens e now ar sid l sc).
  Proof. unfold authn_tokens, except_jwe. ca. Qed.
  Hint Resolve ca_tokens : ca.
  Lemma ca_response e now ar sid : calm (create_authn_response e now ar sid).
  Proof.
    unfold create_authn_response.
    assert (forall rt, calm (i <- get_session_info e sid ;;
      let scope := match ar_scope ar with
                   | Some (x :: r) => Some (filter_scopes e (x :: r) (ss_client i))
                   | _ => None end in
      r <- authn_tokens e now ar (ss_sid i) (ss_grant i) scope ;;
      ret (r, negb (smem "code" rt && forallb (String.eqb "code") rt)))) as K by (intros; ca).
    remember (ar_response_type ar) as rt. clear Heqrt.
    repeat (match goal with |- L_Cause.calm _ _ _ (match ?a with _ => _ end) =>
      first [is_var a; destruct a; try exact (K _) | fail 1] end).
    apply ca_ret.
  Qed.
  Hint Resolve ca_response : ca.
  Lemma ca_post e now ar sid uri : calm (post_authentication e now ar sid uri).
  Proof. unfold post_authentication. ca. Qed.
  Hint Resolve ca_post : ca.
  Lemma ca_part2 e now ifr ar sid uri : calm (authz_part2 e now ifr ar sid uri).
  Proof. unfold authz_part2. ca. Qed.
  Hint Resolve ca_part2 : ca.
  Lemma ca_login e now ifr ar uid acr x uri : calm (login e now ifr ar uid acr x uri).
  Proof. unfold login. ca. Qed.
  Lemma ca_authorize e now deny ifr ar ru acr x ans uri : calm (authorize e now deny ifr ar ru acr x ans uri).
  Proof. unfold authorize. ca. Qed.
End Calls.
