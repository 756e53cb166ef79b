(** Where tokens and grants come from: the classes of the tokens a call can add
    and the requests of the grants it can add. *)
From Verif Require Import M_Base M_Types M_Codec M_Grant M_Env M_Session M_Claims M_Handler
  M_Authz M_TokenEP M_PKCE M_AuthzEP M_Info M_Logout M_History S_Codec S_Grant S_Store S_History
  L_Base L_Codec L_Monad L_Grant L_Claims L_Store L_Hist1 L_Hist2 L_Hist3 L_Hist4 L_Hist5 L_Hist6.

Section Emit.
  (** [T]: classes of added tokens; [G], [U]: request of added grants, and their
      authentication, if it is not that of a grant that was there. *)
  Variables (T : string -> Prop) (G : option areq -> Prop) (U : option aevent -> Prop).

  (** [g'] comes from a grant of [s], or is an added one. *)
  Definition old_token (ts : list token) (t' : token) : Prop :=
    exists t, In t ts /\ t_value t = t_value t' /\ t_class t = t_class t'.
  Definition from (s : st) (l : nat) (g' : grant) : Prop :=
    (exists g, hp s l = Some (OGrant g) /\ g_areq g' = g_areq g /\ g_aevent g' = g_aevent g
       /\ forall t', In t' (g_tokens g') -> old_token (g_tokens g) t' \/ T (t_class t'))
    \/ (G (g_areq g')
        /\ (U (g_aevent g') \/ exists l0 g0, hp s l0 = Some (OGrant g0) /\ g_aevent g0 = g_aevent g')
        /\ forall t', In t' (g_tokens g') -> T (t_class t')).
  Definition emits {A} (m : M st A) : Prop :=
    forall s r s', m s = (r, s') -> forall l g', hp s' l = Some (OGrant g') -> from s l g'.

  Lemma from_here s l g : hp s l = Some (OGrant g) -> from s l g.
  Proof. intros H. left. exists g. split; auto. split; auto. split; auto. intros t I. left. exists t. auto. Qed.
  Lemma from_event s l g : from s l g ->
    U (g_aevent g) \/ exists l0 g0, hp s l0 = Some (OGrant g0) /\ g_aevent g0 = g_aevent g.
  Proof. intros [(g0 & H & _ & B & _)|(_ & X & _)]; auto. right. exists l, g0. auto. Qed.
  Lemma from_trans s s1 l g2 :
    (forall l g, hp s1 l = Some (OGrant g) -> from s l g) -> from s1 l g2 -> from s l g2.
  Proof.
    intros K [(g & H & A & B & C)|(A & Bu & B)].
    - destruct (K l g H) as [(g0 & H0 & A0 & B0 & C0)|(A0 & U0 & B0)].
      + left. exists g0. split; auto. split; [congruence|]. split; [congruence|].
        intros t' I. destruct (C t' I) as [(t & It & V & Cl)|X]; auto.
        destruct (C0 t It) as [(u & Iu & Vu & Cu)|X].
        * left. exists u. split; auto. split; congruence.
        * right. congruence.
      + right. rewrite A, B. split; auto. split; auto. intros t' I.
        destruct (C t' I) as [(t & It & V & Cl)|X]; auto. rewrite <- Cl. auto.
    - right. split; auto. split; auto. destruct Bu as [X|(l0 & g0 & H0 & X)]; auto.
      rewrite <- X. eapply from_event, K; eauto.
  Qed.

  Lemma em_reader {A} (m : M st A) : reader m -> emits m.
  Proof. intros H s r s' E l g' K. apply H in E. subst. now apply from_here. Qed.
  Lemma em_quiet {A} (m : M st A) : quietm m -> emits m.
  Proof.
    intros H s r s' E l g' K. destruct (H _ _ _ E) as (X & _). apply from_here. unfold hp in *. now rewrite <- X.
  Qed.
  Lemma em_bind {A B} (m : M st A) (f : A -> M st B) : emits m -> (forall a, emits (f a)) -> emits (bind m f).
  Proof.
    intros H K s r s' E l g' X. apply bind_inv in E as [(a & s1 & E1 & E2)|(x & E1 & _)].
    - eapply from_trans; [|eapply K; eauto]. intros l1 g Hg. eapply H; eauto.
    - eapply H; eauto.
  Qed.
  Lemma em_bind' {A B} (m : M st A) (f : A -> M st B) : emits m ->
    (forall a, (exists s s', m s = (Ok a, s')) -> emits (f a)) -> emits (bind m f).
  Proof.
    intros H K s r s' E l g' X. apply bind_inv in E as [(a & s1 & E1 & E2)|(x & E1 & _)].
    - eapply from_trans; [|eapply K; eauto]. intros l1 g Hg. eapply H; eauto.
    - eapply H; eauto.
  Qed.
  Lemma em_catch {A} (m : M st A) h : emits m -> (forall x k, h x = Some k -> emits k) -> emits (catch m h).
  Proof.
    intros H K s r s' E l g' X.
    apply catch_inv in E as [(a & E1 & ->)|[(x & s1 & k & E1 & E2 & E3)|(x & E1 & _ & ->)]].
    - eapply H; eauto.
    - eapply from_trans; [|eapply K; eauto]. intros l1 g Hg. eapply H; eauto.
    - eapply H; eauto.
  Qed.
  Lemma em_ret {A} (a : A) : emits (ret a).
  Proof. apply em_reader, reader_ret. Qed.
  Lemma em_raise {A} x : emits (@raise st A x).
  Proof. apply em_reader, reader_raise. Qed.
  Lemma em_lift {A} (x : res A) : emits (lift x).
  Proof. apply em_reader, reader_lift. Qed.
  Lemma em_need {A} (x : option A) : emits (need x).
  Proof. apply em_reader, reader_need. Qed.

  (** Heap the same. *)
  Lemma em_heap {A} (m : M st A) : (forall s r s', m s = (r, s') -> s_heap s' = s_heap s) -> emits m.
  Proof. intros H s r s' E l g' X. apply from_here. unfold hp in *. now rewrite <- (H _ _ _ E). Qed.
  Lemma em_put k l : emits (db_put k l).
  Proof. apply em_heap. intros s r s' E. unfold db_put in E. injection E as _ <-. reflexivity. Qed.
  Lemma em_del k : emits (db_del k).
  Proof. apply em_heap. intros s r s' E. unfold db_del in E. destruct (dget _ _); injection E as _ <-; reflexivity. Qed.
  Lemma em_new o : match o with OGrant g => G (g_areq g) /\ U (g_aevent g) /\ g_tokens g = [] | _ => True end ->
    emits (new_obj o).
  Proof.
    intros K s r s' E l g' X. unfold new_obj in E. injection E as _ <-.
    destruct (Nat.eq_dec l (List.length (s_heap s))) as [->|N].
    - rewrite hp_app_same in X. injection X as ->. destruct K as (K0 & Ku & K1). right. split; auto. split; auto.
      rewrite K1. intros t [].
    - rewrite hp_app_other in X by auto. now apply from_here.
  Qed.
  Lemma em_upd l f :
    (forall o g', f o = OGrant g' -> exists g, o = OGrant g /\ g_areq g' = g_areq g /\ g_aevent g' = g_aevent g
        /\ forall t', In t' (g_tokens g') -> old_token (g_tokens g) t' \/ T (t_class t')) ->
    emits (upd_obj l f).
  Proof.
    intros K s r s' E l' g' X. unfold upd_obj in E. injection E as _ <-.
    destruct (Nat.eq_dec l' l) as [->|N]; [|rewrite hp_upd_other in X by auto; now apply from_here].
    rewrite hp_upd_same in X. destruct (hp s l) as [o|] eqn:Ho; [|discriminate]. cbn in X.
    injection X as X. destruct (K _ _ X) as (g & -> & Y). left. exists g. auto.
  Qed.
  Lemma em_info l f : emits (upd_obj l (on_info f)).
  Proof.
    apply em_upd. intros o g' E. destruct o; cbn in E; try discriminate. injection E as ->.
    exists g'. split; auto. split; auto. split; auto. intros t I. left. exists t. auto.
  Qed.
  Lemma em_grant l f :
    (forall g, g_areq (f g) = g_areq g /\ g_aevent (f g) = g_aevent g
       /\ forall t', In t' (g_tokens (f g)) -> old_token (g_tokens g) t' \/ T (t_class t')) ->
    emits (upd_obj l (on_grant f)).
  Proof.
    intros K. apply em_upd. intros o g' E. destruct o; cbn in E; try discriminate. injection E as <-.
    destruct (K g) as (A & B & C). exists g. auto.
  Qed.
  (** Tokens untouched. *)
  Lemma em_grant_same l f :
    (forall g, g_areq (f g) = g_areq g /\ g_aevent (f g) = g_aevent g /\ g_tokens (f g) = g_tokens g) ->
    emits (upd_obj l (on_grant f)).
  Proof.
    intros K. apply em_grant. intros g. destruct (K g) as (A & B & C). split; auto. split; auto.
    rewrite C. intros t I. left. exists t. auto.
  Qed.
  Lemma em_revoke l : emits (upd_obj l revoke_obj).
  Proof.
    apply em_upd. intros o g' E. destruct o; cbn in E; try discriminate. injection E as <-.
    exists g. split; auto. split; auto. split; auto. intros t I. left. exists t. auto.
  Qed.
  Lemma em_upd_tok l i f : (forall t, t_value (f t) = t_value t /\ t_class (f t) = t_class t) ->
    emits (upd_tok l i f).
  Proof.
    intros K. apply em_grant. intros g. cbn. split; auto. split; auto. intros t' I. left.
    apply In_nth_error in I as [j N]. destruct (Nat.eq_dec j i) as [->|M].
    - rewrite nth_upd_nth_same in N. destruct (nth_error (g_tokens g) i) as [t|] eqn:E; [|discriminate].
      cbn in N. injection N as <-. exists t. destruct (K t). split; [eapply nth_error_In; eauto|auto].
    - rewrite nth_upd_nth_other in N by auto. exists t'. split; [eapply nth_error_In; eauto|auto].
  Qed.
  Lemma em_on_tokens l m : flags m -> emits (on_tokens l m).
  Proof.
    intros F s r s' E l' g' X. unfold on_tokens in E.
    apply bind_inv in E as [(g & s1 & E1 & E2)|(x & E1 & _)].
    - apply grant_at_ok in E1 as [-> Hl]. destruct (m (g_tokens g)) as [r0 ts] eqn:Em.
      apply bind_inv in E2 as [([] & s2 & E2 & E3)|(x & E2 & _)].
      + apply lift_inv in E3 as [_ <-]. unfold upd_obj in E2. injection E2 as <-.
        destruct (Nat.eq_dec l' l) as [->|N]; [|rewrite hp_upd_other in X by auto; now apply from_here].
        rewrite hp_upd_same, Hl in X. cbn in X. injection X as <-. left. exists g. cbn. split; auto.
        split; auto. split; auto. intros t' I. left. destruct (F _ _ _ Em) as (Sk & Tl).
        apply In_nth_error in I as [j N]. assert (j < List.length ts) as Lj by (apply nth_error_Some; congruence).
        assert (List.length ts = List.length (g_tokens g)) as Ln.
        { apply (f_equal (@List.length _)) in Sk. unfold skel in Sk. now rewrite !map_length in Sk. }
        destruct (nth_error (g_tokens g) j) as [t|] eqn:Et; [|apply nth_error_None in Et; lia].
        destruct (Tl _ _ Et) as (t2 & N2 & (C2 & V2 & _)). rewrite N in N2. injection N2 as <-.
        exists t. split; [eapply nth_error_In; eauto|auto].
      + unfold upd_obj in E2. discriminate.
    - pose proof (reader_grant_at l _ _ _ E1). subst. now apply from_here.
  Qed.

  Lemma em_mint e now l sid tc based rules scope ttype ia : T tc ->
    emits (mint e now l sid tc based rules scope ttype ia).
  Proof.
    intros Tc s r s' E l' g' X.
    apply mint_run in E as [(Q & _)|(g & t & n & H & _ & Hp & _ & _ & _ & _ & M & _)].
    - apply from_here. destruct Q as (Q & _). unfold hp in *. now rewrite <- Q.
    - assert (s' = mk_st (upd_nth l (add_tok t) (s_heap s)) (s_db s') (s_ctr s') (s_always s')) as Es.
      { destruct s'; cbn in *; congruence. }
      rewrite Es in X. destruct (Nat.eq_dec l' l) as [->|N].
      + rewrite hp_upd_same, H in X. cbn in X. injection X as <-. left. exists g. cbn. split; auto.
        split; auto. split; auto. intros t' I. apply in_app_or in I as [I|[<-|[]]].
        * left. exists t'. auto.
        * right. destruct M as (_ & -> & _). exact Tc.
      + rewrite hp_upd_other in X by auto. now apply from_here.
  Qed.
End Emit.

Create HintDb em.
Global Hint Resolve em_ret em_raise em_lift em_need em_put em_del em_info em_revoke : em.
Global Hint Resolve reader_deref reader_lookup reader_subordinate reader_grant_at reader_db_get
  reader_get_session_info reader_tok_at reader_mgr_get reader_get_grant reader_get_event
  reader_idt : emr.
Global Hint Resolve quiet_tick quiet_all_claims quiet_enc_sid quiet_compatible quiet_by_token
  quiet_back quiet_collect : emq.

Ltac handler H :=
  repeat match type of H with
         | context [match ?y with _ => _ end] => destruct y
         end; try discriminate H; injection H as <-.
Ltac em1 :=
  match goal with
  | |- forall _, _ => intro
  | |- emits _ _ _ (bind _ _) => apply em_bind
  | |- emits _ _ _ (catch _ _) => apply em_catch; [|let H := fresh in intros ? ? H; handler H]
  | |- emits _ _ _ (match ?x with _ => _ end) => destruct x
  | |- emits _ _ _ (let _ := _ in _) => cbv zeta
  | |- emits _ _ _ _ => solve [auto with em | apply em_reader; auto with emr | apply em_quiet; auto with emq]
  end.
Ltac em := repeat em1.

Section Calls.
  Variables (T : string -> Prop) (G : option areq -> Prop) (U : option aevent -> Prop).
  Notation emits := (emits T G U).

  Lemma em_get_or k i : emits (db_get_or k i).
  Proof. unfold db_get_or. em. apply em_new. exact Logic.I. Qed.
  Hint Resolve em_get_or : em.
  Lemma em_db_set p l : emits (db_set p l).
  Proof. unfold db_set. em. Qed.
  Hint Resolve em_db_set : em.
  Lemma em_mgr_put e sid l : emits (mgr_put e sid l).
  Proof. unfold mgr_put. em. Qed.
  Hint Resolve em_mgr_put : em.
  Lemma em_discard k : emits (db_discard k).
  Proof. unfold db_discard. em. Qed.
  Hint Resolve em_discard : em.
  Lemma em_delete p : emits (db_delete p).
  Proof. unfold db_delete. em. Qed.
  Hint Resolve em_delete : em.
  Lemma em_remove e sid : emits (remove_session e sid).
  Proof. unfold remove_session. em. Qed.
  Lemma em_flush : emits flush.
  Proof. apply em_heap. intros s r s' E. unfold flush in E. injection E as _ <-. reflexivity. Qed.
  Lemma em_mgr_revoke_token e sid v rec : emits (mgr_revoke_token e sid v rec).
  Proof.
    unfold mgr_revoke_token. em.
    - apply em_upd_tok. auto.
    - apply em_on_tokens, flags_revoke_dependent.
  Qed.
  Lemma em_revoke_grants u c gs : emits (revoke_grants u c gs).
  Proof. induction gs; cbn; em. Qed.
  Hint Resolve em_revoke_grants : em.
  Lemma em_new_none : emits (new_obj ONone).
  Proof. apply em_new. exact Logic.I. Qed.
  Hint Resolve em_new_none : em.
  Lemma em_revoke_client e sid : emits (revoke_client_session e sid).
  Proof. unfold revoke_client_session. em. Qed.
  Hint Resolve em_revoke_client : em.
  Lemma em_revoke_grant e sid : emits (revoke_grant e sid).
  Proof. unfold revoke_grant. em. Qed.
  Lemma em_clean e sids : emits (clean_sessions e sids).
  Proof. induction sids; cbn; em. Qed.
  Hint Resolve em_clean : em.
  Lemma em_logout e now sid alla : emits (do_verified_logout e now sid alla).
  Proof. unfold do_verified_logout, logout_all_clients, logout_from_client. em. Qed.

  (** ** Token endpoint *)
  Lemma em_parse e now cid q : emits (token_parse e now cid q).
  Proof.
    unfold token_parse, code_parse, refresh_parse. em.
    all: try (apply em_on_tokens, flags_revoke_token).
  Qed.
  Lemma em_parse_all e now cid q : emits (token_parse_all e now cid q).
  Proof.
    unfold token_parse_all. apply em_bind; [apply em_parse|]. intros r. unfold pkce_check. em.
  Qed.
  Lemma em_set_exp l i x : emits (upd_tok l i (tok_set_exp x)).
  Proof. apply em_upd_tok. auto. Qed.
  Lemma em_set_rules l i x : emits (upd_tok l i (tok_set_rules x)).
  Proof. apply em_upd_tok. auto. Qed.
  Lemma em_register l i : emits (upd_tok l i tok_register).
  Proof. apply em_upd_tok. auto. Qed.
  Lemma em_set_revoked l i : emits (upd_tok l i tok_set_revoked).
  Proof. apply em_upd_tok. auto. Qed.
  Lemma em_set_extra l (f : grant -> dict string) : emits (upd_obj l (on_grant (fun g => g_set_extra (f g) g))).
  Proof. apply em_grant_same. auto. Qed.
  Hint Resolve em_set_exp em_set_rules em_register em_set_revoked em_set_extra : em.
  Lemma em_mint_value e now l sid tc b sc ty : T tc -> emits (mint_value e now l sid tc b sc ty).
  Proof. intros Tc. unfold mint_value, ep_mint. em. apply em_mint. exact Tc. Qed.
  Lemma em_rotated e now l sid b sc : T REFRESH -> emits (mint_rotated e now l sid b sc).
  Proof. intros Tc. unfold mint_rotated, ep_mint. em. apply em_mint. exact Tc. Qed.
  Hint Resolve em_mint_value em_rotated : em.
  Lemma em_process e now q issue : T ACCESS -> T REFRESH -> T IDTOKEN -> emits (token_process e now q issue).
  Proof.
    intros A R I. unfold token_process, code_process, refresh_process, except_minting, except_jwe. em.
  Qed.

  (** ** Authorization endpoint *)
  Lemma em_create_grant e now ae ar u c rules sc : G (Some ar) -> U (Some ae) ->
    emits (create_grant e now ae ar u c rules sc).
  Proof. intros Ga Ua. unfold create_grant. em. apply em_new. cbn. auto. Qed.
  Hint Resolve em_create_grant : em.
  Lemma em_new_info i : emits (new_obj (OInfo i)).
  Proof. apply em_new. exact Logic.I. Qed.
  Hint Resolve em_new_info : em.
  Lemma em_create_session e now ar u acr x : G (Some ar) -> U (Some (new_event now u acr x)) ->
    emits (ep_create_session e now ar u acr x).
  Proof. intros Ga Ua. unfold ep_create_session, create_session. em. Qed.
  Hint Resolve em_create_session : em.
End Calls.
Global Hint Resolve em_db_set em_create_session em_set_exp em_new_info : em.

Section Authz.
  Variables (T : string -> Prop) (G : option areq -> Prop) (U : option aevent -> Prop).
  Notation emits := (emits T G U).

  (** A grant with the authentication of another one. *)
  Lemma em_copy e now sid ar u : G (Some ar) ->
    emits (ev <- get_authentication_event e sid ;;
           ev <- need ev ;;
           if negb (event_valid now ev) then ret None
           else s <- create_grant e now ev ar u (ar_client_id ar) None None ;; ret (Some s)).
  Proof.
    intros Ga s r s' E l g' X.
    apply bind_inv in E as [(ev & s1 & E1 & E)|(x & E1 & _)].
    2:{ apply reader_get_event in E1. subst. now apply from_here. }
    pose proof (reader_get_event _ _ _ _ _ E1). subst s1.
    apply bind_inv in E as [(ev' & s1 & E2 & E)|(x & E2 & _)].
    2:{ apply reader_need in E2. subst. now apply from_here. }
    pose proof (reader_need _ _ _ _ E2). subst s1.
    destruct ev as [a|]; [|discriminate]. apply ret_ok in E2 as [-> _].
    assert (exists l0 g0, hp s l0 = Some (OGrant g0) /\ g_aevent g0 = Some ev') as Ev.
    { unfold get_authentication_event in E1. apply bind_inv in E1 as [(i & s1 & E3 & E1)|(x & _ & K)]; [|discriminate].
      pose proof (reader_get_session_info _ _ _ _ _ E3). subst s1.
      apply bind_inv in E1 as [(g & s1 & E4 & E1)|(x & _ & K)]; [|discriminate].
      apply grant_at_ok in E4 as [-> Hg]. apply ret_ok in E1 as [E1 _]. eauto. }
    destruct (negb (event_valid now ev')).
    { apply ret_inv in E as [_ <-]. now apply from_here. }
    assert (from T G (fun a => a = Some ev') s l g') as F.
    { assert (L_Emit.emits T G (fun a => a = Some ev')
        (s0 <- create_grant e now ev' ar u (ar_client_id ar) None None ;; ret (Some s0))) as K.
      { apply em_bind; [|intros; apply em_ret]. unfold create_grant.
        apply em_bind; [apply em_quiet, quiet_tick|]. intros n. apply em_bind; [apply em_new; cbn; auto|]. intros gl.
        apply em_bind; [|intros; apply em_quiet, quiet_enc_sid]. apply em_db_set. }
      eapply K; eauto. }
    destruct F as [F|(A & B & C)]; [now left|]. right. split; auto. split; auto. right.
    destruct B as [->|B]; auto.
  Qed.
  Lemma em_setup e now ar ru acr x ans : G (Some ar) ->
    (forall u sid, ans = AUser u sid -> U (Some (new_event now u acr x))) ->
    emits (setup_auth e now ar ru acr x ans).
  Proof.
    intros Ga Ua. unfold setup_auth. apply em_bind'. { em. }
    intros id (s0 & s0' & Eid). cbv zeta. destruct id as [[u sid]|]; [|apply em_ret].
    assert (U (Some (new_event now u acr x))) as Uu.
    { destruct ans as [|u1 sid1]; [apply ret_ok in Eid as [E _]; discriminate|].
      apply (Ua u sid1). f_equal. destruct (ostr_true sid1).
      - apply bind_inv in Eid as [(l & s1 & _ & E)|(y & _ & K)]; [|discriminate].
        apply bind_inv in E as [(g & s2 & _ & E)|(y & _ & K)]; [|discriminate].
        apply ret_ok in E as [E _]. destruct (grant_active now g); congruence.
      - apply ret_ok in Eid as [E _]. congruence. }
    destruct (smem "login" (prompts ar)); [apply em_ret|].
    destruct (match ru with Some r => _ | None => _ end); [apply em_ret|].
    apply em_bind; [|em].
    destruct sid as [sid|]; [|apply em_ret].
    apply em_bind; [em|]. intros [[u0 c] g0]. destruct (negb _); [apply em_ret|].
    apply em_bind; [em|]. intros l. apply em_bind; [em|]. intros g.
    destruct (negb _); [apply em_ret|]. destruct (match g_areq g with Some a => _ | None => _ end); [apply em_ret|].
    apply em_copy. exact Ga.
  Qed.

  Lemma em_authz e now sid ar : emits (authz e now sid ar).
  Proof.
    unfold authz. em; apply em_grant_same; auto.
    intros g. unfold apply_gconf. destruct (gc_exp (e_authz e)), (gc_rules (e_authz e)), (gc_scope (e_authz e)); auto.
  Qed.
  Hint Resolve em_authz : em.
  Lemma em_az_value e now l sid tc sc ia : T tc -> emits (az_value e now l sid tc sc ia).
  Proof. intros Tc. unfold az_value, az_mint. em. apply em_mint. exact Tc. Qed.
  Hint Resolve em_az_value : em.
  Lemma em_tokens e now ar sid l sc : T CODE -> T ACCESS -> T IDTOKEN -> emits (authn_tokens e now ar sid l sc).
  Proof. intros A B C. unfold authn_tokens, except_jwe. em. Qed.
  Hint Resolve em_tokens : em.
  Lemma em_response e now ar sid : T CODE -> T ACCESS -> T IDTOKEN -> emits (create_authn_response e now ar sid).
  Proof.
    intros A B C. unfold create_authn_response.
    assert (forall rt, emits (i <- get_session_info e sid ;;
      let scope := match ar_scope ar with
                   | Some (x :: r) => Some (filter_scopes e (x :: r) (ss_client i))
                   | _ => None end in
      r <- authn_tokens e now ar (ss_sid i) (ss_grant i) scope ;;
      ret (r, negb (smem "code" rt && forallb (String.eqb "code") rt)))) as K by (intros; em).
    remember (ar_response_type ar) as rt. clear Heqrt.
    repeat (match goal with |- L_Emit.emits _ _ _ (match ?a with _ => _ end) =>
      first [is_var a; destruct a; try exact (K _) | fail 1] end).
    apply em_ret.
  Qed.
  Hint Resolve em_response : em.
  Lemma em_post e now ar sid uri : T CODE -> T ACCESS -> T IDTOKEN -> emits (post_authentication e now ar sid uri).
  Proof. intros A B C. unfold post_authentication. em. Qed.
  Hint Resolve em_post : em.
  Lemma em_part2 e now ifr ar sid uri : T CODE -> T ACCESS -> T IDTOKEN -> emits (authz_part2 e now ifr ar sid uri).
  Proof. intros A B C. unfold authz_part2. em. Qed.
  Hint Resolve em_part2 : em.
  Lemma em_login e now ifr ar uid acr x uri : T CODE -> T ACCESS -> T IDTOKEN ->
    G (Some ar) -> U (Some (new_event now uid acr x)) -> emits (login e now ifr ar uid acr x uri).
  Proof. intros A B C D E. unfold login. em. Qed.
  Lemma em_authorize e now deny ifr ar ru acr x ans uri : T CODE -> T ACCESS -> T IDTOKEN ->
    G (Some ar) -> (forall u sid, ans = AUser u sid -> U (Some (new_event now u acr x))) ->
    emits (authorize e now deny ifr ar ru acr x ans uri).
  Proof. intros A B C D E. unfold authorize. em. apply em_setup; auto. Qed.
End Authz.
