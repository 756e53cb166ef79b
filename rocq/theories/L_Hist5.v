(** Histories, part 5: deleting, revoking and logging out; creating sessions;
    the authorization policy. *)
From Verif Require Import M_Base M_Types M_Codec M_Grant M_Env M_Session M_Claims M_Handler
  M_Authz M_TokenEP M_PKCE M_AuthzEP M_Info M_Logout M_History S_Codec S_Grant S_Store S_History
  L_Base L_Codec L_Monad L_Grant L_Claims L_Store L_Hist1 L_Hist2 L_Hist3 L_Hist4.

Lemma sep_second u c r : separable (u :: c :: r) -> ~ occurs_in ";;" c.
Proof. intros [A _]. apply A. right; now left. Qed.

Lemma db_get_long u c g r s : db_get (u :: c :: g :: r) s = db_get [u; c; g] s.
Proof. reflexivity. Qed.

(** What db_get finds for a grant path is that grant. *)
Lemma db_get1_key u s l s' : db_get [u] s = (Ok l, s') -> dget (s_db s) u = Some l.
Proof.
  unfold db_get. cbn [eval_path]. unfold lift, bind at 1, db_lookup, bind at 1. intros H.
  destruct (dget (s_db s) u) as [ul|]; [|discriminate].
  apply bind_ok in H as (o & s1 & _ & H). destruct o; apply ret_ok in H as [E _] || discriminate H; congruence.
Qed.
Lemma db_get2_key u c s l s' : db_get [u; c] s = (Ok l, s') -> dget (s_db s) (session_key [u; c]) = Some l.
Proof.
  unfold db_get. cbn [eval_path]. unfold lift, bind at 1, db_lookup, bind at 1. intros H.
  destruct (dget (s_db s) u) as [ul|]; [|discriminate].
  apply bind_ok in H as (o & s1 & D & H). apply reader_deref in D as X. subst s1.
  destruct o; [| |discriminate H].
  all: apply bind_ok in H as (sub & s1 & D1 & H); apply reader_subordinate in D1 as X; subst s1;
    destruct (negb (smem c sub)); [discriminate|];
    unfold bind at 1 in H; destruct (dget (s_db s) (session_key [u; c])) as [cl|]; [|discriminate];
    apply ret_ok in H as [E _]; congruence.
Qed.
Lemma db_get_owns e s u c g r l : Inv e s -> separable (u :: c :: g :: r) ->
  db_get (u :: c :: g :: r) s = (Ok l, s) -> owns e s l u c g.
Proof.
  intros I S H. rewrite db_get_long in H. apply (inv_keys _ _ I).
  - apply (separable_prefix [u; c; g] r). exact S.
  - now apply db_get_3.
Qed.

(** Equal requests are the same. *)
Lemma opt_eqb_eq {A} (f : A -> A -> bool) : (forall a b, f a b = true -> a = b) ->
  forall a b, opt_eqb f a b = true -> a = b.
Proof. intros H [a|] [b|]; cbn; intros E; try discriminate; auto. f_equal; auto. Qed.
Lemma list_eqb_eq {A} (f : A -> A -> bool) : (forall a b, f a b = true -> a = b) ->
  forall a b, list_eqb f a b = true -> a = b.
Proof.
  intros H. induction a as [|x a IH]; intros [|y b]; cbn; intros E; try discriminate; auto.
  apply andb_prop in E as [E1 E2]. f_equal; auto.
Qed.
Lemma pair_eqb_eq {A} (f : A -> A -> bool) : (forall a b, f a b = true -> a = b) ->
  forall a b, pair_eqb f a b = true -> a = b.
Proof.
  intros H [k a] [k' b]. unfold pair_eqb; cbn. intros E. apply andb_prop in E as [E1 E2].
  apply seqb_eq in E1. subst. f_equal; auto.
Qed.
Lemma seqb_imp a b : String.eqb a b = true -> a = b.
Proof. apply seqb_eq. Qed.
Lemma areq_eqb_eq a b : areq_eqb a b = true -> a = b.
Proof.
  unfold areq_eqb. intros H. repeat (apply andb_prop in H as [H ?]).
  pose proof (list_eqb_eq String.eqb seqb_imp) as Ls.
  pose proof (opt_eqb_eq String.eqb seqb_imp) as Os.
  destruct a, b; cbn in *. f_equal; auto.
  - now apply seqb_eq.
  - eapply opt_eqb_eq; [|eassumption]. exact Ls.
  - eapply opt_eqb_eq; [|eassumption]. apply list_eqb_eq, pair_eqb_eq, list_eqb_eq, pair_eqb_eq.
    apply opt_eqb_eq, list_eqb_eq, pair_eqb_eq. intros x y. apply jval_eqb_eq.
  - now apply seqb_eq.
  - eapply opt_eqb_eq; [|eassumption]. exact Ls.
  - eapply opt_eqb_eq; [|eassumption]. intros x y. apply Z.eqb_eq.
  - eapply list_eqb_eq; [|eassumption]. apply pair_eqb_eq, seqb_imp.
Qed.

(** Computations that leave every grant as it is. *)
Definition gsame {A} (m : M st A) : Prop :=
  forall s r s', m s = (r, s') -> forall l g, hp s l = Some (OGrant g) -> hp s' l = Some (OGrant g).
Lemma gsame_reader {A} (m : M st A) : reader m -> gsame m.
Proof. intros H s r s' E l g G. apply H in E. now subst. Qed.
Lemma gsame_quiet {A} (m : M st A) : quietm m -> gsame m.
Proof. intros H s r s' E l g G. destruct (H _ _ _ E) as (X & _). unfold hp in *. now rewrite X. Qed.
Lemma gsame_bind {A B} (m : M st A) (f : A -> M st B) :
  gsame m -> (forall a, gsame (f a)) -> gsame (bind m f).
Proof.
  intros H K s r s' E l g G. apply bind_inv in E as [(a & s1 & E1 & E2)|(x & E1 & _)].
  - eapply K; [exact E2|]. eapply H; eauto.
  - eapply H; eauto.
Qed.
Lemma gsame_put k l : gsame (db_put k l).
Proof. intros s r s' E l' g G. unfold db_put in E. injection E as _ <-. exact G. Qed.
Lemma gsame_new o : gsame (new_obj o).
Proof.
  intros s r s' E l g G. unfold new_obj in E. injection E as _ <-. rewrite hp_app_other; auto.
  apply hp_lt in G. lia.
Qed.
Lemma gsame_info l f : gsame (upd_obj l (on_info f)).
Proof.
  intros s r s' E l' g G. unfold upd_obj in E. injection E as _ <-.
  destruct (Nat.eq_dec l' l) as [->|N]; [|now rewrite hp_upd_other by auto].
  rewrite hp_upd_same, G. reflexivity.
Qed.
Lemma gsame_get_or k i : gsame (db_get_or k i).
Proof.
  apply gsame_bind; [apply gsame_reader, reader_lookup|]. intros [l|]; [apply gsame_reader, reader_ret|apply gsame_new].
Qed.
Lemma gsame_db_set p l : gsame (db_set p l).
Proof.
  unfold db_set. apply gsame_bind; [apply gsame_reader, reader_lift|]. intros [[u c] g].
  apply gsame_bind; [destruct (ostr_true g); [apply gsame_put|apply gsame_reader, reader_ret]|]. intros ?.
  apply gsame_bind.
  { destruct (ostr_true c); [|apply gsame_reader, reader_ret].
    apply gsame_bind; [apply gsame_get_or|]. intros ci. destruct (negb (ostr_true g)); [apply gsame_put|].
    apply gsame_bind; [apply gsame_reader, reader_subordinate|]. intros sub.
    destruct (smem (ostr g) sub); [apply gsame_reader, reader_ret|].
    apply gsame_bind; [apply gsame_info|]. intros ?. apply gsame_put. }
  intros ?. apply gsame_bind; [apply gsame_get_or|]. intros ui. destruct c as [c|]; [|apply gsame_put].
  destruct (str_true c); [|apply gsame_reader, reader_ret].
  apply gsame_bind; [apply gsame_reader, reader_subordinate|]. intros sub.
  destruct (smem c sub); [apply gsame_reader, reader_ret|].
  apply gsame_bind; [apply gsame_info|]. intros ?. apply gsame_put.
Qed.

Section Specs.
  Variables (e : env) (now : Z).
  Hypothesis W : laws e.

  (** ** Deleting *)
  Lemma keeps_put1 k l : ~ occurs_in ";;" k -> spec e now (is_info l) (db_put k l) (fun _ _ => True).
  Proof. intros N. apply keeps_db_put. intros u c g S. apply dec_key_neq; auto; cbn; lia. Qed.
  Lemma keeps_sub {A} l (f : list string -> M st A) :
    (forall sub, spec e now (is_info l) (f sub) (fun _ _ => True)) -> keeps e now (bind (subordinate l) f).
  Proof.
    intros H. eapply spec_rbind with (Q := fun _ s => is_info l s); [apply reader_subordinate| |].
    - intros s sb _ _ X. eapply subordinate_info; eauto.
    - intros sub. eapply spec_pre; [|apply H]. tauto.
  Qed.

  Lemma keeps_delete u c g : separable [u; c; g] -> keeps e now (db_delete [u; c; g]).
  Proof.
    intros S. unfold db_delete. cbn [eval_path]. unfold lift at 1.
    assert (forall {B} (f : (string * option string * option string) -> M st B),
              keeps e now (f (u, Some c, Some g)) ->
              keeps e now (fun s => bind (fun s => (Ok (u, Some c, Some g), s)) f s)) as X.
    { intros B f H s r s' I p E. eapply H; eauto. }
    apply X. clear X. cbv beta iota.
    apply keeps_bind; [apply keeps_reader, reader_lookup|]. intros [ul|]; [|apply keeps_reader, reader_ret].
    destruct (negb (ostr_true (Some c))); [apply keeps_db_del|]. cbn [ostr].
    apply keeps_bind; [apply keeps_reader, reader_subordinate|]. intros sub.
    destruct (negb (smem c sub)); [apply keeps_db_del|].
    apply keeps_bind; [apply keeps_reader, reader_lookup|]. intros oc.
    apply keeps_bind.
    { destruct oc as [cl|]; [|apply keeps_reader, reader_ret].
      apply keeps_bind.
      { destruct (ostr_true (Some g)).
        - apply keeps_bind; [apply keeps_discard|]. intros ?.
          apply keeps_bind; [apply keeps_reader, reader_subordinate|]. intros cs.
          destruct (smem g cs); [|apply keeps_reader, reader_ret].
          apply (keeps_set_sub e now cl (fun i => sremove g (si_sub i))). intros i. apply sremove_sub.
        - apply keeps_bind; [apply keeps_reader, reader_subordinate|]. intros cs.
          apply keeps_bind; [destruct cs; [apply keeps_reader, reader_ret|apply keeps_discard]|]. intros ?.
          apply (keeps_set_sub e now cl (fun i => [])). intros i x []. }
      intros ?. apply keeps_sub. intros [|x cs].
      - apply keeps_spec. apply keeps_bind; [apply keeps_db_del|]. intros ?.
        apply (keeps_set_sub e now ul (fun i => sremove c (si_sub i))). intros i. apply sremove_sub.
      - apply keeps_put1. eapply sep_second; eauto. }
    intros ?. apply keeps_sub. intros [|x cs];
      [apply keeps_spec, keeps_db_del|apply keeps_put1; eapply sep_first; eauto].
  Qed.

  Lemma keeps_remove sid : keeps e now (remove_session e sid).
  Proof.
    unfold remove_session. intros s r s' I p E.
    apply bind_inv in E as [([[u c] g] & s1 & E1 & E2)|(x & E1 & ->)].
    - apply lift_ok in E1 as [D <-]. revert E2. apply keeps_delete; auto. eapply dec_sid3_separable; eauto.
    - apply reader_lift in E1. subst. split; auto. split; auto using st_later_refl.
  Qed.
  Lemma keeps_flush : keeps e now flush.
  Proof.
    intros s r s' I p E. injection E as <- <-. split; [|split; auto; apply later_db; auto].
    apply inv_db; auto; [constructor| |]; discriminate.
  Qed.

  (** ** Revoking *)
  Lemma keeps_mgr_revoke_token sid v rec : keeps e now (mgr_revoke_token e sid v rec).
  Proof.
    unfold mgr_revoke_token. apply keeps_bind; [apply keeps_reader, reader_lift|]. intros [[u c] g].
    apply keeps_bind; [apply keeps_reader, reader_db_get|]. intros l.
    apply keeps_bind; [apply keeps_reader, reader_grant_at|]. intros gr.
    destruct (find_pos v (g_tokens gr) 0) as [i|]; [|apply keeps_reader, reader_raise].
    apply keeps_bind; [apply keeps_upd_tok, token_later_revoke|]. intros ?.
    destruct rec; [|apply keeps_reader, reader_ret].
    apply keeps_bind; [apply keeps_reader, reader_mgr_get|]. intros l'.
    apply keeps_on_tokens, flags_revoke_dependent.
  Qed.
  Lemma keeps_revoke_grants u c gs : keeps e now (revoke_grants u c gs).
  Proof.
    induction gs as [|g gs IH]; cbn [revoke_grants]; [apply keeps_reader, reader_ret|].
    apply keeps_bind; [apply keeps_reader, reader_db_get|]. intros l.
    apply keeps_bind; [apply keeps_reader, reader_deref|]. intros o.
    apply keeps_bind; [destruct o; try apply keeps_revoke_obj; apply keeps_reader, reader_raise|]. auto.
  Qed.
  Lemma keeps_set2 u c l : separable [u; c] -> spec e now (is_info l) (db_set [u; c] l) (fun _ _ => True).
  Proof.
    intros S. eapply spec_pre; [|apply (db_set_spec e now W); exact S]. intros s _ Hi.
    split; [intros u' c' g' r X; discriminate|split; [auto|discriminate]].
  Qed.
  (** What a client session's key refers to. *)
  Lemma key2 s u c l : Inv e s -> separable [u; c] -> dget (s_db s) (session_key [u; c]) = Some l -> is_info l s.
  Proof.
    intros I S D. pose proof (inv_stored _ _ I _ _ D) as H. unfold stored in H.
    destruct (hp s l) as [[i|g|]|] eqn:E; try tauto; [exists i; auto|]. exfalso. destruct H as [(u' & c' & S' & Ek)|N].
    - symmetry in Ek. revert Ek. apply two_three_neq; auto.
    - apply N. exists u, c. reflexivity.
  Qed.
  Lemma db_get2_info s u c l s' : Inv e s -> separable [u; c] -> db_get [u; c] s = (Ok l, s') -> is_info l s.
  Proof.
    intros I S H. apply db_get2_key in H. eapply key2; eauto.
  Qed.
  Lemma keeps_revoke_client sid : keeps e now (revoke_client_session e sid).
  Proof.
    intros s r s' I p E. unfold revoke_client_session in E.
    apply bind_inv in E as [(q & s1 & E1 & E)|(x & E1 & ->)].
    2:{ apply reader_lift in E1. subst. split; auto. split; auto using st_later_refl. }
    apply lift_ok in E1 as [D <-]. apply dec_sid_separable in D as [_ S].
    revert E. match goal with |- ?m s = _ -> _ => assert (keeps e now m) as K; [|apply K; auto] end.
    eapply spec_rbind with (Q := fun uc _ => separable [fst uc; snd uc]).
    { destruct q as [|u [|c [|g [|? ?]]]]; auto using reader_ret, reader_raise. }
    { intros s1 [u c] _ _ H. destruct q as [|u0 [|c0 [|g [|? ?]]]]; try discriminate H;
        injection H as <- <-; auto. eapply sep_2; eauto. }
    intros [u c]. eapply spec_pure; [intros s1 _ [_ X]; exact X|]. cbn [fst snd]. intros S2. apply keeps_spec.
    eapply spec_rbind with (Q := is_info); [apply reader_db_get| |].
    { intros s1 l I1 _ H. eapply db_get2_info; eauto. }
    intros l. eapply spec_pre with (P' := is_info l); [tauto|].
    eapply spec_rbind with (Q := fun o s => hp s l = Some o); [apply reader_deref| |].
    { intros s1 o _ _ H. unfold deref in H. unfold hp. destruct (nth_error (s_heap s1) l); [|discriminate].
      injection H as ->. reflexivity. }
    intros o. destruct o; [| |apply keeps_spec, keeps_reader, reader_raise].
    - eapply spec_pre with (P' := is_info l); [tauto|].
      eapply spec_bind; [apply st_is_info|apply keeps_spec, keeps_revoke_obj|]. intros ?.
      eapply spec_pre with (P' := is_info l); [tauto|].
      eapply spec_bind; [apply st_is_info|apply keeps_set2; auto|]. intros ?. apply keeps_spec.
      apply keeps_bind; [apply keeps_reader, reader_subordinate|]. intros gs. apply keeps_revoke_grants.
    - intros s1 r1 s2 _ ((i & Hi) & Hg). rewrite Hi in Hg. discriminate.
  Qed.
  Lemma keeps_revoke_grant sid : keeps e now (revoke_grant e sid).
  Proof.
    intros s r s' I p E. unfold revoke_grant in E.
    apply bind_inv in E as [(q & s1 & E1 & E)|(x & E1 & ->)].
    2:{ apply reader_lift in E1. subst. split; auto. split; auto using st_later_refl. }
    apply lift_ok in E1 as [D <-]. apply dec_sid_separable in D as [_ S].
    revert E. match goal with |- ?m s = _ -> _ => assert (keeps e now m) as K; [|apply K; auto] end.
    set (O := fun l (s : st) => (forall u c g r, q = u :: c :: g :: r -> owns e s l u c g)
                /\ (List.length q = 2 -> is_info l s) /\ (List.length q = 1 -> is_obj l s)).
    eapply spec_rbind with (Q := O); [apply reader_db_get| |].
    { intros s1 l I1 _ H. split; [intros u c g r1 ->; eapply db_get_owns; eauto|split; intros Lq].
      - destruct q as [|u [|c [|]]]; try discriminate Lq. eapply db_get2_info; eauto.
      - destruct q as [|u [|]]; try discriminate Lq. apply db_get1_key in H. eapply stored_obj.
        eapply inv_stored; eauto. }
    intros l. eapply spec_pre with (P' := O l); [tauto|].
    assert (Stable now (O l)) as St.
    { intros a b L (H & K & J). split; [intros u c g r1 X; eapply owns_later; eauto|].
      split; intros N; [eapply st_is_info|eapply st_is_obj]; eauto. }
    eapply spec_bind; [exact St|apply keeps_spec, keeps_reader, reader_deref|]. intros o.
    eapply spec_pre with (P' := O l); [tauto|].
    destruct o; [| |apply keeps_spec, keeps_reader, reader_raise].
    all: eapply spec_bind; [exact St|apply keeps_spec, keeps_revoke_obj|]; intros ?;
      eapply spec_pre; [|apply (db_set_spec e now W); exact S]; intros s1 _ [X _]; exact X.
  Qed.

  (** ** Log out *)
  Lemma quiet_back cid c sid : quietm (back_channel_logout e now cid c sid).
  Proof.
    unfold back_channel_logout. apply quiet_bind; [apply reader_quiet, reader_lift|]. intros alg.
    apply quiet_bind; [apply quiet_tick|]. intros n. apply reader_quiet, reader_lift.
  Qed.
  Lemma keeps_clean sids : keeps e now (clean_sessions e sids).
  Proof.
    induction sids as [|sid r IH]; cbn [clean_sessions]; [apply keeps_reader, reader_ret|].
    apply keeps_bind; [apply keeps_revoke_client|]. auto.
  Qed.
  Lemma reader_idt u c gs : reader (idt_session u c gs).
  Proof.
    induction gs as [|g gs IH]; cbn [idt_session]; [apply reader_ret|].
    apply reader_bind; [apply reader_db_get|]. intros l. apply reader_bind; [apply reader_grant_at|]. intros gr.
    destruct (g_aevent gr); [|exact IH]. destruct (last_issued gr IDTOKEN); [apply reader_ret|exact IH].
  Qed.
  Lemma quiet_collect u cids : quietm (collect_logouts e now u cids).
  Proof.
    induction cids as [|c r IH]; cbn [collect_logouts]; [apply reader_quiet, reader_ret|].
    apply quiet_bind; [destruct (dget (e_clients e) c); apply reader_quiet; auto using reader_ret, reader_raise|].
    intros ci. apply quiet_bind.
    { destruct (c_bc_logout ci || c_fc_logout ci); [|apply reader_quiet, reader_ret].
      apply quiet_bind; [apply reader_quiet, reader_db_get|]. intros cl.
      apply quiet_bind; [apply reader_quiet, reader_subordinate|]. intros gs.
      apply quiet_bind; [apply reader_quiet, reader_idt|]. intros [sid|]; [|apply reader_quiet, reader_ret].
      destruct (c_bc_logout ci); [|apply reader_quiet, reader_ret].
      apply quiet_bind; [apply quiet_back|]. intros; apply reader_quiet, reader_ret. }
    intros h. apply quiet_bind; [exact IH|]. intros; apply reader_quiet, reader_ret.
  Qed.
  Lemma keeps_logout sid alla : keeps e now (do_verified_logout e now sid alla).
  Proof.
    unfold do_verified_logout. destruct alla.
    - unfold logout_all_clients. apply keeps_bind; [apply keeps_reader, reader_lift|]. intros [[u c] g].
      apply keeps_bind; [apply keeps_reader, reader_db_get|]. intros ul.
      apply keeps_bind; [apply keeps_reader, reader_db_get|]. intros ?.
      apply keeps_bind; [apply keeps_reader, reader_db_get|]. intros ?.
      apply keeps_bind; [apply keeps_reader, reader_subordinate|]. intros cids.
      apply keeps_bind; [apply keeps_quiet, quiet_collect|]. intros r.
      apply keeps_bind; [apply keeps_clean|]. intros ?. apply keeps_reader, reader_ret.
    - unfold logout_from_client. apply keeps_bind; [apply keeps_reader, reader_get_session_info|]. intros i.
      apply keeps_bind; [destruct (dget (e_clients e) (ss_client i)); apply keeps_reader; auto using reader_ret, reader_raise|].
      intros ci. apply keeps_bind.
      { destruct (c_bc_logout ci).
        - apply keeps_bind; [apply keeps_quiet, quiet_back|]. intros; apply keeps_reader, reader_ret.
        - destruct (c_fc_logout ci); apply keeps_reader, reader_ret. }
      intros m. apply keeps_bind; [apply keeps_clean|]. intros ?. apply keeps_reader, reader_ret.
  Qed.

  (** ** Introspection and userinfo *)
  Lemma quiet_introspect rel tok : quietm (introspect e now rel tok).
  Proof.
    unfold introspect. apply quiet_bind.
    - apply quiet_catch; [|intros x k X; destruct x; try discriminate X; injection X as <-; apply reader_quiet, reader_ret].
      apply quiet_bind; [apply quiet_by_token|]. intros; apply reader_quiet, reader_ret.
    - intros [i|]; [|apply reader_quiet, reader_ret].
      apply quiet_bind; [apply reader_quiet, reader_grant_at|]. intros g.
      destruct (get_token g tok); [|apply reader_quiet, reader_raise].
      apply quiet_bind; [apply reader_quiet, reader_lift|]. intros [r|]; [|apply reader_quiet, reader_ret].
      destruct (dget (g_claims g) "introspection") as [[|x y]|]; try (apply reader_quiet, reader_ret).
      apply quiet_bind; [apply reader_quiet, reader_lift|]. intros; apply reader_quiet, reader_ret.
  Qed.
  Lemma quiet_userinfo tok : quietm (userinfo e now tok).
  Proof.
    unfold userinfo. apply quiet_bind.
    - apply quiet_catch.
      + apply quiet_bind; [apply quiet_by_token|]. intros; apply reader_quiet, reader_ret.
      + intros x k X. destruct (is_lookup_error x); [|discriminate]. injection X as <-. apply reader_quiet, reader_ret.
    - intros [i|]; [|apply reader_quiet, reader_ret].
      apply quiet_bind; [apply reader_quiet, reader_grant_at|]. intros g.
      destruct (get_token g tok) as [t|]; [|apply reader_quiet, reader_raise].
      destruct (negb _); [apply reader_quiet, reader_ret|].
      destruct (negb _); [apply reader_quiet, reader_ret|].
      destruct (g_aevent g); [|apply reader_quiet, reader_raise].
      destruct (_ <? _)%Z; [apply reader_quiet, reader_ret|].
      apply quiet_bind; [apply reader_quiet, reader_lift|]. intros info.
      apply quiet_bind; [apply reader_quiet, reader_lift|]. intros; apply reader_quiet, reader_ret.
  Qed.

  (** ** Creating sessions *)

  (** The session [sid] is ready for the authorization policy. *)
  Definition ready (u : string) (ar : areq) (sid : string) (s : st) : Prop :=
    exists gid l g, dec_sid3 e sid = Ok (u, ar_client_id ar, gid)
      /\ hp s l = Some (OGrant g) /\ g_id g = gid /\ belongs e g u (ar_client_id ar)
      /\ grant_active now g = true /\ g_areq g = Some ar.

  Lemma new_grant_ok ar ae sub gid rules : ginv e (new_grant now ar ae sub gid rules None).
  Proof. constructor; cbn; auto; try tauto. intros [|i] t v H; discriminate. Qed.

  Lemma new_info i : si_sub i = [] ->
    spec e now (fun _ => True) (new_obj (OInfo i)) (fun l => is_info l).
  Proof.
    intros N. apply new_obj_spec; auto. intros s _. unfold is_info, hp. cbn [s_heap].
    rewrite nth_error_app2, Nat.sub_diag by lia. cbn. eauto.
  Qed.
  Lemma n3_2 : 3 = 2 -> False. Proof. discriminate. Qed.
  Lemma n3_1 : 3 = 1 -> False. Proof. discriminate. Qed.
  Lemma create_grant_spec ae ar u rules :
    good_id u -> good_id (ar_client_id ar) -> ae_uid ae = u ->
    spec e now (fun _ => True) (create_grant e now ae ar u (ar_client_id ar) rules None) (ready u ar).
  Proof.
    intros Gu Gc Ea s r s' I _ E. unfold create_grant in E.
    unfold bind at 1 in E. unfold tick in E. unfold bind at 1 in E. unfold new_obj in E. cbn [s_heap s_db s_ctr s_always] in E.
    set (gid := e_uuid e (s_ctr s)) in *. set (c := ar_client_id ar) in *.
    set (g := new_grant now ar ae (e_sub e u (ar_sector ar)) gid rules None) in *.
    set (s1 := mk_st (s_heap s ++ [OGrant g]) (s_db s) (S (s_ctr s)) (s_always s)) in *.
    set (l := List.length (s_heap s)) in *.
    destruct (law_uuid_id _ W (s_ctr s)) as [(N1 & N2 & N3) N4]. fold gid in N1, N2, N3, N4.
    assert (separable [u; c; gid]) as S by (apply sep_good; auto).
    assert (Inv e s1) as I1.
    { apply inv_app_grant with (n := s_ctr s); auto. apply new_grant_ok. }
    assert (st_later now s s1) as L1 by (apply later_app; auto).
    assert (hp s1 l = Some (OGrant g)) as H1 by apply hp_app_same.
    assert (belongs e g u c) as B. { exists ar, ae. cbn. auto 6. }
    assert (owns e s1 l u c gid) as O. { exists g. auto. }
    apply bind_inv in E as [([] & s2 & E2 & E)|(x & E2 & ->)].
    - assert (forall u0 c0 g0 r0, [u; c; gid] = u0 :: c0 :: g0 :: r0 -> owns e s1 l u0 c0 g0) as Pre0.
      { intros ? ? ? ? X. injection X; intros; subst; auto. }
      pose proof (conj Pre0 (conj (fun X : 3 = 2 => False_ind (is_info l s1) (n3_2 X)) (fun X : 3 = 1 => False_ind (is_obj l s1) (n3_1 X)))) as Pre.
      destruct (db_set_spec e now W [u; c; gid] l S s1 _ _ I1 Pre E2) as (I2 & L2 & _).
      pose proof (gsame_db_set _ _ _ _ _ E2 _ _ H1) as H2.
      pose proof (quiet_enc_sid _ _ _ _ _ E) as Q.
      split; [eapply quiet_inv; eauto|].
      split. { eapply st_later_trans; [exact L1|]. eapply st_later_trans; [exact L2|]. now apply quiet_later. }
      intros sid ->. pose proof (gsame_quiet _ (quiet_enc_sid e [u; c; gid]) _ _ _ E _ _ H2) as H3.
      exists gid, l, g. split.
      { unfold enc_sid, bind, tick, ret in E. injection E as <- _. unfold dec_sid3, dec_sid.
        rewrite decrypt_encrypt; auto; apply W. }
      split; auto.
    - assert (forall u0 c0 g0 r0, [u; c; gid] = u0 :: c0 :: g0 :: r0 -> owns e s1 l u0 c0 g0) as Pre0.
      { intros ? ? ? ? X. injection X; intros; subst; auto. }
      pose proof (conj Pre0 (conj (fun X : 3 = 2 => False_ind (is_info l s1) (n3_2 X)) (fun X : 3 = 1 => False_ind (is_obj l s1) (n3_1 X)))) as Pre.
      destruct (db_set_spec e now W [u; c; gid] l S s1 _ _ I1 Pre E2) as (I2 & L2 & _).
      split; auto. split; [eapply st_later_trans; eauto|discriminate].
  Qed.

  Lemma create_session_spec ae ar u rules :
    good_id u -> good_id (ar_client_id ar) -> ae_uid ae = u ->
    spec e now (fun _ => True) (create_session e now ae ar u (ar_client_id ar) rules None) (ready u ar).
  Proof.
    intros Gu Gc Ea. unfold create_session.
    assert (str_true (ar_client_id ar) = true) as Tc.
    { destruct Gc as [N _]. destruct (ar_client_id ar); [congruence|reflexivity]. }
    rewrite Tc.
    eapply spec_seq with (Q := fun _ _ => True).
    { apply keeps_catch.
      - apply keeps_bind; [apply keeps_reader, reader_db_get|]. intros; apply keeps_reader, reader_ret.
      - intros x k X. destruct (is_KeyError x); [|discriminate]. injection X as <-.
        eapply spec_seq; [apply new_info; reflexivity|]. intros l.
        eapply spec_pre; [|apply db_set_plain; auto; apply Gu]. intros s _. apply info_obj. }
    intros ?. eapply spec_seq with (Q := fun _ _ => True).
    { apply keeps_catch.
      - apply keeps_bind; [apply keeps_reader, reader_db_get|]. intros; apply keeps_reader, reader_ret.
      - intros x k X. destruct x; try discriminate X; injection X as <-.
        all: eapply spec_seq; [apply new_info; reflexivity|]; intros l; apply keeps_set2.
        all: destruct Gu as (_ & U1 & U2), Gc as (_ & C1 & C2); split;
          [intros x [<-|[<-|[]]]; auto
          |intros pre x y post X; destruct pre as [|b0 [|b1 pre]]; cbn in X;
             [injection X as <- _ _; auto|discriminate
             |injection X as _ _ X; destruct pre; discriminate]]. }
    intros ?. now apply create_grant_spec.
  Qed.
  Lemma ep_create_session_spec ar u acr exp_in :
    good_id u -> good_id (ar_client_id ar) ->
    spec e now (fun _ => True) (ep_create_session e now ar u acr exp_in) (ready u ar).
  Proof. intros. unfold ep_create_session. apply create_session_spec; auto. Qed.

  (** ** The authorization policy *)
  Lemma ready_unique u ar sid s l u0 c0 g0 : Inv e s -> ready u ar sid s ->
    dec_sid3 e sid = Ok (u0, c0, g0) -> owns e s l u0 c0 g0 ->
    u0 = u /\ c0 = ar_client_id ar
    /\ exists g, hp s l = Some (OGrant g) /\ grant_active now g = true /\ g_areq g = Some ar.
  Proof.
    intros I (gid & l' & g & D & H & Id & B & A & R) D' (g1 & H1 & Id1 & B1).
    rewrite D in D'. injection D' as <- <- <-. split; auto. split; auto. exists g.
    assert (l = l') as -> by (eapply (inv_uniq _ _ I l l'); eauto; congruence).
    auto.
  Qed.

  Lemma authz_spec u ar sid :
    spec e now (ready u ar sid) (authz e now sid ar)
      (fun l s => final e l s /\ exists gid, dec_sid3 e sid = Ok (u, ar_client_id ar, gid)
                                          /\ owns e s l u (ar_client_id ar) gid).
  Proof.
    intros s r s' I P E. unfold authz in E. destruct (e_implicit e) eqn:Im.
    - apply bind_inv in E as [(l & s1 & E1 & E)|(x & E1 & ->)].
      2:{ apply reader_get_grant in E1. subst. split; auto. split; [apply st_later_refl|discriminate]. }
      pose proof (reader_get_grant _ _ _ _ _ E1). subst s1.
      assert (s' = s) as ->.
      { destruct (gconf_empty (e_authz e)); [apply reader_ret in E|apply reader_raise in E]; auto. }
      split; auto. split; [apply st_later_refl|]. intros l0 ->.
      destruct (gconf_empty (e_authz e)); [|discriminate]. apply ret_ok in E as [<- _].
      unfold get_grant in E1.
      apply bind_inv in E1 as [([[u0 c0] g0] & s1 & H0 & E1)|(? & _ & ?)]; [|discriminate].
      apply lift_ok in H0 as [H0 <-].
      apply bind_inv in E1 as [(a & s1 & H & E1)|(? & _ & ?)]; [|discriminate].
      pose proof (reader_db_get _ _ _ _ H). subst s1.
      apply bind_inv in E1 as [(o & s1 & H1 & E1)|(? & _ & ?)]; [|discriminate].
      pose proof (reader_deref _ _ _ _ H1). subst s1. destruct o; try discriminate E1.
      apply ret_ok in E1 as [<- _].
      pose proof (db_get_owns e s u0 c0 g0 [] a I (dec_sid3_separable _ _ _ _ _ H0) H) as O.
      destruct (ready_unique _ _ _ _ _ _ _ _ I P H0 O) as (-> & -> & gg & Hg & Ag & Rg).
      split.
      + exists gg. split; auto. intros N. unfold authz_scope in N. rewrite Im in N. congruence.
      + exists g0. auto.
    - apply bind_inv in E as [(i & s1 & E1 & E)|(x & E1 & ->)].
      2:{ apply reader_get_session_info in E1. subst. split; auto. split; [apply st_later_refl|discriminate]. }
      pose proof (reader_get_session_info _ _ _ _ _ E1). subst s1.
      destruct (get_session_info_read _ _ _ _ I E1) as (_ & D & _ & O).
      destruct (ready_unique _ _ _ _ _ _ _ _ I P D O) as (Eu & Ec & g & Hg & Ag & Rg).
      cbv zeta in E. set (l := ss_grant i) in *. rewrite Eu, Ec in *.
      apply bind_inv in E as [(g1 & s1 & E2 & E)|(x & E2 & ->)].
      2:{ apply reader_grant_at in E2. subst. split; auto. split; [apply st_later_refl|discriminate]. }
      apply grant_at_ok in E2 as [-> Hg1]. rewrite Hg in Hg1. injection Hg1 as <-.
      set (f1 := fun g => g_set_resources [ar_client_id ar] (apply_gconf e now ar g)) in *.
      unfold bind at 1 in E. unfold upd_obj at 1 in E.
      set (s1 := mk_st (upd_nth l (on_grant f1) (s_heap s)) (s_db s) (s_ctr s) (s_always s)) in *.
      assert (hp s1 l = Some (OGrant (f1 g))) as H1 by (unfold s1; rewrite hp_upd_same, Hg; reflexivity).
      apply bind_inv in E as [(g1 & s2 & E2 & E)|(x & E2 & ->)].
      2:{ exfalso. unfold grant_at, bind, deref in E2. unfold hp in H1. rewrite H1 in E2. discriminate. }
      apply grant_at_ok in E2 as [-> Hg1]. rewrite H1 in Hg1. injection Hg1 as <-.
      set (sc := match g_scope (f1 g) with
                 | [] => match ar_scope ar with Some s => s | None => [] end
                 | s => s
                 end) in *.
      unfold bind at 1 in E. unfold upd_obj at 1 in E.
      set (s2 := mk_st (upd_nth l (on_grant (g_set_scope sc)) (s_heap s1)) (s_db s1) (s_ctr s1) (s_always s1)) in *.
      pose proof (inv_grants _ _ I _ _ Hg) as G.
      assert (sc = authz_scope e g) as Esc.
      { unfold authz_scope. rewrite Im, Rg. unfold sc, f1, apply_gconf.
        destruct (gi_scope _ _ G) as [Z|Z].
        - destruct (gc_scope (e_authz e)) as [[|x y]|]; cbn; destruct (gc_rules (e_authz e)), (gc_exp (e_authz e));
            cbn; rewrite ?Z; reflexivity.
        - unfold authz_scope in Z. rewrite Im, Rg in Z.
          destruct (gc_scope (e_authz e)) as [[|x y]|]; cbn; destruct (gc_rules (e_authz e)), (gc_exp (e_authz e));
            cbn; rewrite ?Z; try reflexivity; destruct (ar_scope ar) as [[|? ?]|]; reflexivity. }
      set (F := fun g => g_set_scope sc (f1 g)).
      assert (s2 = mk_st (upd_nth l (on_grant F) (s_heap s)) (s_db s) (s_ctr s) (s_always s)) as Es2.
      { unfold s2, s1. cbn [s_heap s_db s_ctr s_always]. rewrite upd_nth_twice. f_equal.
        apply upd_nth_ext. intros [x|x|]; reflexivity. }
      assert (forall x, g_id (F x) = g_id x /\ g_areq (F x) = g_areq x /\ g_aevent (F x) = g_aevent x
                /\ g_sub (F x) = g_sub x /\ g_tokens (F x) = g_tokens x /\ g_max (F x) = g_max x
                /\ g_nbf (F x) = g_nbf x /\ g_scope (F x) = sc /\ g_issued (F x) = g_issued x
                /\ g_used (F x) = g_used x /\ g_revoked (F x) = g_revoked x) as FF.
      { intros x. unfold F, f1, apply_gconf.
        destruct (gc_scope (e_authz e)), (gc_rules (e_authz e)), (gc_exp (e_authz e)); cbn; repeat split. }
      destruct (FF g) as (F1 & F2 & F3 & F4 & F5 & F6 & F7 & F8 & F9 & F10 & F11).
      assert (g_scope g = [] \/ g_scope g = sc) as Zs by (rewrite Esc; apply G).
      assert (Inv e s2) as I2.
      { rewrite Es2. apply inv_upd; auto. intros o Ho. rewrite Hg in Ho. injection Ho as <-. cbn [on_grant obj_change].
        rewrite F5. do 5 (split; [assumption || reflexivity|]). intros _.
        assert (authz_scope e (F g) = authz_scope e g) as Ea by (unfold authz_scope; now rewrite F2).
        constructor; rewrite ?Ea, ?F5, ?F6, ?F7, ?F8; try apply G; auto.
        2:{ intros t It Cl. apply (sid_of_same e g); auto. apply (gi_sid _ _ G); auto. }
        intros t It. pose proof (gi_tok _ _ G t It) as [T1 T2 T3 T4 T5 T6 T7 T8]. constructor; auto.
        all: rewrite F8, Esc; rewrite <- (gi_final _ _ G); auto; intros Z; rewrite Z in It; destruct It. }
      assert (st_later now s s2) as L2.
      { rewrite Es2. apply later_upd; auto. intros o Ho. rewrite Hg in Ho. injection Ho as <-. cbn [on_grant obj_later].
        unfold grant_later. rewrite F1, F2, F3, F4, F5, F6, F7, F8, F9, F10, F11, Ag.
        do 7 (split; [reflexivity|]). split; auto. split; [lia|]. split; [apply tokens_later_refl|].
        split; [discriminate|]. intros N. destruct Zs; congruence. }
      assert (hp s2 l = Some (OGrant (F g))) as H2 by (rewrite Es2, hp_upd_same, Hg; reflexivity).
      assert (final e l s2) as Fi.
      { exists (F g). split; auto. intros _. unfold authz_scope. rewrite F2, F8. exact Esc. }
      clear H1.
      assert (spec e now (fun s => final e l s /\ owns e s l u (ar_client_id ar) (ss_gid i))
                (c <- get_claims_all_usage e sid sc ;; upd_obj l (on_grant (g_set_claims c)) ;; ret l)
                (fun l s => final e l s /\ exists gid, dec_sid3 e sid = Ok (u, ar_client_id ar, gid)
                                          /\ owns e s l u (ar_client_id ar) gid)) as Fin.
      { eapply spec_bind; [stab|apply keeps_spec, keeps_quiet, quiet_all_claims|]. intros cl.
        eapply spec_bind; [stab|apply keeps_spec, keeps_set_claims|]. intros ?.
        apply spec_ret. intros s3 (((A1 & A2) & _) & _). split; auto. eauto. }
      destruct (Fin s2 r s' I2) as (I3 & L3 & Q3); [|exact E|].
      { split; auto. eapply owns_later; eauto. }
      split; auto. split; auto. eapply st_later_trans; eauto.
  Qed.
End Specs.
