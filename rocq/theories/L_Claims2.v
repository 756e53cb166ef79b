(** Claims in token payloads. *)
From Verif Require Import M_Base M_Types M_Codec M_Grant M_Env M_Session M_Claims M_Handler S_Codec
  S_Claims S_Store L_Base L_Monad L_Claims L_Store.

Lemma dset_In_str {V} (d : dict V) k v x y : In (x, y) (dset d k v) -> x = k \/ In (x, y) d.
Proof. intros H. apply dset_In in H. tauto. Qed.

Lemma get_session_info_state e sid s : snd (get_session_info e sid s) = s.
Proof.
  unfold get_session_info. unfold bind at 1, lift. destruct (dec_sid3 e sid) as [[[u c] g]|x]; [|reflexivity].
  unfold bind. pose proof (db_get_state [u; c; g] s) as X.
  destruct (db_get [u; c; g] s) as [[l|x] s1]; cbn in *; congruence.
Qed.

Lemma get_session_info_ok e sid s i s' : get_session_info e sid s = (Ok i, s') ->
  s' = s /\ exists u c g l, dec_sid3 e sid = Ok (u, c, g) /\ reads s [u; c; g] l /\ i = mk_sess sid u c g l.
Proof.
  intros H. pose proof (get_session_info_state e sid s) as X. rewrite H in X. cbn in X. subst s'.
  split; [reflexivity|]. unfold get_session_info in H. minv1 H. minv1 H0. subst.
  destruct a as [[u c] g]. minv1 H. minv1 H. subst.
  pose proof (db_get_state [u; c; g] s0) as Y. rewrite H0 in Y. cbn in Y. subst.
  exists u, c, g, a. auto.
Qed.

Lemma grant_at_ok l s g s' : grant_at l s = (Ok g, s') -> s' = s /\ nth_error (s_heap s) l = Some (OGrant g).
Proof.
  unfold grant_at, bind, deref. intros H. destruct (nth_error (s_heap s) l) as [[| |]|];
    cbn in H; try discriminate. injection H as <- <-. auto.
Qed.

Lemma grant_at_state l s : snd (grant_at l s) = s.
Proof.
  unfold grant_at, bind, deref. destruct (nth_error (s_heap s) l) as [[| |]|]; reflexivity.
Qed.

Lemma get_claims_ok e sid scopes point second s d s' :
  get_claims e sid scopes point second s = (Ok d, s') ->
  same_core s s' /\
  exists u c g l gr, dec_sid3 e sid = Ok (u, c, g) /\ reads s [u; c; g] l
    /\ nth_error (s_heap s) l = Some (OGrant gr)
    /\ forall k sp, In (k, sp) d ->
         asked_for e s (g_areq gr) point (Some scopes) (eff_client c (g_areq gr)) second k.
Proof.
  intros H. unfold get_claims in H. minv1 H. apply get_session_info_ok in H0.
  destruct H0 as [-> [u [c [g [l [D [R ->]]]]]]]. minv1 H. apply grant_at_ok in H0. destruct H0 as [-> G].
  cbn [ss_client ss_grant] in *. destruct (gcfr_run _ _ _ _ _ _ _ _ _ H) as [S A].
  split; [exact S|]. exists u, c, g, l, a. repeat split; auto.
  intros k sp Hk. exact (A d eq_refl k sp Hk).
Qed.

(** Reading depends on the records and the index only. *)
Lemma db_get_ext p h d c a c' a' :
  fst (db_get p (mk_st h d c a)) = fst (db_get p (mk_st h d c' a')).
Proof.
  unfold db_get, lift. unfold bind at 1 14.
  destruct (eval_path p) as [[[u k] g]|x]; [|reflexivity].
  unfold subordinate, deref, db_lookup, bind, ret, raise. cbn [s_heap s_db].
  destruct (dget d u) as [ul|]; [|reflexivity]. cbn [s_heap s_db].
  destruct (nth_error h ul) as [[i|gr|]|] eqn:E1; cbn [s_heap s_db]; try reflexivity.
  all: destruct k as [k|]; [|reflexivity]; cbn [s_heap s_db]; rewrite E1; try reflexivity.
  destruct (negb (smem k (si_sub i))); [reflexivity|]; cbn [s_heap s_db].
  destruct (dget d (session_key [u; k])) as [cl|]; [|reflexivity]; cbn [s_heap s_db].
  destruct g as [g|]; [|reflexivity]; cbn [s_heap s_db].
  destruct (nth_error h cl) as [[j|gj|]|]; cbn [s_heap s_db]; try reflexivity.
  destruct (negb (smem g (si_sub j))); [reflexivity|]; cbn [s_heap s_db].
  destruct (dget d (session_key [u; k; g])); reflexivity.
Qed.

Lemma reads_ext s s' p l : s_heap s' = s_heap s -> s_db s' = s_db s -> reads s p l -> reads s' p l.
Proof.
  unfold reads. intros H1 H2 R. destruct s as [h d c a], s' as [h' d' c' a']. cbn [s_heap s_db] in *. subst h' d'.
  pose proof (db_get_ext p h d c a c' a') as X. pose proof (db_get_state p (mk_st h d c' a')) as Y.
  rewrite R in X. destruct (db_get p (mk_st h d c' a')) as [r s1]. cbn [fst snd] in *. congruence.
Qed.

Lemma payload_In e g sid point scope second s p s' :
  payload_arguments e g sid point scope second s = (Ok p, s') ->
  exists u c gid l gr, dec_sid3 e sid = Ok (u, c, gid) /\ reads s [u; c; gid] l
    /\ nth_error (s_heap s) l = Some (OGrant gr)
    /\ forall k v, In (k, v) p -> In k technical
         \/ releasable e s (g_areq gr) point scope (eff_client c (g_areq gr)) second u k v.
Proof.
  intros H. unfold payload_arguments in H. minv1 H. unfold tick in H0. injection H0 as <- <-.
  minv1 H. apply get_claims_ok in H0. destruct H0 as [_ [u [c [gid [l [gr [D [R [G A]]]]]]]]].
  minv1 H. minv1 H0. subst. rewrite D in E. injection E as <-.
  minv1 H. minv1 H0. subst.
  exists u, c, gid, l, gr. split; [exact D|].
  split. { eapply reads_ext; [| |exact R]; reflexivity. }
  split; [exact G|].
  minv1 H. minv1 H0. subst. minv1 H. minv1 H. subst. intros k v I.
  assert (I' : k = "acr" \/ In (k, v) (dupdate
    (match g_areq g with
     | Some a => if str_true (ar_client_id a)
                 then dset (dset (match dget (g_extra g) "dpop_jkt" with
           | Some j => if str_true j then dset [("scope", JList (map JStr scope)); ("aud", JList (map JStr (g_resources g)));
            ("jti", JStr (e_uuid e (s_ctr s)))] "cnf" (JObj [("jkt", JStr j)]) else [("scope", JList (map JStr scope)); ("aud", JList (map JStr (g_resources g)));
            ("jti", JStr (e_uuid e (s_ctr s)))]
           | None => [("scope", JList (map JStr scope)); ("aud", JList (map JStr (g_resources g)));
            ("jti", JStr (e_uuid e (s_ctr s)))]
           end) "client_id" (JStr (ar_client_id a))) "sub" (JStr (g_sub g))
                 else (match dget (g_extra g) "dpop_jkt" with
           | Some j => if str_true j then dset [("scope", JList (map JStr scope)); ("aud", JList (map JStr (g_resources g)));
            ("jti", JStr (e_uuid e (s_ctr s)))] "cnf" (JObj [("jkt", JStr j)]) else [("scope", JList (map JStr scope)); ("aud", JList (map JStr (g_resources g)));
            ("jti", JStr (e_uuid e (s_ctr s)))]
           | None => [("scope", JList (map JStr scope)); ("aud", JList (map JStr (g_resources g)));
            ("jti", JStr (e_uuid e (s_ctr s)))]
           end)
     | None => (match dget (g_extra g) "dpop_jkt" with
           | Some j => if str_true j then dset [("scope", JList (map JStr scope)); ("aud", JList (map JStr (g_resources g)));
            ("jti", JStr (e_uuid e (s_ctr s)))] "cnf" (JObj [("jkt", JStr j)]) else [("scope", JList (map JStr scope)); ("aud", JList (map JStr (g_resources g)));
            ("jti", JStr (e_uuid e (s_ctr s)))]
           | None => [("scope", JList (map JStr scope)); ("aud", JList (map JStr (g_resources g)));
            ("jti", JStr (e_uuid e (s_ctr s)))]
           end)
     end) a0)).
  { destruct a2; [|right; exact I]. destruct (g_aevent g); [|right; exact I].
    apply dset_In_str in I. destruct I as [->|I]; [left; reflexivity|right; exact I]. }
  clear I. destruct I' as [->|I]; [left; cbn; tauto|].
  apply dupdate_In in I. destruct I as [I|I].
  - left. assert (B : forall k v, In (k, v) (match dget (g_extra g) "dpop_jkt" with
           | Some j => if str_true j then dset [("scope", JList (map JStr scope)); ("aud", JList (map JStr (g_resources g)));
            ("jti", JStr (e_uuid e (s_ctr s)))] "cnf" (JObj [("jkt", JStr j)]) else [("scope", JList (map JStr scope)); ("aud", JList (map JStr (g_resources g)));
            ("jti", JStr (e_uuid e (s_ctr s)))]
           | None => [("scope", JList (map JStr scope)); ("aud", JList (map JStr (g_resources g)));
            ("jti", JStr (e_uuid e (s_ctr s)))]
           end) -> In k technical).
    { intros k0 v0 J. assert (J' : k0 = "cnf" \/ In (k0, v0) [("scope", JList (map JStr scope)); ("aud", JList (map JStr (g_resources g)));
            ("jti", JStr (e_uuid e (s_ctr s)))]).
      { destruct (dget (g_extra g) "dpop_jkt") as [j|]; [|now right].
        destruct (str_true j); [|now right]. now apply dset_In_str in J. }
      destruct J' as [->|J']; [cbn; tauto|]. cbn in J'.
      repeat (destruct J' as [J'|J']; [injection J' as <- _; cbn; tauto|]). destruct J'. }
    destruct (g_areq g) as [q|]; [|eauto].
    destruct (str_true (ar_client_id q)); [|eauto].
    apply dset_In_str in I. destruct I as [->|I]; [cbn; tauto|].
    apply dset_In_str in I. destruct I as [->|I]; [cbn; tauto|eauto].
  - right. destruct (e_users e) as [users|] eqn:Us.
    + destruct (user_claims_In e u a a0 k v users Us E I) as [sp [I1 [I2 I3]]].
      split; [|exists users, sp; auto]. pose proof (A k sp I1) as X. destruct X.
      * eapply af_request; eauto.
      * eapply af_scope; eauto.
      * eapply af_base; eauto.
      * eapply af_always; eauto.
      * eapply af_client; eauto.
    + unfold get_user_claims in E. rewrite Us in E. discriminate.
Qed.
