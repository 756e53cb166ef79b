(** Lemmas for PKCE. *)
From Verif Require Import M_Base M_Types M_Codec M_Grant M_Env M_Session M_Claims M_Handler
  M_Authz M_TokenEP M_PKCE M_AuthzEP M_Info M_Logout M_History S_Codec S_Grant S_History S_PKCE
  L_Base L_Codec L_Monad L_Grant L_Store L_Hist1 L_Hist2 L_Hist3 L_Hist6 L_Hist7 L_Hist8 L_Hist9 L_Hist10 L_Hist11.

Section P.
  Variables (e : env) (W : laws e).

  Lemma dec_any_nonce r n r' n' p :
    dec_sid e (encrypted_session_id (e_crypto e) (e_skey e) r n p)
    = dec_sid e (encrypted_session_id (e_crypto e) (e_skey e) r' n' p).
  Proof.
    unfold dec_sid, decrypt_session_id, encrypted_session_id.
    rewrite !(law_base64 _ W), !crypt_roundtrip by apply (law_fernet _ W).
    change [r; session_key p] with ([r] ++ [session_key p]).
    change [r'; session_key p] with ([r'] ++ [session_key p]).
    rewrite !lv_unpack_rstrip. reflexivity.
  Qed.

  (** Two look-ups of a text at one time, in states with the same sessions, find
      the same grant. *)
  Lemma by_token_same now v s i s1 s' i' s1' : s_heap s' = s_heap s -> s_db s' = s_db s ->
    get_session_info_by_token e now v s = (Ok i, s1) ->
    get_session_info_by_token e now v s' = (Ok i', s1') -> ss_grant i' = ss_grant i.
  Proof.
    intros Hh Hd E E'. unfold get_session_info_by_token in *.
    apply bind_ok in E as (ti & s2 & Et & E). apply lift_ok in Et as [Et <-].
    apply bind_ok in E' as (ti' & s2' & Et' & E'). apply lift_ok in Et' as [Et' <-].
    assert (ti' = ti) as -> by congruence. destruct (negb _); [discriminate|].
    apply bind_ok in E as (sid & s3 & Ec & E). apply bind_ok in E' as (sid' & s3' & Ec' & E').
    assert (dec_sid3 e sid' = dec_sid3 e sid /\ s_heap s3' = s_heap s3 /\ s_db s3' = s_db s3) as (Ed & Eh & Edb).
    { pose proof (quiet_compatible e _ _ _ _ Ec) as (A & B & _).
      pose proof (quiet_compatible e _ _ _ _ Ec') as (A' & B' & _).
      split; [|split; congruence].
      unfold compatible_sid in *. destruct (Nat.eqb _ 3); [|apply ret_ok in Ec as [<- _]; apply ret_ok in Ec' as [<- _]; reflexivity].
      unfold enc_sid in *. apply bind_ok in Ec as (n & ? & _ & Ec). apply bind_ok in Ec' as (n' & ? & _ & Ec').
      apply ret_ok in Ec as [<- _]. apply ret_ok in Ec' as [<- _].
      unfold dec_sid3. erewrite dec_any_nonce. reflexivity. }
    unfold get_session_info in *. apply bind_ok in E as (p & s4 & Ep & E). apply lift_ok in Ep as [Ep <-].
    apply bind_ok in E' as (p' & s4' & Ep' & E'). apply lift_ok in Ep' as [Ep' <-].
    assert (p' = p) as -> by congruence. destruct p as [[u c] g].
    apply bind_ok in E as (l & s5 & El & E). apply ret_ok in E as [<- _].
    apply bind_ok in E' as (l' & s5' & El' & E'). apply ret_ok in E' as [<- _]. cbn.
    pose proof (db_get_state [u; c; g] s3) as X. rewrite El in X. cbn in X. subst s5.
    pose proof (db_get_state [u; c; g] s3') as X. rewrite El' in X. cbn in X. subst s5'.
    apply db_get_3 in El, El'. congruence.
  Qed.

  (** [q] matches the authorization request [ar]. *)
  Definition ver_ok (q : treq) (ar : areq) : Prop :=
    forall ch, ar_code_challenge ar = Some ch ->
      exists vf m, tr_verifier q = Some vf /\ ar_code_challenge_method ar = Some m /\ matches e m vf ch.

  Lemma matches_of m vf ch : verify_code_challenge e vf ch m = Ok true -> matches e m vf ch.
  Proof.
    unfold verify_code_challenge, cc_method, matches. intros H. apply rbind_ok in H as (x & Ex & H).
    assert (x = ch) as -> by (apply seqb_eq; congruence).
    destruct (String.eqb m "plain") eqn:Ep; [apply seqb_eq in Ep; left; split; auto; congruence|].
    destruct (smem m ["S256"; "S384"; "S512"]) eqn:Es; [|discriminate]. right. split; auto.
    apply smem_In in Es. destruct Es as [<-|[<-|[<-|[]]]]; auto.
  Qed.

  Lemma pkce_check_ok now q s s' q' : pkce_check e now q s = (Ok (Good q'), s') ->
    exists v i s1, tr_code q = Some v /\ get_session_info_by_token e now v s = (Ok i, s1)
      /\ exists g ar, hp s1 (ss_grant i) = Some (OGrant g) /\ g_areq g = Some ar /\ ver_ok q ar.
  Proof.
    unfold pkce_check. intros E. apply bind_ok in E as (oi & s1 & E1 & E).
    destruct oi as [i|]; [|discriminate].
    apply catch_inv in E1 as [(o' & E1 & X)|[(x & s3 & k & E1 & X & E3)|(x & _ & _ & X)]]; [| |discriminate].
    2: { destruct (is_KeyError x); [|discriminate]. injection X as <-. discriminate. }
    injection X as <-. apply bind_ok in E1 as (c & s2 & Ec & E1).
    destruct (tr_code q) as [v|]; [|discriminate]. apply ret_ok in Ec as [<- <-].
    apply bind_ok in E1 as (i' & s3 & El & E1). apply ret_ok in E1 as [X <-]. injection X as ->.
    exists v, i, s3. split; auto. split; auto.
    apply bind_ok in E as (g & s4 & Eg & E). apply grant_at_ok in Eg as [-> Hg].
    apply bind_ok in E as (ar & s5 & Ea & E). destruct (g_areq g) as [a|] eqn:Ega; [|discriminate].
    apply ret_ok in Ea as [-> ->]. exists g, ar. split; auto. split; auto.
    intros ch Ech. rewrite Ech in E. destruct (tr_verifier q) as [vf|]; [|discriminate].
    apply bind_ok in E as (m & s6 & Em & E). destruct (ar_code_challenge_method ar) as [m'|]; [|discriminate].
    apply ret_ok in Em as [-> ->]. apply bind_ok in E as (b & s7 & Eb & E). apply lift_ok in Eb as [Eb _].
    destruct b; [|discriminate]. exists vf, m. split; auto. split; auto. now apply matches_of.
  Qed.

  Definition pkce_ok (q : treq) (s : st) : Prop :=
    tr_grant_type q = CODE -> exists v l j t g ar, tr_code q = Some v /\ has l j t s /\ t_value t = v
      /\ hp s l = Some (OGrant g) /\ g_areq g = Some ar /\ ver_ok q ar.
  Lemma st_pkce_ok now q : Stable now (pkce_ok q).
  Proof.
    intros s s' L P G. destruct (P G) as (v & l & j & t & g & ar & A & B & C & D & F & K).
    destruct (st_later_grant _ _ _ _ _ L D) as (g' & Hg & Lg).
    exists v, l, j, t, g', ar. split; auto. split; [eapply (st_has now); eauto|]. split; auto. split; auto.
    split; auto. destruct Lg as (_ & X & _). congruence.
  Qed.

  Lemma parse_pkce_ok h now cid q q' s' : HI e h -> e_pkce e = true ->
    token_parse_all e now cid q (h_st h) = (Ok (Good q'), s') -> pkce_ok q' s'.
  Proof.
    intros Hh Pk E G. destruct (token_parse_all_spec e now cid q _ _ _ (hi_inv _ _ Hh) Logic.I E) as (I' & _ & Q).
    destruct (Q _ eq_refl _ eq_refl) as (_ & Gq & Cq & _). clear Q.
    destruct (parse_all_good _ _ _ _ _ _ _ E) as (s0 & Ep & Ek).
    rewrite Pk, G, String.eqb_refl in Ek. specialize (Ek eq_refl).
    pose proof (token_parse_spec e now cid q _ _ _ (hi_inv _ _ Hh) Logic.I Ep) as (I0 & _ & _).
    destruct (pkce_check_ok _ _ _ _ _ Ek) as (v & i & s1 & Ev & El & g & ar & Hg & Ea & Vo).
    assert (s' = s1 /\ quiet s0 s1) as [-> Q1].
    { split; [|eapply quiet_by_token; eauto]. clear - Ek El Ev. unfold pkce_check in Ek.
      apply bind_ok in Ek as (oi & s2 & E1 & E). rewrite Ev in E1.
      assert (oi = Some i /\ s2 = s1) as [-> ->].
      { unfold catch in E1. unfold bind at 1 in E1. cbn [ret] in E1. unfold bind at 1 in E1. rewrite El in E1. cbn in E1.
        injection E1 as <- <-. auto. }
      apply bind_ok in E as (g & s4 & Eg & E). apply grant_at_ok in Eg as [-> _].
      apply bind_ok in E as (ar & s5 & Ea & E). destruct (g_areq g); [|discriminate]. apply ret_ok in Ea as [_ ->].
      destruct (ar_code_challenge ar); [|now injection E].
      destruct (tr_verifier q') as [vf|]; [|discriminate].
      apply bind_ok in E as (m & s6 & Em & E). destruct (ar_code_challenge_method ar); [|discriminate].
      apply ret_ok in Em as [_ ->]. apply bind_ok in E as (b & s7 & Eb & E). apply lift_ok in Eb as [_ <-].
      destruct b; [now injection E|discriminate]. }
    (* the endpoint's own look-up *)
    unfold token_parse in Ep. destruct (dget (e_clients e) cid); [|discriminate].
    match type of Ep with (if ?b then _ else _) _ = _ => destruct b end; [discriminate|].
    match type of Ep with (if ?b then _ else _) _ = _ => destruct b end; [discriminate|].
    rewrite <- Gq, G, String.eqb_refl in Ep.
    unfold code_parse in Ep. apply bind_ok in Ep as (oi & s2 & E1 & Ep).
    destruct oi as [[c' i0]|]; [|discriminate].
    apply catch_inv in E1 as [(o' & E1 & X)|[(x & s3 & k & E1 & X & E3)|(x & _ & _ & X)]]; [| |discriminate].
    2: { assert (k = ret None) as -> by (destruct (is_KeyError x); [congruence|destruct x; congruence]). discriminate. }
    injection X as <-. apply bind_ok in E1 as (c2 & s3 & Ec & E1). rewrite <- Cq, Ev in Ec. apply ret_ok in Ec as [<- <-].
    apply bind_ok in E1 as (i1 & s4 & El0 & E1). apply ret_ok in E1 as [X <-].
    assert (c' = v) as -> by congruence. assert (i1 = i0) as -> by congruence. clear X.
    destruct (by_token_read e _ _ _ _ _ (hi_inv _ _ Hh) El0) as (Q0 & _ & gr & Hgr & _).
    apply bind_ok in Ep as (g0 & s5 & Eg & Ep). apply grant_at_ok in Eg as [-> Hg0].
    destruct (get_token g0 v) as [t|] eqn:Gt; [|discriminate].
    destruct (negb (String.eqb (t_class t) CODE)); [discriminate|].
    destruct (e_oidc e && negb (Z.eqb (t_used t) 0)).
    { apply bind_ok in Ep as (? & ? & _ & Ep). discriminate. }
    destruct (negb (tok_active now t)); [discriminate|].
    assert (s0 = s4) as ->.
    { destruct (tr_client q); [now injection Ep|]. destruct (g_areq g0); [now injection Ep|discriminate]. }
    destruct Q0 as (Qh & Qd & _).
    pose proof (by_token_same _ _ _ _ _ _ _ _ Qh Qd El0 El) as Egr.
    destruct Q1 as (Qh1 & _).
    assert (hp s1 (ss_grant i) = Some (OGrant g0)) as Hs1.
    { unfold hp in *. rewrite Qh1, Egr. exact Hg0. }
    assert (g0 = g) as -> by congruence.
    destruct (get_token_has _ _ _ _ _ Hs1 Gt) as (V & j & Hj).
    exists v, (ss_grant i), j, t, g, ar. auto 10.
  Qed.

  Lemma history_pkce ops evs h : e_pkce e = true -> history e ops evs h ->
    Forall (fun q => pkce_ok q (h_st h)) (h_parsed h).
  Proof.
    intros Pk (Po & al & E).
    refine (proj2 (exec_keeps e W (fun h => Forall (fun q => pkce_ok q (h_st h)) (h_parsed h)) ops
      (h_init al) evs h _ (hi_init e al) Po E (Forall_nil _))).
    clear - W Pk. intros h1 o ev h2 _ Hh S L P.
    assert (Forall (fun q => pkce_ok q (h_st h2)) (h_parsed h1)) as P'.
    { eapply Forall_impl; [|exact P]. intros q. eapply st_pkce_ok; eauto. }
    assert (forall A (f : res A -> event) (m : M st A), on_st h1 f m = (ev, h2) -> h_parsed h2 = h_parsed h1) as K.
    { intros A f m X. unfold on_st in X. destruct (m (h_st h1)). injection X as _ <-. reflexivity. }
    destruct o; cbn [step] in S; try (rewrite (K _ _ _ S); exact P').
    - destruct (token_parse_all e now cid req (h_st h1)) as [r s] eqn:Ep. injection S as _ <-. cbn in *.
      destruct r as [[x|q]|x]; auto. apply Forall_app. split; auto. constructor; auto.
      eapply parse_pkce_ok; eauto.
    - destruct (nth_error (h_parsed h1) i); [rewrite (K _ _ _ S); exact P'|]. injection S as _ <-. exact P'.
  Qed.

  Lemma pkce_binds ops evs h i q a v gid g ar ch : e_pkce e = true -> history e ops evs h ->
    answer_at evs i q a -> presents q v "authorization_code" ->
    grant_of h gid g -> in_grant g v "authorization_code" -> g_areq g = Some ar ->
    ar_code_challenge ar = Some ch ->
    exists vf m, tr_verifier q = Some vf /\ ar_code_challenge_method ar = Some m /\ matches e m vf ch.
  Proof.
    intros Pk Hi Ni Pr G (t & It & Vt & _) Ea Ech. pose proof (history_hi e W _ _ _ Hi) as Hh.
    destruct Pr as [(_ & Gt & P)|(X & _)]; [|discriminate].
    destruct (Hi) as (Po & al & E).
    destruct (event_at e W _ _ _ _ _ _ (hi_init e al) Po E Ni) as (o & h1 & h2 & No & E1 & H1 & Pp & S1 & H2 & P2 & E2).
    pose proof (step_keeps e W _ _ _ _ H1 Pp S1) as (_ & Lt & _).
    assert (history e (firstn i ops) (firstn i evs) h1) as Hi1.
    { split; [|exists al; auto]. apply Forall_forall. intros x I. eapply Forall_forall; [exact Po|].
      rewrite <- (firstn_skipn i ops). apply in_or_app. auto. }
    apply token_step in S1 as (now & k & issue & s' & -> & Nq & Ep & ->).
    pose proof (history_pkce _ _ _ Pk Hi1) as F. rewrite Forall_forall in F.
    specialize (F q (nth_error_In _ _ Nq)).
    assert (pkce_ok q (h_st h)) as F'.
    { eapply (exec_stable e W (pkce_ok q)); [intros n; apply st_pkce_ok|exact H2|exact P2|exact E2|].
      eapply st_pkce_ok; eauto. }
    destruct (F' Gt) as (v' & l & j & t' & g' & ar' & Ev & (g3 & t3 & H3 & N3 & L3) & Vt' & Hg' & Ea' & Vo).
    assert (g3 = g') as -> by congruence. assert (v' = v) as -> by congruence.
    destruct (one_owner e W _ _ _ _ _ _ _ _ _ Hi G (ex_intro _ l (conj Hg' eq_refl)) It (nth_error_In _ _ N3)) as (_ & <- & _).
    { destruct L3 as (_ & X & _). congruence. }
    assert (ar' = ar) as -> by congruence. apply Vo. exact Ech.
  Qed.
End P.

(** ** The authorization side *)
Lemma authn_parse_good p own ar ar' : post_authn_parse p own ar = Good ar' ->
  same_but_method ar ar' /\ (essential p own -> ar_code_challenge ar' <> None)
  /\ (ar_code_challenge ar' <> None -> exists m, ar_code_challenge_method ar' = Some m /\ In m (pk_methods p)).
Proof.
  unfold post_authn_parse. intros E.
  set (es := match own with Some b => b | None => otrue (pk_essential p) end) in *.
  assert (essential p own -> es = true) as Hes.
  { unfold essential, es. intros [->|[-> Ep]]; auto. now rewrite Ep. }
  destruct (es && _) eqn:B; [discriminate|].
  set (ar1 := match ar_code_challenge_method ar with None => ar_set_method "plain" ar | Some _ => ar end) in *.
  assert (same_but_method ar ar1) as S.
  { unfold same_but_method, ar1. destruct (ar_code_challenge_method ar) eqn:M; cbn; rewrite ?M; auto 20. }
  assert (exists m, ar_code_challenge_method ar1 = Some m) as (m & Em).
  { destruct S as (_ & _ & _ & _ & _ & _ & _ & _ & _ & _ & _ & _ & X). rewrite X. eauto. }
  assert (ar_code_challenge ar1 = ar_code_challenge ar) as Ec by apply S.
  rewrite Em, Ec in E.
  destruct (ar_code_challenge ar) as [ch|] eqn:Ch.
  - destruct (smem m (pk_methods p)) eqn:Sm; [|discriminate]. injection E as <-. split; auto.
    split; [intros _; congruence|]. intros _. exists m. split; auto. now apply smem_In.
  - injection E as <-. split; auto. split; [|congruence]. intros X. rewrite (Hes X) in B. discriminate.
Qed.

Lemma authn_parse_essential p own ar : essential p own -> ar_code_challenge ar = None ->
  post_authn_parse p own ar = Err "invalid_request".
Proof.
  intros H Ec. unfold post_authn_parse. rewrite Ec.
  assert ((match own with Some b => b | None => otrue (pk_essential p) end) = true) as ->; [|reflexivity].
  destruct H as [->|[-> ->]]; auto.
Qed.

Lemma authn_parse_method p own ar ch : ar_code_challenge ar = Some ch ->
  ~ In (match ar_code_challenge_method ar with Some m => m | None => "plain" end) (pk_methods p) ->
  post_authn_parse p own ar = Err "invalid_request".
Proof.
  intros Ec N. unfold post_authn_parse. rewrite Ec, andb_false_r.
  destruct (ar_code_challenge_method ar) as [m|] eqn:M; cbn [ar_set_method ar_code_challenge ar_code_challenge_method];
    rewrite ?Ec, ?M; match goal with |- (if ?b then _ else _) = _ => destruct b eqn:B end; auto;
    exfalso; apply N; now apply smem_In.
Qed.

Lemma add_pkce_ok es ms p : add_pkce_support es ms = Ok p ->
  pk_essential p = es /\ (forall l, ms = Some l -> pk_methods p = l)
  /\ forall m, In m (pk_methods p) -> m = "plain" \/ m = "S256" \/ m = "S384" \/ m = "S512".
Proof.
  unfold add_pkce_support. destruct (forallb _ _) eqn:F; [|discriminate]. intros X. injection X as <-. cbn.
  split; auto. split; [intros l ->; auto|]. intros m I. rewrite forallb_forall in F. specialize (F m I).
  apply smem_In in F. destruct F as [<-|[<-|[<-|[<-|[]]]]]; auto.
Qed.

(** With PKCE essential for a client, none of its codes is redeemed without a
    matching verifier. *)
Lemma essential_binds e (W : laws e) p own ops evs h i q a v gid g c : e_pkce e = true ->
  checked_by p own ops -> essential p (own c) -> history e ops evs h ->
  answer_at evs i q a -> presents q v "authorization_code" ->
  grant_of h gid g -> in_grant g v "authorization_code" -> (exists u, belongs e g u c) ->
  exists ar ch vf m, g_areq g = Some ar /\ ar_code_challenge ar = Some ch /\ tr_verifier q = Some vf
    /\ ar_code_challenge_method ar = Some m /\ In m (pk_methods p) /\ matches e m vf ch.
Proof.
  intros Pk Ck Es Hi Ni Pr G Ig (u & ar & ae & Ea & Ec & _).
  destruct (answer_backed e W _ _ _ _ _ _ _ _ Hi Ni Pr) as
    (gid' & g' & u' & c' & G' & _ & _ & Ig' & _ & (j & o & ar' & _ & No & Ea' & Au & _)).
  destruct Ig as (t & It & Vt & Ct). destruct Ig' as (t' & It' & Vt' & _).
  destruct (one_owner e W _ _ _ _ _ _ _ _ _ Hi G G' It It') as (_ & <- & _); [congruence|].
  assert (ar' = ar) as -> by congruence.
  destruct (Ck o ar (nth_error_In _ _ No) Au) as (ar0 & Ep).
  destruct (authn_parse_good _ _ _ _ Ep) as (S & Ne & Me).
  assert (ar_client_id ar0 = c) as Ec0. { destruct S as (X & _). congruence. }
  rewrite Ec0 in Ne. specialize (Ne Es). destruct (ar_code_challenge ar) as [ch|] eqn:Ech; [|congruence].
  destruct (Me Ne) as (m & Em & Im).
  destruct (pkce_binds e W _ _ _ _ _ _ _ _ _ _ _ Pk Hi Ni Pr G (ex_intro _ t (conj It (conj Vt Ct))) Ea Ech)
    as (vf & m' & Ev & Em' & Ma).
  assert (m' = m) as -> by congruence. exists ar, ch, vf, m. auto 10.
Qed.
