(** The end-session endpoint. *)
From Verif Require Import M_Base M_Types M_Codec M_Grant M_Env M_Session M_Handler M_Uri M_Redirect M_Cookie M_Logout
  M_EndSession S_Codec S_Store S_Redirect S_Cookie S_Handler S_EndSession L_Base L_Monad L_Store L_Redirect L_Cookie L_Claims2.

Lemma cookie_session_state E e cookies s : snd (cookie_session E e cookies s) = s.
Proof.
  unfold cookie_session. destruct cookies as [|ck cks]; [reflexivity|].
  unfold bind, lift.
  destruct (cookie_error (parse_cookie (en_lib E) (en_handler E) (en_cookie E) (ck :: cks))) as [[[|i l]|]|x]; try reflexivity.
  destruct (en_loads E (ct_value i)) as [doc|x]; [|reflexivity].
  destruct (dget doc "sid") as [sid|]; [|reflexivity].
  unfold catch. pose proof (get_session_info_state e sid s) as X.
  destruct (get_session_info e sid s) as [[i'|x] s1]; cbn in X; subst s1; [reflexivity|].
  destruct (is_KeyError x); reflexivity.
Qed.

Lemma cookie_error_ok {A} (r : res A) a : cookie_error r = Ok a -> r = Ok a.
Proof.
  destruct r as [b|x]; [auto|]. destruct x; try discriminate.
  cbn [cookie_error]. destruct (Nat.eqb n 32); discriminate.
Qed.

Lemma ends_slash s : ends_with "/" s = true -> exists a, s = append a "/".
Proof.
  unfold ends_with. change (srev_append "/" "") with "/".
  assert (G : forall t acc, starts_with "/" (srev_append t acc) = true ->
    (exists a, t = append a "/") \/ t = "" /\ starts_with "/" acc = true).
  { induction t as [|c t IH]; intros acc H; [right; auto|]. cbn [srev_append] in H. left.
    destruct (IH _ H) as [[a ->]|[-> K]].
    - exists (String c a). reflexivity.
    - exists "". cbn [starts_with] in K. apply andb_true_iff in K as [K _]. apply Ascii.eqb_eq in K. now subst. }
  intros H. destruct (G s "" H) as [X|[-> X]]; [exact X|discriminate].
Qed.

Lemma cookie_session_ok E e cookies s i s' : cookie_session E e cookies s = (Ok (Some i), s') ->
  s' = s /\ cookie_names E cookies (ss_sid i) /\
  session_at e s (ss_sid i) (ss_user i) (ss_client i) (ss_grant i).
Proof.
  intros H. pose proof (cookie_session_state E e cookies s) as X. rewrite H in X. cbn in X. subst s'.
  split; [reflexivity|]. unfold cookie_session in H. destruct cookies as [|ck cks]; [discriminate|].
  unfold bind, lift in H.
  destruct (cookie_error (parse_cookie (en_lib E) (en_handler E) (en_cookie E) (ck :: cks))) as [[[|c l]|]|x] eqn:Ep; try discriminate.
  apply cookie_error_ok in Ep.
  destruct (en_loads E (ct_value c)) as [doc|] eqn:El; [|discriminate].
  destruct (dget doc "sid") as [sid|] eqn:Es; [|discriminate].
  unfold catch in H. destruct (get_session_info e sid s) as [[i'|x] s1] eqn:Eg.
  2: { destruct (is_KeyError x); discriminate. }
  injection H as -> ->. apply get_session_info_ok in Eg as (_ & u & cl & g & loc & Ed & R & ->).
  cbn [ss_sid ss_user ss_client ss_grant]. split.
  - destruct (parsed_authentic _ _ _ _ _ c Ep (or_introl eq_refl)) as (v & payload & Iv & V & P).
    exists v, payload, (ct_time c), (ct_value c), (ct_type c), doc. auto.
  - exists g. auto.
Qed.

Lemma check_hint_state h i s : snd (check_hint h i s) = s.
Proof.
  unfold check_hint. destruct h as [h|]; [|reflexivity]. destruct (negb _); [reflexivity|].
  unfold bind. pose proof (grant_at_state (ss_grant i) s) as X.
  destruct (grant_at (ss_grant i) s) as [[g|x] s1]; cbn in X; subst s1; [|reflexivity].
  destruct (String.eqb _ _); reflexivity.
Qed.

Lemma check_hint_ok h i s s' : check_hint (Some h) i s = (Ok tt, s') ->
  In (ss_client i) (hi_aud h) /\ subject_at s (ss_grant i) (hi_sub h).
Proof.
  unfold check_hint. destruct (smem (ss_client i) (hi_aud h)) eqn:Em; cbn [negb]; [|discriminate].
  unfold bind. destruct (grant_at (ss_grant i) s) as [[g|x] s1] eqn:Eg; [|discriminate].
  apply grant_at_ok in Eg as [-> Eg]. destruct (String.eqb (hi_sub h) (g_sub g)) eqn:E; [|discriminate].
  intros _. apply smem_In in Em. apply String.eqb_eq in E. split; [exact Em|]. exists g. auto.
Qed.

Lemma end_target_ok E e rq c t : end_target E e rq c = Ok t ->
  match dget rq "post_logout_redirect_uri" with
  | None => own E e (fst t)
  | Some u => with_state rq u (fst t) /\ exists c', checked_for rq c c' /\ post_logout_ok (en_cdb E) c' u
  end.
Proof.
  unfold end_target. destruct (dget rq "post_logout_redirect_uri") as [u|] eqn:Eu.
  - destruct (verify_uri _ _ _ _) as [[]|] eqn:V; [|discriminate]. cbn [rbind]. intros H. split.
    + unfold with_state. destruct (dget rq "state") as [x|]; injection H as <-; [|reflexivity]. cbn [fst].
      unfold urlencode. cbn [flat_map map fst snd app py_join].
      change (quote_plus "state") with "state". reflexivity.
    + pose proof V as V0. apply verify_uri_ok in V0 as (c' & u' & p & l & Hc & _ & _ & _ & _ & R & _).
      exists c'. split; [destruct Hc as [Hc|[Hc1 Hc2]]; [now left|right; split; congruence]|].
      exists l. split; [exact R|]. intros Pb Dl.
      apply (verified_leads _ _ _ _ c' u l V); auto.
      destruct Hc as [Hc|[Hc1 Hc2]]; [now rewrite Hc|now rewrite Hc1].
  - intros [= <-]. cbn [fst]. unfold own, own_page. destruct (ends_with "/" (e_issuer e)) eqn:Ee.
    + exists "". split; [reflexivity|]. left. split; [reflexivity|]. now apply ends_slash.
    + exists "/". auto.
Qed.

Lemma claims_kept iss now aud p k : k <> "iss" -> k <> "iat" -> k <> "exp" -> k <> "aud" ->
  dget (jwt_claims iss 86400 now aud p) k = dget p k.
Proof.
  intros. unfold jwt_claims. change (Z.eqb 86400 0) with false. cbn iota.
  destruct (str_true aud); rewrite ?dget_dset_other by auto; reflexivity.
Qed.

Lemma end_session_state E e now rq cookies s r s' : end_session E e now rq cookies s = (r, s') -> same_sessions s s'.
Proof.
  intros H. unfold end_session in H.
  assert (X : same_sessions s s) by (split; reflexivity).
  assert (Y : forall oi, (match oi with
      | None => raise ValueError
      | Some i =>
          check_hint (er_hint rq) i ;;
          t <- lift (end_target E e (er_params rq) (ss_client i)) ;;
          n <- tick ;;
          sjwt <- lift (e_sign e (en_alg E) n
                          (jwt_claims (e_issuer e) 86400 now (e_issuer e) (end_payload (ss_sid i) t))) ;;
          ret (sjwt, append (en_verify_url E) (append "?" (urlencode [("sjwt", [sjwt])])))
      end) s = (r, s') -> same_sessions s s').
  { intros [i|] K; [|injection K as <- <-; exact X].
    unfold bind in K at 1. pose proof (check_hint_state (er_hint rq) i s) as Z.
    destruct (check_hint (er_hint rq) i s) as [[[]|x] s1]; cbn in Z; subst s1; [|injection K as <- <-; exact X].
    unfold bind, lift, tick, ret in K. destruct (end_target _ _ _ _); [|injection K as <- <-; exact X].
    destruct (e_sign _ _ _ _); injection K as <- <-; split; reflexivity. }
  assert (Z : bind (cookie_session E e cookies) (fun oi => match oi with
      | None => raise ValueError
      | Some i =>
          check_hint (er_hint rq) i ;;
          t <- lift (end_target E e (er_params rq) (ss_client i)) ;;
          n <- tick ;;
          sjwt <- lift (e_sign e (en_alg E) n
                          (jwt_claims (e_issuer e) 86400 now (e_issuer e) (end_payload (ss_sid i) t))) ;;
          ret (sjwt, append (en_verify_url E) (append "?" (urlencode [("sjwt", [sjwt])])))
      end) s = (r, s') -> same_sessions s s').
  { intros K. unfold bind in K at 1. pose proof (cookie_session_state E e cookies s) as W.
    destruct (cookie_session E e cookies s) as [[oi|x] s1]; cbn in W; subst s1; [|injection K as <- <-; exact X].
    exact (Y oi K). }
  destruct (dget (er_params rq) "post_logout_redirect_uri"), (er_hint rq) eqn:Eh; try (apply Z, H).
  injection H as <- <-. exact X.
Qed.

Lemma end_session_ok E e now rq cookies s sjwt loc s' : jws_correct e ->
  end_session E e now rq cookies s = (Ok (sjwt, loc), s') ->
  exists sid u c l claims t,
    cookie_names E cookies sid /\ session_at e s sid u c l /\
    (forall h, er_hint rq = Some h -> In c (hi_aud h) /\ subject_at s l (hi_sub h)) /\
    match dget (er_params rq) "post_logout_redirect_uri" with
    | None => own E e t
    | Some uri => er_hint rq <> None /\ with_state (er_params rq) uri t /\
        exists c', checked_for (er_params rq) c c' /\ post_logout_ok (en_cdb E) c' uri
    end /\
    unpack_signed_jwt E e sjwt = Ok claims /\ dget claims "sid" = Some (JStr sid) /\
    dget claims "redirect_uri" = Some (JStr t) /\
    loc = append (en_verify_url E) (append "?sjwt=" (quote_plus sjwt)).
Proof.
  intros J H. unfold end_session in H.
  assert (Hh : dget (er_params rq) "post_logout_redirect_uri" <> None -> er_hint rq <> None).
  { destruct (dget (er_params rq) "post_logout_redirect_uri"), (er_hint rq); congruence || discriminate. }
  assert (K : bind (cookie_session E e cookies) (fun oi => match oi with
      | None => raise ValueError
      | Some i =>
          check_hint (er_hint rq) i ;;
          t <- lift (end_target E e (er_params rq) (ss_client i)) ;;
          n <- tick ;;
          sjwt <- lift (e_sign e (en_alg E) n
                          (jwt_claims (e_issuer e) 86400 now (e_issuer e) (end_payload (ss_sid i) t))) ;;
          ret (sjwt, append (en_verify_url E) (append "?" (urlencode [("sjwt", [sjwt])])))
      end) s = (Ok (sjwt, loc), s')).
  { destruct (dget (er_params rq) "post_logout_redirect_uri"), (er_hint rq) eqn:Eh; try exact H. discriminate. }
  clear H. unfold bind in K at 1.
  destruct (cookie_session E e cookies s) as [[[i|]|x] s1] eqn:Ec; try discriminate.
  apply cookie_session_ok in Ec as (-> & Cn & Sa).
  unfold bind in K at 1. pose proof (check_hint_state (er_hint rq) i s) as Z.
  destruct (check_hint (er_hint rq) i s) as [[[]|x] s1] eqn:Ek; cbn in Z; subst s1; [|discriminate].
  unfold bind, lift, tick, ret in K.
  destruct (end_target E e (er_params rq) (ss_client i)) as [t|] eqn:Et; [|discriminate].
  destruct (e_sign _ _ _ _) as [tok|] eqn:Es; [|discriminate]. injection K as <- <- <-.
  exists (ss_sid i), (ss_user i), (ss_client i), (ss_grant i). eexists. exists (fst t).
  split; [exact Cn|]. split; [exact Sa|].
  split. { intros h Eh. rewrite Eh in Ek. eapply check_hint_ok, Ek. }
  split. { pose proof (end_target_ok _ _ _ _ _ Et) as X.
    destruct (dget (er_params rq) "post_logout_redirect_uri"); [|exact X].
    split; [apply Hh; discriminate|exact X]. }
  split; [apply (J _ _ _ _ Es)|].
  split; [rewrite claims_kept by discriminate; reflexivity|].
  split; [rewrite claims_kept by discriminate; unfold end_payload; destruct (snd t); reflexivity|].
  unfold urlencode. cbn [flat_map map fst snd app py_join].
  change (quote_plus "sjwt") with "sjwt". reflexivity.
Qed.

(** A hint that does not fit the session of the cookie. *)
Lemma mismatch_refused E e now rq cookies s h : jws_correct e -> er_hint rq = Some h ->
  (forall sid u c l, cookie_names E cookies sid -> session_at e s sid u c l ->
     ~ In c (hi_aud h) \/ ~ subject_at s l (hi_sub h)) ->
  exists x, fst (end_session E e now rq cookies s) = Raise x.
Proof.
  intros J Eh N. destruct (end_session E e now rq cookies s) as [[[sjwt loc]|x] s'] eqn:H; [|exists x; reflexivity].
  destruct (end_session_ok _ _ _ _ _ _ _ _ _ J H) as (sid & u & c & l & _ & _ & Cn & Sa & Hh & _).
  destruct (Hh h Eh) as [H1 H2]. destruct (N _ _ _ _ Cn Sa); contradiction.
Qed.

Lemma no_cookie_refused E e now rq cookies s : jws_correct e ->
  (forall sid u c l, cookie_names E cookies sid -> ~ session_at e s sid u c l) ->
  exists x, fst (end_session E e now rq cookies s) = Raise x.
Proof.
  intros J N. destruct (end_session E e now rq cookies s) as [[[sjwt loc]|x] s'] eqn:H; [|exists x; reflexivity].
  destruct (end_session_ok _ _ _ _ _ _ _ _ _ J H) as (sid & u & c & l & _ & _ & Cn & Sa & _).
  destruct (N _ _ _ _ Cn Sa).
Qed.

(** ** Acceptance *)
Lemma own_cookie_session E e s ctime o ck sid u c gid l doc :
  cookie_laws (en_lib E) -> usable (en_handler E) -> fits (en_handler E) (o_value o) (o_type o) (o_time o) ->
  o_name o = en_cookie E -> made_for (en_lib E) (en_handler E) ctime o ck ->
  en_loads E (o_value o) = Ok doc -> dget doc "sid" = Some sid ->
  dec_sid3 e sid = Ok (u, c, gid) -> reads s [u; c; gid] l ->
  cookie_session E e [ck] s = (Ok (Some (mk_sess sid u c gid l)), s).
Proof.
  intros Hl U F En Mk El Ed Es R.
  destruct (round_trip (en_lib E) (en_handler E) ctime [o] Hl U) as (cs & Fm & Pc); [discriminate|intros o' [<-|[]]; exact F|].
  inversion Fm as [|? ck' ? cs' Mk' Fm']; subst. inversion Fm'; subst.
  unfold made_for in Mk, Mk'. assert (ck' = ck) as -> by congruence.
  specialize (Pc (en_cookie E)). cbn [filter] in Pc. rewrite En, String.eqb_refl in Pc. cbn [map] in Pc.
  unfold cookie_session, bind, lift. rewrite Pc. cbn [cookie_error content_of ct_value]. rewrite El, Ed.
  unfold catch, get_session_info, bind, lift. rewrite Es. rewrite R. reflexivity.
Qed.

Lemma fitting_accepted E e s now rq ctime o ck sid u c l doc h uri pre it post q :
  cookie_laws (en_lib E) -> usable (en_handler E) -> fits (en_handler E) (o_value o) (o_type o) (o_time o) ->
  o_name o = en_cookie E -> made_for (en_lib E) (en_handler E) ctime o ck ->
  en_loads E (o_value o) = Ok doc -> dget doc "sid" = Some sid -> session_at e s sid u c l ->
  er_hint rq = Some h -> In c (hi_aud h) -> subject_at s l (hi_sub h) ->
  can_sign e (en_alg E) -> c <> "" -> checked_for (er_params rq) c c ->
  dget (er_params rq) "post_logout_redirect_uri" = Some uri ->
  registered (en_cdb E) c "post_logout_redirect_uri" (pre ++ it :: post) -> dict_like (pre ++ it :: post) ->
  (forall x, In x pre -> reg_base x <> reg_base it) -> plain_base (reg_base it) ->
  literal uri -> ~ occurs_in "#" q ->
  (q = "" /\ uri = reg_base it \/ uri = append (reg_base it) (append "?" q)) ->
  agrees (parse_qs q) (reg_query it) ->
  exists out, fst (end_session E e now rq [ck] s) = Ok out.
Proof.
  intros Hl U F En Mk El Ed (gid & Es & R) Eh Ia (g & Eg & Eq') Cs Nc Ck Eu Rg D Hp Pb Li Nq Uq A.
  unfold end_session. rewrite Eu, Eh. unfold bind at 1.
  rewrite (own_cookie_session _ _ _ _ _ _ _ _ _ _ _ _ Hl U F En Mk El Ed Es R).
  unfold bind at 1, check_hint. cbn [ss_client ss_grant].
  rewrite (proj2 (smem_In _ _) Ia). cbn [negb]. unfold bind at 1, grant_at, bind at 1, deref. rewrite Eg.
  cbn [ret]. unfold ret at 1. rewrite Eq', String.eqb_refl. unfold ret at 1.
  unfold end_target. rewrite Eu.
  rewrite (registered_accepted_as (en_cdb E) (er_params rq) "post_logout_redirect_uri" (Some c) c pre it post q uri);
    auto. 2: { destruct Ck as [Ck|[Ck _]]; auto. }
  cbn [rbind]. unfold bind, lift, tick, ret.
  destruct (dget (er_params rq) "state") as [x|]; cbn [ss_sid];
    match goal with |- context [e_sign ?a ?b ?n ?p] => destruct (Cs n p) as [tok ->] end; eexists; reflexivity.
Qed.
