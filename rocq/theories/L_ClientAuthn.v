(** Lemmas for client authentication. *)
From Verif Require Import M_Base M_Codec M_ClientAuthn S_Codec S_ClientAuthn L_Base L_Codec L_Monad L_Split.

Section A.
  Variables (A : aenv) (now : Z) (ep : cendpoint) (q : creq) (hdr : option string).

  (** What the loop returns comes from one of the methods, usable here. *)
  Lemma try_from ms s i s' : try_methods A now ep q hdr ms s = (Ok (Some i), s') ->
    exists m s1 s2, In m ms /\ is_usable m q hdr = true /\ verify_meth A now ep m q hdr s1 = (Ok i, s2).
  Proof.
    revert s. induction ms as [|m ms IH]; intros s E; cbn in E; [discriminate|].
    destruct (is_usable m q hdr) eqn:U.
    - apply bind_ok in E as (o & s1 & Ec & E).
      apply catch_inv in Ec as [(o' & Ec & X)|[(x & s2 & k & _ & Ek & E3)|(x & _ & X & _)]]; [| |discriminate].
      + injection X as <-. apply bind_ok in Ec as (i' & s2 & Ev & Ec). apply ret_ok in Ec as [<- <-].
        apply ret_ok in E as [X _]. injection X as <-. exists m, s, s2. split; [now left|auto].
      + injection Ek as <-. apply ret_ok in E3 as [<- <-].
        destruct (IH _ E) as (m' & a & b & I & H). exists m', a, b. split; [now right|auto].
    - destruct (IH _ E) as (m' & a & b & I & H). exists m', a, b. split; [now right|auto].
  Qed.

  Lemma verify_tag m s i s' : verify_meth A now ep m q hdr s = (Ok i, s') -> ai_method i = tag m.
  Proof.
    destruct m; cbn; intros E; try discriminate.
    - apply bind_ok in E as (h & ? & _ & E). apply bind_ok in E as (cs & ? & _ & E).
      apply bind_ok in E as (ok & ? & _ & E). destruct ok; [|discriminate]. apply ret_ok in E as [<- _]. reflexivity.
    - destruct (cr_client_id q); [|discriminate]. destruct (cr_client_secret q); [|discriminate].
      apply bind_ok in E as (ok & ? & _ & E). destruct ok; [|discriminate]. apply ret_ok in E as [<- _]. reflexivity.
    - destruct hdr; [|discriminate]. destruct (split1 _ _) as [[? ?]|]; [|discriminate].
      apply ret_ok in E as [<- _]. reflexivity.
    - destruct (cr_access_token q); [|discriminate]. apply ret_ok in E as [<- _]. reflexivity.
    - unfold verify_jws in E. destruct (cr_assertion q); [|discriminate].
      apply bind_ok in E as (a & ? & _ & E). apply bind_ok in E as (? & ? & _ & E).
      apply bind_ok in E as (? & ? & _ & E). apply bind_ok in E as (? & ? & _ & E).
      apply ret_ok in E as [<- _]. reflexivity.
    - unfold verify_jws in E. destruct (cr_assertion q); [|discriminate].
      apply bind_ok in E as (a & ? & _ & E). apply bind_ok in E as (? & ? & _ & E).
      apply bind_ok in E as (? & ? & _ & E). apply bind_ok in E as (? & ? & _ & E).
      apply ret_ok in E as [<- _]. reflexivity.
    - destruct (cr_request q); [|discriminate]. apply bind_ok in E as (a & ? & _ & E).
      apply bind_ok in E as (? & ? & _ & E). apply ret_ok in E as [<- _]. reflexivity.
  Qed.

  Lemma tag_inj m m' : tag m = tag m' -> m = m'.
  Proof. destruct m, m'; cbn; intros; congruence. Qed.

  (** The outcome of an authentication. *)
  Lemma auth_from s i s' : client_authentication A now ep q hdr s = (Ok (Some i), s') ->
    exists i0, ai_method i = ai_method i0 /\ ai_jwt i = ai_jwt i0
      /\ ((exists m s1 s2, In m (ep_methods ep) /\ is_usable m q hdr = true
             /\ verify_meth A now ep m q hdr s1 = (Ok i0, s2))
          \/ (In MNone (ep_methods ep) /\ i0 = mk_ainfo (cr_client_id q) None "none" None))
      /\ ((i = i0 /\ forall c, ai_client i = Some c -> c <> "" -> in_force A now c)
          \/ (exists f t, ep_from_token ep = Some f /\ ai_token i0 = Some t /\ (forall c, ai_client i0 = Some c -> c = "")
                /\ exists c, f t = Ok c /\ ai_client i = Some c /\ ai_token i = Some t)).
  Proof.
    unfold client_authentication. intros E. apply bind_ok in E as (o & s1 & E1 & E).
    destruct o as [i'|]; [|destruct (list_true _); discriminate]. apply ret_ok in E as [X ->]. injection X as ->.
    unfold verify_client in E1. apply bind_ok in E1 as (o & s2 & E0 & E1).
    set (o1 := match o with Some i => Some i | None => _ end) in E1.
    assert (exists i0, o1 = Some i0) as (i0 & Eo). { destruct o1 as [i0|]; [eauto|discriminate]. }
    rewrite Eo in E1.
    assert ((exists m s1 s2, In m (ep_methods ep) /\ is_usable m q hdr = true
             /\ verify_meth A now ep m q hdr s1 = (Ok i0, s2))
          \/ (In MNone (ep_methods ep) /\ i0 = mk_ainfo (cr_client_id q) None "none" None)) as Src.
    { unfold o1 in Eo. destruct o as [j|].
      - injection Eo as ->. left. eapply try_from; eauto.
      - right. destruct (existsb is_none (ep_methods ep)) eqn:B; [|discriminate]. injection Eo as <-.
        apply existsb_exists in B as (m & I & Z). destruct m; try discriminate. auto. }
    clear o1 Eo. exists i0.
    destruct (match ai_client i0 with Some c => str_true c | None => false end) eqn:Ec.
    - destruct (ai_client i0) as [c|] eqn:Ecl; [|discriminate].
      destruct (dget (a_cdb A) c) as [x|] eqn:D; [|discriminate].
      apply bind_ok in E1 as (? & ? & E2 & E1). apply bind_ok in E1 as (ok & ? & Ev & E1). apply lift_ok in Ev as [Ev <-].
      destruct ok; [|discriminate]. apply ret_ok in E1 as [X _]. injection X as <-.
      split; auto. split; auto. split; auto. left. split; auto. intros c' Ec' _. assert (c' = c) as -> by congruence.
      destruct x as [n|s0 eta]; cbn in Ev; [discriminate|]. exists s0, eta. split; auto.
      destruct (Z.eqb eta 0) eqn:Z0; [apply Z.eqb_eq in Z0; auto|]. cbn in Ev.
      assert (Z.ltb eta now = false) as L by (destruct (Z.ltb eta now); auto; discriminate). apply Z.ltb_ge in L. lia.
    - assert (forall c, ai_client i0 = Some c -> c = "") as Em.
      { intros c X. rewrite X in Ec. destruct c; auto; discriminate. }
      destruct (ep_from_token ep) as [f|] eqn:Ef.
      + destruct (ai_token i0) as [t|] eqn:Et; [|discriminate]. destruct (negb (str_true t)); [discriminate|].
        destruct (f t) as [c|x] eqn:Eft.
        * apply ret_ok in E1 as [X _]. injection X as <-. cbn. split; auto. split; auto. split; auto. right.
          exists f, t. split; auto. split; auto. split; auto. exists c. auto.
        * destruct (is_KeyError x); [discriminate|]. destruct x; discriminate.
      + apply ret_ok in E1 as [X _]. injection X as <-. split; auto. split; auto. split; auto. left. split; auto.
        intros c X Y. elim Y. auto.
  Qed.

  (** ** C30 *)
  Lemma starts_drop p x : starts_with p x = true -> x = append p (drop (String.length p) x).
  Proof.
    revert x. induction p as [|a p IH]; intros x H; [reflexivity|]. destruct x as [|b x]; [discriminate|].
    cbn in H. apply andb_true_iff in H as [H1 H2]. apply Ascii.eqb_eq in H1. subst. cbn. f_equal. now apply IH.
  Qed.

  Lemma basic_ok h c s : basic_authn A h = Ok (c, s) -> basic_header A (Some h) c s.
  Proof.
    unfold basic_authn. destruct (starts_with "Basic " h) eqn:S; [|discriminate]. cbn [negb]. intros E.
    apply rbind_ok in E as (text & Et & E). apply starts_drop in S.
    destruct (py_split ":" text) as [|a [|b [|? ?]]] eqn:Sp; try discriminate. cbn in E. injection E as <- <-.
    apply splitc_two in Sp as (-> & Na & Nb). exists (drop 6 h), a, b. split; [f_equal; exact S|]. auto 6.
  Qed.
  Lemma basic_complete h c s : basic_header A (Some h) c s -> basic_authn A h = Ok (c, s).
  Proof.
    intros (t & a & b & E & Et & Na & Nb & <- & <-). injection E as ->. unfold basic_authn.
    change (starts_with "Basic " (append "Basic " t)) with true. cbn [negb drop append].
    rewrite Et. unfold rbind. replace (append a (append ":" b)) with (append a (String ":" b)) by reflexivity.
    rewrite (proj2 (splitc_two ":" (append a (String ":" b)) a b)) by auto. reflexivity.
  Qed.

  Lemma secret_is_ok c s : secret_is A c s = Ok true <-> has_secret A c s.
  Proof.
    unfold secret_is, has_secret. destruct (dget (a_cdb A) c) as [[n|[x|] eta]|].
    - split; [discriminate|]. intros (? & X); discriminate.
    - split.
      + intros X. exists eta. assert (x = s) as -> by (apply seqb_eq; congruence). reflexivity.
      + intros (eta' & X). injection X as -> _. now rewrite String.eqb_refl.
    - split; [discriminate|]. intros (? & X); discriminate.
    - split; [discriminate|]. intros (? & X); discriminate.
  Qed.

  Lemma meth_basic s i s' : verify_meth A now ep MBasic q hdr s = (Ok i, s') ->
    exists c x, basic_header A hdr c x /\ has_secret A c x /\ i = mk_ainfo (Some c) None "client_secret_basic" None.
  Proof.
    cbn. intros E. apply bind_ok in E as (h & s1 & Eh & E). destruct hdr as [h'|] eqn:Hd; [|discriminate].
    apply ret_ok in Eh as [<- _]. apply bind_ok in E as ([c x] & s2 & Ec & E). apply lift_ok in Ec as [Ec _].
    apply bind_ok in E as (ok & s3 & Eo & E). apply lift_ok in Eo as [Eo _]. destruct ok; [|discriminate].
    apply ret_ok in E as [<- _]. exists c, x. split; [now apply basic_ok|]. split; [now apply secret_is_ok|]. reflexivity.
  Qed.
  Lemma meth_post s i s' : verify_meth A now ep MPost q hdr s = (Ok i, s') ->
    exists c x, body_secret q c x /\ has_secret A c x /\ i = mk_ainfo (Some c) None "client_secret_post" None.
  Proof.
    cbn. intros E. destruct (cr_client_id q) as [c|] eqn:Ec; [|discriminate].
    destruct (cr_client_secret q) as [x|] eqn:Ex; [|discriminate].
    apply bind_ok in E as (ok & s3 & Eo & E). apply lift_ok in Eo as [Eo _]. destruct ok; [|discriminate].
    apply ret_ok in E as [<- _]. exists c, x. split; [split; auto|]. split; [now apply secret_is_ok|]. reflexivity.
  Qed.

  Lemma method_allowed s i s' : client_authentication A now ep q hdr s = (Ok (Some i), s') ->
    exists m, In m (ep_methods ep) /\ ai_method i = tag m /\ m <> MDPoP.
  Proof.
    intros E. destruct (auth_from _ _ _ E) as (i0 & Em & _ & [(m & s1 & s2 & I & U & V)|(I & ->)] & _).
    - exists m. split; auto. split; [rewrite Em; eapply verify_tag; eauto|]. intros ->. discriminate.
    - exists MNone. split; auto. split; [exact Em|discriminate].
  Qed.

  Lemma attributed_in_force s i s' c : client_authentication A now ep q hdr s = (Ok (Some i), s') ->
    ai_client i = Some c -> c <> "" -> in_force A now c \/ (exists f t, ep_from_token ep = Some f /\ f t = Ok c /\ ai_token i = Some t).
  Proof.
    intros E Ec Nc. destruct (auth_from _ _ _ E) as (i0 & _ & _ & _ & [(-> & K)|(f & t & Ef & _ & _ & c' & Ef' & Ec' & Et)]).
    - left. auto.
    - right. exists f, t. split; auto. split; congruence.
  Qed.

  Lemma secret_sound s o s' m c : client_authentication A now ep q hdr s = (o, s') ->
    authenticated o m c -> m = "client_secret_basic" \/ m = "client_secret_post" ->
    exists x, (m = "client_secret_basic" /\ basic_header A hdr c x
               \/ m = "client_secret_post" /\ body_secret q c x)
      /\ has_secret A c x /\ (c <> "" -> in_force A now c).
  Proof.
    intros E (i & -> & Em & Ec) Hm. destruct (auth_from _ _ _ E) as (i0 & Em0 & _ & Src & K).
    destruct Src as [(m0 & s1 & s2 & I & U & V)|(_ & ->)].
    2: { exfalso. cbn in Em0. rewrite Em0 in Em. subst m. destruct Hm; discriminate. }
    pose proof (verify_tag _ _ _ _ V) as T.
    assert (m0 = MBasic \/ m0 = MPost) as Hm0.
    { destruct Hm as [->| ->]; [left|right]; apply tag_inj; cbn [tag]; congruence. }
    assert (exists c0 x, ((m = "client_secret_basic" /\ basic_header A hdr c0 x
               \/ m = "client_secret_post" /\ body_secret q c0 x) /\ has_secret A c0 x) /\ ai_client i0 = Some c0 /\ ai_token i0 = None)
      as (c0 & x & H & Hc & Ht).
    { destruct Hm0 as [->| ->].
      - destruct (meth_basic _ _ _ V) as (c0 & x & B & S & ->). exists c0, x. cbn. split; auto. split; auto. left. split; auto. cbn in Em0. congruence.
      - destruct (meth_post _ _ _ V) as (c0 & x & B & S & ->). exists c0, x. cbn. split; auto. split; auto. right. split; auto. cbn in Em0. congruence. }
    destruct K as [(-> & K)|(f & t & _ & Et & _)]; [|congruence].
    assert (c0 = c) as -> by congruence. exists x. split; [apply H|]. split; [apply H|]. intros N. auto.
  Qed.

  (** Completeness of the two methods, when no earlier method applies. *)
  Lemma try_skip pre ms s : (forall m, In m pre -> is_usable m q hdr = false) ->
    try_methods A now ep q hdr (pre ++ ms) s = try_methods A now ep q hdr ms s.
  Proof.
    induction pre as [|m pre IH]; intros H; cbn; [reflexivity|]. rewrite (H m (or_introl eq_refl)).
    apply IH. intros m' I. apply H. now right.
  Qed.

  Lemma in_force_valid c i : in_force A now c -> c <> "" -> ai_client i = Some c ->
    forall o s, (forall s', try_methods A now ep q hdr (ep_methods ep) s = (Ok (Some i), s') -> s' = s) ->
    try_methods A now ep q hdr (ep_methods ep) s = (Ok (Some i), o) ->
    client_authentication A now ep q hdr s = (Ok (Some i), s).
  Proof.
    intros (x & eta & D & F) Nc Ec o s Hs E. pose proof (Hs _ E) as ->.
    unfold client_authentication, verify_client. unfold bind at 1 2. rewrite E.
    rewrite Ec. assert (str_true c = true) as -> by (destruct c; auto; congruence). rewrite D. unfold bind, ret, lift.
    cbn [valid_client_info].
    replace (negb (negb (Z.eqb eta 0) && Z.ltb eta now)) with true; [reflexivity|]. symmetry.
    destruct (Z.eqb eta 0) eqn:Z0; [reflexivity|]. apply Z.eqb_neq in Z0.
    replace (Z.ltb eta now) with false; [reflexivity|]. symmetry. apply Z.ltb_ge. lia.
  Qed.

  Lemma secret_complete pre m post s c x :
    ep_methods ep = pre ++ m :: post -> (forall m', In m' pre -> is_usable m' q hdr = false) ->
    (m = MBasic /\ basic_header A hdr c x \/ m = MPost /\ body_secret q c x) ->
    has_secret A c x -> in_force A now c -> c <> "" ->
    client_authentication A now ep q hdr s = (Ok (Some (mk_ainfo (Some c) None (tag m) None)), s).
  Proof.
    intros Em Hp Hm Hs Hf Nc.
    assert (try_methods A now ep q hdr (ep_methods ep) s = (Ok (Some (mk_ainfo (Some c) None (tag m) None)), s)) as E.
    { rewrite Em, try_skip by exact Hp. cbn [try_methods].
      destruct Hm as [(-> & B)|(-> & B & C)].
      - pose proof B as (t & a & b & Eh & _). rewrite Eh. cbn [is_usable].
        change (starts_with "Basic " (append "Basic " t)) with true. cbn iota.
        unfold catch, bind. cbn [verify_meth]. unfold bind. rewrite Eh in B. cbn [ret].
        unfold lift. rewrite (basic_complete _ _ _ B). cbn [fst snd].
        rewrite (proj2 (secret_is_ok c x) Hs). reflexivity.
      - cbn [is_usable]. rewrite B, C. cbn [present andb]. unfold catch, bind. cbn [verify_meth]. rewrite B, C.
        unfold bind, lift. rewrite (proj2 (secret_is_ok c x) Hs). reflexivity. }
    eapply in_force_valid; [exact Hf|exact Nc|reflexivity| |exact E]. intros s' E'. congruence.
  Qed.

  (** Where only secret-based methods are allowed, a request without a right
      secret is refused. *)
  Lemma try_secret ms s : (forall m, In m ms -> m = MBasic \/ m = MPost) ->
    (forall c x, basic_header A hdr c x \/ body_secret q c x -> ~ has_secret A c x) ->
    try_methods A now ep q hdr ms s = (Ok None, s).
  Proof.
    induction ms as [|m ms IH]; intros Hm Hn; [reflexivity|]. cbn [try_methods].
    assert (forall m', In m' ms -> m' = MBasic \/ m' = MPost) as Hm' by (intros; apply Hm; now right).
    destruct (is_usable m q hdr); [|auto].
    assert (exists y, verify_meth A now ep m q hdr s = (Raise y, s)) as (y & Ey).
    { destruct (verify_meth A now ep m q hdr s) as [[i|y] s'] eqn:V.
      - exfalso. destruct (Hm m (or_introl eq_refl)) as [->| ->].
        + destruct (meth_basic _ _ _ V) as (c & x & B & S & _). eapply Hn; eauto.
        + destruct (meth_post _ _ _ V) as (c & x & B & S & _). eapply Hn; eauto.
      - exists y. f_equal. destruct (Hm m (or_introl eq_refl)) as [->| ->]; cbn in V.
        + destruct hdr as [h|]; cbn in V; [|congruence]. unfold bind, lift, ret in V. destruct (basic_authn A h) as [[c x]|]; cbn in V; [|congruence].
          destruct (secret_is A c x) as [[|]|]; unfold raise, ret in V; congruence.
        + destruct (cr_client_id q) as [c|]; [|unfold raise in V; congruence].
          destruct (cr_client_secret q) as [x|]; [|unfold raise in V; congruence].
          unfold bind, lift in V. destruct (secret_is A c x) as [[|]|]; unfold raise, ret in V; congruence. }
    unfold bind at 1, catch, bind at 1. rewrite Ey. cbn. apply IH; auto.
  Qed.
  Lemma wrong_secret s : ep_methods ep <> [] -> (forall m, In m (ep_methods ep) -> m = MBasic \/ m = MPost) ->
    (forall c x, basic_header A hdr c x \/ body_secret q c x -> ~ has_secret A c x) ->
    client_authentication A now ep q hdr s = (Raise UnAuthorizedClient, s).
  Proof.
    intros Ne Hm Hn. unfold client_authentication, verify_client. unfold bind at 1 2. rewrite try_secret by auto.
    assert (existsb is_none (ep_methods ep) = false) as ->.
    { apply not_true_iff_false. intros X. apply existsb_exists in X as (m & I & Z). destruct (Hm m I); subst; discriminate. }
    cbn. destruct (ep_methods ep); [congruence|]. reflexivity.
  Qed.

  (** ** C31 *)
  Lemma use_jti_ok a s s' : use_jti a s = (Ok tt, s') ->
    match as_jti a with
    | Some j => if str_true j then ~ In (append (as_iss a) (append ":" j)) s /\ s' = s ++ [append (as_iss a) (append ":" j)]
                else s' = s
    | None => s' = s
    end.
  Proof.
    unfold use_jti. destruct (as_jti a) as [j|]; [|unfold ret; congruence]. destruct (str_true j); [|unfold ret; congruence].
    unfold bind, get_st. destruct (smem _ s) eqn:M; [discriminate|]. unfold put_st. intros E. injection E as <-. split; auto.
    intros I. apply smem_In in I. congruence.
  Qed.
  Lemma use_jti_raise a s x s' : use_jti a s = (Raise x, s') -> s' = s.
  Proof.
    unfold use_jti. destruct (as_jti a) as [j|]; [|discriminate]. destruct (str_true j); [|discriminate].
    unfold bind, get_st. destruct (smem _ s); [unfold raise; congruence|discriminate].
  Qed.

  (** What a JWT-based method checks. *)
  Definition jws_ok (m : meth) (a : assertion) : Prop :=
    (exists text, cr_assertion q = Some text /\ a_unpack A now text = Ok a)
    /\ (exists x, In x (as_aud a) /\ In x (ep_targets ep))
    /\ (m = MSecretJWT -> exists g, as_alg a = Some (append "HS" g)
          /\ exists c, dget (a_cdb A) (as_iss a) = Some c
             /\ forall s eta, c = CInfo (Some s) eta -> s <> "" -> exists ks, a_oct A (as_iss a) (as_kid a) = s :: ks)
    /\ (m = MPrivateJWT -> forall g, as_alg a <> Some (append "HS" g)).

  Lemma verify_jwt m s i s' a : verify_meth A now ep m q hdr s = (Ok i, s') -> ai_jwt i = Some a ->
    use_jti a s = (Ok tt, s') /\ ai_client i = Some (as_iss a)
    /\ (m = MSecretJWT /\ jws_ok m a \/ m = MPrivateJWT /\ jws_ok m a
        \/ m = MRequestParam /\ exists text, cr_request q = Some text /\ a_unpack A now text = Ok a).
  Proof.
    intros E Ej.
    assert (forall private : bool, (m = if private then MPrivateJWT else MSecretJWT) -> verify_jws A now ep private m q s = (Ok i, s') ->
      use_jti a s = (Ok tt, s') /\ ai_client i = Some (as_iss a) /\ jws_ok m a) as K.
    { clear E. intros private Hm E. unfold verify_jws in E. destruct (cr_assertion q) as [text|] eqn:Ea; [|discriminate].
      apply bind_ok in E as (a0 & s1 & E1 & E). apply lift_ok in E1 as [E1 <-].
      destruct (a_unpack A now text) as [a1|] eqn:Eu; [|discriminate]. injection E1 as ->.
      apply bind_ok in E as ([] & s2 & E2 & E). apply bind_ok in E as ([] & s3 & E3 & E).
      apply bind_ok in E as ([] & s4 & E4 & E). apply ret_ok in E as [<- <-]. cbn in Ej. injection Ej as ->.
      assert (s3 = s2) as ->. { destruct (existsb _ _); [apply ret_ok in E3; symmetry; apply E3|discriminate]. }
      assert (s2 = s /\ (private = false -> exists g, as_alg a = Some (append "HS" g)
          /\ exists c, dget (a_cdb A) (as_iss a) = Some c
             /\ forall s eta, c = CInfo (Some s) eta -> s <> "" -> exists ks, a_oct A (as_iss a) (as_kid a) = s :: ks)
        /\ (private = true -> forall g, as_alg a <> Some (append "HS" g))) as (-> & Hs & Hp).
      { destruct (as_alg a) as [g|] eqn:Eg.
        - destruct (starts_with "HS" g) eqn:Sg.
          + destruct private; [discriminate|]. split; [|split; [|discriminate]].
            * destruct (dget (a_cdb A) (as_iss a)) as [[n|[x|] eta]|]; try discriminate; [|now apply ret_ok in E2].
              destruct (str_true x); [|now apply ret_ok in E2]. destruct (a_oct A _ _) as [|k ks]; [discriminate|].
              destruct (String.eqb k x); [now apply ret_ok in E2|discriminate].
            * intros _. exists (drop 2 g). split; [f_equal; apply (starts_drop "HS"); auto|].
              destruct (dget (a_cdb A) (as_iss a)) as [c|]; [|discriminate]. exists c. split; auto.
              intros x eta -> Nx. assert (str_true x = true) as Sx by (destruct x; auto; congruence). rewrite Sx in E2.
              destruct (a_oct A _ _) as [|k ks]; [discriminate|].
              destruct (String.eqb k x) eqn:Ek; [|discriminate]. apply seqb_eq in Ek. subst. eauto.
          + destruct private; [|discriminate]. split; [symmetry; now apply ret_ok in E2|]. split; [discriminate|].
            intros _ h X. injection X as ->. discriminate.
        - destruct private; [|discriminate]. split; [symmetry; now apply ret_ok in E2|]. split; [discriminate|]. intros _ h X. discriminate. }
      split; [exact E4|]. split; [reflexivity|]. split; [exists text; auto|]. split.
      { destruct (existsb _ _) eqn:B in E3; [|discriminate]. apply existsb_exists in B as (x & I & J).
        exists x. split; auto. now apply smem_In. }
      split; intros ->; destruct private; try discriminate; auto. }
    destruct m; cbn [verify_meth] in E; try discriminate.
    - apply meth_basic in E as (c & x & _ & _ & ->). discriminate.
    - apply meth_post in E as (c & x & _ & _ & ->). discriminate.
    - destruct hdr; [|discriminate]. destruct (split1 _ _) as [[? ?]|]; [|discriminate].
      apply ret_ok in E as [<- _]. discriminate.
    - destruct (cr_access_token q); [|discriminate]. apply ret_ok in E as [<- _]. discriminate.
    - destruct (K false eq_refl E) as (X & Y & Z). auto.
    - destruct (K true eq_refl E) as (X & Y & Z). auto 6.
    - destruct (cr_request q) as [text|] eqn:Er; [|discriminate].
      apply bind_ok in E as (a0 & s1 & E1 & E). apply lift_ok in E1 as [E1 <-].
      destruct (a_unpack A now text) as [a1|] eqn:Eu; [|discriminate]. injection E1 as ->.
      apply bind_ok in E as ([] & s2 & E2 & E). apply ret_ok in E as [<- <-]. cbn in Ej. injection Ej as ->.
      split; auto. split; auto. right. right. split; auto. exists text. auto.
  Qed.

  (** The set of used ids only grows. *)
  Lemma verify_grows m s r s' : verify_meth A now ep m q hdr s = (r, s') ->
    incl s s' /\ (forall x, r = Raise x -> s' = s).
  Proof.
    intros E.
    assert (forall a (k : unit -> ainfo) s1, (bind (use_jti a) (fun u => ret (k u))) s1 = (r, s') ->
      incl s1 s' /\ (forall x, r = Raise x -> s' = s1)) as K.
    { intros a k s1 X. apply bind_inv in X as [([] & s2 & X & Y)|(x & X & ->)].
      - apply ret_inv in Y as [-> <-]. apply use_jti_ok in X. split; [|discriminate].
        destruct (as_jti a) as [j|]; [|subst; apply incl_refl]. destruct (str_true j); [|subst; apply incl_refl].
        destruct X as [_ ->]. apply incl_appl, incl_refl.
      - apply use_jti_raise in X. subst. split; [apply incl_refl|auto]. }
    assert (forall x : exn, (Raise x : res ainfo, s) = (r, s') -> incl s s' /\ (forall x, r = Raise x -> s' = s)) as Kr.
    { intros x X. injection X as <- <-. split; [apply incl_refl|auto]. }
    assert (forall i : ainfo, (Ok i, s) = (r, s') -> incl s s' /\ (forall x, r = Raise x -> s' = s)) as Ko.
    { intros i X. injection X as <- <-. split; [apply incl_refl|discriminate]. }
    assert (forall private, verify_jws A now ep private m q s = (r, s') -> incl s s' /\ (forall x, r = Raise x -> s' = s)) as Kj.
    { intros private X. unfold verify_jws in X. destruct (cr_assertion q); [|eauto].
      apply bind_inv in X as [(a & s1 & X1 & X)|(x & X & ->)].
      2: { apply lift_inv in X as [_ <-]. split; [apply incl_refl|auto]. }
      apply lift_inv in X1 as [_ <-].
      apply bind_inv in X as [([] & s1 & X1 & X)|(x & X & ->)].
      2: { assert (s' = s) as ->; [|split; [apply incl_refl|auto]].
           destruct (match as_alg a with Some g => _ | None => _ end); [|destruct private; [|now apply raise_inv in X]].
           - destruct private; [now apply raise_inv in X|]. destruct (dget _ _) as [[n|[y|] eta]|]; try (now apply raise_inv in X); [|discriminate].
             destruct (str_true y); [|discriminate]. destruct (a_oct A _ _); [now apply raise_inv in X|].
             destruct (String.eqb _ _); [discriminate|now apply raise_inv in X].
           - discriminate. }
      assert (s1 = s) as ->.
      { destruct (match as_alg a with Some g => _ | None => _ end); [|destruct private; [now apply ret_ok in X1|discriminate]].
        destruct private; [discriminate|]. destruct (dget _ _) as [[n|[y|] eta]|]; try discriminate; [|now apply ret_ok in X1].
        destruct (str_true y); [|now apply ret_ok in X1]. destruct (a_oct A _ _); [discriminate|].
        destruct (String.eqb _ _); [now apply ret_ok in X1|discriminate]. }
      apply bind_inv in X as [([] & s1 & X2 & X)|(x & X & ->)].
      2: { destruct (existsb _ _); [discriminate|]. apply raise_inv in X as [_ <-]. split; [apply incl_refl|auto]. }
      assert (s1 = s) as ->. { destruct (existsb _ _); [now apply ret_ok in X2|discriminate]. }
      exact (K a (fun _ => mk_ainfo (Some (as_iss a)) None (tag m) (Some a)) _ X). }
    destruct m; cbn [verify_meth] in E; unfold raise, ret in E; try (eapply Kr; exact E); try (eapply Kj; exact E).
    - destruct hdr as [h|]; [|eauto]. unfold bind, ret, lift, raise in E. destruct (basic_authn A h) as [[c x]|]; [|eauto].
      destruct (secret_is A _ _) as [[|]|]; eauto.
    - destruct (cr_client_id q) as [c|]; [|eauto]. destruct (cr_client_secret q) as [x|]; [|eauto].
      unfold bind, ret, lift, raise in E. destruct (secret_is A c x) as [[|]|]; eauto.
    - destruct hdr; [|eauto]. destruct (split1 _ _) as [[? ?]|]; eauto.
    - destruct (cr_access_token q); eauto.
    - destruct (cr_request q) as [text|]; [|eauto]. unfold bind at 1, lift in E.
      destruct (a_unpack A now text) as [a|]; [|eauto]. exact (K a (fun _ => mk_ainfo (Some (as_iss a)) None (tag MRequestParam) (Some a)) _ E).
  Qed.

  Lemma try_state ms s r s' : try_methods A now ep q hdr ms s = (r, s') ->
    (exists o, r = Ok o) /\ incl s s'
    /\ (forall i a, r = Ok (Some i) -> ai_jwt i = Some a -> use_jti a s = (Ok tt, s')).
  Proof.
    revert s. induction ms as [|m ms IH]; intros s E; cbn in E.
    - apply ret_inv in E as [-> <-]. split; [eauto|]. split; [apply incl_refl|discriminate].
    - destruct (is_usable m q hdr); [|auto].
      destruct (verify_meth A now ep m q hdr s) as [[i|x] s1] eqn:V.
      + unfold bind at 1, catch, bind at 1 in E. rewrite V in E. cbn in E. injection E as <- <-.
        split; [eauto|]. split; [apply (verify_grows _ _ _ _ V)|].
        intros i' a X Ej. injection X as <-. now destruct (verify_jwt _ _ _ _ _ V Ej).
      + unfold bind at 1, catch, bind at 1 in E. rewrite V in E. cbn in E.
        destruct (verify_grows _ _ _ _ V) as [_ X]. rewrite (X x eq_refl) in E. auto.
  Qed.

  Lemma auth_state s r s' : client_authentication A now ep q hdr s = (r, s') ->
    incl s s' /\ (forall i a, r = Ok (Some i) -> ai_jwt i = Some a -> use_jti a s = (Ok tt, s')).
  Proof.
    unfold client_authentication, verify_client. intros E.
    unfold bind at 1 in E. unfold bind at 1 in E.
    destruct (try_methods A now ep q hdr (ep_methods ep) s) as [r0 s0] eqn:T.
    destruct (try_state _ _ _ _ T) as ((o & ->) & Inc & Us).
    assert (forall o' : option ainfo, o' = match o with
       | Some i => Some i
       | None => if existsb is_none (ep_methods ep) then Some (mk_ainfo (cr_client_id q) None "none" None) else None end ->
       s' = s0 /\ forall i a, r = Ok (Some i) -> ai_jwt i = Some a -> exists i0, o' = Some i0 /\ ai_jwt i0 = Some a) as K.
    { intros o' Eo. rewrite <- Eo in E. clear Eo. destruct o' as [i|].
      - destruct (match ai_client i with Some c => str_true c | None => false end).
        + destruct (dget (a_cdb A) _) as [[n|x eta]|].
          * destruct (dmem (a_cdb A) n); cbn in E; injection E as <- <-; split; auto; discriminate.
          * cbn in E. destruct (negb (negb _ && _)); cbn in E; injection E as <- <-; split; auto; [|discriminate].
            intros i' a X Ej. injection X as <-. eauto.
          * cbn in E. injection E as <- <-. split; auto. discriminate.
        + destruct (ep_from_token ep) as [f|].
          * destruct (ai_token i) as [t|]; [|cbn in E; injection E as <- <-; split; auto; discriminate].
            destruct (negb (str_true t)); [cbn in E; injection E as <- <-; split; auto; discriminate|].
            destruct (f t) as [c|x].
            -- cbn in E. injection E as <- <-. split; auto. intros i' a X Ej. injection X as <-. eauto.
            -- destruct (is_KeyError x); [cbn in E; injection E as <- <-; split; auto; discriminate|].
               destruct x; cbn in E; injection E as <- <-; split; auto; discriminate.
          * cbn in E. injection E as <- <-. split; auto. intros i' a X Ej. injection X as <-. eauto.
      - cbn in E. destruct (list_true _); injection E as <- <-; split; auto; discriminate. }
    destruct (K _ eq_refl) as (-> & K'). split; auto. intros i a X Ej. destruct (K' i a X Ej) as (i0 & E0 & Ej0).
    destruct o as [i1|].
    - injection E0 as ->. eapply Us; eauto.
    - destruct (existsb is_none (ep_methods ep)); [|discriminate]. injection E0 as <-. discriminate.
  Qed.

  Lemma jwt_checked s o s' m a : client_authentication A now ep q hdr s = (o, s') -> by_jwt o m a ->
    (m = "client_secret_jwt" /\ jws_ok MSecretJWT a \/ m = "private_key_jwt" /\ jws_ok MPrivateJWT a
     \/ m = "request_param" /\ exists text, cr_request q = Some text /\ a_unpack A now text = Ok a)
    /\ (forall i, o = Ok (Some i) -> as_iss a <> "" -> ai_client i = Some (as_iss a) /\ in_force A now (as_iss a)).
  Proof.
    intros E (i & -> & Em & Ej). destruct (auth_from _ _ _ E) as (i0 & Em0 & Ej0 & Src & K).
    destruct Src as [(m0 & s1 & s2 & I & U & V)|(_ & ->)]; [|cbn in Ej0; congruence].
    rewrite Ej in Ej0. destruct (verify_jwt _ _ _ _ _ V (eq_sym Ej0)) as (_ & Ec & H).
    pose proof (verify_tag _ _ _ _ V) as T. split.
    - destruct H as [(-> & H)|[(-> & H)|(-> & H)]]; cbn in T; [left|right; left|right; right]; split; auto; congruence.
    - intros i' X Ne. injection X as <-. destruct K as [(-> & K)|(f & t & _ & _ & Z & _)].
      + split; auto.
      + elim Ne. auto.
  Qed.
End A.

Section H.
  Variable A : aenv.
  Lemma attempts_incl xs : forall db, incl db (snd (attempts A db xs)).
  Proof.
    induction xs as [|x xs IH]; intros db; cbn; [apply incl_refl|].
    destruct (client_authentication A _ _ _ _ db) as [o db1] eqn:E.
    specialize (IH db1). destruct (attempts A db1 xs) as [os db2]. cbn in *.
    eapply incl_tran; [eapply auth_state; eauto|exact IH].
  Qed.

  Lemma attempted_state xs : forall db i x o, attempted A db xs i x o ->
    exists db1 db2, incl db db1
      /\ client_authentication A (at_time x) (at_endpoint x) (at_request x) (at_header x) db1 = (o, db2).
  Proof.
    induction xs as [|y xs IH]; intros db i x o (N & M); [destruct i; discriminate|].
    cbn in M. destruct (client_authentication A (at_time y) _ _ _ db) as [o1 db1] eqn:E.
    destruct (attempts A db1 xs) as [os db2] eqn:Es. cbn in M. destruct i as [|i].
    - cbn in N, M. injection N as ->. injection M as ->. exists db, db1. split; [apply incl_refl|auto].
    - cbn in N, M. destruct (IH db1 i x o) as (d1 & d2 & I & H). { split; auto. rewrite Es. exact M. }
      exists d1, d2. split; auto. eapply incl_tran; [eapply auth_state; eauto|exact I].
  Qed.

  Definition key_of (a : assertion) (j : string) : string := append (as_iss a) (append ":" j).

  (** An accepted id was not used before, and is used afterwards. *)
  Lemma once_key xs : forall db i k x o a m j y p b m', attempted A db xs i x o -> attempted A db xs k y p ->
    by_jwt o m a -> by_jwt p m' b -> i < k -> as_jti a = Some j -> j <> "" ->
    forall j', as_jti b = Some j' -> j' <> "" -> key_of a j <> key_of b j'.
  Proof.
    induction xs as [|z xs IH]; intros db i k x o a m j y p b m' (N & M) (N' & M') B B' L Ej Nj j' Ej' Nj' X; [destruct i; discriminate|].
    cbn in M, M'. destruct (client_authentication A (at_time z) _ _ _ db) as [o1 db1] eqn:E.
    destruct (attempts A db1 xs) as [os db2] eqn:Es. cbn in M, M'. destruct k as [|k]; [lia|]. cbn in N', M'.
    destruct i as [|i].
    - cbn in N, M. injection N as ->. injection M as ->. destruct B as (ia & -> & _ & Ja).
      destruct (auth_state _ _ _ _ _ _ _ _ E) as [_ U]. specialize (U _ _ eq_refl Ja). apply use_jti_ok in U.
      rewrite Ej in U. assert (str_true j = true) as Sj by (destruct j; auto; congruence). rewrite Sj in U. destruct U as [_ U].
      destruct (attempted_state xs db1 k y p) as (d1 & d2 & I & H). { split; auto. now rewrite Es. }
      destruct B' as (ib & -> & _ & Jb). destruct (auth_state _ _ _ _ _ _ _ _ H) as [_ V]. specialize (V _ _ eq_refl Jb).
      apply use_jti_ok in V. rewrite Ej' in V. assert (str_true j' = true) as Sj' by (destruct j'; auto; congruence). rewrite Sj' in V.
      destruct V as [V _]. apply V. apply I. rewrite U. apply in_or_app. right. left. exact X.
    - cbn in N, M. eapply (IH db1 i k x o a m j y p b m'); eauto; try (split; [auto|now rewrite Es]). lia.
  Qed.

  Lemma jwt_once xs db i k x y o p a b m m' j : attempted A db xs i x o -> attempted A db xs k y p ->
    by_jwt o m a -> by_jwt p m' b -> as_iss a = as_iss b -> as_jti a = Some j -> as_jti b = Some j -> j <> "" -> i = k.
  Proof.
    intros H H' B B' Ei Ea Eb Nj. destruct (Nat.lt_trichotomy i k) as [L|[L|L]]; auto; exfalso.
    - eapply (once_key xs db i k x o a m j y p b m'); eauto. unfold key_of. congruence.
    - eapply (once_key xs db k i y p b m' j x o a m); eauto. unfold key_of. congruence.
  Qed.
End H.
