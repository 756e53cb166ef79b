(** Lemmas about the token handlers. *)
From Coq Require Import Lia.
From Verif Require Import M_Base M_Types M_Codec M_Grant M_Env M_Session M_Claims M_Handler.
From Verif Require Import S_Codec S_Handler L_Base L_Codec.

(** ** Opaque tokens *)
Lemma show_Z_no_space z : rstrip is_space (show_Z z) = show_Z z.
Proof.
  unfold show_Z. destruct (z <? 0)%Z.
  - cbn [append rstrip].
    rewrite (all_digits_rstrip _ (show_N_digits _)).
    destruct (show_N (Z.to_N (- z))) eqn:E; [now apply show_N_ne in E|reflexivity].
  - apply all_digits_rstrip, show_N_digits.
Qed.

Definition exp_text (lifetime now : Z) : string :=
  if (0 <=? lifetime)%Z then show_Z (now + lifetime) else "-1".

Lemma split_minted c pw cls lt rnd nonce now sid a :
  fernet_correct c -> base64_correct c ->
  split_token c pw (default_mint c pw cls lt rnd nonce now sid a)
  = Ok [rnd; (if negb a && str_true cls then cls else CODE); sid; exp_text lt now].
Proof.
  intros Hf Hb. unfold split_token, default_mint. rewrite Hb.
  rewrite crypt_roundtrip by assumption.
  set (tc := if negb a && str_true cls then cls else CODE).
  fold (exp_text lt now).
  change ([rnd; tc; sid; exp_text lt now]) with ([rnd; tc; sid] ++ [exp_text lt now]).
  rewrite lv_unpack_rstrip. do 2 f_equal. f_equal.
  unfold exp_text. destruct (0 <=? lt)%Z; [apply show_Z_no_space|reflexivity].
Qed.

Lemma default_info_minted c pw cls cls' lt rnd nonce now sid :
  fernet_correct c -> base64_correct c -> cls <> "" ->
  default_info c pw cls' (default_mint c pw cls lt rnd nonce now sid false)
  = if smem cls [cls'; alt_token_name cls']
    then Ok (mk_tinfo sid (Some cls') (JStr (exp_text lt now)))
    else Raise WrongTokenClass.
Proof.
  intros Hf Hb Hc. unfold default_info. rewrite split_minted by assumption.
  cbn [rbind nth_error negb andb].
  assert (str_true cls = true) as -> by (destruct cls; [congruence|reflexivity]).
  reflexivity.
Qed.

Lemma default_info_own c pw cls lt rnd nonce now sid :
  fernet_correct c -> base64_correct c -> cls <> "" ->
  default_info c pw cls (default_mint c pw cls lt rnd nonce now sid false)
  = Ok (mk_tinfo sid (Some cls) (JStr (exp_text lt now))).
Proof.
  intros Hf Hb Hc. rewrite default_info_minted by assumption.
  assert (smem cls [cls; alt_token_name cls] = true) as -> by (apply smem_In; now left).
  reflexivity.
Qed.

Lemma default_info_reports c pw cls lt rnd nonce now sid :
  fernet_correct c -> base64_correct c -> cls <> "" ->
  exists i, default_info c pw cls (default_mint c pw cls lt rnd nonce now sid false) = Ok i /\
    ti_sid i = sid /\ ti_class i = Some cls.
Proof. intros. eexists. split; [now apply default_info_own|auto]. Qed.

Lemma known_alt cls cls' : known_class cls -> known_class cls' ->
  (smem cls [cls'; alt_token_name cls'] = true <-> cls = cls').
Proof.
  unfold known_class. cbn [In]. intros H H'.
  destruct H as [<-|[<-|[<-|[<-|[]]]]]; destruct H' as [<-|[<-|[<-|[<-|[]]]]];
    (split; [intros E|intros E]; (reflexivity || discriminate E)).
Qed.

Lemma known_nonempty cls : known_class cls -> cls <> "".
Proof. unfold known_class. cbn [In]. intros H ->. intuition discriminate. Qed.

Lemma default_info_other c pw cls cls' lt rnd nonce now sid :
  fernet_correct c -> base64_correct c -> known_class cls -> known_class cls' -> cls <> cls' ->
  default_info c pw cls' (default_mint c pw cls lt rnd nonce now sid false)
  = Raise WrongTokenClass.
Proof.
  intros Hf Hb Hk Hk' Hne.
  rewrite default_info_minted by (auto; now apply known_nonempty).
  destruct (smem cls _) eqn:E; [|reflexivity].
  now apply known_alt in E.
Qed.

Lemma default_info_other_key c pw pw' cls cls' lt rnd nonce now sid a :
  fernet_authentic c -> base64_correct c -> pw <> pw' ->
  default_info c pw' cls' (default_mint c pw cls lt rnd nonce now sid a) = Raise UnknownToken.
Proof.
  intros Hf Hb Hne. unfold default_info, split_token, default_mint. rewrite Hb.
  unfold crypt_decrypt, crypt_encrypt. rewrite Hf by assumption. reflexivity.
Qed.

Lemma default_expiry c pw cls lt rnd nonce now sid when :
  fernet_correct c -> base64_correct c -> cls <> "" -> (0 <= now)%Z ->
  exists b, default_is_expired c pw cls (default_mint c pw cls lt rnd nonce now sid false) when
            = Ok b /\ (b = true <-> (0 <= lt)%Z /\ (now + lt < when)%Z).
Proof.
  intros Hf Hb Hc Hn. unfold default_is_expired. rewrite default_info_own by assumption.
  cbn [rbind ti_exp]. unfold exp_text. destruct (0 <=? lt)%Z eqn:E.
  - apply Z.leb_le in E.
    destruct (String.eqb (show_Z (now + lt)) "-1") eqn:E1.
    + apply seqb_eq in E1. change "-1" with (show_Z (-1)) in E1.
      apply show_Z_inj in E1. lia.
    + rewrite py_int_show_Z. eexists. split; [reflexivity|]. unfold is_expired.
      assert ((now + lt <? 0)%Z = false) as -> by (apply Z.ltb_ge; lia).
      rewrite Z.ltb_lt. intuition lia.
  - apply Z.leb_gt in E. cbn. exists false. split; [reflexivity|]. intuition (discriminate || lia).
Qed.

(** A handler called with the argument token_class makes a code. *)
Lemma default_mint_arg c pw cls lt rnd nonce now sid :
  fernet_correct c -> base64_correct c -> known_class cls -> cls <> CODE ->
  default_info c pw cls (default_mint c pw cls lt rnd nonce now sid true)
  = Raise WrongTokenClass /\
  default_info c pw CODE (default_mint c pw cls lt rnd nonce now sid true)
  = Ok (mk_tinfo sid (Some CODE) (JStr (exp_text lt now))).
Proof.
  intros Hf Hb Hk Hc. unfold default_info. rewrite split_minted by assumption.
  cbn [rbind nth_error negb andb]. split.
  - destruct (smem CODE [cls; alt_token_name cls]) eqn:E; [|reflexivity].
    apply known_alt in E; [congruence|now left|assumption].
  - reflexivity.
Qed.

(** ** JWT tokens *)
Lemma jwt_info_ok e now cls alg tok i :
  jwt_info e now cls alg tok = Ok i <->
  exists p s x v,
    e_verify e [alg] tok = Ok p /\
    (match dget p "ttype" with None | Some JNull => dget p "token_class" | t => t end)
      = Some (JStr s) /\
    (s = cls \/ s = alt_token_name cls) /\
    dget p "exp" = Some (JInt x) /\ ((x < 0) \/ (now <= x))%Z /\
    dget p "sid" = Some v /\
    i = mk_tinfo (match v with JStr s => s | _ => "" end) (Some cls) (JInt x).
Proof.
  unfold jwt_info, jwt_get_payload.
  destruct (e_verify e [alg] tok) as [p|x] eqn:Ev.
  2:{ split.
      - destruct x; discriminate.
      - intros (p & s & x' & v & H & _). discriminate. }
  cbn [rbind].
  set (tc := match dget p "ttype" with
             | None | Some JNull => dget p "token_class" | x => x end).
  assert (Htc : tc = match dget p "ttype" with
             | None | Some JNull => dget p "token_class" | t => t end) by reflexivity.
  clearbody tc. split.
  - intros H.
    destruct tc as [[| | |s| |]|] eqn:Et; cbn [negb] in H;
      try (destruct (dget p "token_class"); discriminate).
    destruct (smem s [cls; alt_token_name cls]) eqn:Es; cbn [negb] in H;
      [|destruct (dget p "token_class"); discriminate].
    unfold payload_expired in H. destruct (dget p "exp") as [[| |x| | |]|] eqn:Ex;
      cbn [rbind] in H; try discriminate.
    destruct (is_expired x now) eqn:Ei; [discriminate|].
    destruct (dget p "sid") as [v|] eqn:Esid; [|discriminate].
    injection H as <-.
    exists p, s, x, v. split; [reflexivity|]. split; [now rewrite <- Htc|].
    apply smem_In in Es. cbn [In] in Es. split; [intuition auto|].
    split; [assumption|]. split; [|auto].
    unfold is_expired in Ei. destruct (x <? 0)%Z eqn:E0.
    + left. now apply Z.ltb_lt.
    + right. now apply Z.ltb_ge in Ei.
  - intros (p' & s & x & v & Hp & Ht & Hs & Hx & Hl & Hv & ->). injection Hp as <-.
    rewrite <- Htc in Ht. rewrite Ht.
    assert (smem s [cls; alt_token_name cls] = true) as ->.
    { apply smem_In. cbn. intuition auto. }
    cbn [negb]. unfold payload_expired. rewrite Hx. cbn [rbind].
    assert (is_expired x now = false) as ->.
    { unfold is_expired. destruct (x <? 0)%Z eqn:E0; [reflexivity|].
      apply Z.ltb_ge in E0. apply Z.ltb_ge. lia. }
    rewrite Hv. reflexivity.
Qed.

Lemma jwt_info_sound e now cls alg tok i :
  jwt_info e now cls alg tok = Ok i ->
  exists p, e_verify e [alg] tok = Ok p /\ ~ jwt_expired now p /\
    (dget p "ttype" = Some (JStr cls) \/ dget p "ttype" = Some (JStr (alt_token_name cls)) \/
     (dget p "ttype" = None \/ dget p "ttype" = Some JNull) /\
     (dget p "token_class" = Some (JStr cls) \/
      dget p "token_class" = Some (JStr (alt_token_name cls)))) /\
    (forall s, dget p "sid" = Some (JStr s) -> ti_sid i = s) /\
    ti_class i = Some cls.
Proof.
  intros H. apply jwt_info_ok in H as (p & s & x & v & Hp & Ht & Hs & Hx & Hl & Hv & ->).
  exists p. split; [assumption|]. split.
  { intros (y & Hy & ? & ?). rewrite Hx in Hy. injection Hy as <-. lia. }
  split.
  { destruct (dget p "ttype") as [[| | |t| |]|]; try discriminate; injection Ht as Ht || idtac;
      destruct Hs as [->| ->]; subst; auto 8. }
  split; [|reflexivity]. intros s' H'. rewrite Hv in H'. injection H' as ->. reflexivity.
Qed.

(** Reading the payload JWTToken.__call__ makes. *)
Definition jwt_lifetime (lt : Z) (rules : option rule) : Z :=
  match rules with
  | Some r => match r_exp r with Some x => x | None => lt end
  | None => lt
  end.

Lemma jwt_payload_get cls iss lt now sid rules payload k :
  cls <> "" -> dget payload "token_class" = None ->
  dget (jwt_payload cls iss lt now sid rules payload) k =
    if String.eqb k "exp" then
      (if Z.eqb (jwt_lifetime lt rules) 0 then dget payload "exp"
       else Some (JInt (now + jwt_lifetime lt rules)))
    else if String.eqb k "iat" then Some (JInt now)
    else if String.eqb k "iss" then Some (JStr iss)
    else if String.eqb k "token_class" then Some (JStr cls)
    else if String.eqb k "sid" then Some (JStr sid)
    else dget payload k.
Proof.
  intros Hc Ht. unfold jwt_payload. rewrite Ht.
  assert (str_true cls = true) as -> by (destruct cls; [congruence|reflexivity]).
  fold (jwt_lifetime lt rules). unfold jwt_claims. cbn [str_true].
  destruct (Z.eqb (jwt_lifetime lt rules) 0); repeat rewrite dget_dset.
  - destruct (String.eqb k "exp") eqn:E; [|reflexivity].
    apply seqb_eq in E as ->. reflexivity.
  - reflexivity.
Qed.

Lemma jwt_roundtrip e n now when cls alg iss lt sid rules payload tok :
  jws_correct e -> cls <> "" ->
  dget payload "token_class" = None -> dget payload "ttype" = None ->
  jwt_lifetime lt rules <> 0%Z -> (0 <= now + jwt_lifetime lt rules)%Z ->
  e_sign e alg n (jwt_payload cls iss lt now sid rules payload) = Ok tok ->
  jwt_info e when cls alg tok =
    if (now + jwt_lifetime lt rules <? when)%Z then Raise ToOld
    else Ok (mk_tinfo sid (Some cls) (JInt (now + jwt_lifetime lt rules))).
Proof.
  intros Hj Hc Htc Htt Hlt Hpos Hs. apply Hj in Hs.
  unfold jwt_info, jwt_get_payload. rewrite Hs. cbn [rbind].
  rewrite !jwt_payload_get by assumption. cbn [String.eqb Ascii.eqb Bool.eqb].
  rewrite Htt.
  assert (smem cls [cls; alt_token_name cls] = true) as -> by (apply smem_In; now left).
  cbn [negb].
  unfold payload_expired. rewrite jwt_payload_get by assumption.
  cbn [String.eqb Ascii.eqb Bool.eqb].
  destruct (Z.eqb (jwt_lifetime lt rules) 0) eqn:E; [apply Z.eqb_eq in E; congruence|].
  cbn [rbind]. unfold is_expired.
  assert ((now + jwt_lifetime lt rules <? 0)%Z = false) as -> by (apply Z.ltb_ge; lia).
  destruct (now + jwt_lifetime lt rules <? when)%Z; reflexivity.
Qed.

Lemma jwt_other_class e n now when cls cls' alg iss lt sid rules payload tok :
  jws_correct e -> known_class cls -> known_class cls' -> cls <> cls' ->
  dget payload "token_class" = None -> dget payload "ttype" = None ->
  e_sign e alg n (jwt_payload cls iss lt now sid rules payload) = Ok tok ->
  jwt_info e when cls' alg tok = Raise WrongTokenClass.
Proof.
  intros Hj Hk Hk' Hne Htc Htt Hs. apply Hj in Hs.
  unfold jwt_info, jwt_get_payload. rewrite Hs. cbn [rbind].
  pose proof (known_nonempty _ Hk) as Hc.
  rewrite !jwt_payload_get by assumption. cbn [String.eqb Ascii.eqb Bool.eqb].
  rewrite Htt. destruct (smem cls [cls'; alt_token_name cls']) eqn:E; [|reflexivity].
  now apply known_alt in E.
Qed.

(** ** The handler table *)
Lemma refusal_spec x : swallowed x = true <-> refusal x.
Proof.
  split.
  - destruct x; cbn; try discriminate; constructor.
  - intros []; reflexivity.
Qed.

Lemma get_handler_ok {A} (f : A -> res tinfo) order h i :
  get_handler f order = Ok (Some (h, i)) <->
  exists pre post, order = pre ++ h :: post /\ f h = Ok i /\
    (forall h', In h' pre -> exists x, f h' = Raise x /\ refusal x).
Proof.
  induction order as [|a r IH]; cbn [get_handler].
  - split; [discriminate|]. intros (pre & post & H & _). now destruct pre.
  - destruct (f a) as [i'|x] eqn:Ef.
    + split.
      * intros [= <- <-]. exists [], r. repeat split; auto. now intros ? [].
      * intros (pre & post & Ho & Hh & Hpre). destruct pre as [|b pre].
        -- injection Ho as <- <-. rewrite Ef in Hh. now injection Hh as <-.
        -- injection Ho as <- ->. destruct (Hpre a (or_introl eq_refl)) as [x [Hx _]]. congruence.
    + destruct (swallowed x) eqn:Es.
      * rewrite IH. split.
        -- intros (pre & post & -> & Hh & Hpre). exists (a :: pre), post.
           repeat split; auto. intros h' [<-|Hin]; [|auto].
           exists x. split; [assumption|now apply refusal_spec].
        -- intros (pre & post & Ho & Hh & Hpre). destruct pre as [|b pre].
           ++ injection Ho as <- <-. congruence.
           ++ injection Ho as <- ->. exists pre, post. repeat split; auto.
              intros h' Hin. apply Hpre. now right.
      * split; [discriminate|].
        intros (pre & post & Ho & Hh & Hpre). destruct pre as [|b pre].
        -- injection Ho as <- <-. congruence.
        -- injection Ho as <- ->. destruct (Hpre a (or_introl eq_refl)) as [y [Hy Hr]].
           rewrite Ef in Hy. injection Hy as <-. apply refusal_spec in Hr. congruence.
Qed.

Lemma get_handler_none {A} (f : A -> res tinfo) order :
  get_handler f order = Ok None <-> all_refuse f order.
Proof.
  unfold all_refuse. induction order as [|a r IH]; cbn [get_handler].
  - split; [now intros _ ? []|reflexivity].
  - destruct (f a) as [i'|x] eqn:Ef.
    + split; [discriminate|]. intros H. destruct (H a (or_introl eq_refl)) as [x [Hx _]]. congruence.
    + destruct (swallowed x) eqn:Es.
      * rewrite IH. split.
        -- intros H h [<-|Hin]; [|auto]. exists x. split; [assumption|now apply refusal_spec].
        -- intros H h Hin. apply H. now right.
      * split; [discriminate|]. intros H. destruct (H a (or_introl eq_refl)) as [y [Hy Hr]].
        rewrite Ef in Hy. injection Hy as <-. apply refusal_spec in Hr. congruence.
Qed.

Lemma get_handler_raise {A} (f : A -> res tinfo) order x :
  get_handler f order = Raise x <->
  ~ refusal x /\
  exists pre h post, order = pre ++ h :: post /\ f h = Raise x /\
    (forall h', In h' pre -> exists x, f h' = Raise x /\ refusal x).
Proof.
  induction order as [|a r IH]; cbn [get_handler].
  - split; [discriminate|]. intros (_ & pre & h & post & H & _). now destruct pre.
  - destruct (f a) as [i'|y] eqn:Ef.
    + split; [discriminate|]. intros (_ & pre & h & post & Ho & Hh & Hpre). destruct pre as [|b pre].
      * injection Ho as <- <-. congruence.
      * injection Ho as <- ->. destruct (Hpre a (or_introl eq_refl)) as [z [Hz _]]. congruence.
    + destruct (swallowed y) eqn:Es.
      * rewrite IH. split.
        -- intros (Hn & pre & h & post & -> & Hh & Hpre). split; [assumption|].
           exists (a :: pre), h, post. repeat split; auto. intros h' [<-|Hin]; [|auto].
           exists y. split; [assumption|now apply refusal_spec].
        -- intros (Hn & pre & h & post & Ho & Hh & Hpre). split; [assumption|].
           destruct pre as [|b pre].
           ++ injection Ho as <- <-. apply refusal_spec in Es. congruence.
           ++ injection Ho as <- ->. exists pre, h, post. repeat split; auto.
              intros h' Hin. apply Hpre. now right.
      * split.
        -- intros [= <-]. split; [intros H; apply refusal_spec in H; congruence|].
           exists [], a, r. repeat split; auto. now intros ? [].
        -- intros (Hn & pre & h & post & Ho & Hh & Hpre). destruct pre as [|b pre].
           ++ injection Ho as <- <-. congruence.
           ++ injection Ho as <- ->. destruct (Hpre a (or_introl eq_refl)) as [z [Hz Hr]].
              rewrite Ef in Hz. injection Hz as <-. apply refusal_spec in Hr. congruence.
Qed.

Definition answer (e : env) (now : Z) (tok : string) (h : handler) : res tinfo :=
  handler_info e now h tok.

Lemma token_info_ok e now tok i :
  token_info e now tok = Ok i <->
  exists pre h post, map snd (e_handlers e) = pre ++ h :: post /\
    handler_info e now h tok = Ok i /\
    (forall h', In h' pre -> exists x, handler_info e now h' tok = Raise x /\ refusal x).
Proof.
  unfold token_info. split.
  - destruct (get_handler _ _) as [[[h j]|]|x] eqn:E; cbn [rbind]; try discriminate.
    intros [= <-]. apply get_handler_ok in E as (pre & post & H). exists pre, h, post. exact H.
  - intros (pre & h & post & H).
    assert (get_handler (fun h => handler_info e now h tok) (map snd (e_handlers e))
            = Ok (Some (h, i))) as ->; [|reflexivity].
    apply get_handler_ok. exists pre, post. exact H.
Qed.

Lemma token_info_unknown e now tok :
  token_info e now tok = Raise UnknownToken <->
  all_refuse (fun h => handler_info e now h tok) (map snd (e_handlers e)).
Proof.
  unfold token_info. rewrite <- get_handler_none.
  destruct (get_handler _ _) as [[[h j]|]|x] eqn:E; cbn [rbind]; split; try discriminate; auto.
  intros [= ->]. apply get_handler_raise in E as [H _]. destruct H. constructor.
Qed.

Lemma token_info_raise e now tok x :
  token_info e now tok = Raise x -> x <> UnknownToken ->
  ~ refusal x /\
  exists pre h post, map snd (e_handlers e) = pre ++ h :: post /\
    handler_info e now h tok = Raise x /\
    (forall h', In h' pre -> exists x, handler_info e now h' tok = Raise x /\ refusal x).
Proof.
  unfold token_info. intros H Hx.
  destruct (get_handler _ _) as [[[h j]|]|y] eqn:E; cbn [rbind] in H; try discriminate; try congruence.
  injection H as <-. now apply get_handler_raise in E.
Qed.

(** Refusing handlers can be left out. *)
Lemma get_handler_drop {A} (f : A -> res tinfo) pre h post x :
  f h = Raise x -> refusal x ->
  get_handler f (pre ++ h :: post) = get_handler f (pre ++ post).
Proof.
  intros Hf Hr. induction pre as [|a pre IH]; cbn.
  - rewrite Hf. apply refusal_spec in Hr. now rewrite Hr.
  - destruct (f a); [reflexivity|]. now rewrite IH.
Qed.
