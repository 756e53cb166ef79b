(** Property theorems: C17 opaque tokens, C18 JWT tokens, C19 the order of the
    handlers. *)
From Verif Require Import M_Base M_Types M_Codec M_Grant M_Env M_Session M_Claims M_Handler.
From Verif Require Import S_Codec S_Toy S_Jws S_Handler L_Base L_Codec L_Handler L_Jws.

(** ** C17 *)
Theorem C17_opaque_token_reports_session_and_class :
  forall c key cls lifetime rnd nonce now session,
    fernet_correct c -> base64_correct c -> cls <> "" ->
    exists i,
      default_info c key cls (default_mint c key cls lifetime rnd nonce now session false) = Ok i /\
      ti_sid i = session /\ ti_class i = Some cls.
Proof. exact default_info_reports. Qed.
Print Assumptions C17_opaque_token_reports_session_and_class.

Theorem C17_opaque_token_refused_by_other_class :
  forall c key cls cls' lifetime rnd nonce now session,
    fernet_correct c -> base64_correct c ->
    known_class cls -> known_class cls' -> cls <> cls' ->
    default_info c key cls' (default_mint c key cls lifetime rnd nonce now session false)
    = Raise WrongTokenClass.
Proof. exact default_info_other. Qed.
Print Assumptions C17_opaque_token_refused_by_other_class.

Theorem C17_opaque_token_refused_under_other_key :
  forall c key key' cls cls' lifetime rnd nonce now session arg,
    fernet_authentic c -> base64_correct c -> key <> key' ->
    default_info c key' cls' (default_mint c key cls lifetime rnd nonce now session arg)
    = Raise UnknownToken.
Proof. exact default_info_other_key. Qed.
Print Assumptions C17_opaque_token_refused_under_other_key.

Theorem C17_opaque_token_expires_exactly :
  forall c key cls lifetime rnd nonce now session when,
    fernet_correct c -> base64_correct c -> cls <> "" -> (0 <= now)%Z ->
    exists b,
      default_is_expired c key cls (default_mint c key cls lifetime rnd nonce now session false) when
      = Ok b /\
      (b = true <-> (0 <= lifetime)%Z /\ (now + lifetime < when)%Z).
Proof. exact default_expiry. Qed.
Print Assumptions C17_opaque_token_expires_exactly.

(** Calling a handler with the optional argument token_class, meant to choose
    the class, makes an authorization code whatever the handler's class: the
    handler does not recognise its own token. *)
Theorem C17_opaque_token_with_class_argument_refuted :
  exists c key cls lifetime rnd nonce now session,
    fernet_correct c /\ base64_correct c /\ known_class cls /\
    default_info c key cls (default_mint c key cls lifetime rnd nonce now session true)
      = Raise WrongTokenClass /\
    (exists i, default_info c key CODE
                 (default_mint c key cls lifetime rnd nonce now session true) = Ok i).
Proof.
  assert (Hf : fernet_correct toy_crypto).
  { intros key nonce text. cbn [fdec fenc toy_crypto]. rewrite lv_loop_pack.
    cbn [lv_pack]. rewrite split1_app by apply show_N_no_colon. now rewrite seqb_refl. }
  assert (Hb : base64_correct toy_crypto) by (intros s; reflexivity).
  assert (Hk : known_class ACCESS) by (right; now left).
  exists toy_crypto, "k", ACCESS, 600%Z, "r", 0, 1000%Z, "sid".
  split; [exact Hf|]. split; [exact Hb|]. split; [exact Hk|].
  destruct (default_mint_arg toy_crypto "k" ACCESS 600 "r" 0 1000 "sid" Hf Hb Hk ltac:(discriminate))
    as [H1 H2].
  split; [exact H1|]. eexists. exact H2.
Qed.
Print Assumptions C17_opaque_token_with_class_argument_refuted.

Example C17_example :
  fernet_correct toy_crypto /\ base64_correct toy_crypto /\ fernet_authentic toy_crypto /\
  known_class ACCESS /\
  default_info toy_crypto "pw" ACCESS (default_mint toy_crypto "pw" ACCESS 600 "r0" 3 1000 "sid 1 " false)
    = Ok (mk_tinfo "sid 1 " (Some ACCESS) (JStr "1600")) /\
  default_is_expired toy_crypto "pw" ACCESS
    (default_mint toy_crypto "pw" ACCESS 600 "r0" 3 1000 "s" false) 1600 = Ok false /\
  default_is_expired toy_crypto "pw" ACCESS
    (default_mint toy_crypto "pw" ACCESS 600 "r0" 3 1000 "s" false) 1601 = Ok true /\
  default_is_expired toy_crypto "pw" ACCESS
    (default_mint toy_crypto "pw" ACCESS (-1) "r0" 3 1000 "s" false) 99999 = Ok false.
Proof.
  split; [|split; [|split; [|split]]].
  - intros key nonce text. cbn [fdec fenc toy_crypto]. rewrite lv_loop_pack.
    cbn [lv_pack]. rewrite split1_app by apply show_N_no_colon. now rewrite seqb_refl.
  - intros s. reflexivity.
  - intros key key' nonce text H. cbn [fdec fenc toy_crypto]. rewrite lv_loop_pack.
    cbn [lv_pack]. rewrite split1_app by apply show_N_no_colon.
    destruct (String.eqb key key') eqn:E; [apply seqb_eq in E; congruence|reflexivity].
  - right. now left.
  - vm_compute. repeat split; reflexivity.
Qed.

(** ** C18 *)
Theorem C18_jwt_accepted_only_if_verified_right_class_and_live :
  forall e now cls alg tok i,
    jwt_info e now cls alg tok = Ok i ->
    exists p, e_verify e [alg] tok = Ok p /\ ~ jwt_expired now p /\
      (dget p "ttype" = Some (JStr cls) \/ dget p "ttype" = Some (JStr (alt_token_name cls)) \/
       (dget p "ttype" = None \/ dget p "ttype" = Some JNull) /\
       (dget p "token_class" = Some (JStr cls) \/
        dget p "token_class" = Some (JStr (alt_token_name cls)))) /\
      (forall s, dget p "sid" = Some (JStr s) -> ti_sid i = s) /\
      ti_class i = Some cls.
Proof. exact jwt_info_sound. Qed.
Print Assumptions C18_jwt_accepted_only_if_verified_right_class_and_live.

(** What the handler made, it accepts exactly until it expires, and reports
    the session it was made for. *)
Theorem C18_jwt_minted_is_accepted_until_expiry :
  forall e n now when cls alg issuer lifetime session rules payload tok,
    jws_correct e -> cls <> "" ->
    dget payload "token_class" = None -> dget payload "ttype" = None ->
    jwt_lifetime lifetime rules <> 0%Z -> (0 <= now + jwt_lifetime lifetime rules)%Z ->
    e_sign e alg n (jwt_payload cls issuer lifetime now session rules payload) = Ok tok ->
    jwt_info e when cls alg tok =
      if (now + jwt_lifetime lifetime rules <? when)%Z then Raise ToOld
      else Ok (mk_tinfo session (Some cls) (JInt (now + jwt_lifetime lifetime rules))).
Proof. exact jwt_roundtrip. Qed.
Print Assumptions C18_jwt_minted_is_accepted_until_expiry.

Theorem C18_jwt_refused_by_other_class :
  forall e n now when cls cls' alg issuer lifetime session rules payload tok,
    jws_correct e -> known_class cls -> known_class cls' -> cls <> cls' ->
    dget payload "token_class" = None -> dget payload "ttype" = None ->
    e_sign e alg n (jwt_payload cls issuer lifetime now session rules payload) = Ok tok ->
    jwt_info e when cls' alg tok = Raise WrongTokenClass.
Proof. exact jwt_other_class. Qed.
Print Assumptions C18_jwt_refused_by_other_class.

(** Without the side conditions on the payload it is false: a user claim called
    ttype makes another handler accept the token, and a life time of zero makes
    a token its own handler does not accept. *)
Theorem C18_jwt_class_confusion_refuted :
  exists e n now cls cls' alg issuer lifetime session payload tok i,
    jws_correct e /\ known_class cls /\ known_class cls' /\ cls <> cls' /\
    e_sign e alg n (jwt_payload cls issuer lifetime now session None payload) = Ok tok /\
    jwt_info e now cls' alg tok = Ok i /\ jwt_info e now cls alg tok = Raise WrongTokenClass.
Proof.
  exists jws_env, 0, 1000%Z, ACCESS, REFRESH, "ES256", "iss", 600%Z, "sid",
    [("ttype", JStr "R")].
  eexists. eexists. split; [apply toy_jws_correct|].
  split; [right; now left|]. split; [do 2 right; now left|]. split; [discriminate|].
  split; [reflexivity|]. split; vm_compute; reflexivity.
Qed.
Print Assumptions C18_jwt_class_confusion_refuted.

Theorem C18_jwt_zero_lifetime_refuted :
  exists e n now cls alg issuer session tok,
    jws_correct e /\
    e_sign e alg n (jwt_payload cls issuer 0 now session None []) = Ok tok /\
    jwt_info e now cls alg tok = Raise KeyError.
Proof.
  exists jws_env, 0, 1000%Z, ACCESS, "ES256", "iss", "sid". eexists.
  split; [apply toy_jws_correct|]. split; [reflexivity|]. vm_compute. reflexivity.
Qed.
Print Assumptions C18_jwt_zero_lifetime_refuted.

Example C18_example :
  jws_correct jws_env /\
  exists tok, e_sign jws_env "ES256" 4
                (jwt_payload ACCESS "iss" 600 1000 "sid" None [("scope", JList [JStr "openid"])]) = Ok tok /\
    jwt_info jws_env 1600 ACCESS "ES256" tok = Ok (mk_tinfo "sid" (Some ACCESS) (JInt 1600)) /\
    jwt_info jws_env 1601 ACCESS "ES256" tok = Raise ToOld /\
    jwt_info jws_env 1600 REFRESH "ES256" tok = Raise WrongTokenClass /\
    jwt_info jws_env 1600 ACCESS "RS256" tok = Raise UnknownToken.
Proof.
  split; [apply toy_jws_correct|]. eexists. split; [reflexivity|].
  vm_compute. repeat split; reflexivity.
Qed.

(** ** C19 *)
Theorem C19_first_accepting_handler_answers :
  forall e now tok i,
    token_info e now tok = Ok i <->
    exists before h after, map snd (e_handlers e) = before ++ h :: after /\
      handler_info e now h tok = Ok i /\
      (forall h', In h' before -> exists x, handler_info e now h' tok = Raise x /\ refusal x).
Proof. exact token_info_ok. Qed.
Print Assumptions C19_first_accepting_handler_answers.

Theorem C19_unknown_exactly_when_all_refuse :
  forall e now tok,
    token_info e now tok = Raise UnknownToken <->
    all_refuse (fun h => handler_info e now h tok) (map snd (e_handlers e)).
Proof. exact token_info_unknown. Qed.
Print Assumptions C19_unknown_exactly_when_all_refuse.

Theorem C19_refusal_never_hides_a_later_handler :
  forall A (ask : A -> res tinfo) before h after x,
    ask h = Raise x -> refusal x ->
    get_handler ask (before ++ h :: after) = get_handler ask (before ++ after).
Proof. exact (@get_handler_drop). Qed.
Print Assumptions C19_refusal_never_hides_a_later_handler.

(** Anything else comes from a handler that failed otherwise than by refusing. *)
Theorem C19_other_exceptions_come_from_a_handler :
  forall e now tok x,
    token_info e now tok = Raise x -> x <> UnknownToken ->
    ~ refusal x /\
    exists before h after, map snd (e_handlers e) = before ++ h :: after /\
      handler_info e now h tok = Raise x /\
      (forall h', In h' before -> exists x, handler_info e now h' tok = Raise x /\ refusal x).
Proof. exact token_info_raise. Qed.
Print Assumptions C19_other_exceptions_come_from_a_handler.

(** An expired JWT is such a case: the look-up does not say UnknownToken but
    lets ToOld escape, which callers such as introspection do not expect. *)
Theorem C19_expired_jwt_is_unknown_refuted :
  exists e now tok, token_info e now tok = Raise ToOld.
Proof.
  destruct (toy_sign "ES256" 4 (jwt_payload ACCESS "iss" 600 1000 "sid" None [])) as [tok|] eqn:E;
    [|discriminate].
  exists jws_env, 1601%Z, tok. injection E as <-. vm_compute. reflexivity.
Qed.
Print Assumptions C19_expired_jwt_is_unknown_refuted.

Example C19_example :
  exists tok, token_info (toy_env true) 1000
                (default_mint toy_crypto "pw_r" REFRESH 600 "r" 0 1000 "sid" false) = Ok tok /\
              ti_sid tok = "sid" /\ ti_class tok = Some REFRESH /\
              token_info (toy_env true) 1000 "garbage" = Raise UnknownToken.
Proof. eexists. split; [vm_compute; reflexivity|]. split; [reflexivity|]. split; vm_compute; reflexivity. Qed.
