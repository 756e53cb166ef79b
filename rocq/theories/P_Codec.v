(** Property theorems: C11 session keys, C12 length-value packing,
    C13 encrypted session identifiers. *)
From Verif Require Import M_Base M_Codec S_Codec L_Base L_Codec.

(** ** C11 *)
Theorem C11_session_key_roundtrip :
  forall ids, ids <> [] ->
    (unpack_session_key (session_key ids) = ids <-> separable ids).
Proof. exact session_key_roundtrip_iff. Qed.
Print Assumptions C11_session_key_roundtrip.

Theorem C11_session_keys_unambiguous :
  forall ids1 ids2, ids1 <> [] -> ids2 <> [] -> separable ids1 -> separable ids2 ->
    session_key ids1 = session_key ids2 -> ids1 = ids2.
Proof. exact session_key_inj. Qed.
Print Assumptions C11_session_keys_unambiguous.

(** Without the side condition the claim is false: two users can share a key. *)
Theorem C11_session_keys_collide_refuted :
  exists ids1 ids2, List.length ids1 = 3 /\ List.length ids2 = 3 /\ ids1 <> ids2 /\
    session_key ids1 = session_key ids2.
Proof.
  exists ["a;;b"; "c"; "g"], ["a"; "b;;c"; "g"].
  repeat split; try reflexivity. discriminate.
Qed.
Print Assumptions C11_session_keys_collide_refuted.

Example C11_example : separable ["diana"; "client_1"; "8f2c"] /\ separable ["a"; ";b"; "c;"].
Proof.
  split; apply (session_key_roundtrip_iff _); try discriminate; reflexivity.
Qed.

(** ** C12 *)
Theorem C12_lv_roundtrip :
  forall values,
    lv_unpack (lv_pack values) = Ok values <->
    (forall init last, values = init ++ [last] -> ~ ends_in_white_space last).
Proof. exact lv_roundtrip_iff. Qed.
Print Assumptions C12_lv_roundtrip.

(** What happens otherwise: only trailing white space of the last value is lost. *)
Theorem C12_lv_unpack_of_pack :
  forall init last, lv_unpack (lv_pack (init ++ [last])) = Ok (init ++ [rstrip is_space last]).
Proof. exact lv_unpack_pack_last. Qed.
Print Assumptions C12_lv_unpack_of_pack.

Theorem C12_lv_pack_injective :
  forall a b, lv_pack a = lv_pack b -> a = b.
Proof. exact lv_pack_inj. Qed.
Print Assumptions C12_lv_pack_injective.

Example C12_example :
  lv_unpack (lv_pack ["3:abc"; ""; "12"; "x:"; "0:"]) = Ok ["3:abc"; ""; "12"; "x:"; "0:"] /\
  lv_unpack (lv_pack ["a"; "b "]) = Ok ["a"; "b"].
Proof. split; reflexivity. Qed.

(** ** C13 *)
Theorem C13_session_id_roundtrip :
  forall c key rnd nonce user client grant,
    fernet_correct c -> base64_correct c ->
    separable [user; client; grant] ->
    grant <> EmptyString -> ~ ends_in_white_space grant ->
    decrypt_session_id c key (encrypted_session_id c key rnd nonce [user; client; grant])
    = Ok [user; client; grant].
Proof. exact decrypt_encrypt. Qed.
Print Assumptions C13_session_id_roundtrip.

Theorem C13_bad_session_id_is_ValueError :
  forall c key sid, ~ accepted_by c key sid ->
    decrypt_session_id c key sid = Raise ValueError.
Proof. exact decrypt_reject. Qed.
Print Assumptions C13_bad_session_id_is_ValueError.

Theorem C13_only_authentic_session_ids :
  forall c key sid ids, decrypt_session_id c key sid = Ok ids -> accepted_by c key sid.
Proof. exact decrypt_only_authentic. Qed.
Print Assumptions C13_only_authentic_session_ids.

(** The text that is encrypted is the session's, filled up with blanks to the next
    multiple of sixteen bytes. *)
Theorem C13_whole_blocks : forall c key nonce text,
  exists n, crypt_encrypt c key nonce text = fenc c key nonce (append text (blanks n))
    /\ n < 16 /\ Nat.modulo (String.length text + n) 16 = 0.
Proof. exact encrypt_blocks. Qed.
Print Assumptions C13_whole_blocks.

Example C13_example :
  fernet_correct toy_crypto /\ base64_correct toy_crypto /\
  separable ["diana"; "client_1"; "8f2c"] /\ ~ ends_in_white_space "8f2c" /\
  ~ accepted_by toy_crypto "k" "junk".
Proof.
  repeat split; try apply toy_fernet; try apply toy_base64.
  - apply C11_example.
  - apply C11_example.
  - now apply rstrip_eq_iff.
  - intros [ct [p [H1 H2]]]. cbn in H1. injection H1 as <-. discriminate.
Qed.
