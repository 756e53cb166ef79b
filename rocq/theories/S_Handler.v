(** Specification vocabulary for the token handlers. *)
From Verif Require Import M_Base M_Types M_Codec M_Grant M_Env M_Handler.

(** The four classes the provider configures handlers for. *)
Definition known_class (cls : string) : Prop :=
  In cls [CODE; ACCESS; REFRESH; IDTOKEN].

(** What is assumed of Fernet across keys: a ciphertext made under one key is
    not accepted under another. *)
Definition fernet_authentic (c : crypto) : Prop :=
  forall key key' nonce text, key <> key' -> fdec c key' (fenc c key nonce text) = None.

(** What is assumed of JWS: what was signed verifies, with the same algorithm,
    to the same payload. *)
Definition jws_correct (e : env) : Prop :=
  forall alg n p tok, e_sign e alg n p = Ok tok -> e_verify e [alg] tok = Ok p.

(** The exceptions with which a handler says "not mine". *)
Inductive refusal : exn -> Prop :=
| rf_key : refusal KeyError
| rf_client : refusal NoSuchClientSession
| rf_grant : refusal NoSuchGrant
| rf_unknown : refusal UnknownToken
| rf_class : refusal WrongTokenClass
| rf_invalid : refusal Invalid
| rf_attr : refusal AttributeError.

(** [h] is the first of [order] that does anything but refuse. *)
Definition first_answer {A} (answer : A -> res tinfo) (order : list A) (h : A) : Prop :=
  exists pre post, order = pre ++ h :: post /\
    (forall x, answer h = Raise x -> ~ refusal x) /\
    (forall h', In h' pre -> exists x, answer h' = Raise x /\ refusal x).

Definition all_refuse {A} (answer : A -> res tinfo) (order : list A) : Prop :=
  forall h, In h order -> exists x, answer h = Raise x /\ refusal x.

(** When the payload of a JWT says that it has expired at [now]: the claim exp
    is a time in the past (negative: never expires). *)
Definition jwt_expired (now : Z) (p : dict jval) : Prop :=
  exists x, dget p "exp" = Some (JInt x) /\ (0 <= x)%Z /\ (x < now)%Z.
