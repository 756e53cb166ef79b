(** Specification vocabulary for the codecs: strings, occurrences, white
    space, and the laws assumed of the cryptographic library. *)
From Verif Require Import M_Base M_Codec.

(** [p] occurs somewhere in [s]. *)
Definition occurs_in (p s : string) : Prop := exists a b, s = append a (append p b).

(** [s] ends in [p]. *)
Definition ends_in (p s : string) : Prop := exists a, s = append a p.

(** A list of identifiers that ";;" can separate: none of them contains the
    separator, and none but the last ends in ";". *)
Definition separable (l : list string) : Prop :=
  (forall x, In x l -> ~ occurs_in ";;" x) /\
  (forall pre x y post, l = pre ++ x :: y :: post -> ~ ends_in ";" x).

(** The characters Python regards as white space, among the first 256. *)
Definition white_space : list nat := [9; 10; 11; 12; 13; 28; 29; 30; 31; 32; 133; 160].

Definition ends_in_white_space (s : string) : Prop :=
  exists a c, s = append a (String c EmptyString) /\ In (nat_of_ascii c) white_space.

(** What is assumed of Fernet and base64. *)
Definition fernet_correct (c : crypto) : Prop :=
  forall key nonce text, fdec c key (fenc c key nonce text) = Some text.

Definition base64_correct (c : crypto) : Prop :=
  forall s, b64d c (b64e c s) = Some s.

(** [ct] is a ciphertext that Fernet accepts under [key]. *)
Definition accepted_by (c : crypto) (key sid : string) : Prop :=
  exists ct plain, b64d c sid = Some ct /\ fdec c key ct = Some plain.

(** A toy instance of the cryptographic interface, used only to show that the
    laws can hold and to compute examples: encryption writes the key in front,
    base64 is the identity. *)
Definition toy_crypto : crypto := {|
  fenc := fun key nonce text => lv_pack [key; text];
  fdec := fun key ct => match split1 ":" ct with
                        | None => None
                        | Some _ =>
                            match lv_loop (String.length ct) ct with
                            | Ok [k; t] => if String.eqb k key then Some t else None
                            | _ => None
                            end
                        end;
  b64e := fun s => s;
  b64d := fun s => Some s;
  sha256hex := fun s => s
|}.
