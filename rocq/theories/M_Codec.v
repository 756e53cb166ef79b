(** Length-value packing, the Fernet wrapper, and session keys. *)
From Verif Require Import M_Base.

(** src/oidcop/util.py 114-124, [lv_pack]. [len(a)] is the number of
    characters. *)
Fixpoint lv_pack (args : list string) : string :=
  match args with
  | [] => EmptyString
  | a :: r =>
      append (show_N (N.of_nat (String.length a)))
             (String ":" (append a (lv_pack r)))
  end.

(** The loop of src/oidcop/util.py 136-139. [txt.split(":", 1)] without a
    colon makes the tuple assignment fail, [int] may fail: both ValueError.
    The text gets shorter in every round, so its length is enough fuel;
    running out is reported as [RecursionError], never as a result. *)
Fixpoint lv_loop (fuel : nat) (txt : string) : res (list string) :=
  match txt with
  | EmptyString => Ok []
  | String _ _ =>
      match fuel with
      | O => Raise RecursionError
      | S f =>
          match split1 ":" txt with
          | None => Raise ValueError
          | Some (l, v) =>
              match py_int l with
              | None => Raise ValueError
              | Some n =>
                  rbind (lv_loop f (slice_from v n))
                        (fun rest => Ok (slice_to v n :: rest))
              end
          end
      end
  end.

(** src/oidcop/util.py 127-140, [lv_unpack]. *)
Definition lv_unpack (txt : string) : res (list string) :=
  let t := py_strip txt in lv_loop (String.length t) t.

(** The parts of Python's [cryptography], [base64], [hashlib] and of
    [cryptojwt] the code calls. They are parameters of the model; the laws a
    theorem needs appear in its statement. [fenc key nonce text] is
    [Fernet(key).encrypt(text)], whose random part is [nonce]; [fdec] is
    [None] when Fernet raises InvalidToken (or any other exception).
    Keys are the passwords given to [Crypt]: the derivation of the Fernet key
    by SHA-256 (util.py 145) is part of [fenc]/[fdec]. *)
Record crypto : Type := mkCrypto {
  fenc : string -> nat -> string -> string;
  fdec : string -> string -> option string;
  b64e : string -> string;
  b64d : string -> option string;
  sha256hex : string -> string
}.

Fixpoint blanks (n : nat) : string :=
  match n with O => EmptyString | S k => String " " (blanks k) end.

(** src/oidcop/util.py 148-153, the padding of [Crypt.encrypt]. Bytes are
    identified with characters (UTF-8 encoding of ASCII text). *)
Definition pad16 (text : string) : string :=
  let r := Nat.modulo (String.length text) 16 in
  if Nat.eqb r 0 then text else append text (blanks (16 - r)).

(** src/oidcop/util.py 148-153, [Crypt.encrypt]. *)
Definition crypt_encrypt (c : crypto) (key : string) (nonce : nat) (text : string) : string :=
  fenc c key nonce (pad16 text).

(** src/oidcop/util.py 155-158, [Crypt.decrypt]. *)
Definition crypt_decrypt (c : crypto) (key : string) (ct : string) : option string :=
  option_map (rstrip is_blank) (fdec c key ct).

(** src/oidcop/constant.py 1. *)
Definition DIVIDER : string := ";;".

(** src/oidcop/session/database.py 175-176, [session_key]. *)
Definition session_key (args : list string) : string := py_join DIVIDER args.

(** src/oidcop/session/database.py 178-179, [unpack_session_key]. *)
Definition unpack_session_key (key : string) : list string := py_split DIVIDER key.

(** src/oidcop/session/database.py 181-185, [encrypted_session_id]; [rnd] is
    [rndstr(32)] and [nonce] Fernet's randomness. *)
Definition encrypted_session_id (c : crypto) (key : string) (rnd : string) (nonce : nat)
    (args : list string) : string :=
  b64e c (crypt_encrypt c key nonce (lv_pack [rnd; session_key args])).

(** src/oidcop/session/database.py 187-196, [decrypt_session_id]. Failures
    of base64 and of decryption become ValueError (190-194); [lv_unpack] and
    the subscript [1] are outside the try block. *)
Definition decrypt_session_id (c : crypto) (key : string) (sid : string) : res (list string) :=
  match b64d c sid with
  | None => Raise ValueError
  | Some ct =>
      match crypt_decrypt c key ct with
      | None => Raise ValueError
      | Some plain =>
          rbind (lv_unpack plain)
                (fun l => match nth_error l 1 with
                          | Some k => Ok (unpack_session_key k)
                          | None => Raise IndexError
                          end)
      end
  end.
