(** Model of src/oidcop/cookie_handler.py: signed and encrypted cookies. *)
From Verif Require Import M_Base M_Codec.

(** The cryptographic library: cryptojwt's HMACSigner.sign and verify, its
    AES_GCMEncrypter.encrypt (here with the result already split in cipher
    text and tag by split_ctx_and_tag) and decrypt, and Python's base64. A
    verification answers or raises. A decryption gives [Ok None] for the
    exception InvalidTag, which the code catches. Byte strings and their
    UTF-8 decodings are not told apart. *)
Record clib : Type := mkClib {
  cl_sign : string -> string -> string;
  cl_verify : string -> string -> string -> res bool;
  cl_enc : string -> string -> string -> string * string;
  cl_dec : string -> string -> string -> string -> res (option string);
  cl_b64e : string -> string;
  cl_b64d : string -> res string
}.

(** The keys of a handler: src/oidcop/cookie_handler.py 34-67. A handler made
    from a key jar that lacks a key has no such attribute at all; that case
    is left out. *)
Record handler : Type := mkHandler {
  ch_sign : option string;
  ch_enc : option string
}.

(** A cookie as a dict, of which the code reads the name and the value:
    src/oidcop/cookie_handler.py 225-237. Expiry and flags are left out. *)
Record cookie : Type := mkCookie {
  ck_name : option string;
  ck_value : option string
}.

(** What a parsed cookie says: src/oidcop/cookie_handler.py 264. *)
Record content : Type := mkContent {
  ct_value : string;
  ct_type : string;
  ct_time : string
}.

(** [raise ValueError("Wrong size of enc_key")]:
    src/oidcop/cookie_handler.py 117-118. *)
Definition enc_key_size (k : string) : bool :=
  let n := String.length k in Nat.eqb n 16 || Nat.eqb n 24 || Nat.eqb n 32.

(** src/oidcop/cookie_handler.py 102-105: [now] when no time stamp is given. *)
Definition time_or_now (ts now : string) : string := if str_true ts then ts else now.

(** src/oidcop/cookie_handler.py 107-114. *)
Definition mac_of (L : clib) (h : handler) (payload ts : string) : string :=
  match ch_sign h with Some k => cl_sign L k (append payload ts) | None => EmptyString end.

(** CookieHandler._sign_enc_payload: src/oidcop/cookie_handler.py 91-139.
    [iv] is what os.urandom gives. *)
Definition sign_enc_payload (L : clib) (h : handler) (iv payload ts0 now : string) : res string :=
  let ts := time_or_now ts0 now in
  let mac := mac_of L h payload ts in
  match ch_enc h with
  | Some k =>
      if enc_key_size k then
        let msg := if str_true mac then lv_pack [payload; ts; cl_b64e L mac]
                   else lv_pack [payload; ts] in
        let (ctx, tag) := cl_enc L k iv msg in
        Ok (py_join "|" [ts; cl_b64e L iv; cl_b64e L ctx; cl_b64e L tag])
      else Raise ValueError
  | None => Ok (py_join "|" [ts; payload; cl_b64e L mac])
  end.

(** CookieHandler._ver_dec_content: src/oidcop/cookie_handler.py 141-191, for
    a list of parts. [self.sign_key.key] of a handler without the key raises
    AttributeError, after the decodings that come before it. *)
Definition ver_dec_content (L : clib) (h : handler) (parts : list string)
  : res (option (string * string)) :=
  match parts with
  | [ts; payload; b64mac] =>
      rbind (cl_b64d L b64mac) (fun mac =>
      match ch_sign h with
      | None => Raise AttributeError
      | Some k =>
          rbind (cl_verify L k (append payload ts) mac) (fun ok =>
          if ok then Ok (Some (payload, ts)) else Raise (Other 32))
      end)
  | [_; p1; p2; p3] =>
      rbind (cl_b64d L p1) (fun iv =>
      rbind (cl_b64d L p2) (fun ctx =>
      rbind (cl_b64d L p3) (fun tag =>
      match ch_enc h with
      | None => Raise AttributeError
      | Some k =>
          rbind (cl_dec L k iv ctx tag) (fun om =>
          match om with
          | None => Ok None
          | Some msg =>
              rbind (lv_unpack msg) (fun p =>
              match p with
              | [payload; ts; m] =>
                  rbind (cl_b64d L m) (fun mac =>
                  match ch_sign h with
                  | None => Raise AttributeError
                  | Some sk =>
                      rbind (cl_verify L sk (append payload ts) mac) (fun ok =>
                      if ok then Ok (Some (payload, ts)) else Ok None)
                  end)
              | payload :: ts :: _ => Ok (Some (payload, ts))
              | _ => Raise IndexError
              end)
          end)
      end)))
  | _ => Ok None
  end.

(** CookieHandler.make_cookie_content: src/oidcop/cookie_handler.py 193-237,
    for a value that is a string. *)
Definition make_cookie_content (L : clib) (h : handler) (iv name value typ ts now : string)
  : res cookie :=
  if negb (str_true value) && negb (str_true typ) then
    Ok (mkCookie (Some name) (Some EmptyString))
  else
    rbind (sign_enc_payload L h iv (py_join "::" [value; typ]) (time_or_now ts now) now)
          (fun v => Ok (mkCookie (Some name) (Some v))).

(** One round of the loop of parse_cookie: src/oidcop/cookie_handler.py
    257-267. The content is verified twice, with the same outcome. *)
Definition parse_one (L : clib) (h : handler) (name : string) (c : cookie) : res (list content) :=
  match ck_name c with
  | Some n =>
      if String.eqb n name then
        match ck_value c with
        | None => Raise KeyError
        | Some v =>
            rbind (ver_dec_content L h (py_split "|" v)) (fun oc =>
            match oc with
            | Some (payload, ts) =>
                match py_split "::" payload with
                | [value; typ] => Ok [mkContent value typ ts]
                | _ => Raise ValueError
                end
            | None => Ok []
            end)
        end
      else Ok []
  | None => Ok []
  end.

Fixpoint parse_loop (L : clib) (h : handler) (name : string) (cs : list cookie) : res (list content) :=
  match cs with
  | [] => Ok []
  | c :: r => rbind (parse_one L h name c) (fun a => rbind (parse_loop L h name r) (fun b => Ok (a ++ b)))
  end.

(** CookieHandler.parse_cookie: src/oidcop/cookie_handler.py 239-268. *)
Definition parse_cookie (L : clib) (h : handler) (name : string) (cs : list cookie)
  : res (option (list content)) :=
  match cs with
  | [] => Ok None
  | _ => rbind (parse_loop L h name cs) (fun l => Ok (Some l))
  end.
