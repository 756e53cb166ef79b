(** Model of the parts of Python's urllib.parse that the code uses, as of
    Python 3.9: unquote, urlsplit, urlunsplit, parse_qs and urlencode, for
    8-bit characters. Left out: the decoding of percent-encoded UTF-8 (every
    encoded byte stands for the character of that number) and the NFKC check
    of non-ASCII hosts. *)
From Verif Require Import M_Base.

(** The text up to the first character that satisfies [f], and the rest. *)
Fixpoint cut_at (f : ascii -> bool) (s : string) : string * string :=
  match s with
  | EmptyString => (EmptyString, EmptyString)
  | String c r => if f c then (EmptyString, s)
                  else let (a, b) := cut_at f r in (String c a, b)
  end.

Fixpoint all_chars (f : ascii -> bool) (s : string) : bool :=
  match s with EmptyString => true | String c r => f c && all_chars f r end.

Definition between (lo hi : ascii) (c : ascii) : bool :=
  Nat.leb (nat_of_ascii lo) (nat_of_ascii c) && Nat.leb (nat_of_ascii c) (nat_of_ascii hi).
Definition is_upper (c : ascii) : bool := between "A" "Z" c.
Definition is_lower (c : ascii) : bool := between "a" "z" c.
Definition is_digit (c : ascii) : bool := between "0" "9" c.

(** [s.lower()], for ASCII. *)
Definition lower_char (c : ascii) : ascii :=
  if is_upper c then ascii_of_nat (nat_of_ascii c + 32) else c.
Fixpoint lower (s : string) : string :=
  match s with EmptyString => EmptyString | String c r => String (lower_char c) (lower r) end.

(** urllib.parse.unquote. *)
Definition hex_val (c : ascii) : option nat :=
  if is_digit c then Some (nat_of_ascii c - 48)
  else if between "a" "f" c then Some (nat_of_ascii c - 87)
  else if between "A" "F" c then Some (nat_of_ascii c - 55)
  else None.
Fixpoint unquote (s : string) : string :=
  match s with
  | EmptyString => EmptyString
  | String c r =>
      if Ascii.eqb c "%" then
        match r with
        | String a (String b r') =>
            match hex_val a, hex_val b with
            | Some x, Some y => String (ascii_of_nat (x * 16 + y)) (unquote r')
            | _, _ => String c (unquote r)
            end
        | _ => String c (unquote r)
        end
      else String c (unquote r)
  end.

(** urllib.parse.urlsplit removes tab, newline and carriage return. *)
Definition unsafe_char (c : ascii) : bool :=
  let n := nat_of_ascii c in Nat.eqb n 9 || Nat.eqb n 10 || Nat.eqb n 13.
Fixpoint remove_chars (f : ascii -> bool) (s : string) : string :=
  match s with
  | EmptyString => EmptyString
  | String c r => if f c then remove_chars f r else String c (remove_chars f r)
  end.

Definition scheme_char (c : ascii) : bool :=
  is_lower c || is_upper c || is_digit c || Ascii.eqb c "+" || Ascii.eqb c "-" || Ascii.eqb c ".".
Definition netloc_end (c : ascii) : bool :=
  Ascii.eqb c "/" || Ascii.eqb c "?" || Ascii.eqb c "#".

Record usplit : Type := mkUsplit {
  us_scheme : string; us_netloc : string; us_path : string; us_query : string; us_frag : string
}.

Definition split_scheme (u : string) : string * string :=
  match split1 ":" u with
  | Some (s, r) => if str_true s && all_chars scheme_char s then (lower s, r) else (EmptyString, u)
  | None => (EmptyString, u)
  end.
Definition split_netloc (u : string) : string * string :=
  if starts_with "//" u then cut_at netloc_end (drop 2 u) else (EmptyString, u).
Definition split_or (c : ascii) (s : string) : string * string :=
  match split1 c s with Some p => p | None => (s, EmptyString) end.

(** urllib.parse.urlsplit. *)
Definition urlsplit (u0 : string) : res usplit :=
  let u := remove_chars unsafe_char u0 in
  let (scheme, r1) := split_scheme u in
  let (netloc, r2) := split_netloc r1 in
  if Bool.eqb (has_char "[" netloc) (has_char "]" netloc) then
    let (r3, frag) := split_or "#" r2 in
    let (path, query) := split_or "?" r3 in
    Ok (mkUsplit scheme netloc path query frag)
  else Raise ValueError.

(** urllib.parse.uses_netloc. *)
Definition uses_netloc : list string :=
  [""; "ftp"; "http"; "gopher"; "nntp"; "telnet"; "imap"; "wais"; "file"; "mms"; "https"; "shttp";
   "snews"; "prospero"; "rtsp"; "rtspu"; "rsync"; "svn"; "svn+ssh"; "sftp"; "nfs"; "git"; "git+ssh";
   "ws"; "wss"].

(** urllib.parse.urlunsplit. *)
Definition urlunsplit (p : usplit) : string :=
  let path := us_path p in
  let u1 := if str_true (us_netloc p)
               || (str_true (us_scheme p) && smem (us_scheme p) uses_netloc && negb (starts_with "//" path))
            then append "//" (append (us_netloc p)
                   (if str_true path && negb (starts_with "/" path) then append "/" path else path))
            else path in
  let u2 := if str_true (us_scheme p) then append (us_scheme p) (append ":" u1) else u1 in
  let u3 := if str_true (us_query p) then append u2 (append "?" (us_query p)) else u2 in
  if str_true (us_frag p) then append u3 (append "#" (us_frag p)) else u3.

(** A query as Python represents it: a dict of lists of values. *)
Definition query : Type := dict (list string).

Definition unquote_plus (s : string) : string := unquote (replace_char "+" " " s).

(** urllib.parse.parse_qsl: fields without "=" or with an empty value are
    dropped. *)
Definition qs_field (s : string) : list (string * string) :=
  match split1 "=" s with
  | Some (n, v) => if str_true v then [(unquote_plus n, unquote_plus v)] else []
  | None => []
  end.
Definition parse_qsl (s : string) : list (string * string) :=
  flat_map qs_field (py_split "&" s).
(** urllib.parse.parse_qs. *)
Definition q_add (q : query) (kv : string * string) : query :=
  match dget q (fst kv) with
  | Some l => dset q (fst kv) (l ++ [snd kv])
  | None => dset q (fst kv) [snd kv]
  end.
Definition parse_qs (s : string) : query := fold_left q_add (parse_qsl s) [].

(** split_uri: src/oidcop/util.py 184-196. The empty string that the code
    gives in place of an empty query is the empty dict here; both count as
    false. *)
Definition split_uri (u : string) : res (string * query) :=
  rbind (urlsplit u) (fun p =>
    Ok (urlunsplit (mkUsplit (us_scheme p) (us_netloc p) (us_path p) "" ""),
        if str_true (us_query p) then parse_qs (us_query p) else [])).

(** urllib.parse.urlencode(query, doseq=True), via quote_plus. *)
Definition hex_dig (n : nat) : ascii :=
  if Nat.ltb n 10 then ascii_of_nat (48 + n) else ascii_of_nat (55 + n).
Definition quote_char (c : ascii) : string :=
  if is_lower c || is_upper c || is_digit c || Ascii.eqb c "_" || Ascii.eqb c "." || Ascii.eqb c "-"
     || Ascii.eqb c "~" then String c EmptyString
  else if Ascii.eqb c " " then "+"
  else let n := nat_of_ascii c in
       String "%" (String (hex_dig (Nat.div n 16)) (String (hex_dig (Nat.modulo n 16)) EmptyString)).
Fixpoint quote_plus (s : string) : string :=
  match s with EmptyString => EmptyString | String c r => append (quote_char c) (quote_plus r) end.
Definition urlencode (q : query) : string :=
  py_join "&" (flat_map (fun kl : string * list string =>
    map (fun v => append (quote_plus (fst kl)) (append "=" (quote_plus v))) (snd kl)) q).
