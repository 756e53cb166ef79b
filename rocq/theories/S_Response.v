(** Specification vocabulary for what reaches the client's redirect URI. *)
From Verif Require Import M_Base M_Uri M_Types M_Env M_TokenEP M_AuthzEP M_Response.

(** The parameters an authorization response says, by name and text. [joined]:
    whether the scopes are sent as one text. *)
Inductive says (joined : bool) (ar : areq) (desc ss : string) (o : aout) : string -> string -> Prop :=
| says_state a x : ao_args o = Good a -> ap_state a = Some x -> says joined ar desc ss o "state" x
| says_scopes a l : ao_args o = Good a -> ap_scope a = Some l -> joined = true ->
    says joined ar desc ss o "scope" (py_join " " l)
| says_scope a l x : ao_args o = Good a -> ap_scope a = Some l -> joined = false -> In x l ->
    says joined ar desc ss o "scope" x
| says_code a x : ao_args o = Good a -> ap_code a = Some x -> says joined ar desc ss o "code" x
| says_access a x : ao_args o = Good a -> ap_access a = Some x -> says joined ar desc ss o "access_token" x
| says_type a x : ao_args o = Good a -> ap_access a = Some x -> says joined ar desc ss o "token_type" "Bearer"
| says_expires a n : ao_args o = Good a -> ap_expires a = Some n -> says joined ar desc ss o "expires_in" (show_Z n)
| says_id a x : ao_args o = Good a -> ap_id a = Some x -> says joined ar desc ss o "id_token" x
| says_error x : ao_args o = Err x -> says joined ar desc ss o "error" x
| says_why x : ao_args o = Err x -> says joined ar desc ss o "error_description" desc
| says_error_state x st : ao_args o = Err x -> ar_state ar = Some st -> st <> EmptyString ->
    says joined ar desc ss o "state" st
| says_session : ao_session_state o = true -> says joined ar desc ss o "session_state" ss
| says_iss i : ao_iss o = Some i -> says joined ar desc ss o "iss" i
| says_client i : ao_iss o = Some i -> says joined ar desc ss o "client_id" (ar_client_id ar).

(** Two URLs that lead to the same page. *)
Definition same_page (p p' : usplit) : Prop :=
  us_scheme p' = us_scheme p /\ us_netloc p' = us_netloc p /\ us_path p' = us_path p.

(** The page behind [r] is that of [p]. In [mode] "query" the parameters are
    those of [p] and then those of [P]; in "fragment" the query is untouched and
    the fragment has those of [P]. An empty text is no parameter. *)
Definition reaches (mode : string) (p : usplit) (P : string -> string -> Prop) (r : string) : Prop :=
  exists p', urlsplit r = Ok p' /\ same_page p p' /\
  match mode with
  | "query" => us_frag p' = EmptyString /\
      exists q, parse_qsl (us_query p') = parse_qsl (us_query p) ++ q /\
        forall n x, In (n, x) q <-> P n x /\ x <> EmptyString
  | "fragment" => us_query p' = us_query p /\
        forall n x, In (n, x) (parse_qsl (us_frag p')) <-> P n x /\ x <> EmptyString
  | _ => False
  end.

(** A reader of HTML: the tags of a page with their attributes. References such
    as "&amp;" are not resolved, so it reads right what has no "&". *)
Inductive hstate : Type :=
| HText
| HName (name : string)
| HBefore (name : string) (attrs : list (string * string))
| HAttr (name : string) (attrs : list (string * string)) (a : string)
| HEqual (name : string) (attrs : list (string * string)) (a : string)
| HQuoted (name : string) (attrs : list (string * string)) (a v : string)
| HBare (name : string) (attrs : list (string * string)) (a v : string).
Definition tag : Type := (string * list (string * string))%type.
Definition snoc (s : string) (c : ascii) : string := append s (String c EmptyString).
Definition blank (c : ascii) : bool := Ascii.eqb c " " || Ascii.eqb c "010" || Ascii.eqb c "/".
Definition hstep (st : hstate * list tag) (c : ascii) : hstate * list tag :=
  let (h, out) := st in
  match h with
  | HText => if Ascii.eqb c "<" then (HName "", out) else (HText, out)
  | HName n => if Ascii.eqb c ">" then (HText, out ++ [(n, [])])
               else if Ascii.eqb c " " || Ascii.eqb c "010" then (HBefore n [], out) else (HName (snoc n c), out)
  | HBefore n l => if Ascii.eqb c ">" then (HText, out ++ [(n, l)])
                   else if blank c then (h, out) else (HAttr n l (String c EmptyString), out)
  | HAttr n l a => if Ascii.eqb c ">" then (HText, out ++ [(n, l ++ [(a, EmptyString)])])
                   else if Ascii.eqb c "=" then (HEqual n l a, out)
                   else if blank c then (HBefore n (l ++ [(a, EmptyString)]), out) else (HAttr n l (snoc a c), out)
  | HEqual n l a => if Ascii.eqb c """" then (HQuoted n l a "", out)
                    else if Ascii.eqb c ">" then (HText, out ++ [(n, l ++ [(a, EmptyString)])])
                    else if blank c then (h, out) else (HBare n l a (String c EmptyString), out)
  | HQuoted n l a v => if Ascii.eqb c """" then (HBefore n (l ++ [(a, v)]), out) else (HQuoted n l a (snoc v c), out)
  | HBare n l a v => if Ascii.eqb c ">" then (HText, out ++ [(n, l ++ [(a, v)])])
                     else if blank c then (HBefore n (l ++ [(a, v)]), out) else (HBare n l a (snoc v c), out)
  end.
Fixpoint hrun (st : hstate * list tag) (s : string) : hstate * list tag :=
  match s with EmptyString => st | String c r => hrun (hstep st c) r end.
Definition html_tags (s : string) : list tag := snd (hrun (HText, []) s).

(** A page whose only content is a form that a browser submits by itself: it
    posts the given fields to the given action. *)
Definition field_tag (f : string * string) : tag :=
  ("input", [("type", "hidden"); ("name", fst f); ("value", snd f)]).
Definition posts (page action : string) (fields : list (string * string)) : Prop :=
  html_tags page =
    [("html", []); ("head", []); ("title", []); ("/title", []); ("/head", []);
     ("body", [("onload", "javascript:document.forms[0].submit()")]);
     ("form", [("method", "post"); ("action", action)])]
    ++ map field_tag fields ++ [("/form", []); ("/body", []); ("/html", [])].

(** Text that means the same inside a quoted attribute as outside. *)
Definition plain_attr (s : string) : Prop := has_char """" s = false /\ has_char "&" s = false.

(** What a client registered for its userinfo responses: the algorithm they are
    to be signed with, and the pair they are to be encrypted with. *)
Definition wants_signed (info : dict string) (alg : string) : Prop := In ("userinfo_signed_response_alg", alg) info.
Definition wants_encrypted (info : dict string) (alg enc : string) : Prop :=
  In ("userinfo_encrypted_response_alg", alg) info /\ In ("userinfo_encrypted_response_enc", enc) info.

(** The content types that a list of HTTP headers says. *)
Definition content_types (hs : list header) : list string :=
  map snd (filter (fun h => String.eqb (fst h) "Content-type") hs).
