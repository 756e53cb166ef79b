(** Model of how an endpoint turns the outcome of a request into an HTTP
    response (src/oidcop/endpoint.py 67-79, 245-412) and of the form of the
    form_post response mode (src/oidcop/oauth2/authorization.py 62-86).

    Messages belong to the package oidcmsg. What is assumed of it: a message is
    a dictionary; [to_urlencoded] is urllib's urlencode of its items, a list
    being joined with blanks where the message class declares the parameter as
    such a list and repeated otherwise; [request(location, fragment_enc)] puts
    that text after "#" if [fragment_enc] is true, else after "&" if the
    location has a "?" in it and after "?" if not. That a message class may
    refuse to be serialised when a required parameter is missing is left out. *)
From Verif Require Import M_Base M_Uri M_Types M_Env M_TokenEP M_AuthzEP.

(** Values of a message: texts, numbers and lists of texts. *)
Inductive mval : Type :=
| MStr (s : string)
| MInt (n : Z)
| MList (l : list string).
Definition message : Type := dict mval.

(** What an endpoint class and its message class say (class attributes of
    Endpoint, src/oidcop/endpoint.py 82-93). [rc_joined]: the parameters that
    the response class declares as lists joined with blanks; [rc_json]:
    to_json. *)
Inductive rformat : Type := FJson | FJose | FUrlencoded.
Inductive rplace : Type := PBody | PUrl | POther.
Record rclass : Type := mk_rclass {
  rc_format : rformat;
  rc_place : rplace;
  rc_joined : list string;
  rc_json : message -> string
}.

(** Message.to_urlencoded (oidcmsg, see above). *)
Definition value_texts (joined : list string) (name : string) (v : mval) : list string :=
  match v with
  | MStr s => [s]
  | MInt n => [show_Z n]
  | MList l => if smem name joined then [py_join " " l] else l
  end.
Definition to_urlencoded (joined : list string) (m : message) : string :=
  urlencode (map (fun nv : string * mval => (fst nv, value_texts joined (fst nv) (snd nv))) m).

(** Message.request (oidcmsg, see above). *)
Definition to_location (joined : list string) (m : message) (location : string) (frag : bool) : string :=
  let q := to_urlencoded joined m in
  if frag then append location (append "#" q)
  else if has_char "?" location then append location (append "&" q)
  else append location (append "?" q).

(** set_content_type: src/oidcop/endpoint.py 65-71. *)
Definition header : Type := (string * string)%type.
Definition header_eqb (a b : header) : bool := String.eqb (fst a) (fst b) && String.eqb (snd a) (snd b).
Definition set_content_type (headers : list header) (ct : string) : list header :=
  if existsb (header_eqb ("Content-type", ct)) headers then headers
  else filter (fun h => negb (String.eqb (fst h) "Content-type")) headers ++ [("Content-type", ct)].

(** fragment_encoding: src/oidcop/endpoint.py 74-78. *)
Definition fragment_encoding (return_type : list string) : bool :=
  match return_type with ["code"] => false | _ => true end.

(** OAUTH2_NOCACHE_HEADERS: src/oidcop/util.py 21. *)
Definition NOCACHE : list header := [("Pragma", "no-cache"); ("Cache-Control", "no-store")].

(** The arguments of do_response. [ra_more]: error_description, error_uri and
    state, where given. Cookies are texts. *)
Record rargs : Type := mk_rargs {
  ra_args : message;
  ra_error : string;
  ra_more : message;
  ra_msg : option string;
  ra_placement : option string;
  ra_ctype : option string;
  ra_frag : option bool;
  ra_rtype : option (list string);
  ra_uri : option string;
  ra_headers : option (list header);
  ra_cookie : option (list string);
  ra_code : option Z
}.

(** What do_response returns. *)
Record rout : Type := mk_rout {
  ro_response : option string;
  ro_headers : list header;
  ro_placement : option string;
  ro_cookie : option (list string);
  ro_code : option Z
}.

(** ResponseMessage(error=error) and the attributes copied:
    src/oidcop/endpoint.py 334-337. *)
Definition error_message (error : string) (more : message) : message :=
  fold_left (fun m n => match dget more n with Some v => dset m n v | None => m end)
    ["error_description"; "error_uri"; "state"] [("error", MStr error)].

(** Endpoint.do_response: src/oidcop/endpoint.py 309-412. [construct] (280-299)
    gives the response arguments as they are: hooks added by add-ons are left
    out. A response in the format "jws", "jwe" or "jose" is the message itself,
    for which its JSON text stands here. An endpoint that is told the content
    type, but not the response, sends no response text (353-384). *)
Definition do_response (c : rclass) (a : rargs) : res rout :=
  let construct := if str_true (ra_error a) then (error_message (ra_error a) (ra_more a), [])
                   else (ra_args a, rc_joined c) in
  let msg := fst construct in
  let joined := snd construct in
  let body :=
    match (if str_true (ra_error a) then None else ra_msg a) with
    | Some text =>
        Ok (Some text,
            Some (match ra_ctype a with
                  | Some ct => ct
                  | None => match rc_format c with
                            | FJson => "application/json"
                            | FJose => "application/jose"
                            | FUrlencoded => "application/x-www-form-urlencoded"
                            end
                  end),
            ra_placement a)
    | None =>
        match ra_ctype a with
        | Some ct => Ok (None, Some ct, None)
        | None =>
            match rc_place c with
            | PBody =>
                Ok (match rc_format c with
                    | FJson => (Some (rc_json c msg), Some "application/json; charset=utf-8", None)
                    | FJose => (Some (rc_json c msg), Some "application/jose; charset=utf-8", None)
                    | FUrlencoded => (Some (to_urlencoded joined msg), Some "application/x-www-form-urlencoded", None)
                    end)
            | PUrl =>
                let frag := match ra_frag a with
                            | Some true => true
                            | _ => match ra_rtype a with
                                   | Some (x :: r) => fragment_encoding (x :: r)
                                   | _ => false
                                   end
                            end in
                match ra_uri a with
                | None => Raise KeyError
                | Some u => Ok (Some (to_location joined msg u frag), Some "application/x-www-form-urlencoded", None)
                end
            | POther => Raise ValueError
            end
        end
    end in
  rbind body (fun b =>
    let '(resp, ct, place) := b in
    let headers :=
      match ct with
      | Some x => if str_true x then
                    match ra_headers a with Some hs => set_content_type hs x | None => [("Content-type", x)] end
                  else match ra_headers a with Some hs => hs | None => [] end
      | None => match ra_headers a with Some hs => hs | None => [] end
      end in
    Ok (mk_rout resp (headers ++ NOCACHE)
          (match place with Some p => if str_true p then Some p else None | None => None end)
          (ra_cookie a) (ra_code a))).

(** inputs: src/oidcop/oauth2/authorization.py 76-86. A list is only met under
    the name "scope" (Python's notation for other lists is left out). *)
Definition input_text (v : mval) : string :=
  match v with MStr s => s | MInt n => show_Z n | MList l => py_join " " l end.
Definition newline : string := String "010" EmptyString.
Definition dq : string := String """" EmptyString.
Definition input_element (nv : string * mval) : string :=
  append "<input type=" (append dq (append "hidden" (append dq (append " name=" (append dq (append (fst nv)
    (append dq (append " value=" (append dq (append (input_text (snd nv)) (append dq "/>"))))))))))).
Definition inputs (m : message) : string := py_join newline (map input_element m).

(** FORM_POST: src/oidcop/oauth2/authorization.py 62-73. *)
Definition form_page (action : string) (m : message) : string :=
  append "<html>" (append newline (append "  <head>" (append newline (append "    <title>Submit This Form</title>"
  (append newline (append "  </head>" (append newline (append "  <body onload=" (append dq
  (append "javascript:document.forms[0].submit()" (append dq (append ">" (append newline
  (append "    <form method=" (append dq (append "post" (append dq (append " action=" (append dq (append action
  (append dq (append ">" (append newline (append "        " (append (inputs m) (append newline
  (append "    </form>" (append newline (append "  </body>" (append newline "</html>")))))))))))))))))))))))))))))).

(** The arguments of an authorization response, in the order in which
    create_authn_response sets them (src/oidcop/oauth2/authorization.py
    720-821), and of an error response (312-317); [desc] is the description. *)
Definition opt_arg (n : string) (o : option mval) : message :=
  match o with Some v => [(n, v)] | None => [] end.
Definition answer_args (a : aresp) : message :=
  opt_arg "state" (option_map MStr (ap_state a)) ++ opt_arg "scope" (option_map MList (ap_scope a))
  ++ opt_arg "code" (option_map MStr (ap_code a)) ++ opt_arg "access_token" (option_map MStr (ap_access a))
  ++ opt_arg "token_type" (option_map (fun _ => MStr "Bearer") (ap_access a))
  ++ opt_arg "expires_in" (option_map MInt (ap_expires a)) ++ opt_arg "id_token" (option_map MStr (ap_id a)).
Definition error_args (ar : areq) (x desc : string) : message :=
  [("error", MStr x); ("error_description", MStr desc)] ++ opt_arg "state" (option_map MStr (nonempty (ar_state ar))).

(** What the authorization endpoint hands to do_response once the user is
    authenticated (authz_part2, 889-957, and response_mode, 658-704). [ss] is
    the session state, which is set if [ao_session_state] says so; [cookies]
    the cookies. A form is made before the issuer and the client are added, an
    error form without its redirect URI is not met here. *)
Definition delivered_args (ar : areq) (desc ss : string) (o : aout) : message :=
  (match ao_args o with Good a => answer_args a | Err x => error_args ar x desc end)
  ++ (if ao_session_state o then [("session_state", MStr ss)] else [])
  ++ match ao_iss o with
     | Some i => [("iss", MStr i); ("client_id", MStr (ar_client_id ar))]
     | None => []
     end.
Definition delivered (ar : areq) (desc ss : string) (cookies : option (list string)) (o : aout) : rargs :=
  let m := delivered_args ar desc ss o in
  if ao_form o then
    mk_rargs [] "" [] (Some (form_page (match ao_uri o with Some u => u | None => "" end) m)) (Some "body")
      (Some "text/html") None None None None cookies None
  else mk_rargs m "" [] None None None (ao_frag o) None (ao_uri o) None cookies None.

(** What the endpoint hands to do_response when the user may not be asked to
    log in: _login_required_error (506-516) and process_request (999-1003).
    With a response mode, [response_mode] gets the whole error as the response
    arguments, and no return URI. *)
Definition login_required_args (ar : areq) (redirect_uri : string) : res rargs :=
  let st := opt_arg "state" (option_map MStr (nonempty (ar_state ar))) in
  match ar_response_mode ar with
  | None => Ok (mk_rargs [] "login_required" st None None None None (Some (ar_response_type ar)) (Some redirect_uri) None None None)
  | Some m =>
      rbind (response_mode m None) (fun r =>
        if fst r then
          Ok (mk_rargs [] "" [] (Some (form_page redirect_uri (("error", MStr "login_required") :: st))) (Some "body")
                (Some "text/html") None None None None None None)
        else
          Ok (mk_rargs ([("error", MStr "login_required"); ("return_uri", MStr redirect_uri);
                         ("return_type", MList (ar_response_type ar))] ++ st) "" [] None None None (snd r) None (Some "")
                None None None))
  end.

(** ** The userinfo endpoint *)

(** A userinfo response before it is text: the claims as JSON, or a JWT of the
    claims made with [JWT.pack] (cryptojwt): signed or not with an algorithm,
    encrypted or not with a pair of algorithms, from an issuer to a receiver. *)
Inductive packed (A : Type) : Type :=
| Clear (claims : A)
| Packed (sign : option string) (enc : option (string * string)) (iss recv : string) (claims : A).
Arguments Clear {A}.
Arguments Packed {A}.

(** UserInfo.do_response: src/oidcop/oidc/userinfo.py 52-110, for a response
    without error; [cdb] holds the text attributes of the clients. *)
Definition userinfo_response {A : Type} (cdb : dict (dict string)) (issuer client_id : string) (claims : A)
  : res (packed A * list header) :=
  if negb (str_true client_id) then Raise ValueError
  else match dget cdb client_id with
  | None => Raise KeyError
  | Some info =>
      let sign := dget info "userinfo_signed_response_alg" in
      let enc := match dget info "userinfo_encrypted_response_enc", dget info "userinfo_encrypted_response_alg" with
                 | Some e, Some a => Some (a, e)
                 | _, _ => None
                 end in
      match sign, enc with
      | None, None => Ok (Clear claims, ("Content-type", "application/json") :: NOCACHE)
      | _, _ => Ok (Packed sign enc issuer client_id claims, ("Content-type", "application/jwt") :: NOCACHE)
      end
  end.
