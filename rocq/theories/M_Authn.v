(** Who is at the authorization endpoint: src/oidcop/user_authn/user.py, the
    first part of setup_auth and of process_request in
    src/oidcop/oauth2/authorization.py, do_request_user in
    src/oidcop/oidc/authorization.py and src/oidcop/login_hint.py. *)
From Verif Require Import M_Base M_Types M_Codec M_Grant M_Env M_Session M_Claims M_Handler
  M_Authz M_TokenEP M_AuthzEP M_Uri M_Cookie.

(** What is read of the configuration and of the libraries. [ac_loads] is
    json.loads, where a document that is not an object raises an exception
    (every use of it here raises one for such a document, AttributeError or
    TypeError). [ac_dumps] is json.dumps. [ac_unb64] is cryptojwt's b64d
    followed by as_unicode, with [Ok None] for the exception BadSyntax.
    [ac_b64] is base64.b64decode followed by decode. [ac_users] is the user
    data of the login_hint_lookup, if there is one. *)
Record aconf : Type := mkAConf {
  ac_lib : clib;
  ac_handler : handler;
  ac_cookie : string;                 (* cookie_handler.name["session"] *)
  ac_loads : string -> res (dict jval);
  ac_dumps : dict jval -> string;
  ac_unb64 : string -> res (option string);
  ac_b64 : string -> res string;
  ac_users : option (dict (dict jval))
}.

(** An identity: the user, the session, and the time stamp of the cookie. The
    members state and grant_id of the dict are not read. *)
Record ident : Type := mkIdent { id_uid : string; id_sid : option string; id_time : Z }.

(** UserAuthnMethod.cookie_info: src/oidcop/user_authn/user.py 100-121. *)
Fixpoint cookie_info (K : aconf) (e : env) (cs : list content) (client : string) : res (option ident) :=
  match cs with
  | [] => Ok None
  | c :: r =>
      rbind (ac_loads K (ct_value c)) (fun info =>
      match py_int (ct_time c) with
      | None => Raise ValueError
      | Some ts =>
          match dget info "sid" with
          | None => Raise KeyError
          | Some (JStr sid) =>
              rbind (dec_sid e sid) (fun p =>
              match p with
              | u :: c' :: q =>
                  if negb (String.eqb c' client) then cookie_info K e r client
                  else match q with
                       | [] => Raise IndexError
                       | _ => Ok (Some (mkIdent u (Some sid) ts))
                       end
              | _ => Raise IndexError
              end)
          | Some _ => Raise TypeError
          end
      end)
  end.

(** The authentication methods: src/oidcop/user_authn/user.py. MPage stands for
    the base class and UserPassJinja2. SymKeyAuthn is left out. *)
Inductive umethod : Type :=
| MPage
| MHttpBasic (passwords : dict string)
| MAnyone (user : string).

(** UserAuthnMethod.authenticated_as: 62-77. *)
Definition page_as (K : aconf) (e : env) (now max_age : Z) (cs : option (list content)) (client : string)
  : res (option ident) :=
  match cs with
  | None => Ok None
  | Some cs =>
      rbind (cookie_info K e cs client) (fun o =>
      match o with
      | None => Ok None
      | Some i => if negb (Z.eqb max_age 0) && (id_time i + max_age <? now)%Z then Ok None else Ok (Some i)
      end)
  end.

(** [res = {"uid": user}], and then [res.update(self.cookie_info(...))] if there
    are cookies: 222-225, 277-280. The time stamp of an identity that is not
    from a cookie is not there; it is [now] here. *)
Definition update_as (K : aconf) (e : env) (now : Z) (u : string) (cs : option (list content)) (client : string)
  : res (option ident) :=
  match cs with
  | None | Some [] => Ok (Some (mkIdent u None now))
  | Some cs =>
      rbind (cookie_info K e cs client) (fun o =>
      Ok (Some (match o with None => mkIdent u None now | Some i => i end)))
  end.

(** BasicAuthn.authenticated_as and verify_password: 204-225. *)
Definition basic_user (K : aconf) (pw : dict string) (hdr : string) : res string :=
  rbind (ac_b64 K (if starts_with "Basic" hdr then drop 6 hdr else hdr)) (fun text =>
  match py_split ":" text with
  | [u; p] =>
      let u := unquote u in
      match dget pw u with
      | None => Raise KeyError
      | Some q => if String.eqb p q then Ok u else Raise FailedAuthentication
      end
  | _ => Raise ValueError
  end).

(** authenticated_as of the method. NoAuthn: 260-280. [hdr] is the keyword
    argument authn of process_request, "" if not given. *)
Definition authenticated_as (K : aconf) (e : env) (now max_age : Z) (m : umethod) (hdr : string)
    (cs : option (list content)) (client : string) : res (option ident) :=
  match m with
  | MPage => page_as K e now max_age cs client
  | MHttpBasic pw => rbind (basic_user K pw hdr) (fun u => update_as K e now u cs client)
  | MAnyone u => update_as K e now u cs client
  end.

(** verified_claim_name (oidcmsg): the name under which a request holds the
    content of a token that came with it. *)
Definition verified_claim_name (x : string) : string := append "__verified_" x.

(** max_age: src/oidcop/oauth2/authorization.py 87-89, and 560-563: a request
    that says upm_answer=true has none. [vs]: the verified claims in the
    request. A max_age that is not a number is left out (null). *)
Definition max_age (ar : areq) (vs : dict (dict jval)) : Z :=
  if match dget (ar_other ar) "upm_answer" with Some v => String.eqb v "true" | None => false end then 0%Z
  else
    let outer := match ar_max_age ar with Some z => z | None => 0%Z end in
    match dget vs (verified_claim_name "request") with
    | Some d => match dget d "max_age" with
                | Some (JInt z) => if Z.eqb z 0 then outer else z
                | _ => outer
                end
    | None => outer
    end.

(** _unwrap_identity: src/oidcop/oauth2/authorization.py 517-528. An identity
    that is the decoded user id must hold a uid and may hold a sid; others
    raise an exception (when the missing member is read, at 600 or 621). *)
Definition unwrap_identity (K : aconf) (i : ident) : res ident :=
  rbind (ac_unb64 K (id_uid i)) (fun o =>
  match o with
  | None => Ok i
  | Some text =>
      rbind (ac_loads K text) (fun d =>
      match dget d "uid" with
      | Some (JStr u) =>
          match dget d "sid" with
          | None => Ok (mkIdent u None (id_time i))
          | Some (JStr s) => Ok (mkIdent u (Some s) (id_time i))
          | Some _ => Raise TypeError
          end
      | Some _ => Raise TypeError
      | None => Raise KeyError
      end)
  end).

(** The first part of setup_auth: 556-586. *)
Definition who_is (K : aconf) (e : env) (now : Z) (m : umethod) (hdr : string) (ar : areq)
    (vs : dict (dict jval)) (cs : option (list content)) : res auth_answer :=
  match authenticated_as K e now (max_age ar vs) m hdr cs (ar_client_id ar) with
  | Raise (NoSuchAuthentication | ToOld | UnknownToken) => Ok ANobody
  | Raise x => Raise x
  | Ok None => Ok ANobody
  | Ok (Some i) => rbind (unwrap_identity K i) (fun i => Ok (AUser (id_uid i) (id_sid i)))
  end.

(** UserInfo.search with one member: src/oidcop/user_info/__init__.py 7-26 and
    74-79. *)
Fixpoint search (users : dict (dict jval)) (attr v : string) : res string :=
  match users with
  | [] => Raise KeyError
  | (uid, args) :: r =>
      if match dget args attr with
         | Some (JList l) => existsb (jval_eqb (JStr v)) l
         | Some x => jval_eqb (JStr v) x
         | None => false
         end
      then Ok uid else search r attr v
  end.

(** LoginHintLookup.__call__: src/oidcop/login_hint.py 4-21. Another hint gives
    None. *)
Definition login_hint_lookup (users : dict (dict jval)) (hint : string) : res (option string) :=
  if starts_with "tel:" hint then
    let pnr := drop 4 hint in
    match pnr with
    | EmptyString => Raise IndexError
    | String c r =>
        rbind (search users "phone_number" (if Ascii.eqb c "+" then pnr else append "+46" r))
          (fun u => Ok (Some u))
    end
  else if starts_with "mail:" hint then
    rbind (search users "email" (drop 5 hint)) (fun u => Ok (Some u))
  else Ok None.

(** do_request_user and proposed_user: src/oidcop/oidc/authorization.py 14-18
    and 103-112. The result None means that req_user is not set. A req_user of
    None is different from every user; it is "" here, which is no user id. This
    is the OpenID Connect endpoint; the OAuth2 one never sets req_user. *)
Definition request_user (K : aconf) (ar : areq) (vs : dict (dict jval)) : res (option string) :=
  let proposed :=
    match dget vs (verified_claim_name "it_token_hint") with
    | Some (x :: d) => match dget (x :: d) "sub" with Some (JStr s) => s | _ => "" end
    | _ => "" end in
  if str_true proposed then Ok (Some proposed)
  else match dget (ar_other ar) "login_hint", ac_users K with
       | Some h, Some users =>
           if str_true h then
             rbind (login_hint_lookup users h) (fun o =>
             Ok (Some (match o with Some u => u | None => "" end)))
           else Ok None
       | _, _ => Ok None
       end.

(** The cookies of the request: src/oidcop/oauth2/authorization.py 987-993. *)
Definition session_cookies (K : aconf) (cookies : list cookie) : res (option (list content)) :=
  match cookies with
  | [] => Ok (Some [])
  | _ => parse_cookie (ac_lib K) (ac_handler K) (ac_cookie K) cookies
  end.

(** The session cookie of a response: src/oidcop/oauth2/authorization.py 878-883
    and endpoint_context.py 243-247. It is made now, for the session. *)
Definition response_cookie (K : aconf) (now : Z) (iv : string) (ar : areq) (sid : string) : res cookie :=
  make_cookie_content (ac_lib K) (ac_handler K) iv (ac_cookie K)
    (ac_dumps K [("sid", JStr sid);
                 ("state", match ar_state ar with Some s => JStr s | None => JNull end)])
    "" "" (show_Z now).

(** What the authorization endpoint is sent: the request, the verified claims in
    it, the cookies, and the Authorization header if it is handed on. *)
Record visit : Type := mkVisit {
  vi_req : areq;
  vi_verified : dict (dict jval);
  vi_cookies : list cookie;
  vi_hdr : string
}.

(** Authorization.process_request: src/oidcop/oauth2/authorization.py 962-1021,
    with the authentication method that has been picked ([m], its class [acr],
    its expires_in [exp_in]). The second part of the answer is the session
    cookie of a response. The cookie of an error response is left out. The code
    makes the cookie inside post_authentication, where a cookie handler that
    fails turns the response into an error; here it is made after it. *)
Definition process_request (K : aconf) (e : env) (now : Z) (deny iframe : bool) (m : umethod) (acr : string)
    (exp_in : option Z) (iv : string) (uri : option string) (v : visit) : M st (ares * option cookie) :=
  let ar := vi_req v in
  match dget (e_clients e) (ar_client_id ar) with
  | None => raise KeyError
  | Some _ =>
      lift (check_unknown_scopes e deny (ar_scope ar) (ar_client_id ar)) ;;
      cs <- lift (session_cookies K (vi_cookies v)) ;;
      ru <- lift (request_user K ar (vi_verified v)) ;;
      ans <- lift (who_is K e now m (vi_hdr v) ar (vi_verified v) cs) ;;
      s <- setup_auth e now ar ru acr exp_in ans ;;
      match s with
      | SLogin => ret (RLogin, None)
      | SLoginRequired =>
          match ar_response_mode ar with
          | None => ret (RLoginRequired false, None)
          | Some m => r <- lift (response_mode m None) ;; ret (RLoginRequired (fst r), None)
          end
      | SGo sid _ =>
          o <- authz_part2 e now iframe ar sid uri ;;
          match ao_args o with
          | Good _ => c <- lift (response_cookie K now iv ar sid) ;; ret (ROut o, Some c)
          | Err _ => ret (ROut o, None)
          end
      end
  end.
