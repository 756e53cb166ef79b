(** Requests as they come over the wire: client authentication and parsing
    (src/oidcop/endpoint.py 136-206, src/oidcop/oidc/userinfo.py 160-184,
    src/oidcop/oauth2/authorization.py 351-459) put in front of the calls of
    M_History. *)
From Verif Require Import M_Base M_Uri M_Redirect M_Types M_Codec M_Grant M_Env M_Session M_Claims M_Handler
  M_Authz M_TokenEP M_PKCE M_AuthzEP M_Info M_Logout M_Dump M_History M_ClientAuthn.

(** The front channel: what parsing an authorization request uses, whether the
    endpoint is the OpenID Connect one, and the authentication methods of the
    authorization and of the pushed-authorization endpoint. [fr_object] is
    [req.verify] of the oidcmsg library (endpoint.py 187-191) for the client the
    request is attributed to: it may merge a request object into the request;
    [Ok None] stands for the exceptions that parse_request catches. [fr_read]
    is the reading of the members of the message, whose syntax is that of the
    library too. *)
Record front : Type := mk_front {
  fr_conf : pconf;
  fr_oidc : bool;
  fr_authz : cendpoint;
  fr_par : cendpoint;
  fr_object : option string -> request -> res (option request);
  fr_read : request -> areq
}.

(** A server: what client authentication uses, the token and the introspection
    endpoint, and the methods and targets of the userinfo endpoint. [sv_verify]
    is [req.verify] of the oidcmsg library (endpoint.py 187-191) for a token
    request: [Ok false] stands for the exceptions that parse_request catches. *)
Record server : Type := mk_server {
  sv_auth : aenv;
  sv_token : cendpoint;
  sv_intro : cendpoint;
  sv_user_methods : list meth;
  sv_user_targets : list string;
  sv_verify : treq -> res bool;
  sv_front : front
}.

(** UserInfo.get_client_id_from_token: src/oidcop/oidc/userinfo.py 48-50. The
    lookup draws a random number for a text that is thrown away; that draw is
    not counted here. *)
Definition user_endpoint (sv : server) (e : env) (now : Z) (h : hst) : cendpoint :=
  mk_cendpoint (sv_user_methods sv) (sv_user_targets sv)
    (Some (fun t => match fst (get_session_info_by_token e now t (h_st h)) with
                    | Ok i => Ok (ss_client i)
                    | Raise x => Raise x
                    end)).

(** A call from outside. Token, introspection and userinfo requests come with
    what authentication reads of them (their members and the Authorization
    header); of a token request [body] is the rest, whose client member is the
    one authentication reads. Likewise for authorization requests [rq]; those
    come with what the user agent's authentication says ([ru], [ans], see
    M_Authn), pushed ones with the URN that is drawn for them. After the user
    has logged in the web application continues with the request [rq] of the
    log-in page: any request, since the page's token may be signed by whoever
    has a key in the key jar (src/oidcop/user_authn/user.py 86-87). Everything
    else is a call as in M_History; the processing of a parsed token request is
    among them. *)
Inductive wop : Type :=
| WToken (now : Z) (q : creq) (hdr : option string) (body : treq)
| WIntrospect (now : Z) (q : creq) (hdr : option string) (release : bool) (tok : string)
| WUserinfo (now : Z) (q : creq) (hdr : option string)
| WPush (now : Z) (q : creq) (hdr : option string) (urn : string) (rq : request)
| WAuthorize (now : Z) (q : creq) (hdr : option string) (rq : request) (deny iframe : bool)
    (ru : option string) (acr : string) (exp_in : option Z) (ans : auth_answer)
| WLogin (now : Z) (iframe : bool) (rq : request) (uid acr : string) (exp_in : option Z)
| WCall (o : op).

(** What the caller sees: an exception, an error message of the parser, or the
    outcome of the call; for a pushed request its URN. *)
Inductive wevent : Type :=
| WRefused (x : exn)
| WInvalid (code : string)
| WPushed (urn : string)
| WDone (ev : event).

(** The provider with the keys of context.jti_db and with context.par_db. *)
Record world : Type := mk_world { w_h : hst; w_jtis : jtis; w_par : par_db }.

(** [req["client_id"] = ...]: src/oidcop/endpoint.py 180-184. *)
Definition with_client (c : option string) (b : treq) : treq :=
  mk_treq (tr_grant_type b) (tr_code b) (tr_refresh b) c (tr_redirect b) (tr_scope b)
    (tr_dpop b) (tr_verifier b).

Definition call (e : env) (w : hst) (db : jtis) (par : par_db) (o : op) : wevent * world :=
  let (ev, h) := step e w o in (WDone ev, mk_world h db par).

(** Endpoint.parse_request for the token endpoint: src/oidcop/endpoint.py
    136-206. A request without any client ends in [cdb[None]], a KeyError
    (src/oidcop/oauth2/token.py 428). *)
Definition wire_token (sv : server) (e : env) (w : world) (now : Z) (q : creq) (hdr : option string)
    (body : treq) : wevent * world :=
  match client_authentication (sv_auth sv) now (sv_token sv) q hdr (w_jtis w) with
  | (Raise x, db) => (WRefused x, mk_world (w_h w) db (w_par w))
  | (Ok o, db) =>
      let c := attributed q o in
      let req := with_client c body in
      match sv_verify sv req with
      | Raise x => (WRefused x, mk_world (w_h w) db (w_par w))
      | Ok false => (WInvalid "invalid_request", mk_world (w_h w) db (w_par w))
      | Ok true =>
          match c with
          | None => (WRefused KeyError, mk_world (w_h w) db (w_par w))
          | Some c => call e (w_h w) db (w_par w) (OParse now c req)
          end
      end
  end.

(** The introspection endpoint: parse_request (src/oidcop/endpoint.py 136-206),
    without [verify], which asks for a token, and process_request. *)
Definition wire_introspect (sv : server) (e : env) (w : world) (now : Z) (q : creq)
    (hdr : option string) (release : bool) (tok : string) : wevent * world :=
  match client_authentication (sv_auth sv) now (sv_intro sv) q hdr (w_jtis w) with
  | (Raise x, db) => (WRefused x, mk_world (w_h w) db (w_par w))
  | (Ok _, db) => call e (w_h w) db (w_par w) (OIntrospect now release tok)
  end.

(** UserInfo.parse_request (src/oidcop/oidc/userinfo.py 160-184) and
    process_request. [auth_info["client_id"]] is looked up first, then
    [auth_info["token"]]; "none" gives no token. *)
Definition wire_userinfo (sv : server) (e : env) (w : world) (now : Z) (q : creq)
    (hdr : option string) : wevent * world :=
  match client_authentication (sv_auth sv) now (user_endpoint sv e now (w_h w)) q hdr (w_jtis w) with
  | (Raise x, db) => ((match x with
                       | ValueError | UnknownToken => WInvalid "invalid_token"
                       | _ => WRefused x end), mk_world (w_h w) db (w_par w))
  | (Ok None, db) => (WRefused KeyError, mk_world (w_h w) db (w_par w))
  | (Ok (Some i), db) =>
      match ai_client i, ai_token i with
      | Some _, Some t => call e (w_h w) db (w_par w) (OUserinfo now t)
      | _, _ => (WRefused KeyError, mk_world (w_h w) db (w_par w))
      end
  end.

(** [req["client_id"] = ...] for an authorization request: endpoint.py 180-184. *)
Definition for_client (c : option string) (rq : request) : request :=
  match c with Some c => dset rq "client_id" c | None => rq end.

(** PushedAuthorization: parse_request (endpoint.py 136-206) and process_request
    (src/oidcop/oauth2/pushed_authorization.py 24-38). A request without any
    client is looked up as "" in the client database. *)
Definition wire_push (sv : server) (w : world) (now : Z) (q : creq) (hdr : option string)
    (urn : string) (rq : request) : wevent * world :=
  let fr := sv_front sv in
  match client_authentication (sv_auth sv) now (fr_par fr) q hdr (w_jtis w) with
  | (Raise x, db) => (WRefused x, mk_world (w_h w) db (w_par w))
  | (Ok o, db) =>
      let c := attributed q o in
      match fr_object fr c (for_client c rq) with
      | Raise x => (WRefused x, mk_world (w_h w) db (w_par w))
      | Ok None => (WInvalid "invalid_request", mk_world (w_h w) db (w_par w))
      | Ok (Some rq) =>
          match par_push (fr_conf fr) urn (ostr c) rq (w_par w) with
          | (Raise x, par) => (WRefused x, mk_world (w_h w) db par)
          | (Ok urn, par) => (WPushed urn, mk_world (w_h w) db par)
          end
      end
  end.

(** get_uri as post_authentication uses it: src/oidcop/oauth2/authorization.py
    857-865. *)
Definition answer_uri (fr : front) (rq : request) : option string :=
  match get_uri (pc_cdb (fr_conf fr)) rq "redirect_uri" with Ok u => Some u | Raise _ => None end.

(** Authorization: parse_request (endpoint.py 136-206, authorization.py
    351-459) and process_request. *)
Definition wire_authorize (sv : server) (e : env) (w : world) (now : Z) (q : creq) (hdr : option string)
    (rq : request) (deny iframe : bool) (ru : option string) (acr : string) (exp_in : option Z)
    (ans : auth_answer) : wevent * world :=
  let fr := sv_front sv in
  match client_authentication (sv_auth sv) now (fr_authz fr) q hdr (w_jtis w) with
  | (Raise x, db) => (WRefused x, mk_world (w_h w) db (w_par w))
  | (Ok o, db) =>
      let c := attributed q o in
      match fr_object fr c (for_client c rq) with
      | Raise x => (WRefused x, mk_world (w_h w) db (w_par w))
      | Ok None => (WInvalid "invalid_request", mk_world (w_h w) db (w_par w))
      | Ok (Some rq) =>
          match authz_parse (fr_conf fr) (fr_oidc fr) (ostr c) rq (w_par w) with
          | (Raise x, par) => (WRefused x, mk_world (w_h w) db par)
          | (Ok (PErr code), par) => (WInvalid code, mk_world (w_h w) db par)
          | (Ok (PGood r), par) =>
              call e (w_h w) db par
                (OAuthorize now deny iframe (fr_read fr r) ru acr exp_in ans (answer_uri fr r))
          end
      end
  end.

(** What the web application does after a log-in (example/flask_op/views.py
    104-130): create_session and authz_part2. *)
Definition wire_login (sv : server) (e : env) (w : world) (now : Z) (iframe : bool) (rq : request)
    (uid acr : string) (exp_in : option Z) : wevent * world :=
  let fr := sv_front sv in
  call e (w_h w) (w_jtis w) (w_par w)
    (OLogin now iframe (fr_read fr rq) uid acr exp_in (answer_uri fr rq)).

Definition wstep (sv : server) (e : env) (w : world) (o : wop) : wevent * world :=
  match o with
  | WToken now q hdr body => wire_token sv e w now q hdr body
  | WIntrospect now q hdr release tok => wire_introspect sv e w now q hdr release tok
  | WUserinfo now q hdr => wire_userinfo sv e w now q hdr
  | WPush now q hdr urn rq => wire_push sv w now q hdr urn rq
  | WAuthorize now q hdr rq deny iframe ru acr exp_in ans =>
      wire_authorize sv e w now q hdr rq deny iframe ru acr exp_in ans
  | WLogin now iframe rq uid acr exp_in => wire_login sv e w now iframe rq uid acr exp_in
  | WCall o => call e (w_h w) (w_jtis w) (w_par w) o
  end.

Fixpoint wexec (sv : server) (e : env) (w : world) (ops : list wop) : list wevent * world :=
  match ops with
  | [] => ([], w)
  | o :: r => let (ev, w1) := wstep sv e w o in
              let (evs, w2) := wexec sv e w1 r in
              (ev :: evs, w2)
  end.
Definition w_init (always : dict (dict (list string))) : world := mk_world (h_init always) [] [].
