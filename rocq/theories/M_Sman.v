(** Session management: the state that authorization responses tell, and the
    cookie that a browser has of the provider for comparing with it. *)
From Verif Require Import M_Base M_Types M_Codec M_Grant M_Env M_Session M_Claims M_Handler
  M_Authz M_TokenEP M_PKCE M_AuthzEP M_Info M_Logout M_Uri M_Cookie M_Authn M_History M_Browser.

(** What is used of Python's libraries here, and the name of the cookie:
    cookie_handler.name["session_management"] (src/oidcop/cookie_handler.py
    70-77). *)
Record smconf : Type := mk_smconf {
  sm_hash : string -> string;    (* hashlib.sha256(..).hexdigest() *)
  sm_b64e : string -> string;    (* b64e *)
  sm_name : string
}.

(** compute_session_state: src/oidcop/cookie_handler.py 271-286. Of urlparse only
    scheme and netloc are read, and they are those of urlsplit. *)
Definition compute_session_state (S : smconf) (opbs salt client_id redirect_uri : string) : res string :=
  rbind (urlsplit redirect_uri) (fun p =>
  let origin := append (us_scheme p) (append "://" (us_netloc p)) in
  let session_str :=
    append client_id (append " " (append origin (append " " (append opbs (append " " salt))))) in
  Ok (append (sm_hash S session_str) (append "." salt))).

(** EndpointContext.new_cookie (src/oidcop/endpoint_context.py 243-247) for the
    session-management cookie: src/oidcop/oauth2/authorization.py 919-924.
    [authn_time] is what the authentication event of the session says. *)
Definition management_cookie (S : smconf) (K : aconf) (now : Z) (iv : string) (authn_time : Z) : res cookie :=
  make_cookie_content (ac_lib K) (ac_handler K) iv (sm_name S)
    (ac_dumps K [("state", JStr (sm_b64e S (ac_dumps K [("authn_time", JInt authn_time)])))])
    "" "" (show_Z now).

(** authz_part2 has not returned by error_by_response_mode. Left out: answers of
    the form response mode that are errors; they count as such returns. *)
Definition went_through (o : aout) : bool :=
  match ao_iss o with
  | Some _ => true
  | None => match ao_args o with Good _ => ao_form o | Err _ => false end
  end.

(** src/oidcop/oauth2/authorization.py 919-948, the rest of authz_part2 where
    check_session_iframe is in provider_info ([iframe]): the state that is told,
    and the value of the cookie that is set. [salt] is what rndstr gives. *)
Definition manage (S : smconf) (K : aconf) (now : Z) (iv salt : string) (authn_time : Z) (iframe : bool)
    (ar : areq) (o : aout) : res (option string * option string) :=
  if iframe && went_through o then
    rbind (management_cookie S K now iv authn_time) (fun c =>
    rbind (match ck_value c with Some v => Ok v | None => Raise KeyError end) (fun opbs =>
    rbind (match ao_uri o with
           | Some u => Ok u
           | None => match ar_redirect_uri ar with Some u => Ok u | None => Raise KeyError end
           end) (fun re_uri =>
    rbind (compute_session_state S opbs salt (ar_client_id ar) re_uri) (fun ss =>
    Ok (if ao_session_state o then Some ss else None, Some opbs)))))
  else Ok (None, None).

(** A browser visits the authorization endpoint, or sends the form of the log-in
    page, as in M_Browser; or it sends the form of the log-out page, with the
    signed data of the session [sid]. [authn_time] is any time here: nothing is
    said about the payload of the cookie. *)
Inductive mop : Type :=
| MVisit (b : string) (now : Z) (deny iframe : bool) (acr : string) (exp_in : option Z)
    (iv : string) (uri : option string) (v : visit) (iv' salt : string) (authn_time : Z)
| MLogin (b : string) (now : Z) (iframe : bool) (ar : areq) (uid acr : string) (exp_in : option Z)
    (iv : string) (uri : option string) (iv' salt : string) (authn_time : Z)
| MLogout (b : string) (now : Z) (sid : string) (alla : bool)
| MCall (o : op).

(** The answer; the session state in it; the value of the session-management
    cookie that is set with it, which is empty where the cookie is taken away. *)
Record mevent : Type := mk_mevent {
  me_ev : res bevent; me_state : option string; me_cookie : option string
}.

(** The provider and the browsers, and the session-management cookies of these. *)
Record mst : Type := mk_mst { m_b : bst; m_opbs : dict string }.
Definition m_init (always : dict (dict (list string))) : mst := mk_mst (b_init always) [].
(** What the provider's frame finds in the browser: no cookie is an empty one. *)
Definition opbs_of (m : mst) (b : string) : string :=
  match dget (m_opbs m) b with Some v => v | None => EmptyString end.

(** The rest of an answer of the authorization endpoint. If it raises, the
    browser gets no cookie at all. *)
Definition mfinish (S : smconf) (K : aconf) (m : mst) (b : string) (now : Z) (iv salt : string) (authn_time : Z)
    (iframe : bool) (ar : areq) (o : option aout) (ev : bevent) (w : bst) : mevent * mst :=
  match o with
  | Some o =>
      match manage S K now iv salt authn_time iframe ar o with
      | Ok (ss, ck) =>
          (mk_mevent (Ok ev) ss ck,
           mk_mst w (match ck with Some v => dset (m_opbs m) b v | None => m_opbs m end))
      | Raise x => (mk_mevent (Raise x) None None, mk_mst (mk_bst (b_h w) (b_jars (m_b m))) (m_opbs m))
      end
  | None => (mk_mevent (Ok ev) None None, mk_mst w (m_opbs m))
  end.

Definition front (m : lmsg) : bool := match m with LFront _ _ => true | LBack _ _ => false end.

(** The log-out page: example/flask_op/views.py 327-353 rp_logout, and
    Session.kill_cookies (src/oidcop/oidc/session.py 427-434), which it calls if
    no frames have to be shown. *)
Definition mlogout (K : aconf) (e : env) (m : mst) (b : string) (now : Z) (sid : string) (alla : bool) : mevent * mst :=
  let (ev, w) := bstep K e (m_b m) (BCall (OLogout now sid alla)) in
  match ev with
  | BEv (EvLogout (Ok ms)) =>
      if existsb front ms then (mk_mevent (Ok ev) None None, mk_mst w (m_opbs m))
      else (mk_mevent (Ok ev) None (Some EmptyString),
            mk_mst (mk_bst (b_h w) (dset (b_jars w) b [])) (dset (m_opbs m) b EmptyString))
  | _ => (mk_mevent (Ok ev) None None, mk_mst w (m_opbs m))
  end.

Definition mstep (S : smconf) (K : aconf) (e : env) (m : mst) (o : mop) : mevent * mst :=
  match o with
  | MVisit b now deny iframe acr exp_in iv uri v iv' salt t =>
      let (ev, w) := bstep K e (m_b m) (BVisit b now deny iframe acr exp_in iv uri v) in
      mfinish S K m b now iv' salt t iframe (vi_req v)
        (match ev with BAnswer (Ok (ROut o, _)) => Some o | _ => None end) ev w
  | MLogin b now iframe ar uid acr exp_in iv uri iv' salt t =>
      let (ev, w) := bstep K e (m_b m) (BLogin b now iframe ar uid acr exp_in iv uri) in
      mfinish S K m b now iv' salt t iframe ar
        (match ev with BDone (Ok (o, _)) => Some o | _ => None end) ev w
  | MLogout b now sid alla => mlogout K e m b now sid alla
  | MCall o => let (ev, h) := step e (b_h (m_b m)) o in
               (mk_mevent (Ok (BEv ev)) None None, mk_mst (mk_bst h (b_jars (m_b m))) (m_opbs m))
  end.
