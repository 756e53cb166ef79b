(** The provider and the user agents: any number of browsers, each with the
    session cookies that the provider put in its responses to it. *)
From Verif Require Import M_Base M_Types M_Codec M_Grant M_Env M_Session M_Claims M_Handler
  M_Authz M_TokenEP M_PKCE M_AuthzEP M_Info M_Logout M_Uri M_Cookie M_Authn M_History.

(** What the login page does once the user has been verified, with the cookie of
    the response: create_session and authz_part2, called by the web application
    (example/flask_op/views.py 104-130 verify), and
    src/oidcop/oauth2/authorization.py 878-883. [login] of M_AuthzEP leaves the
    cookie out. The cookie is made after the response here, as in
    [process_request]. *)
Definition login_page (K : aconf) (e : env) (now : Z) (iframe : bool) (ar : areq) (uid acr : string)
    (exp_in : option Z) (iv : string) (uri : option string) : M st (aout * option cookie) :=
  sid <- ep_create_session e now ar uid acr exp_in ;;
  o <- authz_part2 e now iframe ar sid uri ;;
  match ao_args o with
  | Good _ => c <- lift (response_cookie K now iv ar sid) ;; ret (o, Some c)
  | Err _ => ret (o, None)
  end.

(** A call: a request of the browser [b] at the authorization endpoint, with the
    log-in page as authentication method (962-1021); the form of the log-in
    page, filled in with the credentials of [uid] in the browser [b]; any call
    that comes from somewhere else. *)
Inductive bop : Type :=
| BVisit (b : string) (now : Z) (deny iframe : bool) (acr : string) (exp_in : option Z)
    (iv : string) (uri : option string) (v : visit)
| BLogin (b : string) (now : Z) (iframe : bool) (ar : areq) (uid acr : string) (exp_in : option Z)
    (iv : string) (uri : option string)
| BCall (o : op).

Inductive bevent : Type :=
| BAnswer (r : res (ares * option cookie))
| BDone (r : res (aout * option cookie))
| BEv (ev : event).

(** The state of the provider, and the session cookies that each browser got. *)
Record bst : Type := mk_bst { b_h : hst; b_jars : dict (list cookie) }.
Definition b_init (always : dict (dict (list string))) : bst := mk_bst (h_init always) [].
Definition jar (w : bst) (b : string) : list cookie :=
  match dget (b_jars w) b with Some l => l | None => [] end.

(** The browser keeps what it gets. (A browser that overwrites its cookies, or
    drops them, has fewer.) *)
Definition keep (w : bst) (b : string) (c : option cookie) : dict (list cookie) :=
  match c with
  | Some c => dset (b_jars w) b (jar w b ++ [c])
  | None => b_jars w
  end.

Definition bstep (K : aconf) (e : env) (w : bst) (o : bop) : bevent * bst :=
  match o with
  | BVisit b now deny iframe acr exp_in iv uri v =>
      let (r, s) := process_request K e now deny iframe MPage acr exp_in iv uri v (h_st (b_h w)) in
      (BAnswer r, mk_bst (mk_hst s (h_parsed (b_h w)))
                    (keep w b (match r with Ok (_, c) => c | Raise _ => None end)))
  | BLogin b now iframe ar uid acr exp_in iv uri =>
      let (r, s) := login_page K e now iframe ar uid acr exp_in iv uri (h_st (b_h w)) in
      (BDone r, mk_bst (mk_hst s (h_parsed (b_h w)))
                  (keep w b (match r with Ok (_, c) => c | Raise _ => None end)))
  | BCall o => let (ev, h) := step e (b_h w) o in (BEv ev, mk_bst h (b_jars w))
  end.
