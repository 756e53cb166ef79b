(** The provider as a machine: any number of calls of its endpoints and of the
    session manager, in any order.

    A token request is handled in two calls (src/oidcop/endpoint.py 136-206
    parse_request, src/oidcop/oauth2/token.py 442-490 process_request), between
    which the calls of other requests may come. The parsed requests are kept; a
    later call may process any of them. Each call runs to its end before the
    next one starts (atomicity of one call is a simplification). *)
From Verif Require Import M_Base M_Types M_Codec M_Grant M_Env M_Session M_Claims M_Handler
  M_Authz M_TokenEP M_PKCE M_AuthzEP M_Info M_Logout M_Dump.

(** One call, with the reading of the clock during it.
    - authorization request (oauth2/authorization.py 962-1021),
    - log in by the user, then completion (oauth2/authorization.py 485-504,
      889-957),
    - token request, parse phase, for the client [cid] that client
      authentication found (oauth2/token.py 423-440), with the PKCE add-on if it
      is in use (oidc/add_on/pkce.py 83-124),
    - token request, processing of the [i]-th parsed request (442-490),
    - introspection (oauth2/introspection.py 78-128),
    - userinfo (oidc/userinfo.py 111-158),
    - log out (oidc/session.py 396-425),
    - revoke_token, revoke_grant, revoke_client_session, remove_session and
      flush of the session manager (session/manager.py 304-320, 356-393,
      530-539),
    - the provider is stopped and started again: its session manager is saved
      and restored (M_Dump). The requests parsed before that are kept, which
      only allows more than a real restart does. *)
Inductive op : Type :=
| OAuthorize (now : Z) (deny iframe : bool) (ar : areq) (req_user : option string)
    (acr : string) (exp_in : option Z) (ans : auth_answer) (uri : option string)
| OLogin (now : Z) (iframe : bool) (ar : areq) (uid acr : string) (exp_in : option Z)
    (uri : option string)
| OParse (now : Z) (cid : string) (req : treq)
| OProcess (now : Z) (i : nat) (issue : option bool)
| OIntrospect (now : Z) (release : bool) (tok : string)
| OUserinfo (now : Z) (tok : string)
| OLogout (now : Z) (sid : string) (alla : bool)
| ORevokeToken (now : Z) (sid v : string) (recursive : bool)
| ORevokeGrant (now : Z) (sid : string)
| ORevokeClient (now : Z) (sid : string)
| ORemove (now : Z) (sid : string)
| OFlush (now : Z)
| OReload (now : Z).

Definition op_time (o : op) : Z :=
  match o with
  | OAuthorize now _ _ _ _ _ _ _ _ | OLogin now _ _ _ _ _ _ | OParse now _ _
  | OProcess now _ _ | OIntrospect now _ _ | OUserinfo now _ | OLogout now _ _
  | ORevokeToken now _ _ _ | ORevokeGrant now _ | ORevokeClient now _ | ORemove now _
  | OFlush now | OReload now => now
  end.

(** What the caller sees. *)
Inductive event : Type :=
| EvAuthorize (r : res ares)
| EvLogin (r : res aout)
| EvParse (r : res (outcome treq))
| EvToken (req : treq) (r : res (outcome tresp))
| EvNothing                                  (* no such parsed request *)
| EvIntrospect (r : res (option iresp))
| EvUserinfo (r : res (outcome (dict jval * string)))
| EvLogout (r : res (list lmsg))
| EvDone (r : res unit).

(** The session state, and the token requests parsed so far. *)
Record hst : Type := mk_hst { h_st : st; h_parsed : list treq }.

Definition on_st {A} (h : hst) (f : res A -> event) (m : M st A) : event * hst :=
  let (r, s) := m (h_st h) in (f r, mk_hst s (h_parsed h)).

Definition step (e : env) (h : hst) (o : op) : event * hst :=
  match o with
  | OAuthorize now deny iframe ar ru acr exp_in ans uri =>
      on_st h EvAuthorize (authorize e now deny iframe ar ru acr exp_in ans uri)
  | OLogin now iframe ar uid acr exp_in uri =>
      on_st h EvLogin (login e now iframe ar uid acr exp_in uri)
  | OParse now cid req =>
      let (r, s) := token_parse_all e now cid req (h_st h) in
      (EvParse r, mk_hst s (match r with
                            | Ok (Good q) => h_parsed h ++ [q]
                            | _ => h_parsed h
                            end))
  | OProcess now i issue =>
      match nth_error (h_parsed h) i with
      | None => (EvNothing, h)
      | Some q => on_st h (EvToken q) (token_process e now q issue)
      end
  | OIntrospect now release tok => on_st h EvIntrospect (introspect e now release tok)
  | OUserinfo now tok => on_st h EvUserinfo (userinfo e now tok)
  | OLogout now sid alla => on_st h EvLogout (do_verified_logout e now sid alla)
  | ORevokeToken now sid v recursive => on_st h EvDone (mgr_revoke_token e sid v recursive)
  | ORevokeGrant now sid => on_st h EvDone (revoke_grant e sid)
  | ORevokeClient now sid => on_st h EvDone (revoke_client_session e sid)
  | ORemove now sid => on_st h EvDone (remove_session e sid)
  | OFlush now => on_st h EvDone flush
  | OReload now => on_st h EvDone (reload e now)
  end.

Fixpoint exec (e : env) (h : hst) (ops : list op) : list event * hst :=
  match ops with
  | [] => ([], h)
  | o :: r => let (ev, h1) := step e h o in
              let (evs, h2) := exec e h1 r in
              (ev :: evs, h2)
  end.

(** A new provider. *)
Definition h_init (always : dict (dict (list string))) : hst := mk_hst (st_init always) [].
