(** Ending sessions: src/oidcop/oidc/session.py. *)
From Verif Require Import M_Base M_Types M_Codec M_Grant M_Env M_Session M_Claims M_Handler.

(** Session.do_back_channel_logout: src/oidcop/oidc/session.py 110-142, for a
    client with a backchannel_logout_uri. The answer is the logout token. *)
Definition back_channel_logout (e : env) (now : Z) (cid : string) (c : client) (sid : string)
  : M st string :=
  alg <- lift (match c_idt_alg c with
               | Some a => Ok a
               | None => match e_idt_algs e with a :: _ => Ok a | [] => Raise IndexError end
               end) ;;
  n <- tick ;;
  lift (e_sign e alg n
          (jwt_claims (e_issuer e) 86400 now cid
             [("sid", JStr sid);
              ("events", JObj [("http://schemas.openid.net/event/backchannel-logout", JObj [])]);
              ("jti", JStr (e_uuid e n))])).

(** Session.clean_sessions: src/oidcop/oidc/session.py 144-148. *)
Fixpoint clean_sessions (e : env) (sids : list string) : M st unit :=
  match sids with
  | [] => ret tt
  | sid :: r => revoke_client_session e sid ;; clean_sessions e r
  end.

(** A logout message: to the client's back-channel URI with a logout token, or
    an iframe for its front-channel URI (do_front_channel_logout_iframe,
    session.py 36-73: the text of the iframe is not modelled, only the session
    id it is made from). *)
Inductive lmsg : Type :=
| LBack (cid : string) (token : string)
| LFront (cid : string) (sid : string).

(** The inner loops of logout_all_clients (session.py 176-186 and 190-204): the
    session id of the ID token of the first grant, among [gids], that has an
    authentication event and an ID token. *)
Fixpoint idt_session (u c : string) (gids : list string) : M st (option string) :=
  match gids with
  | [] => ret None
  | gid :: r =>
      l <- db_get [u; c; gid] ;;
      g <- grant_at l ;;
      match g_aevent g with
      | None => idt_session u c r
      | Some _ =>
          match last_issued g IDTOKEN with
          | None => idt_session u c r
          | Some t => ret (Some (t_sid t))
          end
      end
  end.

(** The outer loop of logout_all_clients (session.py 171-204). *)
Fixpoint collect_logouts (e : env) (now : Z) (u : string) (cids : list string)
  : M st (list string * list lmsg) :=
  match cids with
  | [] => ret ([], [])
  | c :: r =>
      ci <- (match dget (e_clients e) c with Some ci => ret ci | None => raise KeyError end) ;;
      here <- (if c_bc_logout ci || c_fc_logout ci then
                 cl <- db_get [u; c] ;;
                 gids <- subordinate cl ;;
                 s <- idt_session u c gids ;;
                 match s with
                 | None => ret ([], [])
                 | Some sid =>
                     if c_bc_logout ci then
                       t <- back_channel_logout e now c ci sid ;;
                       ret ([sid], [LBack c t])
                     else ret ([sid], [LFront c sid])
                 end
               else ret ([], [])) ;;
      rest <- collect_logouts e now u r ;;
      ret (fst here ++ fst rest, snd here ++ snd rest)
  end.

(** Session.logout_all_clients: src/oidcop/oidc/session.py 150-210.
    get_session_info(sid, user_session_info=True, client_session_info=True,
    grant=True): manager.py 419-471. The messages are dicts by client id, which
    the loop visits once each. *)
Definition logout_all_clients (e : env) (now : Z) (sid : string) : M st (list lmsg) :=
  p <- lift (dec_sid3 e sid) ;;
  let '(u, c, g) := p in
  ul <- db_get [u] ;;
  db_get [u; c] ;;
  db_get [u; c; g] ;;
  cids <- subordinate ul ;;
  r <- collect_logouts e now u cids ;;
  clean_sessions e (fst r) ;;
  ret (snd r).

(** Session.logout_from_client: src/oidcop/oidc/session.py 226-244. *)
Definition logout_from_client (e : env) (now : Z) (sid : string) : M st (list lmsg) :=
  i <- get_session_info e sid ;;
  ci <- (match dget (e_clients e) (ss_client i) with
         | Some ci => ret ci | None => raise KeyError end) ;;
  m <- (if c_bc_logout ci then
          t <- back_channel_logout e now (ss_client i) ci sid ;;
          ret [LBack (ss_client i) t]
        else if c_fc_logout ci then ret [LFront (ss_client i) sid]
        else ret []) ;;
  clean_sessions e [sid] ;;
  ret m.

(** Session.do_verified_logout: src/oidcop/oidc/session.py 396-425, without the
    delivery of the back-channel messages. *)
Definition do_verified_logout (e : env) (now : Z) (sid : string) (alla : bool)
  : M st (list lmsg) :=
  if alla then logout_all_clients e now sid else logout_from_client e now sid.
