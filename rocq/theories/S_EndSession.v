(** Specification vocabulary for the end-session endpoint. *)
From Verif Require Import M_Base M_Types M_Codec M_Grant M_Env M_Session M_Uri M_Redirect M_Cookie M_EndSession
  M_Registration S_Codec S_Store S_Redirect S_Cookie.

(** One of the cookies is a session cookie the provider's keys vouch for, and
    its content names the session [sid]. *)
Definition cookie_names (E : endconf) (cookies : list cookie) (sid : string) : Prop :=
  exists v payload time value typ doc,
    In (mkCookie (Some (en_cookie E)) (Some v)) cookies /\
    vouched (en_lib E) (en_handler E) v payload time /\ payload_of value typ payload /\
    en_loads E value = Ok doc /\ dget doc "sid" = Some sid.

(** [sid] is a session of user [u] at client [c], with the record at [l]. *)
Definition session_at (e : env) (s : st) (sid u c : string) (l : nat) : Prop :=
  exists gid, dec_sid3 e sid = Ok (u, c, gid) /\ reads s [u; c; gid] l.

(** The grant of the session has the subject identifier [sub]. *)
Definition subject_at (s : st) (l : nat) (sub : string) : Prop :=
  exists g, nth_error (s_heap s) l = Some (OGrant g) /\ g_sub g = sub.

(** The sessions are as they were. *)
Definition same_sessions (s s' : st) : Prop := s_heap s' = s_heap s /\ s_db s' = s_db s.

(** The client whose registration counts: the one the request names, else the
    one of the session. *)
Definition checked_for (rq : request) (c c' : string) : Prop :=
  dget rq "client_id" = Some c' \/ dget rq "client_id" = None /\ c' = c.

(** [u] is a post-logout URI of client [c]. *)
Definition post_logout_ok (cdb : dict cl_info) (c u : string) : Prop :=
  exists l, registered cdb c "post_logout_redirect_uri" l /\
    (proper_bases l -> dict_like l -> exists it, In it l /\ leads_to it u).

(** [t] is the URI [u], with the state of the request, if there is one. *)
Definition with_state (rq : request) (u t : string) : Prop :=
  match dget rq "state" with
  | None => t = u
  | Some x => t = append u (append "?state=" (quote_plus x))
  end.

(** The page of the provider itself. *)
Definition own (E : endconf) (e : env) (t : string) : Prop :=
  exists slash, t = append (e_issuer e) (append slash (en_path E)) /\
    (slash = "" /\ (exists a, e_issuer e = append a "/") \/ slash = "/").

(** The signature scheme is able to sign with this algorithm. *)
Definition can_sign (e : env) (alg : string) : Prop :=
  forall n p, exists tok, e_sign e alg n p = Ok tok.

(** What the end-session endpoint reads of a client record written by dynamic
    registration. *)
Definition uris_of (v : rval) : option (list reg_uri) :=
  match v with
  | RUris l => Some (map (fun bq => RegPair (fst bq) (snd bq)) l)
  | RList l => Some (map RegStr l)
  | _ => None
  end.
Definition record_uris (c : dict rval) : dict (list reg_uri) :=
  flat_map (fun kv => match uris_of (snd kv) with Some l => [(fst kv, l)] | None => [] end) c.
Definition record_info (c : dict rval) : cl_info := mkClInfo (record_uris c) [] None.
Definition record_cdb (x : rctx) : dict cl_info :=
  map (fun kv => (fst kv, record_info (snd kv))) (x_cdb x).
