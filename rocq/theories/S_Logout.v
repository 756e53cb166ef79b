(** Specification vocabulary for revoked client sessions and for log-outs. *)
From Verif Require Import M_Base M_Types M_Codec M_Grant M_Env M_Session M_Logout M_History
  S_Store S_History.

(** Reading the path of user [u], client [c] and grant [gid] gives the grant
    [g]. *)
Definition session_grant (h : hst) (u c gid : string) (g : grant) : Prop :=
  exists l, reads (h_st h) [u; c; gid] l /\ nth_error (s_heap (h_st h)) l = Some (OGrant g).

(** The record of the session of user [u] with client [c] is the one at [l]. *)
Definition session_record (h : hst) (u c : string) (l : nat) (i : sinfo) : Prop :=
  reads (h_st h) [u; c] l /\ nth_error (s_heap (h_st h)) l = Some (OInfo i).

(** Every grant that was under the session of [u] with [c] in [h] is revoked in
    [h'], and has got no further token. *)
Definition ended (h h' : hst) (u c : string) : Prop :=
  forall gid g, session_grant h u c gid g ->
    exists g', grant_of h' gid g' /\ g_revoked g' = true
      /\ map t_value (g_tokens g') = map t_value (g_tokens g).

(** The session of [u] with [c] has a record, which says in [h'] that it is
    revoked. (After a restart the session has a new record; then this speaks of
    the old one, and what the provider reports of the session is stated apart.) *)
Definition record_revoked (h h' : hst) (u c : string) : Prop :=
  exists l i i', session_record h u c l i /\ nth_error (s_heap (h_st h')) l = Some (OInfo i')
    /\ si_revoked i' = true.

(** From [h] to [h'] nothing was added to or taken from the store, and the
    records that changed are those of the sessions in [who] and grants that
    belong to them. *)
Definition confined (e : env) (h h' : hst) (who : string -> string -> Prop) : Prop :=
  s_db (h_st h') = s_db (h_st h) /\ h_parsed h' = h_parsed h
  /\ List.length (s_heap (h_st h')) = List.length (s_heap (h_st h))
  /\ forall l o, nth_error (s_heap (h_st h)) l = Some o ->
       nth_error (s_heap (h_st h')) l = Some o
       \/ (exists u c i, who u c /\ session_record h u c l i)
       \/ (exists u c g, who u c /\ o = OGrant g /\ belongs e g u c).

(** The call [o] deletes sessions. *)
Definition deletes (o : op) : Prop :=
  match o with ORemove _ _ | OFlush _ => True | _ => False end.

(** A message for the client [c]. *)
Definition for_client (m : lmsg) (c : string) : Prop :=
  match m with LBack c' _ | LFront c' _ => c' = c end.

(** [tok] is a log-out token for the client [c], made at [now], that says that
    the session [sid] has ended: signed as the client's ID tokens are, and
    saying this and nothing else. *)
Definition logout_token (e : env) (now : Z) (c : string) (ci : client) (sid tok : string) : Prop :=
  exists alg n p, e_sign e alg n p = Ok tok
    /\ (c_idt_alg ci = Some alg \/ c_idt_alg ci = None /\ exists r, e_idt_algs e = alg :: r)
    /\ forall k v, dget p k = Some v <-> In (k, v) [
         ("iss", JStr (e_issuer e));
         ("aud", JList [JStr c]);
         ("iat", JInt now);
         ("exp", JInt (now + 86400));
         ("jti", JStr (e_uuid e n));
         ("sid", JStr sid);
         ("events", JObj [("http://schemas.openid.net/event/backchannel-logout", JObj [])])].

(** [sid] is the session id that an ID token of the grant [gid] was made with. *)
Definition in_id_token (h : hst) (u c gid sid : string) : Prop :=
  exists g t, session_grant h u c gid g /\ In t (g_tokens g) /\ t_class t = "id_token" /\ t_sid t = sid.
