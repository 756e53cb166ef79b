(** Specification vocabulary for what ends an authorization (C65). *)
From Verif Require Import M_Base M_Types M_Codec M_Grant M_Env M_Session M_TokenEP M_AuthzEP M_History
  S_Codec S_Grant S_History S_Revoke.

(** A session id is the encryption of a path: a user, a client and (usually) a
    grant. The path names a session if it has these two or three parts, and the
    client's is a sensible one. *)
Definition names_session (p : list string) : Prop :=
  exists u c, good_id c /\ (p = [u; c] \/ exists gid, p = [u; c; gid]).
(** Session ids that the application gives to the functions that revoke grants and
    sessions name sessions, if they can be read at all. *)
Definition sensible (e : env) (o : op) : Prop :=
  match o with
  | ORevokeGrant _ sid | ORevokeClient _ sid => forall p, dec_sid e sid = Ok p -> names_session p
  | _ => True
  end.

(** The call [o] is one that is meant to end the grant [gid] of user [u] and
    client [c]: the revocation of that very grant, the revocation of the session
    of [u] with [c], log-out of [u] from [c], or log-out of [u] everywhere. *)
Definition meant_to_end (e : env) (o : op) (u c gid : string) : Prop :=
  match o with
  | ORevokeGrant _ sid => dec_sid e sid = Ok [u; c; gid]
  | ORevokeClient _ sid => dec_sid e sid = Ok [u; c] \/ exists gid', dec_sid e sid = Ok [u; c; gid']
  | OLogout _ sid false => exists gid', dec_sid e sid = Ok [u; c; gid']
  | OLogout _ sid true => exists c' gid', dec_sid e sid = Ok [u; c'; gid']
  | _ => False
  end.

(** The [i]-th call was the processing of a token request that presents the
    token [v] of class [tc]. *)
Definition spent_at (evs : list event) (i : nat) (v tc : string) : Prop :=
  exists q r, nth_error evs i = Some (EvToken q r) /\ presents q v tc.

(** The [j]-th call is one that is meant to end the token [t] of the grant [g]:
    - the revocation of this token, or a recursive one of a token it was made
      from;
    - the processing of a request that presents it as a refresh token, for a
      client whose refresh tokens are for one use;
    - the presentation, at an OpenID Connect token endpoint, of the code it was
      made from, when that code had been spent already. *)
Definition meant_to_end_token (e : env) (ops : list op) (evs : list event) (j : nat) (g : grant) (t : token) : Prop :=
  match nth_error ops j with
  | Some (ORevokeToken _ sid v recursive) =>
      (exists u c, dec_sid e sid = Ok [u; c; g_id g]) /\ meant (g_tokens g) v recursive t
  | Some (OProcess _ _ _) =>
      exists q r c, nth_error evs j = Some (EvToken q r) /\ presents q (t_value t) "refresh_token"
        /\ tr_client q = Some c /\ rotates e c
  | Some (OParse _ _ q) =>
      e_oidc e = true
      /\ exists code i, presents q code "authorization_code" /\ descends (g_tokens g) code t
         /\ i < j /\ spent_at evs i code "authorization_code"
  | _ => False
  end.
