(** Specification vocabulary for revoking a token through the session manager
    (C04). *)
From Verif Require Import M_Base M_Types M_Codec M_Grant M_Env M_Session M_History S_Grant S_History.

(** The session id [sid] leads to the grant [gid]. *)
Definition sid_leads_to (e : env) (h : hst) (sid gid : string) : Prop :=
  exists i s, get_session_info e sid (h_st h) = (Ok i, s) /\ ss_gid i = gid.

(** The tokens that a revocation of the token with text [v] is about: that token
    and, if the revocation is recursive, those that were made from it. *)
Definition meant (ts : list token) (v : string) (recursive : bool) (t : token) : Prop :=
  t_value t = v \/ (recursive = true /\ descends ts v t).

(** From [h] to [h'] no record changed, except that of the grant [gid], which was
    [g] and became [g']; the session database and the parsed requests are the
    same. *)
Definition only_grant (h h' : hst) (gid : string) (g g' : grant) : Prop :=
  s_db (h_st h') = s_db (h_st h) /\ h_parsed h' = h_parsed h
  /\ exists l, nth_error (s_heap (h_st h)) l = Some (OGrant g) /\ g_id g = gid
     /\ nth_error (s_heap (h_st h')) l = Some (OGrant g')
     /\ forall l', l' <> l -> nth_error (s_heap (h_st h')) l' = nth_error (s_heap (h_st h)) l'.

(** [g'] is [g], but revoked. *)
Definition as_revoked (g g' : grant) : Prop :=
  g_scope g' = g_scope g /\ g_claims g' = g_claims g /\ g_resources g' = g_resources g
  /\ g_areq g' = g_areq g /\ g_aevent g' = g_aevent g /\ g_tokens g' = g_tokens g
  /\ g_rules g' = g_rules g /\ g_max g' = g_max g /\ g_issued g' = g_issued g
  /\ g_exp g' = g_exp g /\ g_nbf g' = g_nbf g /\ g_revoked g' = true /\ g_used g' = g_used g
  /\ g_id g' = g_id g /\ g_sub g' = g_sub g /\ g_extra g' = g_extra g.
