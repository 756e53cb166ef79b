(** Specification vocabulary for restarts of the provider. *)
From Verif Require Import M_Base M_Types M_Codec M_Grant M_Env M_Session M_History S_Store S_History.

(** What the session database of [h] holds under the key [k]. *)
Definition entry (h : hst) (k : string) : option obj :=
  match dget (s_db (h_st h)) k with
  | Some l => nth_error (s_heap (h_st h)) l
  | None => None
  end.

(** Reading the path [p] gives the record [o]. *)
Definition finds (h : hst) (p : list string) (o : obj) : Prop :=
  exists l, reads (h_st h) p l /\ nth_error (s_heap (h_st h)) l = Some o.

(** Reading the path [p] fails with [x]. *)
Definition fails (h : hst) (p : list string) (x : exn) : Prop :=
  db_get p (h_st h) = (Raise x, h_st h).

(** [g] with another value of the attribute id. *)
Definition with_id (id : string) (g : grant) : grant :=
  mk_grant (g_scope g) (g_claims g) (g_resources g) (g_areq g) (g_aevent g) (g_tokens g) (g_rules g)
    (g_max g) (g_issued g) (g_exp g) (g_nbf g) (g_revoked g) (g_used g) id (g_sub g) (g_extra g).
