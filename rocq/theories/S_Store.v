(** Small specification of the session store: valid paths, and the store as a
    map from paths to records. *)
From Verif Require Import M_Base M_Types M_Codec M_Grant M_Env M_Session S_Codec.

(** A path (user), (user, client) or (user, client, grant) whose identifiers
    are not empty and can be told apart in a session key. *)
Definition valid_path (p : list string) : Prop :=
  p <> [] /\ List.length p <= 3 /\ ~ In "" p /\ separable p.

(** Reading [p] gives the record at location [l], and reading changes
    nothing. *)
Definition reads (s : st) (p : list string) (l : nat) : Prop := db_get p s = (Ok l, s).
(** Reading [p] fails. *)
Definition absent (s : st) (p : list string) : Prop :=
  exists x, db_get p s = (Raise x, s).

(** [p] is a proper beginning of [q]: [p] is a parent of [q]. *)
Definition parent_of (p q : list string) : Prop := exists r, r <> [] /\ q = p ++ r.

(** A record with the same kind and the same list of children. *)
Definition same_children (o o' : obj) : Prop :=
  match o, o' with
  | OInfo i, OInfo i' => si_sub i' = si_sub i
  | OGrant _, OGrant _ => True
  | ONone, ONone => True
  | _, _ => False
  end.

(** The ways the server builds the store. [isuser] tells user ids from other
    names the server uses as keys: the token endpoint stores grants under
    encrypted session ids, and deletion stores client sessions under client
    ids. *)
Inductive storing (isuser : string -> Prop) : st -> st -> Prop :=
| sto_user u s s' :                        (* first session of a user *)
    valid_path [u] -> isuser u -> absent s [u] ->
    (l <- new_obj (OInfo (new_user_info u)) ;; db_set [u] l) s = (Ok tt, s') ->
    storing isuser s s'
| sto_client u c l0 s s' :                 (* first session of a client *)
    valid_path [u; c] -> isuser u -> reads s [u] l0 -> absent s [u; c] ->
    (l <- new_obj (OInfo (new_client_info c)) ;; db_set [u; c] l) s = (Ok tt, s') ->
    storing isuser s s'
| sto_grant u c g gr s r s' :              (* a new grant *)
    valid_path [u; c; g] -> isuser u ->
    (l <- new_obj (OGrant gr) ;; db_set [u; c; g] l) s = (r, s') ->
    storing isuser s s'
| sto_again p l s r s' :                   (* a record stored again *)
    valid_path p -> isuser (hd "" p) -> reads s p l -> db_set p l s = (r, s') ->
    storing isuser s s'
| sto_alias x p l s r s' :                 (* a record stored under another name *)
    valid_path [x] -> ~ isuser x -> valid_path p -> reads s p l ->
    db_set [x] l s = (r, s') -> storing isuser s s'
| sto_delete u c g l s r s' :              (* a session deleted *)
    valid_path [u; c; g] -> isuser u -> ~ isuser c -> reads s [u; c; g] l ->
    db_delete [u; c; g] s = (r, s') -> storing isuser s s'
| sto_flush s r s' : flush s = (r, s') -> storing isuser s s'
| sto_other s s' :                         (* changes inside records *)
    s_db s' = s_db s -> List.length (s_heap s) <= List.length (s_heap s') ->
    (forall l o, nth_error (s_heap s) l = Some o ->
       exists o', nth_error (s_heap s') l = Some o' /\ same_children o o') ->
    storing isuser s s'.

(** The stores the server can build from an empty one. *)
Inductive built (isuser : string -> Prop) : st -> Prop :=
| built_init always : built isuser (st_init always)
| built_step s s' : built isuser s -> storing isuser s s' -> built isuser s'.

(** Path [p] of the store holds the record [o]. *)
Definition holds (s : st) (p : list string) (o : obj) : Prop :=
  exists l, reads s p l /\ nth_error (s_heap s) l = Some o.

(** Paths of users: those that are valid and start with a user id. *)
Definition user_path (isuser : string -> Prop) (p : list string) : Prop :=
  valid_path p /\ isuser (hd "" p).

(** [o'] is the info [o] with possibly more children. *)
Definition more_children (o o' : obj) : Prop :=
  exists i sub, o = OInfo i /\ incl (si_sub i) sub
    /\ o' = OInfo (mk_sinfo sub (si_revoked i) (si_client i) (si_id i)).
