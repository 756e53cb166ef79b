(** Small specification of tokens, grants and derivation, independent of the
    model's functions. *)
From Verif Require Import M_Base M_Types M_Grant.

(** Live at [now]: not revoked, usage counter below the maximum, inside the
    period of validity. A mark of 0 means there is none. *)
Definition live (max_usage : option Z) (used : Z) (revoked : bool) (not_before expires_at now : Z)
  : Prop :=
  revoked = false
  /\ (forall m, max_usage = Some m -> (used < m)%Z)
  /\ (not_before <> 0 -> not_before <= now)%Z
  /\ (expires_at <> 0 -> now <= expires_at)%Z.

Definition token_live (t : token) (now : Z) : Prop :=
  live (r_max (t_rules t)) (t_used t) (t_revoked t) (t_nbf t) (t_exp t) now.
Definition grant_live (g : grant) (now : Z) : Prop :=
  live (g_max g) (g_used g) (g_revoked g) (g_nbf g) (g_exp g) now.

(** [t] was minted, directly or through a chain of tokens of [ts], from the
    token with value [v]. *)
Inductive descends (ts : list token) (v : string) : token -> Prop :=
| desc_child t : In t ts -> t_based t = Some v -> descends ts v t
| desc_trans u t : descends ts v u -> In t ts -> t_based t = Some (t_value u) -> descends ts v t.

(** The derivation of the tokens of a grant is a forest: values are different
    and not empty, and the token a token is based on was issued earlier. *)
Definition forest (ts : list token) : Prop :=
  NoDup (map t_value ts)
  /\ ~ In "" (map t_value ts)
  /\ forall j t b, nth_error ts j = Some t -> t_based t = Some b ->
       exists i p, i < j /\ nth_error ts i = Some p /\ t_value p = b.

(** [t'] is [t], except possibly for the revoked flag. *)
Definition same_but_revoked (t t' : token) : Prop :=
  t_class t' = t_class t /\ t_value t' = t_value t /\ t_based t' = t_based t
  /\ t_rules t' = t_rules t /\ t_issued t' = t_issued t /\ t_exp t' = t_exp t
  /\ t_nbf t' = t_nbf t /\ t_used t' = t_used t /\ t_id t' = t_id t
  /\ t_scope t' = t_scope t /\ t_resources t' = t_resources t
  /\ t_type t' = t_type t /\ t_sid t' = t_sid t.

(** From [ts] to [ts'] exactly the tokens satisfying [P] got revoked and
    nothing else changed. *)
Definition revoked_exactly (P : token -> Prop) (ts ts' : list token) : Prop :=
  Forall2 (fun t t' => same_but_revoked t t'
                       /\ (t_revoked t' = true <-> t_revoked t = true \/ P t)) ts ts'.

(** Nothing between a token and a token based on it changed hands: where the
    scope of a token without own scope comes from. *)
Inductive inherited_scope (ts : list token) (grant_scope : list string)
  : option string -> list string -> Prop :=
| inh_root : inherited_scope ts grant_scope None grant_scope
| inh_own t v : In t ts -> t_value t = v -> t_scope t <> [] ->
    inherited_scope ts grant_scope (Some v) (t_scope t)
| inh_up t v sc : In t ts -> t_value t = v -> t_scope t = [] ->
    inherited_scope ts grant_scope (t_based t) sc ->
    inherited_scope ts grant_scope (Some v) sc.
