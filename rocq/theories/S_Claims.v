(** Small specification of claim matching, scope mapping and claim release. *)
From Verif Require Import M_Base M_Types M_Codec M_Grant M_Env M_Claims.

(** ** C25: what a claim specification (OIDC core 5.5.1) accepts. *)
Inductive accepts (x : jval) : cspec -> Prop :=
| acc_any : accepts x None
| acc_value d : In ("value", x) d -> accepts x (Some d)
| acc_values d l : In ("values", JList l) d -> In x l -> accepts x (Some d)
| acc_essential v : accepts x (Some [("essential", v)]).

(** The member "values" is a list, as the standard has it. *)
Definition well_formed (s : cspec) : Prop :=
  forall d v, s = Some d -> In ("values", v) d -> exists l, v = JList l.

(** ** C27: scopes *)

(** The client [cid] names is registered as [c]. *)
Definition registered (e : env) (cid : string) (c : client) : Prop :=
  cid <> "" /\ dget (e_clients e) cid = Some c.

Inductive scope_allowed (e : env) (cid s : string) : Prop :=
| sa_own c l : registered e cid c -> c_allowed_scopes c = Some l -> In s l -> scope_allowed e cid s
| sa_map c m l : registered e cid c -> c_allowed_scopes c = None ->
    c_scopes_to_claims c = Some m -> In (s, l) m -> scope_allowed e cid s
| sa_provider :
    (forall c, registered e cid c -> c_allowed_scopes c = None /\ c_scopes_to_claims c = None) ->
    In s (e_scopes e) -> scope_allowed e cid s.

(** The mapping from scopes to claims in force for a client. *)
Inductive mapping (e : env) (cid : string) : dict (list string) -> Prop :=
| mp_own c m : registered e cid c -> c_scopes_to_claims c = Some m -> mapping e cid m
| mp_provider : (forall c, registered e cid c -> c_scopes_to_claims c = None) ->
    mapping e cid (e_scope_map e).

(** ** C26: where a claim in a release point's list may come from. *)

(** Claims by scope are switched on: for a client with own settings, at the
    release point (or at the one it stands in for), or by default. *)
Definition by_scope_on (e : env) (cid : string) (m : cmodule) (point second : string) : Prop :=
  m_by_scope m = true
  \/ (m_per_client m = true /\ exists c, dget (e_clients e) cid = Some c
      /\ (dget (c_by_scope c) point = Some true
          \/ (second <> "" /\ dget (c_by_scope c) second = Some true))).

Inductive asked_for (e : env) (s : st) (ar : option areq) (point : string)
    (scopes : option (list string)) (cid second k : string) : Prop :=
| af_request a cl d sp :
    ar = Some a -> ar_claims a = Some cl -> In (point, d) cl -> In (k, sp) d ->
    asked_for e s ar point scopes cid second k
| af_scope m sc scope names mp :
    In (point, m) (e_modules e) -> by_scope_on e cid m point second ->
    (scopes = Some sc \/ (scopes = None /\ exists a, ar = Some a /\ ar_scope a = Some sc)) ->
    In scope sc -> scope_allowed e cid scope ->
    (mapping e cid mp /\ mp <> [] \/ (mapping e cid [] /\ mp = SCOPE2CLAIMS)) ->
    In (scope, names) mp -> In k names ->
    asked_for e s ar point scopes cid second k
| af_base m sp :
    In (point, m) (e_modules e) -> In (k, sp) (m_base m) ->
    asked_for e s ar point scopes cid second k
| af_always m sp :
    In (point, m) (e_modules e) -> In (k, sp) (m_always m) ->
    asked_for e s ar point scopes cid second k
| af_client m cfg p l :
    In (point, m) (e_modules e) -> m_per_client m = true ->
    dget (s_always s) cid = Some cfg ->
    (p = point \/ (second <> "" /\ p = second)) ->
    In (p, l) cfg -> In k l ->
    asked_for e s ar point scopes cid second k.

(** The client whose settings count: the one named, else that of the
    authorization request. *)
Definition eff_client (cid : string) (ar : option areq) : string :=
  if str_true cid then cid else match ar with Some a => ar_client_id a | None => "" end.

(** The members of a token payload that are not user claims: what
    src/oidcop/session/grant.py 205-245 puts there itself. *)
Definition technical : list string := ["scope"; "aud"; "jti"; "cnf"; "client_id"; "sub"; "acr"].

(** A user claim [k] with value [v] that may be released to [cid]. *)
Definition releasable (e : env) (s : st) (ar : option areq) (point : string)
    (scopes : list string) (cid second u k : string) (v : jval) : Prop :=
  asked_for e s ar point (Some scopes) cid second k
  /\ exists users sp, e_users e = Some users /\ dget (users u) k = Some v
       /\ claims_match (Some v) sp = Ok true.
