(** Specification vocabulary for subject identifiers. *)
From Verif Require Import M_Base M_Types M_Codec M_Grant M_Env M_Session M_Claims M_Handler
  M_Authz M_TokenEP M_PKCE M_AuthzEP M_Info M_Logout M_History S_History M_Subject.

(** How the subject identifiers of a kind ("public", "pairwise") are made,
    according to the configuration. *)
Inductive way := Raw | Pairwise | Public | Ephemeral.
Definition by_default (kind : string) : option way :=
  if String.eqb kind "public" then Some Public
  else if String.eqb kind "pairwise" then Some Pairwise
  else if String.eqb kind "ephemeral" then Some Ephemeral
  else None.
Definition configured (c : sconf) (kind : string) : option way :=
  match dget (sc_sub c) kind with
  | Some (EClass KRaw _ _) => Some Raw
  | Some (EClass KPair _ _) | Some (EFunction FPair) => Some Pairwise
  | Some (EClass KPub _ _) | Some (EFunction FPublic) => Some Public
  | Some (EFunction FEphemeral) => Some Ephemeral
  | Some ENeither | None => by_default kind
  end.

(** The configuration says what the salt is: a class has a salt or a file of its
    own; functions use the salt of the session parameters. *)
Definition salt_is_fixed (c : sconf) (kind : string) : Prop :=
  match dget (sc_sub c) kind with
  | Some (EClass KRaw _ _) => True
  | Some (EClass _ salt file) => salt <> "" \/ file <> ""
  | _ => sc_salt c <> ""
  end.

(** A Python dict has no key twice. *)
Definition a_dict (c : sconf) : Prop := NoDup (dkeys (sc_sub c)).

(** From [w] to [w'] providers were started, any number of them with any
    configurations, and nothing else touched the files. *)
Inductive later (rnd : nat -> string) : world -> world -> Prop :=
| later_same w : later rnd w w
| later_start w w' w'' c r : later rnd w w' -> start rnd c w' = (r, w'') -> later rnd w w''.

Definition collides (H : string -> string) : Prop := exists a b, a <> b /\ H a = H b.

(** Users and sectors whose concatenation tells them apart: the user ids have
    the same length, or they contain no "/" and the sectors are URLs. *)
Definition no_slash (u : string) : Prop := forall a b, u <> append a (append "/" b).
Definition a_url (s : string) : Prop := exists t, s = append "https://" t.
Definition unambiguous (u s u' s' : string) : Prop :=
  String.length u = String.length u'
  \/ (no_slash u /\ no_slash u' /\ a_url s /\ a_url s').

(** ** What clients are told *)

(** The manager [m] was set up from the configuration [c], and [m'] is the same
    or was set up from it later. *)
Definition set_up (rnd : nat -> string) (c : sconf) (m m' : smgr) : Prop :=
  exists w w1, start rnd c w = (Ok m, w1)
    /\ (m' = m \/ exists w2 w3, later rnd w1 w2 /\ start rnd c w2 = (Ok m', w3)).
(** The provider [e] uses the manager [m]; every session is of the kind
    "public", as the authorization endpoint does not ask for another. *)
Definition uses (H : string -> string) (m : smgr) (e : env) : Prop :=
  forall u s d, make_sub H m "public" u s d = Ok (e_sub e u s).

(** Somewhere in a history of the provider [e], userinfo told the client [c]
    that the token stands for the subject [x], and it belongs to a log-in of the
    user [u] on a request with the sector [s]. *)
Definition told (e : env) (c u s x : string) : Prop :=
  exists ops evs h now tok info h' gid g ar ae,
    laws e /\ history e ops evs h
    /\ step e h (OUserinfo now tok) = (EvUserinfo (Ok (Good (info, c))), h')
    /\ dget info "sub" = Some (JStr x)
    /\ leads_to e now h tok gid /\ grant_of h gid g
    /\ g_areq g = Some ar /\ ar_sector ar = s /\ g_aevent g = Some ae /\ ae_uid ae = u.
