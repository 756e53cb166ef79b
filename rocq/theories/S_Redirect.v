(** Specification vocabulary for redirect URIs and requests. *)
From Verif Require Import M_Base M_Uri M_Redirect S_Codec.

(** A base URI with a host: scheme, "://", host (with port and user
    information), path. *)
Definition web_base (base : string) : Prop :=
  exists sch host path,
    base = append sch (append "://" (append host path)) /\
    sch <> "" /\ all_chars scheme_char sch = true /\ host <> "" /\
    (forall c, has_char c host = true -> netloc_end c = false) /\
    (path = "" \/ exists p, path = append "/" p).
(** A base URI of an application's own scheme, without a host. *)
Definition app_base (base : string) : Prop :=
  exists sch rest,
    base = append sch (append ":" rest) /\
    sch <> "" /\ all_chars scheme_char sch = true /\ ~ In sch uses_netloc /\
    ~ (exists r, rest = append "//" r).

(** [u] is the base URI, up to the case of the scheme and two superfluous
    slashes, with the query [q] and possibly an empty fragment. *)
Definition tail_of (q tail : string) : Prop :=
  ~ occurs_in "#" q /\
  ((q = "" /\ (tail = "" \/ tail = "#")) \/ tail = append "?" q \/ tail = append "?" (append q "#")).
Definition stands_at (base u q : string) : Prop :=
  exists sch sch' rest extra tail,
    base = append sch (append ":" rest) /\ u = append sch' (append ":" (append extra (append rest tail))) /\
    lower sch' = sch /\ (extra = "" \/ extra = "//") /\ tail_of q tail.

(** Two queries have the same keys, and the same values for each. *)
Definition agrees (q rq : query) : Prop :=
  (forall k, In k (dkeys q) <-> In k (dkeys rq)) /\
  (forall k l l', dget q k = Some l -> dget rq k = Some l' -> forall v, In v l <-> In v l').

Definition reg_base (it : reg_uri) : string := match it with RegStr u => u | RegPair b _ => b end.
Definition reg_query (it : reg_uri) : query := match it with RegStr _ => [] | RegPair _ q => q end.

(** The URIs registered for a client. *)
Definition registered (cdb : dict cl_info) (c : string) (kind : string) (l : list reg_uri) : Prop :=
  exists info, dget cdb c = Some info /\ dget (cl_uris info) (append kind "s") = Some l.

(** All bases registered for a client are of one of the two shapes, and all
    registered queries are dicts. *)
Definition proper_bases (l : list reg_uri) : Prop :=
  forall it, In it l -> web_base (reg_base it) \/ app_base (reg_base it).
Definition dict_like (l : list reg_uri) : Prop := forall it, In it l -> NoDup (dkeys (reg_query it)).

(** What urlsplit reads: the text without tab, newline and carriage return. *)
Definition visible (u : string) : string := remove_chars unsafe_char u.

(** [u] leads to the registered URI [it]. *)
Definition leads_to (it : reg_uri) (u : string) : Prop :=
  exists q, stands_at (reg_base it) (visible (unquote u)) q /\ agrees (parse_qs q) (reg_query it).

(** [u] is a redirect URI the client [c] may use. *)
Definition redirect_ok (cdb : dict cl_info) (c u : string) : Prop :=
  exists l, registered cdb c "redirect_uri" l /\
    ((exists it, In it l /\ leads_to it u) \/ (exists b q, l = [RegPair b q] /\ u = join_query b q)).

(** A text without percent signs, tabs, newlines and carriage returns. *)
Definition literal (u : string) : Prop := ~ occurs_in "%" u /\ visible u = u.

(** Response types: words in any order. *)
Definition same_words (a b : string) : Prop :=
  forall w, In w (py_split " " a) <-> In w (py_split " " b).
Definition may_respond (info : cl_info) (rt : string) : Prop :=
  (cl_response_types info = [] /\ same_words rt "code") \/
  (exists r, In r (cl_response_types info) /\ same_words rt r).

(** The client database holds only registrations of the two shapes. *)
Definition proper_clients (cdb : dict cl_info) : Prop :=
  forall c l, registered cdb c "redirect_uri" l -> proper_bases l /\ dict_like l.

(** A plain base: no query or fragment mark, no brackets, scheme in lower
    case. *)
Definition plain_base (base : string) : Prop :=
  (exists sch host path,
    base = append sch (append "://" (append host path)) /\
    sch <> "" /\ all_chars scheme_char sch = true /\ lower sch = sch /\ host <> "" /\
    (forall c, has_char c host = true -> netloc_end c = false) /\
    (path = "" \/ exists p, path = append "/" p)) /\
  ~ occurs_in "?" base /\ ~ occurs_in "#" base /\ ~ occurs_in "[" base /\ ~ occurs_in "]" base.

(** ** Histories of pushed requests *)
Inductive pop : Type :=
| PPush (client_id : string) (rq : request)
| PUse (oidc : bool) (client_id : string) (rq : request).
Inductive pev : Type :=
| EvPush (r : res string)
| EvUse (r : res parsed).

(** The state: the pushed requests, and the number of URNs drawn. [uuid] is
    the source of identifiers. *)
Definition urn_of (uuid : nat -> string) (n : nat) : string := append "urn:uuid:" (uuid n).
Definition pstep (c : pconf) (uuid : nat -> string) (o : pop) (s : par_db * nat) : pev * (par_db * nat) :=
  match o with
  | PPush cid rq => let (r, db) := par_push c (urn_of uuid (snd s)) cid rq (fst s) in (EvPush r, (db, S (snd s)))
  | PUse oidc cid rq => let (r, db) := authz_parse c oidc cid rq (fst s) in (EvUse r, (db, snd s))
  end.
Fixpoint prun (c : pconf) (uuid : nat -> string) (ops : list pop) (s : par_db * nat) : list pev * (par_db * nat) :=
  match ops with
  | [] => ([], s)
  | o :: r => let (ev, s1) := pstep c uuid o s in
              let (evs, s2) := prun c uuid r s1 in (ev :: evs, s2)
  end.
Definition phistory (c : pconf) (uuid : nat -> string) (ops : list pop) (evs : list pev) : Prop :=
  fst (prun c uuid ops ([], 0)) = evs.

Definition req_of (o : pop) : request := match o with PPush _ r => r | PUse _ _ r => r end.
Definition names (o : pop) (urn : string) : Prop := dget (req_of o) "request_uri" = Some urn.
Definition refused (ev : pev) : Prop :=
  (exists x, ev = EvPush (Raise x)) \/ (exists x, ev = EvUse (Raise x)).
Definition unresolved (ev : pev) : Prop := ev = EvPush (Raise ValueError) \/ ev = EvUse (Raise ValueError).

(** Request objects do not refer to further request objects (RFC 9101, 4). *)
Definition no_nesting (c : pconf) : Prop :=
  forall cid u v, pc_fetch c cid u = Ok v -> dget v "request_uri" = None.
