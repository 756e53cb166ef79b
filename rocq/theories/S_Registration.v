(** Specification vocabulary for client registration. *)
From Verif Require Import M_Base M_Uri M_Meta M_ClientAuthn M_Registration S_Codec S_Redirect.

(** ** Redirect URIs, as texts. [visible] is the text without tab, newline and
    carriage return, which URL parsers drop. *)
Definition with_scheme (u sch : string) : Prop :=
  exists s r, visible u = append s (append ":" r) /\ lower s = sch.
(** At most a "#" at the very end. *)
Definition no_fragment (u : string) : Prop :=
  forall a b, visible u = append a (append "#" b) -> b = "".
(** An http URI with its authority: all between "//" and the next "/", "?" or
    "#". *)
Definition http_authority (u auth : string) : Prop :=
  exists s rest, visible u = append s (append "://" (append auth rest)) /\ lower s = "http" /\
    (forall c, has_char c auth = true -> netloc_end c = false) /\
    (rest = "" \/ exists c r, rest = String c r /\ netloc_end c = true).
(** The host in an authority: after the user information, before the port. *)
Definition host_in (auth h : string) : Prop :=
  exists user port, auth = append user (append h port) /\
    (user = "" \/ ends_in "@" user) /\ ~ occurs_in "@" (append h port) /\
    ~ occurs_in ":" h /\ (port = "" \/ exists p, port = append ":" p).
Definition loopback_host (h : string) : Prop := lower h = "localhost" \/ lower h = "127.0.0.1".
Definition at_loopback (u : string) : Prop :=
  exists auth h, http_authority u auth /\ host_in auth h /\ loopback_host h.
(** The authority has a bracket, as for IPv6. *)
Definition with_bracket (u : string) : Prop :=
  exists auth, http_authority u auth /\ occurs_in "[" auth.

(** ** Registration requests *)
Definition is_native (rq : dict rval) : Prop := dget rq "application_type" = Some (RStr "native").
Definition is_web (rq : dict rval) : Prop :=
  dget rq "application_type" = None \/ dget rq "application_type" = Some (RStr "web").
Definition only_codes (rq : dict rval) : Prop := dget rq "response_types" = Some (RList ["code"]).

(** The rules for redirect URIs. *)
Definition acceptable (rq : dict rval) (u : string) : Prop :=
  (is_native rq ->
     (~ with_scheme u "http" /\ ~ with_scheme u "https") \/ at_loopback u \/ with_bracket u) /\
  (~ is_native rq -> no_fragment u /\ (with_scheme u "https" \/ with_scheme u "http")) /\
  (is_web rq -> ~ only_codes rq -> with_scheme u "https").

(** A value asked for is among the values [l] the provider lists. Response types
    and authentication contexts are sets of words. *)
Definition asked (v : rval) (s : string) : Prop := v = RStr s \/ exists l, v = RList l /\ In s l.
Definition listed (pref : string) (l : list string) (v : rval) : Prop :=
  if smem pref ["response_types"; "default_acr_values"]
  then (forall l' s, v = RList l' -> In s l' -> exists r, In r l /\ same_words s r) /\
       (forall s w, v = RStr s -> In w (py_split " " s) -> exists r, In r l /\ same_words w r)
  else forall s, asked v s -> In s l.

(** The preferences in [c] are ones the provider lists. *)
Definition preferences_listed (info : dict cval) (c : dict rval) : Prop :=
  forall pref prov v l, In (pref, prov) preferences -> dget c pref = Some v ->
    dget info prov = Some (CList l) -> listed pref l v.

(** What is assumed of the libraries: dicts have no key twice, random strings
    differ and are not empty. *)
Record reg_laws (G : regconf) : Prop := mk_reg_laws {
  rl_dict : forall rq rq', g_prepare G rq = Ok rq' -> NoDup (dkeys rq');
  rl_rnd : forall n m, g_rnd G n = g_rnd G m -> n = m;
  rl_text : forall n, g_rnd G n <> ""
}.

(** ** Histories of registrations *)
Definition regop : Type := (Z * dict rval)%type.
Definition regev : Type := res (regres (string * dict rval)).
Fixpoint rrun (G : regconf) (ops : list regop) (x : rctx) : list regev * rctx :=
  match ops with
  | [] => ([], x)
  | (now, rq) :: r => let (e, x1) := register G now rq x in
                      let (es, x2) := rrun G r x1 in (e :: es, x2)
  end.
(** The provider starts with some clients, none with an empty name, and without
    registration access tokens. *)
Definition fresh_start (x : rctx) : Prop := x_rat x = [] /\ dget (x_cdb x) "" = None.

(** In the [i]-th registration the client [c] was registered, and told [args]. *)
Definition registered_at (ops : list regop) (evs : list regev) (i : nat) (rq : dict rval)
    (c : string) (args : dict rval) : Prop :=
  exists now, nth_error ops i = Some (now, rq) /\ nth_error evs i = Some (Ok (Done (c, args))).
(** ... and was given the token [t]: the request did not bring one itself. *)
Definition given (G : regconf) (ops : list regop) (evs : list regev) (i : nat)
    (c t : string) (args : dict rval) : Prop :=
  exists rq rq', registered_at ops evs i rq c args /\ g_prepare G rq = Ok rq' /\
    dget rq' "registration_access_token" = None /\
    dget args "registration_access_token" = Some (RStr t).

(** A request to read the registration of [c] with the token [t]. *)
Definition reads_with (q : creq) (hdr : option string) (c t : string) : Prop :=
  cr_client_id q = Some c /\ hdr = Some (append "Bearer " t).
