(** Specification vocabulary for the claims released in a history. *)
From Verif Require Import M_Base M_Types M_Codec M_Grant M_Env M_Session M_Claims M_Handler M_History
  S_Claims S_History.

(** What the claims parameter of the request [ar] says about the claim [k] at a
    release point. *)
Definition request_says (ar : areq) (point k : string) (sp : cspec) : Prop :=
  exists cl d, ar_claims ar = Some cl /\ dget cl point = Some d /\ dget d k = Some sp.

(** The attribute [k] of the user [u], with value [v], is one that may be
    released at [point] under the grant [g] for the request [ar]: the request
    asks for it, or a scope that was authorized and that the client may have
    stands for it, or the provider was configured to release it there, for all
    or for this client. [always] is the configuration of the clients when the
    provider was started. If the request restricts the claim, the value
    matches. *)
Definition authorized_claim (e : env) (always : dict (dict (list string))) (g : grant) (ar : areq)
    (point u k : string) (v : jval) : Prop :=
  (exists sc, (forall x, In x sc -> authorized_scope e g x)
     /\ releasable e (st_init always) (Some ar) point sc (ar_client_id ar) "" u k v)
  /\ (forall sp, request_says ar point k sp -> claims_match (Some v) sp = Ok true).

(** The dicts of the configuration and of the request [ar] have no key twice. *)
Definition proper_dicts (e : env) (ar : areq) : Prop :=
  (forall p m, In (p, m) (e_modules e) -> NoDup (dkeys (m_base m)))
  /\ (forall cl p d, ar_claims ar = Some cl -> In (p, d) cl -> NoDup (dkeys d)).

(** The request [ar], made with the scopes [sc], asks for the claim [k] at
    [point], with the restriction [sp]: by its claims parameter, or else by a
    scope, where claims by scope are switched on. *)
Definition asks_by_scope (e : env) (ar : areq) (point : string) (sc : list string) (k : string) : Prop :=
  exists m scope names mp, dget (e_modules e) point = Some m /\ m_by_scope m = true
    /\ In scope sc /\ scope_allowed e (ar_client_id ar) scope
    /\ (mapping e (ar_client_id ar) mp /\ mp <> [] \/ (mapping e (ar_client_id ar) [] /\ mp = SCOPE2CLAIMS))
    /\ dget mp scope = Some names /\ In k names.
Definition asks (e : env) (ar : areq) (point : string) (sc : list string) (k : string) (sp : cspec) : Prop :=
  request_says ar point k sp
  \/ (sp = None /\ (forall sp', ~ request_says ar point k sp') /\ asks_by_scope e ar point sc k).

(** The members of an introspection response that tell about the token [t] of
    the grant [g], which is the grant of the user [u] for the client [c]. *)
Inductive about (e : env) (g : grant) (t : token) (u c : string) (release : bool) : string -> jval -> Prop :=
| ab_scope l : reported_scope g t l -> about e g t u c release "scope" (JStr (py_join " " l))
| ab_client : about e g t u c release "client_id" (JStr c)
| ab_exp : about e g t u c release "exp" (JInt (t_exp t))
| ab_iat : about e g t u c release "iat" (JInt (t_issued t))
| ab_sub : about e g t u c release "sub" (JStr (g_sub g))
| ab_iss : about e g t u c release "iss" (JStr (e_issuer e))
| ab_type x : reported_type t (Some x) -> about e g t u c release "token_type" (JStr x)
| ab_aud l : reported_aud g t l -> about e g t u c release "aud" (JList (map JStr l))
| ab_username : release = true -> about e g t u c release "username" (JStr u).
