(** Model of the add-on that adds attributes of the provider to responses
    (src/oidcop/oauth2/add_on/extra_args.py) and of the place where an endpoint
    runs it (src/oidcop/endpoint.py 245-253, 280-299). *)
From Verif Require Import M_Base M_Uri M_Types M_Env M_TokenEP M_AuthzEP M_Response.

(** The class of the response arguments, as far as [isinstance] tells them apart
    in pre_construct (src/oidcop/oauth2/add_on/extra_args.py 21-32); a
    dictionary and the error classes are [KOther]. The authorization response
    of OpenID Connect is both of the first two (oidcmsg): the first is tried
    first. *)
Inductive rkind : Type := KAuthz | KAccess | KExchange | KIntrospection | KSchema | KOther.

(** The key of the configuration that a class is looked up under: 21-32. *)
Definition kind_key (k : rkind) : option string :=
  match k with
  | KAuthz => Some "authorization"
  | KAccess => Some "accesstoken"
  | KExchange => Some "token_exchange"
  | KIntrospection => Some "token_introspection"
  | KSchema => Some "userinfo"
  | KOther => None
  end.

(** The keyword arguments of the add-on: for each key, response arguments and
    the names of the attributes they are taken from. *)
Definition xconf : Type := dict (dict string).

(** Python's truth of a value. *)
Definition mval_true (v : mval) : bool :=
  match v with MStr s => str_true s | MInt n => negb (Z.eqb n 0) | MList l => match l with [] => false | _ => true end end.

(** The loop of pre_construct: 34-37. [attrs]: the attributes of the endpoint
    context, as far as they are texts, numbers and lists of texts (an attribute
    that is None is an empty text here). *)
Fixpoint add_args (attrs : dict mval) (args : dict string) (m : message) : res message :=
  match args with
  | [] => Ok m
  | (arg, param) :: r =>
      match dget attrs param with
      | None => Raise AttributeError
      | Some v => add_args attrs r (if mval_true v then dset m arg v else m)
      end
  end.

(** pre_construct: 8-39. [extra]: endpoint_context.add_on.get("extra_args"). *)
Definition pre_construct (attrs : dict mval) (extra : option xconf) (k : rkind) (m : message) : res message :=
  match extra with
  | None | Some [] => Ok m
  | Some x =>
      add_args attrs (match kind_key k with
                      | Some key => match dget x key with Some a => a | None => [] end
                      | None => []
                      end) m
  end.

(** What the add-on changes in a provider: how many times pre_construct is in
    the list of each endpoint, by the name of the endpoint, and
    endpoint_context.add_on["extra_args"]. *)
Record xstate : Type := mk_xstate { xs_hooks : dict nat; xs_extra : option xconf }.

(** A provider with the given endpoints, without the add-on
    (src/oidcop/endpoint.py 97, src/oidcop/endpoint_context.py 151). *)
Definition x_init (names : list string) : xstate := mk_xstate (map (fun n => (n, O)) names) None.

(** add_support: 42-52. If an endpoint does not exist the set-up fails. *)
Fixpoint add_hooks (kwargs : xconf) (keys : list string) (s : xstate) : res xstate :=
  match keys with
  | [] => Ok s
  | n :: r =>
      match dget (xs_hooks s) n with
      | None => Raise KeyError
      | Some c => add_hooks kwargs r (mk_xstate (dset (xs_hooks s) n (S c)) (Some kwargs))
      end
  end.
Definition add_support (kwargs : xconf) (s : xstate) : res xstate := add_hooks kwargs (dkeys kwargs) s.

(** Endpoint.do_pre_construct (src/oidcop/endpoint.py 245-253), for an endpoint
    that has no other function in its list. *)
Fixpoint do_pre_construct (attrs : dict mval) (extra : option xconf) (k : rkind) (times : nat) (m : message) : res message :=
  match times with
  | O => Ok m
  | S n => rbind (pre_construct attrs extra k m) (do_pre_construct attrs extra k n)
  end.

(** Endpoint.do_response (src/oidcop/endpoint.py 309-412) of the endpoint [name]:
    the functions run only where [construct] is called (350-351), that is, on a
    response that is neither an error nor a ready text. *)
Definition with_args (a : rargs) (m : message) : rargs :=
  mk_rargs m (ra_error a) (ra_more a) (ra_msg a) (ra_placement a) (ra_ctype a) (ra_frag a) (ra_rtype a) (ra_uri a)
    (ra_headers a) (ra_cookie a) (ra_code a).
Definition extended_response (attrs : dict mval) (s : xstate) (name : string) (k : rkind) (c : rclass) (a : rargs) : res rout :=
  if str_true (ra_error a) then do_response c a
  else match ra_msg a with
  | Some _ => do_response c a
  | None =>
      match dget (xs_hooks s) name with
      | None => Raise KeyError
      | Some times =>
          rbind (do_pre_construct attrs (xs_extra s) k times (ra_args a)) (fun m => do_response c (with_args a m))
      end
  end.

(** The class of the response arguments of the authorization endpoint: an
    AuthorizationResponse (src/oidcop/oauth2/authorization.py 722), or an error
    (312-317). *)
Definition answer_kind (o : aout) : rkind := match ao_args o with Good _ => KAuthz | Err _ => KOther end.

(** The names of the endpoints of the package (the class attribute [name] of each
    class in src/oidcop/oauth2 and src/oidcop/oidc). *)
Definition PACKAGE_NAMES : list string :=
  ["authorization"; "token"; "introspection"; "pushed_authorization"; "registration"; "registration_read"; "discovery";
   "userinfo"; "session"; "provider_config"].

(** The class of the response arguments that process_request of an endpoint
    other than the authorization endpoint gives: introspection
    (src/oidcop/oauth2/introspection.py 89), a dictionary at the token endpoint
    (src/oidcop/oauth2/token.py 148, 273; src/oidcop/oidc/token.py 94, 242),
    classes of their own elsewhere. The userinfo endpoint has its own do_response
    and never calls construct (src/oidcop/oidc/userinfo.py 52-110). *)
Definition endpoint_kind (name : string) : rkind :=
  if String.eqb name "introspection" then KIntrospection else KOther.
