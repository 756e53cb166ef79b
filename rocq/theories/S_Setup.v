(** Specification vocabulary for the set-up of a provider. *)
From Verif Require Import M_Base M_Types M_Codec M_Env M_Claims M_Uri M_ClientAuthn M_Setup S_Codec.

(** ** Client authentication *)

(** [s] names the attribute [a] of the module [m]: "m:a", or "m.a". *)
Inductive object_path (s m a : string) : Prop :=
| op_colon : s = append m (append ":" a) -> ~ occurs_in ":" m -> ~ occurs_in ":" a -> object_path s m a
| op_dot : ~ occurs_in ":" s -> s = append m (append "." a) -> ~ occurs_in "." a -> object_path s m a.

(** The names of OpenID Connect Core 9 and RFC 6750, and one of the project. *)
Inductive standard_name : string -> meth -> Prop :=
| sn_basic : standard_name "client_secret_basic" MBasic
| sn_post : standard_name "client_secret_post" MPost
| sn_secret_jwt : standard_name "client_secret_jwt" MSecretJWT
| sn_private_jwt : standard_name "private_key_jwt" MPrivateJWT
| sn_header : standard_name "bearer_header" MBearerHeader
| sn_body : standard_name "bearer_body" MBearerBody
| sn_param : standard_name "request_param" MRequestParam.

(** The item of a configured list says that no authentication is needed. *)
Definition says_none (item : option string) : Prop :=
  item = None \/ exists s, item = Some s /\ lower s = "none".

(** The item names the method. [load m a] is the attribute [a] of the module
    [m]. *)
Inductive names_method (load : string -> string -> res meth) : option string -> meth -> Prop :=
| nm_none item : says_none item -> names_method load item MNone
| nm_standard s m : standard_name s m -> names_method load (Some s) m
| nm_own s md a m : lower s <> "none" -> (forall m', ~ standard_name s m') -> object_path s md a ->
    load md a = Ok m -> names_method load (Some s) m.

(** ** Configuration *)

(** A value counts as given: it is not null, false, 0, or empty. *)
Definition filled (v : kval) : Prop :=
  match v with
  | KNull => False | KBool b => b = true | KNum z => z <> 0%Z | KText s => s <> ""
  | KItems l => l <> [] | KMap d => d <> []
  end.

(** The value of a parameter: as given, else the default. *)
Inductive chosen (defaults : dict kval) (fmt : kval -> kval) (given : dict kval) (key : string) : kval -> Prop :=
| ch_given v : dget given key = Some v -> filled v -> chosen defaults fmt given key v
| ch_default d : (forall v, dget given key = Some v -> ~ filled v) -> dget defaults key = Some d ->
    chosen defaults fmt given key (fmt d).

(** The parameters of an authorization server or of an OpenID provider. *)
Definition is_params (params : list string) : Prop := params = as_parameters \/ params = op_parameters.

(** The parameters that the code which sets up an authorization server reads
    from its configuration, and what an OpenID provider has besides. *)
Inductive server_parameter : string -> Prop :=
| sp_issuer : server_parameter "issuer"            | sp_keys : server_parameter "keys"
| sp_endpoint : server_parameter "endpoint"        | sp_authn : server_parameter "authentication"
| sp_authz : server_parameter "authz"              | sp_capabilities : server_parameter "capabilities"
| sp_claims : server_parameter "claims_interface"  | sp_cookies : server_parameter "cookie_handler"
| sp_clients : server_parameter "client_db"        | sp_session : server_parameter "session_params"
| sp_tokens : server_parameter "token_handler_args" | sp_userinfo : server_parameter "userinfo"
| sp_templates : server_parameter "template_dir"   | sp_add_on : server_parameter "add_on"
| sp_base_url : server_parameter "base_url"        | sp_http : server_parameter "httpc_params".
Inductive provider_parameter : string -> Prop :=
| pp_server n : server_parameter n -> provider_parameter n
| pp_id_token : provider_parameter "id_token"
| pp_hint_acr : provider_parameter "login_hint2acrs"
| pp_hint : provider_parameter "login_hint_lookup"
| pp_sub : provider_parameter "sub_func"
| pp_scopes : provider_parameter "scopes_to_claims".

(** ** Token handlers *)

(** The specification [s] is that of the tokens called [cls], whose key is
    called [kid]. *)
Definition asked_for_tokens (code token refresh : option tspec) (kid cls : string) (s : tspec) : Prop :=
  (kid = "code" /\ cls = "authorization_code" /\ code = Some s)
  \/ (kid = "token" /\ cls = "access_token" /\ token = Some s)
  \/ (kid = "refresh" /\ cls = "refresh_token" /\ refresh = Some s).

(** A member of the arguments. *)
Definition in_kwargs {A} (s : tspec) (f : tkw -> option A) (x : A) : Prop :=
  exists k, ts_kwargs s = Some k /\ f k = Some x.

(** The lifetime the specification asks for: its own member, then that of the
    arguments, then the default [d] of the class. *)
Inductive wants_lifetime (s : tspec) (d : Z) : Z -> Prop :=
| wl_own z : ts_lifetime s = Some z -> z <> 0%Z -> wants_lifetime s d z
| wl_kwargs z : (forall y, ts_lifetime s = Some y -> y = 0%Z) -> in_kwargs s kw_lifetime z -> wants_lifetime s d z
| wl_default : (forall y, ts_lifetime s = Some y -> y = 0%Z) -> (forall z, ~ in_kwargs s kw_lifetime z) ->
    wants_lifetime s d d.

(** The key of an opaque handler: the one of the key jar; else, or when the
    specification has arguments as well, the specification's member "password";
    else the one of the arguments. *)
Inductive wants_key (s : tspec) (jar : option string) : string -> Prop :=
| wk_jar p : jar = Some p -> ts_password s = None \/ ts_kwargs s = None -> wants_key s jar p
| wk_own p : ts_password s = Some p -> jar = None \/ ts_kwargs s <> None -> wants_key s jar p
| wk_kwargs p : jar = None -> ts_password s = None -> in_kwargs s kw_password p -> wants_key s jar p.

(** The algorithm and the issuer a specification of a JWT handler asks for. *)
Definition asks_alg (s : tspec) (a : string) : Prop :=
  in_kwargs s kw_alg a \/ ((forall x, ~ in_kwargs s kw_alg x) /\ a = "ES256").
Definition asks_issuer (s : tspec) (issuer i : string) : Prop :=
  (in_kwargs s kw_issuer i /\ i <> "") \/ ((forall x, in_kwargs s kw_issuer x -> x = "") /\ i = issuer).

(** The names of the JWT and the ID token class. *)
Definition jwt_class (c : string) : Prop := c = "oidcop.token.jwt_token.JWTToken" \/ c = "oidcop.token.jwt_token:JWTToken".
Definition id_class (c : string) : Prop := c = "oidcop.token.id_token.IDToken" \/ c = "oidcop.token.id_token:IDToken".

(** ** Scopes *)

(** The provider with these scopes. *)
Definition with_scopes (e : env) (s : scopes_st) : env :=
  mk_env (e_oidc e) (e_limit e) (e_crypto e) (e_skey e) (e_sign e) (e_verify e) (e_peek e) (e_left_hash e)
    (e_uuid e) (e_rnd e) (e_issuer e) (e_handlers e) (e_modules e) (e_clients e) (e_users e)
    (so_allowed s) (so_map s) (e_grant_types e) (e_helpers e) (e_authz e) (e_implicit e) (e_sub e)
    (e_revoke_refresh e) (e_dpop e) (e_dpop_info e) (e_idt_alg_def e) (e_idt_algs e) (e_bc_sid e)
    (e_fc_sid e) (e_pkce e) (e_cc_hash e).

(** The client has no scopes or mapping of its own. *)
Definition plain_client (e : env) (cid : string) : Prop :=
  forall c, dget (e_clients e) cid = Some c -> c_allowed_scopes c = None /\ c_scopes_to_claims c = None.
