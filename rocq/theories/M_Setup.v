(** Setting up a provider: the configuration (src/oidcop/configure.py), the
    client authentication methods of the endpoints (src/oidcop/endpoint.py,
    server.py, client_authn.py), the token handlers
    (src/oidcop/token/handler.py), the scopes handler and the add-on for custom
    scopes (src/oidcop/oidc/add_on/custom_scopes.py), and the document the
    provider configuration endpoint serves. *)
From Verif Require Import M_Base M_Types M_Codec M_Env M_Claims M_Meta M_Uri M_ClientAuthn.

(** ** Importing by name *)

(** modsplit: src/oidcop/util.py 24-35. *)
Definition modsplit (s : string) : res (string * string) :=
  if contains ":" s then
    match py_split ":" s with
    | [a; b] => Ok (a, b)
    | _ => Raise ValueError
    end
  else
    let c := py_split "." s in
    if Nat.ltb (List.length c) 2 then Raise ValueError
    else Ok (py_join "." (removelast c), last c "").

(** importer: src/oidcop/util.py 38-42. [load] is import_module and getattr. *)
Definition importer {A} (load : string -> string -> res A) (name : string) : res A :=
  rbind (modsplit name) (fun p => load (fst p) (snd p)).

(** ** Client authentication methods of an endpoint *)

(** CLIENT_AUTHN_METHOD: src/oidcop/client_authn.py 303-312, without the entry
    "none", which is never looked up. *)
Definition methods_by_name : dict meth :=
  [ ("client_secret_basic", MBasic); ("client_secret_post", MPost);
    ("bearer_header", MBearerHeader); ("bearer_body", MBearerBody);
    ("client_secret_jwt", MSecretJWT); ("private_key_jwt", MPrivateJWT);
    ("request_param", MRequestParam) ].

(** client_auth_setup: src/oidcop/client_authn.py 423-436. *)
Definition setup_one (load : string -> string -> res meth) (item : option string) : res meth :=
  match item with
  | None => Ok MNone
  | Some s =>
      if String.eqb (lower s) "none" then Ok MNone
      else match dget methods_by_name s with
           | Some m => Ok m
           | None => importer load s
           end
  end.
Fixpoint client_auth_setup (load : string -> string -> res meth) (l : list (option string))
  : res (list meth) :=
  match l with
  | [] => Ok []
  | x :: r => rbind (setup_one load x) (fun m => rbind (client_auth_setup load r) (fun ms => Ok (m :: ms)))
  end.

(** The value of client_authn_method in the arguments of an endpoint: a list, or
    a text, which is gone through letter by letter. *)
Inductive authn_conf := AItems (l : list (option string)) | AText (s : string).
Definition authn_items (a : authn_conf) : list (option string) :=
  match a with AItems l => l | AText s => map Some (chars s) end.

(** The methods of an endpoint: src/oidcop/endpoint.py 114-124, and again in
    src/oidcop/server.py 97-113. [kw] is the argument, [None] when it is missing
    or null; [defaults] is default_capabilities. *)
Definition endpoint_methods (load : string -> string -> res meth) (kw : option authn_conf)
    (defaults : option (dict (option cval))) : res (list meth) :=
  match kw with
  | Some a => if list_true (authn_items a) then client_auth_setup load (authn_items a) else Ok [MNone]
  | None =>
      match defaults with
      | None => Ok []
      | Some d => match dget d "client_authn_method" with
                  | Some (Some (CList l)) => client_auth_setup load (map Some l)
                  | Some (Some (CStr s)) => client_auth_setup load (map Some (chars s))
                  | _ => Ok []
                  end
      end
  end.

(** allowed_target_uris: src/oidcop/endpoint.py 417-425. [paths] has the
    full_path of every endpoint; an endpoint that is not there is None, which has
    no full_path. *)
Fixpoint allowed_target_uris (issuer : string) (paths : dict string) (targets : list string)
  : res (list string) :=
  match targets with
  | [] => Ok []
  | t :: r =>
      rbind (if String.eqb t "" then Ok issuer
             else match dget paths t with Some p => Ok p | None => Raise AttributeError end) (fun u =>
      rbind (allowed_target_uris issuer paths r) (fun us => Ok (u :: us)))
  end.

(** ** The configuration *)

(** Values of a configuration. *)
Inductive kval : Type :=
| KNull | KBool (b : bool) | KNum (z : Z) | KText (s : string)
| KItems (l : list kval) | KMap (d : list (string * kval)).
Definition ktrue (v : kval) : bool :=
  match v with
  | KNull => false
  | KBool b => b
  | KNum z => negb (Z.eqb z 0)
  | KText s => str_true s
  | KItems l => match l with [] => false | _ => true end
  | KMap d => match d with [] => false | _ => true end
  end.

(** EntityConfiguration.parameter: src/oidcop/configure.py 96-113, and what
    OPConfiguration adds: 161-170. *)
Definition as_parameters : list string :=
  [ "add_on"; "authz"; "authentication"; "base_url"; "capabilities"; "claims_interface"; "client_db";
    "cookie_handler"; "endpoint"; "httpc_params"; "issuer"; "keys"; "session_params"; "template_dir";
    "token_handler_args"; "userinfo" ].
Definition op_parameters : list string :=
  as_parameters ++ [ "id_token"; "login_hint2acrs"; "login_hint_lookup"; "sub_func"; "scopes_to_claims" ].

(** EntityConfiguration.__init__: src/oidcop/configure.py 115-155, for the
    parameters and the defaults of the class. [given] is the configuration after
    the copy and Base.__init__ of oidcmsg, which adds paths to file names;
    [fmt] is Base.format, which sets the domain and the port; [abspath] is
    os.path.abspath. Warnings are left out. Base is a dict, empty at the start,
    in which setattr puts items: what is not set here is not in the
    configuration. *)
Fixpoint configure (defaults : dict kval) (fmt : kval -> kval) (abspath : string -> string)
    (params : list string) (given acc : dict kval) : res (dict kval) :=
  match params with
  | [] => Ok acc
  | key :: r =>
      let v := match dget given key with
               | Some v => if ktrue v then Some v else option_map fmt (dget defaults key)
               | None => option_map fmt (dget defaults key)
               end in
      match v with
      | None => configure defaults fmt abspath r given acc
      | Some v =>
          rbind (if String.eqb key "template_dir" then
                   match v with KText s => Ok (KText (abspath s)) | _ => Raise TypeError end
                 else Ok v) (fun v =>
          configure defaults fmt abspath r given
            (dset acc (if String.eqb key "keys" then "key_conf" else key) v))
      end
  end.

(** OP_DEFAULT_CONFIG: src/oidcop/configure.py 15-84. *)
Definition ktexts (l : list string) : kval := KItems (map KText l).
Definition op_defaults : dict kval := [
  ("capabilities", KMap [
     ("subject_types_supported", ktexts ["public"; "pairwise"]);
     ("grant_types_supported", ktexts ["authorization_code"; "implicit";
        "urn:ietf:params:oauth:grant-type:jwt-bearer"; "refresh_token"])]);
  ("cookie_handler", KMap [
     ("class", KText "oidcop.cookie_handler.CookieHandler");
     ("kwargs", KMap [
        ("keys", KMap [
           ("private_path", KText "private/cookie_jwks.json");
           ("key_defs", KItems [
              KMap [("type", KText "OCT"); ("use", ktexts ["enc"]); ("kid", KText "enc")];
              KMap [("type", KText "OCT"); ("use", ktexts ["sig"]); ("kid", KText "sig")]]);
           ("read_only", KBool false)]);
        ("name", KMap [("session", KText "oidc_op"); ("register", KText "oidc_op_rp");
           ("session_management", KText "sman")])])]);
  ("claims_interface", KMap [("class", KText "oidcop.session.claims.ClaimsInterface"); ("kwargs", KMap [])]);
  ("authz", KMap [
     ("class", KText "oidcop.authz.AuthzHandling");
     ("kwargs", KMap [("grant_config", KMap [
        ("usage_rules", KMap [
           ("authorization_code", KMap [
              ("supports_minting", ktexts ["access_token"; "refresh_token"; "id_token"]);
              ("max_usage", KNum 1)]);
           ("access_token", KMap []);
           ("refresh_token", KMap [
              ("supports_minting", ktexts ["access_token"; "refresh_token"]);
              ("expires_in", KNum (-1))])]);
        ("expires_in", KNum 43200)])])]);
  ("httpc_params", KMap [("verify", KBool false); ("timeout", KNum 4)]);
  ("issuer", KText "https://{domain}:{port}");
  ("template_dir", KText "templates");
  ("token_handler_args", KMap [
     ("jwks_file", KText "private/token_jwks.json");
     ("code", KMap [("kwargs", KMap [("lifetime", KNum 600)])]);
     ("token", KMap [("class", KText "oidcop.token.jwt_token.JWTToken"); ("kwargs", KMap [("lifetime", KNum 3600)])]);
     ("refresh", KMap [("class", KText "oidcop.token.jwt_token.JWTToken"); ("kwargs", KMap [("lifetime", KNum 86400)])]);
     ("id_token", KMap [("class", KText "oidcop.token.id_token.IDToken"); ("kwargs", KMap [])])]);
  ("scopes_to_claims", KMap (map (fun kv => (fst kv, ktexts (snd kv))) SCOPE2CLAIMS)) ].
(** AS_DEFAULT_CONFIG: src/oidcop/configure.py 86-90. *)
Definition as_defaults : dict kval :=
  dset op_defaults "claims_interface"
    (KMap [("class", KText "oidcop.session.claims.OAuth2ClaimsInterface"); ("kwargs", KMap [])]).

(** ** The token handlers *)

(** The arguments of a handler that are read, and its specification: class,
    kwargs (null when the member is missing), lifetime, password. *)
Record tkw : Type := mk_tkw {
  kw_lifetime : option Z; kw_password : option string; kw_alg : option string; kw_issuer : option string }.
Record tspec : Type := mk_tspec {
  ts_class : option string; ts_kwargs : option tkw; ts_lifetime : option Z; ts_password : option string }.
Definition kw_set_lifetime (z : Z) (k : tkw) : tkw := mk_tkw (Some z) (kw_password k) (kw_alg k) (kw_issuer k).
Definition kw_set_password (p : string) (k : tkw) : tkw := mk_tkw (kw_lifetime k) (Some p) (kw_alg k) (kw_issuer k).

(** default_token: src/oidcop/token/handler.py 133-137. *)
Definition default_token (s : tspec) : bool :=
  match ts_class s with
  | None => true
  | Some c => String.eqb c "oidcop.token.DefaultToken"
  end.

(** _add_passwd: src/oidcop/token/handler.py 114-122. [key] is the first key
    that get_encrypt_key finds. *)
Definition add_passwd (key : option string) (s : tspec) : tspec :=
  match key with
  | None => s
  | Some p => match ts_kwargs s with
              | Some k => mk_tspec (ts_class s) (Some (kw_set_password p k)) (ts_lifetime s) (ts_password s)
              | None => mk_tspec (ts_class s) None (ts_lifetime s) (Some p)
              end
  end.

(** The classes that ship. *)
Inductive hclass := KDefault | KJWT | KId.
Definition load_class (m a : string) : res hclass :=
  if String.eqb m "oidcop.token" && String.eqb a "DefaultToken" then Ok KDefault
  else if String.eqb m "oidcop.token.jwt_token" && String.eqb a "JWTToken" then Ok KJWT
  else if String.eqb m "oidcop.token.id_token" && String.eqb a "IDToken" then Ok KId
  else Raise AttributeError.

(** init_token_handler: src/oidcop/token/handler.py 84-111, with the
    constructors: src/oidcop/token/__init__.py 36-44 and 79-82, jwt_token.py 17-43
    (DEFAULT_TOKEN_LIFETIME of constant.py), id_token.py 119-131. That the
    arguments are written into the configuration is left out. *)
Definition or_else {A} (o : option A) (d : A) : A := match o with Some x => x | None => d end.
Definition handler_kwargs (s : tspec) : tkw :=
  let kw := or_else (ts_kwargs s) (mk_tkw None None None None) in
  match ts_lifetime s with
  | Some z => if Z.eqb z 0 then kw else kw_set_lifetime z kw
  | None => kw
  end.
Definition init_token_handler (issuer : string) (s : tspec) (cls : string) : res handler :=
  let kw := handler_kwargs s in
  rbind (match ts_class s with
         | None => Ok (KDefault, match ts_password s with Some p => kw_set_password p kw | None => kw end)
         | Some c => rbind (importer load_class c) (fun k => Ok (k, kw))
         end) (fun p =>
  let (k, kw) := (p : hclass * tkw) in
  match k with
  | KDefault => match kw_password kw with
                | None => Raise TypeError
                | Some pw => Ok (HDefault pw cls (or_else (kw_lifetime kw) 300%Z))
                end
  | KJWT => Ok (HJWT cls (or_else (kw_alg kw) "ES256")
                  (match kw_issuer kw with Some i => if str_true i then i else issuer | None => issuer end)
                  (or_else (kw_lifetime kw) 1800%Z))
  | KId => Ok (HId (or_else (kw_lifetime kw) 300%Z))
  end).

(** The key definitions of the token handlers' key jar: the kids.
    src/oidcop/token/handler.py 171-187. [given] are those of jwks_def. *)
Definition default_kids (code refresh token : option tspec) : list string :=
  flat_map (fun kc : string * option tspec => match snd kc with
                      | Some s => if default_token s then [fst kc] else []
                      | None => []
                      end) [("code", code); ("refresh", refresh); ("token", token)].
Definition handler_kids (given : list string) (code refresh token : option tspec) : list string :=
  match given with [] => default_kids code refresh token | _ => given end.

(** factory: src/oidcop/token/handler.py 143-204, and TokenHandler.__init__:
    26-43. [jar] is init_key_jar: which key a kid has, when keys are defined for
    these kids. *)
Definition one_handler (issuer : string) (jar : string -> option string) (kid cls : string)
    (o : option tspec) : res (option handler) :=
  match o with
  | None => Ok None
  | Some s =>
      let s := if default_token s then add_passwd (jar kid) s else s in
      rbind (init_token_handler issuer s cls) (fun h => Ok (Some h))
  end.
Definition factory (issuer : string) (jar : list string -> string -> option string) (given : list string)
    (code token refresh id_token : option tspec) : res (dict (option handler)) :=
  let jar := jar (handler_kids given code refresh token) in
  rbind (one_handler issuer jar "code" "authorization_code" code) (fun c =>
  rbind (one_handler issuer jar "token" "access_token" token) (fun t =>
  rbind (one_handler issuer jar "refresh" "refresh_token" refresh) (fun r =>
  rbind (match id_token with
         | None => Ok None
         | Some s => rbind (init_token_handler issuer s "") (fun h => Ok (Some h))
         end) (fun i =>
  Ok ([("authorization_code", c); ("access_token", t)]
      ++ (match r with Some _ => [("refresh_token", r)] | None => [] end)
      ++ (match i with Some _ => [("id_token", i)] | None => [] end)))))).

(** The specifications as they stand in the configuration. A member of another
    kind than the code expects is [TypeError] here, whenever Python would find
    that out; "kwargs" set to null is such a member. *)
Definition read_num (d : dict kval) (k : string) : res (option Z) :=
  match dget d k with None => Ok None | Some (KNum z) => Ok (Some z) | Some _ => Raise TypeError end.
Definition read_text (d : dict kval) (k : string) : res (option string) :=
  match dget d k with None => Ok None | Some (KText s) => Ok (Some s) | Some _ => Raise TypeError end.
Definition read_kw (d : dict kval) : res tkw :=
  rbind (read_num d "lifetime") (fun l => rbind (read_text d "password") (fun p =>
  rbind (read_text d "alg") (fun a => rbind (read_text d "issuer") (fun i => Ok (mk_tkw l p a i))))).
Definition read_spec (d : dict kval) : res tspec :=
  rbind (read_text d "class") (fun c => rbind (read_num d "lifetime") (fun l =>
  rbind (read_text d "password") (fun p =>
  rbind (match dget d "kwargs" with
         | None => Ok None
         | Some (KMap k) => rbind (read_kw k) (fun k => Ok (Some k))
         | Some _ => Raise TypeError
         end) (fun k => Ok (mk_tspec c k l p))))).
Definition read_arg (d : dict kval) (k : string) : res (option tspec) :=
  match dget d k with
  | None | Some KNull => Ok None
  | Some (KMap s) => rbind (read_spec s) (fun s => Ok (Some s))
  | Some _ => Raise TypeError
  end.
Definition read_kids (d : dict kval) : list string :=
  match dget d "jwks_def" with
  | Some (KMap j) =>
      match dget j "key_defs" with
      | Some (KItems l) => flat_map (fun v => match v with
                                              | KMap m => match dget m "kid" with Some (KText k) => [k] | _ => [] end
                                              | _ => [] end) l
      | _ => []
      end
  | _ => []
  end.

(** get_token_handler_args: src/oidcop/endpoint_context.py 64-88. *)
Definition opaque_for (z : Z) : kval := KMap [("lifetime", KNum z)].
Definition oct_key (kid : string) : kval :=
  KMap [("type", KText "oct"); ("bytes", KText "24"); ("use", ktexts ["enc"]); ("kid", KText kid)].
Definition token_handler_args (conf : dict kval) : dict kval :=
  match dget conf "token_handler_args" with
  | Some (KMap (x :: d)) => x :: d
  | _ => [ ("jwks_def", KMap [("private_path", KText "private/token_jwks.json");
                              ("key_defs", KItems [oct_key "code"; oct_key "token"; oct_key "refresh"]);
                              ("read_only", KBool false)]);
           ("code", opaque_for 600); ("token", opaque_for 3600); ("refresh", opaque_for 86400) ]
  end.

(** The handlers of a context: src/oidcop/server.py 87-91 and
    create_session_manager, src/oidcop/session/manager.py 542-545. *)
Definition context_handlers (issuer : string) (jar : list string -> string -> option string)
    (conf : dict kval) : res (dict (option handler)) :=
  let a := token_handler_args conf in
  rbind (read_arg a "code") (fun code => rbind (read_arg a "token") (fun token =>
  rbind (read_arg a "refresh") (fun refresh => rbind (read_arg a "id_token") (fun id_token =>
  factory issuer jar (read_kids a) code token refresh id_token)))).

(** ** Scopes *)

(** What the scopes handler and the metadata say about scopes: _scopes_to_claims,
    allowed_scopes, provider_info's scopes_supported and claims_supported. *)
Record scopes_st : Type := mk_scopes {
  so_map : dict (list string); so_allowed : list string;
  so_supported : list string; so_claims : list string }.

(** Scopes.__init__: src/oidcop/scopes.py 50-57; create_providerinfo:
    src/oidcop/endpoint_context.py 333-338. [sup] and [cl] are scopes_supported
    and claims_supported of the capabilities, if they are there. *)
Definition scopes_start (map : dict (list string)) (allowed : list string)
    (sup cl : option (list string)) : scopes_st :=
  let m := match map with [] => SCOPE2CLAIMS | _ => map end in
  let a := match allowed with [] => dkeys m | _ => allowed end in
  let s := or_else sup a in
  mk_scopes m a s
    (or_else cl (dkeys (convert_scopes2claims (V := unit) (filter (fun x => smem x a) s) m))).

(** The elements of [set(l)] and [set(l')] in one list; Python gives them in no
    particular order. *)
Definition union (l l' : list string) : list string := nodup string_dec (l ++ l').

(** add_custom_scopes: src/oidcop/oidc/add_on/custom_scopes.py 8-33. *)
Definition add_custom_scopes (kwargs : dict (list string)) (s : scopes_st) : scopes_st :=
  let sup := union (so_supported s) (dkeys kwargs) in
  mk_scopes (dupdate SCOPE2CLAIMS kwargs) sup sup
    (union (so_claims s) (List.concat (map snd kwargs))).

(** ** Documents *)

(** ProviderConfiguration.process_request and add_endpoints:
    src/oidcop/oidc/provider_config.py 23-37. What is served is the metadata
    itself, so what add_endpoints writes stays. [paths] has the endpoint_path of
    every endpoint by its name (Server.get_endpoint, src/oidcop/server.py
    138-142). *)
Definition endpoint_members : list string :=
  [ "authorization_endpoint"; "registration_endpoint"; "token_endpoint"; "userinfo_endpoint";
    "end_session_endpoint" ].
Definition serve_metadata (paths : dict string) (info : dict cval) : dict cval :=
  fold_left (fun i n => match dget paths n with Some p => dset i n (CStr p) | None => i end)
    endpoint_members info.
(** The names of the endpoints that ship: the class attributes [name]. *)
Definition shipped_names : list string :=
  [ "authorization"; "token"; "userinfo"; "introspection"; "session"; "registration"; "registration_read";
    "provider_config"; "discovery"; "pushed_authorization" ].
