(** The fixed surroundings of the session layer (configuration, client
    database, cryptography) and its mutable state. *)
From Verif Require Import M_Base M_Types M_Codec M_Grant.

(** ** Clients: the members of an entry of [endpoint_context.cdb] that the
    session and token code reads. Registration, client authentication and
    redirection read others; see their own model files. *)
Record client : Type := mk_client {
  c_grant_types : option (list string);          (* grant_types_supported *)
  c_allowed_scopes : option (list string);       (* allowed_scopes *)
  c_scopes_to_claims : option (dict (list string)); (* scopes_to_claims *)
  c_rules : option (dict rule);                  (* token_usage_rules *)
  c_revoke_refresh : option bool;                (* revoke_refresh_on_issue *)
  c_by_scope : dict bool;                        (* add_claims.by_scope *)
  c_idt_alg : option string;                     (* id_token_signed_response_alg *)
  c_bc_logout : bool;                            (* has backchannel_logout_uri *)
  c_fc_logout : bool                             (* has frontchannel_logout_uri *)
}.

(** The [kwargs] of a module that can release claims (the userinfo and
    introspection endpoints, the ID token and access token handlers):
    src/oidcop/session/claims.py 101-117. always_add_claims may be a list, which
    the code turns into a dict with null specifications (120-121); the model
    holds the dict. *)
Record cmodule : Type := mk_cmodule {
  m_base : dict cspec;
  m_per_client : bool;
  m_by_scope : bool;
  m_always : dict cspec
}.

(** ** Token handlers: src/oidcop/token/__init__.py 78-82 (DefaultToken),
    src/oidcop/token/jwt_token.py 16-43 (JWTToken),
    src/oidcop/token/id_token.py 119-131 (IDToken). *)
Inductive handler : Type :=
| HDefault (pw cls : string) (lifetime : Z)
| HJWT (cls alg iss : string) (lifetime : Z)
| HId (lifetime : Z).

(** grant_config of the authorization policy: src/oidcop/authz/__init__.py
    18-21. Of its members, expires_in, usage_rules and scope are modelled;
    any other is copied onto the grant as an attribute (line 78). *)
Record gconf : Type := mk_gconf {
  gc_exp : option Z;
  gc_rules : option (dict rule);
  gc_scope : option (list string)
}.

Record env : Type := mk_env {
  e_oidc : bool;              (* OpenID Connect or plain OAuth2 classes *)
  e_limit : nat;              (* Python's recursion limit *)
  e_crypto : crypto;
  e_skey : string;            (* SessionManager.key *)
  (* cryptojwt: JWT(...).pack with algorithm, randomness and all claims;
     JWT(...).unpack with the allowed algorithms; factory(token).jwt.payload();
     left_hash *)
  e_sign : string -> nat -> dict jval -> res string;
  e_verify : list string -> string -> res (dict jval);
  e_peek : string -> option (dict jval);
  e_left_hash : string -> string -> string;
  e_uuid : nat -> string;     (* uuid1().hex, as a function of the draw *)
  e_rnd : nat -> string;      (* rndstr(32) *)
  e_issuer : string;
  e_handlers : dict handler;  (* token_handler.handler, in handler_order *)
  e_modules : dict cmodule;   (* by release point *)
  e_clients : dict client;
  e_users : option (string -> dict jval); (* user info; unknown user: [] *)
  e_scopes : list string;     (* Scopes.allowed_scopes *)
  e_scope_map : dict (list string);
  e_grant_types : option (list string); (* provider_info.grant_types_supported *)
  e_helpers : list string;    (* grant types with a helper at the token endpoint *)
  e_authz : gconf;
  e_implicit : bool;          (* authz.Implicit instead of AuthzHandling *)
  e_sub : string -> string -> string; (* sub_func["public"](user, salt, sector) *)
  e_revoke_refresh : bool;    (* Token(revoke_refresh_on_issue=...) *)
  e_dpop : bool;              (* context.dpop_enabled *)
  e_dpop_info : bool;         (* dpop_signing_alg_values_supported advertised *)
  e_idt_alg_def : option string;  (* jwx_def["signing_alg"]["id_token"] *)
  e_idt_algs : list string;   (* id_token_signing_alg_values_supported *)
  e_bc_sid : bool;            (* back-channel logout with session supported *)
  e_fc_sid : bool;
  e_pkce : bool;              (* the PKCE add-on is in use *)
  (* CC_METHOD["S256"] and its likes: src/oidcop/oidc/add_on/pkce.py 16-30; they
     raise on a verifier that is not ASCII *)
  e_cc_hash : string -> string -> res string
}.

(** ** State. Python objects live in a heap, so that two names for one object
    are modelled; the session database maps keys to heap locations. *)

(** UserSessionInfo and ClientSessionInfo: src/oidcop/session/info.py 7-66.
    [si_id] is user_id or client_id; extra_args is not modelled. *)
Record sinfo : Type := mk_sinfo {
  si_sub : list string;
  si_revoked : bool;
  si_client : bool;           (* ClientSessionInfo rather than UserSessionInfo *)
  si_id : string
}.

Inductive obj : Type :=
| OInfo (i : sinfo)
| OGrant (g : grant)
| ONone.

Record st : Type := mk_st {
  s_heap : list obj;
  s_db : dict nat;
  s_ctr : nat;                          (* number of random draws so far *)
  s_always : dict (dict (list string))  (* client -> add_claims.always *)
}.

Definition st_init (always : dict (dict (list string))) : st := mk_st [] [] 0 always.

(** A random draw. *)
Definition tick : M st nat :=
  fun s => (Ok (s_ctr s), mk_st (s_heap s) (s_db s) (S (s_ctr s)) (s_always s)).

Definition deref (l : nat) : M st obj :=
  fun s => match nth_error (s_heap s) l with
           | Some o => (Ok o, s)
           | None => (Raise (Other 0), s)
           end.
Definition new_obj (o : obj) : M st nat :=
  fun s => (Ok (List.length (s_heap s)),
            mk_st (s_heap s ++ [o]) (s_db s) (s_ctr s) (s_always s)).
Definition upd_obj (l : nat) (f : obj -> obj) : M st unit :=
  fun s => (Ok tt, mk_st (upd_nth l f (s_heap s)) (s_db s) (s_ctr s) (s_always s)).
Definition db_put (k : string) (l : nat) : M st unit :=
  fun s => (Ok tt, mk_st (s_heap s) (dset (s_db s) k l) (s_ctr s) (s_always s)).
(** [self.db.__delitem__(k)]. *)
Definition db_del (k : string) : M st unit :=
  fun s => match dget (s_db s) k with
           | Some _ => (Ok tt, mk_st (s_heap s) (ddel (s_db s) k) (s_ctr s) (s_always s))
           | None => (Raise KeyError, s)
           end.
Definition db_lookup (k : string) : M st (option nat) :=
  fun s => (Ok (dget (s_db s) k), s).

Definition on_info (f : sinfo -> sinfo) (o : obj) : obj :=
  match o with OInfo i => OInfo (f i) | o => o end.
Definition on_grant (f : grant -> grant) (o : obj) : obj :=
  match o with OGrant g => OGrant (f g) | o => o end.

(** [x.subordinate]: only session infos have that attribute. *)
Definition subordinate (l : nat) : M st (list string) :=
  o <- deref l ;;
  match o with OInfo i => ret (si_sub i) | _ => raise AttributeError end.

(** The grant at a location; using grant attributes on anything else raises
    AttributeError. *)
Definition grant_at (l : nat) : M st grant :=
  o <- deref l ;;
  match o with OGrant g => ret g | _ => raise AttributeError end.

Definition si_set_sub (s : list string) (i : sinfo) : sinfo :=
  mk_sinfo s (si_revoked i) (si_client i) (si_id i).
Definition si_revoke (i : sinfo) : sinfo :=
  mk_sinfo (si_sub i) true (si_client i) (si_id i).
(** SessionInfo.add_subordinate: src/oidcop/session/info.py 23-26. *)
Definition si_add (v : string) (i : sinfo) : sinfo :=
  if smem v (si_sub i) then i else si_set_sub (si_sub i ++ [v]) i.
Definition new_user_info (u : string) : sinfo := mk_sinfo [] false false u.
Definition new_client_info (c : string) : sinfo := mk_sinfo [] false true c.
