(** Saving and restoring the session manager, as done when the provider is
    stopped and started again: the [parameter] tables of
    src/oidcop/session/token.py, session/grant.py, session/info.py and
    session/database.py, with the special functions of session/grant.py 75-100.

    The mechanism itself (ImpExp.dump and ImpExp.load, DLDict) belongs to the
    library oidcmsg, which is not in /repo. What is assumed of it:
    - dump writes, for the names in [parameter] and for no others, the
      attributes that are not None, through the special functions where there
      are any;
    - load makes an object with the constructor's default values and then sets
      the attributes that were written;
    - messages (the authorization request, the authentication event) and plain
      values come back as they were;
    - a DLDict is written as {key: [name of the class, dump]} and read back by
      importing the class.
    The dump is written to storage and read by a new process, so nothing is
    shared between the old objects and the new ones. *)
From Verif Require Import M_Base M_Types M_Codec M_Grant M_Env M_Session.

(** ** What is written *)

(** A value of an attribute. The grant's usage_rules dict has two parts in the
    model (M_Grant). *)
Inductive aval : Type :=
| VInt (z : Z)
| VBool (b : bool)
| VStr (x : string)
| VStrs (l : list string)
| VRule (r : rule)
| VRules (mx : option Z) (d : dict rule)
| VRequest (ar : areq)
| VEvent (ae : aevent)
| VClaims (c : claims_map)
| VExtra (d : dict string)
| VTokens (ts : list (string * dict aval)).

(** The dump of an object with the name of its class. *)
Definition saved : Type := (string * dict aval)%type.

(** ** Tables *)

(** Item.parameter: src/oidcop/session/token.py 13-20. *)
Definition item_parameter : list string :=
  ["expires_at"; "issued_at"; "not_before"; "revoked"; "usage_rules"; "used"].

(** SessionToken.parameter: token.py 78-92. "claims" is left out, as the model
    has no claims on tokens. *)
Definition token_parameter : list string :=
  item_parameter ++ ["based_on"; "id"; "name"; "resources"; "scope"; "token_class"; "value"].

(** The Python class of a token of class [tc]: TOKEN_MAP, grant.py 55-60. *)
Definition class_name (tc : string) : option string :=
  dget [ (CODE, "AuthorizationCode"); (ACCESS, "AccessToken");
         (REFRESH, "RefreshToken"); (IDTOKEN, "IDToken") ] tc.
(** The same table read from the class name: importer finds the classes of
    session/token.py by their name. *)
Definition class_token (cls : string) : option string :=
  dget [ ("AuthorizationCode", CODE); ("AccessToken", ACCESS);
         ("RefreshToken", REFRESH); ("IDToken", IDTOKEN) ] cls.

(** AccessToken.parameter (token.py 149-151), IDToken.parameter (211-213); the
    other two classes inherit the table of SessionToken. *)
Definition parameter_of (cls : string) : list string :=
  if String.eqb cls "AccessToken" then token_parameter ++ ["token_type"]
  else if String.eqb cls "IDToken" then token_parameter ++ ["session_id"]
  else token_parameter.

(** Grant.parameter: grant.py 103-117. authorization_details and token_map are
    not modelled. There is no "id" in the table. *)
Definition grant_parameter : list string :=
  item_parameter ++ ["authentication_event"; "authorization_request"; "claims"; "extra";
                     "issued_token"; "resources"; "scope"; "sub"].

(** SessionInfo.parameter (info.py 8), with user_id (45-50) or client_id (62).
    extra_args is never used by the provider and not modelled. *)
Definition info_parameter : list string := ["subordinate"; "revoked"; "type"].
Definition info_parameter_of (client : bool) : list string :=
  info_parameter ++ [if client then "client_id" else "user_id"].

(** ** Reading attributes: [getattr(self, attr, None)], None for Python's None
    and for an attribute that is not there. *)
Definition token_attr (cls : string) (t : token) (a : string) : option aval :=
  if String.eqb a "expires_at" then Some (VInt (t_exp t))
  else if String.eqb a "issued_at" then Some (VInt (t_issued t))
  else if String.eqb a "not_before" then Some (VInt (t_nbf t))
  else if String.eqb a "revoked" then Some (VBool (t_revoked t))
  else if String.eqb a "usage_rules" then Some (VRule (t_rules t))
  else if String.eqb a "used" then Some (VInt (t_used t))
  else if String.eqb a "based_on" then option_map VStr (t_based t)
  else if String.eqb a "id" then Some (VStr (t_id t))
  else if String.eqb a "name" then Some (VStr cls)
  else if String.eqb a "resources" then Some (VStrs (t_resources t))
  else if String.eqb a "scope" then Some (VStrs (t_scope t))
  else if String.eqb a "token_class" then Some (VStr (t_class t))
  else if String.eqb a "value" then Some (VStr (t_value t))
  else if String.eqb a "token_type" then option_map VStr (t_type t)
  else if String.eqb a "session_id" then Some (VStr (t_sid t))
  else None.

(** [info = {attr: dump of it for attr in parameter if it is not None}]. *)
Definition dump_attrs (attr : string -> option aval) (ps : list string) : dict aval :=
  flat_map (fun a => match attr a with Some v => [(a, v)] | None => [] end) ps.

(** issued_token_dump: grant.py 85-90, with qualified_name (63-72): the class is
    named by the token's attribute [name]. A token of another class has no
    name in the model. *)
Definition dump_token (t : token) : option saved :=
  match class_name (t_class t) with
  | Some cls => Some (cls, dump_attrs (token_attr cls t) (parameter_of cls))
  | None => None
  end.

Fixpoint dump_tokens (ts : list token) : option (list saved) :=
  match ts with
  | [] => Some []
  | t :: r => match dump_token t, dump_tokens r with
              | Some d, Some ds => Some (d :: ds)
              | _, _ => None
              end
  end.

Definition grant_attr (ts : list saved) (g : grant) (a : string) : option aval :=
  if String.eqb a "expires_at" then Some (VInt (g_exp g))
  else if String.eqb a "issued_at" then Some (VInt (g_issued g))
  else if String.eqb a "not_before" then Some (VInt (g_nbf g))
  else if String.eqb a "revoked" then Some (VBool (g_revoked g))
  else if String.eqb a "usage_rules" then Some (VRules (g_max g) (g_rules g))
  else if String.eqb a "used" then Some (VInt (g_used g))
  else if String.eqb a "authentication_event" then option_map VEvent (g_aevent g)
  else if String.eqb a "authorization_request" then option_map VRequest (g_areq g)
  else if String.eqb a "claims" then Some (VClaims (g_claims g))
  else if String.eqb a "extra" then Some (VExtra (g_extra g))
  else if String.eqb a "issued_token" then Some (VTokens ts)
  else if String.eqb a "resources" then Some (VStrs (g_resources g))
  else if String.eqb a "scope" then Some (VStrs (g_scope g))
  else if String.eqb a "sub" then Some (VStr (g_sub g))
  else None.

Definition info_attr (i : sinfo) (a : string) : option aval :=
  if String.eqb a "subordinate" then Some (VStrs (si_sub i))
  else if String.eqb a "revoked" then Some (VBool (si_revoked i))
  else if String.eqb a "type" then
    Some (VStr (if si_client i then "ClientSessionInfo" else "UserSessionInfo"))
  else if String.eqb a "user_id" then if si_client i then None else Some (VStr (si_id i))
  else if String.eqb a "client_id" then if si_client i then Some (VStr (si_id i)) else None
  else None.

(** The dump of an entry of the database. None has no dump method:
    AttributeError. *)
Definition dump_obj (o : obj) : res saved :=
  match o with
  | OInfo i => Ok (if si_client i then "ClientSessionInfo" else "UserSessionInfo",
                   dump_attrs (info_attr i) (info_parameter_of (si_client i)))
  | OGrant g => match dump_tokens (g_tokens g) with
                | Some ts => Ok ("Grant", dump_attrs (grant_attr ts g) grant_parameter)
                | None => Raise AttributeError
                end
  | ONone => Raise AttributeError
  end.

(** The database: Database.parameter, database.py 35. "key" is [e_skey], a part of
    the environment, and does not change; SessionManager adds "salt" (manager.py 76-77),
    which is hidden in [e_sub]. After load, local_load_adjustments
    (manager.py 534-535) builds the cipher from the key that was saved, so the
    session identifiers are read by the same key. A flush after a restart goes
    back to the key given when the process started: the model takes the same
    key to be configured (session_params, password) in both. *)
Fixpoint dump_db (d : dict nat) : M st (dict saved) :=
  match d with
  | [] => ret []
  | (k, l) :: r =>
      o <- deref l ;;
      x <- lift (dump_obj o) ;;
      xs <- dump_db r ;;
      ret ((k, x) :: xs)
  end.
Definition dump_all : M st (dict saved) := fun s => dump_db (s_db s) s.

(** ** Restoring *)

(** [setattr] of a value the model's attribute cannot hold. *)
Definition misfit : exn := Other 60.

Definition set_token_attr (a : string) (v : aval) (t : token) : res token :=
  let put := fun cls val bas rul iss ex nbf rev use id sc rs ty sid =>
    Ok (mk_token cls val bas rul iss ex nbf rev use id sc rs ty sid) in
  let '(mk_token cls val bas rul iss ex nbf rev use id sc rs ty sid) := t in
  if String.eqb a "expires_at" then
    match v with VInt z => put cls val bas rul iss z nbf rev use id sc rs ty sid | _ => Raise misfit end
  else if String.eqb a "issued_at" then
    match v with VInt z => put cls val bas rul z ex nbf rev use id sc rs ty sid | _ => Raise misfit end
  else if String.eqb a "not_before" then
    match v with VInt z => put cls val bas rul iss ex z rev use id sc rs ty sid | _ => Raise misfit end
  else if String.eqb a "revoked" then
    match v with VBool b => put cls val bas rul iss ex nbf b use id sc rs ty sid | _ => Raise misfit end
  else if String.eqb a "usage_rules" then
    match v with VRule r => put cls val bas r iss ex nbf rev use id sc rs ty sid | _ => Raise misfit end
  else if String.eqb a "used" then
    match v with VInt z => put cls val bas rul iss ex nbf rev z id sc rs ty sid | _ => Raise misfit end
  else if String.eqb a "based_on" then
    match v with VStr x => put cls val (Some x) rul iss ex nbf rev use id sc rs ty sid | _ => Raise misfit end
  else if String.eqb a "id" then
    match v with VStr x => put cls val bas rul iss ex nbf rev use x sc rs ty sid | _ => Raise misfit end
  else if String.eqb a "name" then Ok t
  else if String.eqb a "resources" then
    match v with VStrs l => put cls val bas rul iss ex nbf rev use id sc l ty sid | _ => Raise misfit end
  else if String.eqb a "scope" then
    match v with VStrs l => put cls val bas rul iss ex nbf rev use id l rs ty sid | _ => Raise misfit end
  else if String.eqb a "token_class" then
    match v with VStr x => put x val bas rul iss ex nbf rev use id sc rs ty sid | _ => Raise misfit end
  else if String.eqb a "value" then
    match v with VStr x => put cls x bas rul iss ex nbf rev use id sc rs ty sid | _ => Raise misfit end
  else if String.eqb a "token_type" then
    match v with VStr x => put cls val bas rul iss ex nbf rev use id sc rs (Some x) sid | _ => Raise misfit end
  else if String.eqb a "session_id" then
    match v with VStr x => put cls val bas rul iss ex nbf rev use id sc rs ty x | _ => Raise misfit end
  else Ok t.

(** [for attr in parameter: if attr in item: setattr(self, attr, item[attr])]. *)
Fixpoint load_attrs {A} (set : string -> aval -> A -> res A) (ps : list string)
    (d : dict aval) (x : A) : res A :=
  match ps with
  | [] => Ok x
  | a :: r => match dget d a with
              | Some v => rbind (set a v x) (load_attrs set r d)
              | None => load_attrs set r d x
              end
  end.

(** The constructor of a token class without arguments: token.py 94-133,
    153-190, 193-207, 215-251. *)
Definition blank_token (now : Z) (tid cls : string) : token :=
  mk_token "" "" None
    (set_defaults (match class_token cls with Some tc => tc | None => "" end) empty_rule)
    now 0 0 false 0 tid [] []
    (if String.eqb cls "AccessToken" then Some "bearer" else None) "".

(** issued_token_load: grant.py 75-82. A class that cannot be imported:
    AttributeError. *)
Definition load_token (e : env) (now : Z) (x : saved) : M st token :=
  let (cls, d) := x in
  match class_token cls with
  | None => raise AttributeError
  | Some _ =>
      n <- tick ;;
      lift (load_attrs set_token_attr (parameter_of cls) d (blank_token now (e_uuid e n) cls))
  end.
Fixpoint load_tokens (e : env) (now : Z) (xs : list saved) : M st (list token) :=
  match xs with
  | [] => ret []
  | x :: r => t <- load_token e now x ;; ts <- load_tokens e now r ;; ret (t :: ts)
  end.

(** A value with the tokens read; [issued_token] is the only attribute that
    holds objects. *)
Definition set_grant_attr (ts : list token) (a : string) (v : aval) (g : grant) : res grant :=
  let put := fun sc cl rs ar ae tk ru mx iss ex nbf rev use id sub xt =>
    Ok (mk_grant sc cl rs ar ae tk ru mx iss ex nbf rev use id sub xt) in
  let '(mk_grant sc cl rs ar ae tk ru mx iss ex nbf rev use id sub xt) := g in
  if String.eqb a "expires_at" then
    match v with VInt z => put sc cl rs ar ae tk ru mx iss z nbf rev use id sub xt | _ => Raise misfit end
  else if String.eqb a "issued_at" then
    match v with VInt z => put sc cl rs ar ae tk ru mx z ex nbf rev use id sub xt | _ => Raise misfit end
  else if String.eqb a "not_before" then
    match v with VInt z => put sc cl rs ar ae tk ru mx iss ex z rev use id sub xt | _ => Raise misfit end
  else if String.eqb a "revoked" then
    match v with VBool b => put sc cl rs ar ae tk ru mx iss ex nbf b use id sub xt | _ => Raise misfit end
  else if String.eqb a "usage_rules" then
    match v with VRules m d => put sc cl rs ar ae tk d m iss ex nbf rev use id sub xt | _ => Raise misfit end
  else if String.eqb a "used" then
    match v with VInt z => put sc cl rs ar ae tk ru mx iss ex nbf rev z id sub xt | _ => Raise misfit end
  else if String.eqb a "authentication_event" then
    match v with VEvent x => put sc cl rs ar (Some x) tk ru mx iss ex nbf rev use id sub xt | _ => Raise misfit end
  else if String.eqb a "authorization_request" then
    match v with VRequest x => put sc cl rs (Some x) ae tk ru mx iss ex nbf rev use id sub xt | _ => Raise misfit end
  else if String.eqb a "claims" then
    match v with VClaims x => put sc x rs ar ae tk ru mx iss ex nbf rev use id sub xt | _ => Raise misfit end
  else if String.eqb a "extra" then
    match v with VExtra x => put sc cl rs ar ae tk ru mx iss ex nbf rev use id sub x | _ => Raise misfit end
  else if String.eqb a "issued_token" then
    put sc cl rs ar ae ts ru mx iss ex nbf rev use id sub xt
  else if String.eqb a "resources" then
    match v with VStrs x => put sc cl x ar ae tk ru mx iss ex nbf rev use id sub xt | _ => Raise misfit end
  else if String.eqb a "scope" then
    match v with VStrs x => put x cl rs ar ae tk ru mx iss ex nbf rev use id sub xt | _ => Raise misfit end
  else if String.eqb a "sub" then
    match v with VStr x => put sc cl rs ar ae tk ru mx iss ex nbf rev use id x xt | _ => Raise misfit end
  else Ok g.

(** Grant() without arguments (grant.py 124-164), then the attributes.

    [gid] is the grant id in the key the grant is stored under, which is what
    [g_id] stands for in the model. The attribute [id] of the Python object is
    not saved, and a restored grant has a new one: the draw is made here and
    its value not kept. The attribute is read where a grant is added to the
    database, at its creation, and for the session cookie of the token endpoint
    (oauth2/token.py 479-483; see DESIGN.md, findings). *)
Definition blank_grant (now : Z) (gid : string) : grant :=
  mk_grant [] [] [] None None [] [] None now 0 0 false 0 gid "" [].

Definition load_grant (e : env) (now : Z) (gid : string) (d : dict aval) : M st grant :=
  _ <- tick ;;
  ts <- match dget d "issued_token" with
        | Some (VTokens xs) => load_tokens e now xs
        | Some _ => raise misfit
        | None => ret []
        end ;;
  lift (load_attrs (set_grant_attr ts) grant_parameter d (blank_grant now gid)).

Definition set_info_attr (a : string) (v : aval) (i : sinfo) : res sinfo :=
  if String.eqb a "subordinate" then
    match v with VStrs l => Ok (mk_sinfo l (si_revoked i) (si_client i) (si_id i)) | _ => Raise misfit end
  else if String.eqb a "revoked" then
    match v with VBool b => Ok (mk_sinfo (si_sub i) b (si_client i) (si_id i)) | _ => Raise misfit end
  else if String.eqb a "user_id" || String.eqb a "client_id" then
    match v with VStr x => Ok (mk_sinfo (si_sub i) (si_revoked i) (si_client i) x) | _ => Raise misfit end
  else Ok i.

(** UserSessionInfo() and ClientSessionInfo(): info.py 52-56, 64-68. *)
Definition load_info (client : bool) (d : dict aval) : res sinfo :=
  load_attrs set_info_attr (info_parameter_of client) d (mk_sinfo [] false client "").

(** One entry of the database. A restored session info is a new object.

    A restored grant is given the location of the grant that was saved (no
    reference to the old one is left, so the name is free). That a grant can be
    stored under two keys is kept: under its own key and, as the token endpoint
    does by [set(unpack_session_key(session_id), grant)], under the
    session id (oauth2/token.py 94, oauth2/authorization.py 347). In Python the second entry becomes an
    object of its own; nothing reads what it holds, as the only path to it,
    [get] with the session id for a user id, asks for its [subordinate]
    (simplification). *)
Definition load_entry (e : env) (now : Z) (k : string) (x : saved) : M st unit :=
  let (cls, d) := x in
  if String.eqb cls "Grant" then
    o <- db_lookup k ;;
    match o with
    | None => raise misfit
    | Some l =>
        old <- grant_at l ;;
        g <- load_grant e now (g_id old) d ;;
        upd_obj l (fun _ => OGrant g)
    end
  else if String.eqb cls "ClientSessionInfo" then
    i <- lift (load_info true d) ;; l <- new_obj (OInfo i) ;; db_put k l
  else if String.eqb cls "UserSessionInfo" then
    i <- lift (load_info false d) ;; l <- new_obj (OInfo i) ;; db_put k l
  else raise AttributeError.

Fixpoint load_db (e : env) (now : Z) (d : dict saved) : M st unit :=
  match d with
  | [] => ret tt
  | (k, x) :: r => load_entry e now k x ;; load_db e now r
  end.

(** The provider is stopped and started again: the session manager is saved and
    restored. *)
Definition reload (e : env) (now : Z) : M st unit :=
  d <- dump_all ;; load_db e now d.
