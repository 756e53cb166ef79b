(** Scopes and claims: src/oidcop/scopes.py and src/oidcop/session/claims.py. *)
From Verif Require Import M_Base M_Types M_Codec M_Grant M_Env M_Session.

(** ** Scopes *)

(** SCOPE2CLAIMS: src/oidcop/scopes.py 3-25. *)
Definition SCOPE2CLAIMS : dict (list string) :=
  [ ("openid", ["sub"]);
    ("profile", ["name"; "given_name"; "family_name"; "middle_name"; "nickname"; "profile";
                 "picture"; "website"; "gender"; "birthdate"; "zoneinfo"; "locale";
                 "updated_at"; "preferred_username"]);
    ("email", ["email"; "email_verified"]);
    ("address", ["address"]);
    ("phone", ["phone_number"; "phone_number_verified"]);
    ("offline_access", []) ].

(** [{name: None for name in names}] merged into [d]. *)
Definition add_null {V} (names : list string) (d : dict (option V)) : dict (option V) :=
  fold_left (fun acc n => dset acc n None) names d.

(** convert_scopes2claims without allowed_claims: src/oidcop/scopes.py 28-35.
    An empty map is falsy and replaced by the default map. *)
Definition convert_scopes2claims {V} (scopes : list string) (m : dict (list string))
  : dict (option V) :=
  let m := match m with [] => SCOPE2CLAIMS | _ => m end in
  fold_left (fun acc s => add_null (match dget m s with Some l => l | None => [] end) acc)
    scopes [].

(** convert_scopes2claims with allowed_claims: 36-46. *)
Definition convert_scopes2claims_allowed {V} (scopes allowed : list string)
    (m : dict (list string)) : dict (option V) :=
  let m := match m with [] => SCOPE2CLAIMS | _ => m end in
  fold_left (fun acc s =>
    add_null (filter (fun n => smem n allowed)
                (match dget m s with Some l => l | None => [] end)) acc)
    scopes [].

(** Scopes.get_allowed_scopes: src/oidcop/scopes.py 59-75. *)
Definition get_allowed_scopes (e : env) (cid : string) : list string :=
  if str_true cid then
    match dget (e_clients e) cid with
    | None => e_scopes e
    | Some c =>
        match c_allowed_scopes c with
        | Some l => l
        | None => match c_scopes_to_claims c with
                  | Some m => dkeys m
                  | None => e_scopes e
                  end
        end
    end
  else e_scopes e.

(** Scopes.get_scopes_mapping: src/oidcop/scopes.py 77-89. *)
Definition get_scopes_mapping (e : env) (cid : string) : dict (list string) :=
  if str_true cid then
    match dget (e_clients e) cid with
    | None => e_scope_map e
    | Some c => match c_scopes_to_claims c with Some m => m | None => e_scope_map e end
    end
  else e_scope_map e.

(** Scopes.filter_scopes: src/oidcop/scopes.py 91-93. *)
Definition filter_scopes (e : env) (scopes : list string) (cid : string) : list string :=
  filter (fun s => smem s (get_allowed_scopes e cid)) scopes.

(** Scopes.scopes_to_claims: src/oidcop/scopes.py 95-101. *)
Definition scopes_to_claims (e : env) (scopes : list string) (cid : string) : dict cspec :=
  convert_scopes2claims (filter_scopes e scopes cid) (get_scopes_mapping e cid).

(** ** Claims *)

(** [value in val] for the "values" member: a list, a string (then a substring
    test), or an object (then its keys). *)
Definition jval_in (v val : jval) : res bool :=
  match val with
  | JList l => Ok (existsb (jval_eqb v) l)
  | JStr s => match v with JStr x => Ok (contains x s) | _ => Raise TypeError end
  | JObj l => match v with JStr x => Ok (smem x (map fst l)) | _ => Ok false end
  | _ => Raise TypeError
  end.

(** The loop of claims_match: src/oidcop/session/claims.py 241-254. *)
Fixpoint claims_loop (v : jval) (spec : dict jval) : res bool :=
  match spec with
  | [] => Ok false
  | (k, val) :: r =>
      if String.eqb k "value" then
        if jval_eqb v val then Ok true else claims_loop v r
      else if String.eqb k "values" then
        rbind (jval_in v val) (fun b => if b then Ok true else claims_loop v r)
      else claims_loop v r
  end.

(** claims_match: src/oidcop/session/claims.py 223-260. An absent user
    attribute and a null one are both None in Python. *)
Definition claims_match (v : option jval) (spec : cspec) : res bool :=
  match v with
  | None | Some JNull => Ok false
  | Some v =>
      match spec with
      | None => Ok true
      | Some d =>
          rbind (claims_loop v d)
            (fun m => if m then Ok true
                      else match d with
                           | [(k, _)] => Ok (String.eqb k "essential")
                           | _ => Ok false
                           end)
      end
  end.

(** ClaimsInterface.get_user_claims: src/oidcop/session/claims.py 200-220. *)
Fixpoint release (info : dict jval) (restr : dict cspec) : res (dict jval) :=
  match restr with
  | [] => Ok []
  | (k, spec) :: r =>
      rbind (claims_match (dget info k) spec)
        (fun b => rbind (release info r)
           (fun rest => Ok (if b then match dget info k with
                                      | Some v => (k, v) :: rest
                                      | None => rest
                                      end
                            else rest)))
  end.

Definition get_user_claims (e : env) (uid : string) (restr : option (dict cspec))
  : res (dict jval) :=
  match e_users e with
  | None => Raise ImproperlyConfigured
  | Some users =>
      match restr with
      | None | Some [] => Ok []
      | Some r => release (users uid) r
      end
  end.

(** The names of the release points: src/oidcop/session/claims.py 28, 275. *)
Definition release_points (e : env) : list string :=
  if e_oidc e then ["userinfo"; "introspection"; "id_token"; "access_token"]
  else ["introspection"; "access_token"].

(** ClaimsInterface._get_module and OAuth2ClaimsInterface._get_module:
    src/oidcop/session/claims.py 43-60, 277-287. The access token handler is
    always an entry of the handler table (possibly None). *)
Definition get_module (e : env) (point : string) : res (option cmodule) :=
  if smem point (release_points e) then
    match dget (e_modules e) point with
    | Some m => Ok (Some m)
    | None => if String.eqb point "id_token" then Raise ServiceErrorExn else Ok None
    end
  else Ok None.

(** ClaimsInterface._client_claims: src/oidcop/session/claims.py 62-87. The
    list under the release point is extended in place (line 85): the client's
    entry in the client database changes. *)
Definition client_by_scope (e : env) (cid : string) (m : cmodule) (point second : string)
  : bool :=
  let d := match dget (e_clients e) cid with Some c => c_by_scope c | None => [] end in
  let at_ p := match dget d p with Some b => b | None => false end in
  match d with
  | [] => m_by_scope m
  | _ =>
      let b := at_ point in
      let b := if negb b && str_true second then at_ second else b in
      if b then true else m_by_scope m
  end.

Definition client_always (cid point second : string) : M st (list string) :=
  fun s =>
    let d := match dget (s_always s) cid with Some d => d | None => [] end in
    let l1 := dget d point in
    let l := match l1 with Some l => l | None => [] end in
    if str_true second then
      let l2 := match dget d second with Some l => l | None => [] end in
      let l' := l ++ l2 in
      match l1 with
      | Some _ => (Ok l', mk_st (s_heap s) (s_db s) (s_ctr s)
                            (dset (s_always s) cid (dset d point l')))
      | None => (Ok l', s)
      end
    else (Ok l, s).

(** ClaimsInterface.authorization_request_claims: claims.py 33-41. *)
Definition request_claims (ar : option areq) (point : string) : dict cspec :=
  match ar with
  | Some a => match ar_claims a with
              | Some m => match dget m point with Some d => d | None => [] end
              | None => []
              end
  | None => []
  end.

(** ClaimsInterface.get_claims_from_request: claims.py 89-144. *)
Definition get_claims_from_request (e : env) (ar : option areq) (point : string)
    (scopes : option (list string)) (cid second : string) : M st (dict cspec) :=
  om <- lift (get_module e point) ;;
  match om with
  | None => ret []
  | Some m =>
      let base := m_base m in
      let cid := if str_true cid then cid
                 else match ar with Some a => ar_client_id a | None => "" end in
      ba <- (if m_per_client m && dmem (e_clients e) cid then
               l <- client_always cid point second ;;
               ret (client_by_scope e cid m point second,
                    map (fun k => (k, None : cspec)) l)
             else ret (m_by_scope m, m_always m)) ;;
      let (by_scope, always) := (ba : bool * dict cspec) in
      let base := dupdate base always in
      let base :=
        if by_scope then
          let scopes := match scopes with
                        | Some s => Some s
                        | None => match ar with Some a => ar_scope a | None => None end
                        end in
          match scopes with
          | Some s => dupdate base (scopes_to_claims e s cid)
          | None => base
          end
        else base in
      ret (dupdate base (request_claims ar point))
  end.

(** ClaimsInterface.get_claims: claims.py 146-180. *)
Definition get_claims (e : env) (sid : string) (scopes : list string)
    (point second : string) : M st (dict cspec) :=
  i <- get_session_info e sid ;;
  g <- grant_at (ss_grant i) ;;
  get_claims_from_request e (g_areq g) point (Some scopes) (ss_client i) second.

(** get_claims_all_usage: claims.py 182-198 (OIDC: the client is the one of
    the authorization request) and 289-293 (OAuth2: that of the session). *)
Fixpoint all_usage (f : string -> M st (dict cspec)) (points : list string)
  : M st claims_map :=
  match points with
  | [] => ret []
  | p :: r => c <- f p ;; rest <- all_usage f r ;; ret ((p, c) :: rest)
  end.

Definition get_claims_all_usage (e : env) (sid : string) (scopes : list string)
  : M st claims_map :=
  if e_oidc e then
    l <- get_grant e sid ;;
    g <- grant_at l ;;
    all_usage (fun p => get_claims_from_request e (g_areq g) p (Some scopes) "" "")
      (release_points e)
  else all_usage (fun p => get_claims e sid scopes p "") (release_points e).

(** check_unknown_scopes_policy: src/oidcop/oauth2/authorization.py 264-275.
    [deny] is the capability deny_unknown_scopes. *)
Definition check_unknown_scopes (e : env) (deny : bool) (scope : option (list string))
    (cid : string) : res unit :=
  if negb deny then Ok tt
  else match scope with
       | None => Raise KeyError
       | Some sc => let f := filter_scopes e sc cid in
                    if subset_b sc f && subset_b f sc then Ok tt
                    else Raise UnAuthorizedClientScope
       end.
