(** Which algorithms and other capabilities the provider metadata advertises. *)
From Verif Require Import M_Base.

(** Configuration values, as far as they matter: lists of strings, strings,
    Booleans, None. *)
Inductive cval := CList (l : list string) | CStr (s : string) | CBool (b : bool) | CNone.

(** What the crypto library supports: the keys of cryptojwt's SIGNER_ALGS, and
    jwe.SUPPORTED["alg"] and ["enc"]. *)
Record lib := mk_lib { l_sign : list string; l_alg : list string; l_enc : list string }.

(** ALG_SORT_ORDER: src/oidcop/construct.py 9. *)
Definition sort_order : dict nat := [("RS", 0); ("ES", 1); ("HS", 2); ("PS", 3); ("no", 4)].
(** WEAK_ALGS: construct.py 10. *)
Definition weak_algs : list string := ["RSA1_5"; "none"].

(** sort_sign_alg: construct.py 15-28; whether the first comes before or with
    the second. *)
Definition alg_le (a b : string) : bool :=
  match dget sort_order (take 2 a), dget sort_order (take 2 b) with
  | Some x, Some y => if Nat.ltb x y then true else if Nat.ltb y x then false
                      else match String.compare a b with Gt => false | _ => true end
  | _, _ => false
  end.
Fixpoint insert (a : string) (l : list string) : list string :=
  match l with
  | [] => [a]
  | b :: r => if alg_le a b then a :: l else b :: insert a r
  end.
Definition sort_algs (l : list string) : list string := fold_right insert [] l.

(** assign_algorithms("signing_alg"): construct.py 31-36. [sorted] compares
    every element, when there are two or more; an unknown prefix is a KeyError. *)
Definition signing_algs (L : lib) : res (list string) :=
  if Nat.leb 2 (List.length (l_sign L))
     && negb (forallb (fun a => dmem sort_order (take 2 a)) (l_sign L))
  then Raise KeyError
  else Ok (sort_algs (l_sign L)).

(** The three kinds of attributes: construct.py 53-58 and 69-77. *)
Inductive akind := KSign | KAlg | KEnc.
Definition attr_kind (attr : string) : option akind :=
  if contains "signing_alg_values_supported" attr then Some KSign
  else if contains "encryption_alg_values_supported" attr then Some KAlg
  else if contains "encryption_enc_values_supported" attr then Some KEnc
  else None.
(** assign_algorithms: construct.py 31-40. *)
Definition assign_algorithms (L : lib) (k : akind) : res (list string) :=
  match k with KSign => signing_algs L | KAlg => Ok (l_alg L) | KEnc => Ok (l_enc L) end.

(** The elements [for i in v] goes through. *)
Fixpoint chars (s : string) : list string :=
  match s with EmptyString => [] | String c r => String c "" :: chars r end.
Definition iter (v : cval) : res (list string) :=
  match v with
  | CList l => Ok l
  | CStr s => Ok (chars s)
  | CBool _ | CNone => Raise TypeError
  end.

(** re.match(r".*(alg|enc).*_values_supported", attr): construct.py 79; names
    contain no line breaks. *)
Fixpoint after_first (p s : string) : option string :=
  if starts_with p s then Some (drop (String.length p) s)
  else match s with EmptyString => None | String _ r => after_first p r end.
Definition alg_like (attr : string) : bool :=
  let f p := match after_first p attr with
             | Some r => contains "_values_supported" r
             | None => false
             end in
  f "alg" || f "enc".

(** One turn of the loop of construct_endpoint_info: construct.py 49-85. What it
    adds to _info. The warnings are not modelled, the exceptions of the loop that
    gives them are. *)
Definition one_capability (L : lib) (kwargs : dict cval) (attr : string) (dflt : option cval)
  : res (option cval) :=
  rbind
    (match dget kwargs attr with
     | Some proposal =>
         rbind (match attr_kind attr with
                | Some k => rbind (assign_algorithms L k) (fun l => Ok (Some l))
                | None => Ok None
                end) (fun permitted =>
         match permitted with
         | Some (x :: r) =>
             rbind (iter proposal) (fun l =>
             if subset_b l (x :: r) then Ok (Some proposal) else Raise ValueError)
         | _ => Ok (Some proposal)
         end)
     | None =>
         match dflt with
         | Some v => Ok (Some v)
         | None =>
             match attr_kind attr with
             | Some KSign => rbind (assign_algorithms L KSign) (fun l =>
                 Ok (Some (CList (if smem "none" l then sremove "none" l else l))))
             | Some KAlg => rbind (assign_algorithms L KAlg) (fun l =>
                 Ok (Some (CList (filter (fun s => negb (smem s weak_algs)) l))))
             | Some KEnc => rbind (assign_algorithms L KEnc) (fun l => Ok (Some (CList l)))
             | None => Ok None
             end
         end
     end)
    (fun v =>
       if alg_like attr then
         match v with
         | Some x => rbind (iter x) (fun _ => Ok v)
         | None => Raise KeyError
         end
       else Ok v).

(** construct_endpoint_info: construct.py 43-86. A default of None is [None]. *)
Fixpoint construct_info (L : lib) (defaults : dict (option cval)) (kwargs info : dict cval)
  : res (dict cval) :=
  match defaults with
  | [] => Ok info
  | (attr, dflt) :: r =>
      rbind (one_capability L kwargs attr dflt) (fun v =>
      construct_info L r kwargs (match v with Some x => dset info attr x | None => info end))
  end.

(** An endpoint of the configuration: the default_capabilities of its class, its
    arguments, its name, endpoint_name, and its URL. *)
Record endp := mk_endp {
  ep_defaults : option (dict (option cval));
  ep_kwargs : dict cval;
  ep_name : string;
  ep_endpoint_name : string;
  ep_url : string }.

(** Endpoint.__init__ (src/oidcop/endpoint.py 125) and the end of build_endpoints
    (src/oidcop/util.py 84-88). *)
Definition endpoint_info (L : lib) (p : endp) : res (option (dict cval)) :=
  rbind (match ep_defaults p with
         | None => Ok None
         | Some d => rbind (construct_info L d (ep_kwargs p) []) (fun i => Ok (Some i))
         end) (fun i =>
  Ok (if str_true (ep_endpoint_name p)
      then Some (dset (match i with Some i => i | None => [] end) (ep_endpoint_name p) (CStr (ep_url p)))
      else i)).

(** build_endpoints: util.py 47-92. Of two endpoints with one name the last
    stays, at the place of the first. *)
Fixpoint build_endpoints (L : lib) (ps : list endp) (acc : dict (option (dict cval)))
  : res (dict (option (dict cval))) :=
  match ps with
  | [] => Ok acc
  | p :: r => rbind (endpoint_info L p) (fun i => build_endpoints L r (dset acc (ep_name p) i))
  end.

(** [if key not in _cap: _cap[key] = val], for all items. *)
Definition add_new (cap info : dict cval) : dict cval :=
  fold_left (fun c kv => if dmem c (fst kv) then c else dset c (fst kv) (snd kv)) info cap.
(** do_endpoints and get_capabilities: src/oidcop/server.py 22-54. The second
    repeats what the first did. *)
Definition get_capabilities (cap : dict cval) (eps : dict (option (dict cval))) : dict cval :=
  fold_left (fun c kv =>
    if smem (fst kv) ["webfinger"; "provider_config"] then c
    else match snd kv with Some i => add_new c i | None => c end) eps cap.

(** The rest of the configuration that the metadata depends on. The arguments of
    the DPoP add-on, if it is configured (src/oidcop/oauth2/add_on/dpop.py
    135-147), those of the ID token handler, if there is one, and what
    create_providerinfo takes from the context. *)
Record mconf := mk_mconf {
  mc_capabilities : dict cval;
  mc_endpoints : list endp;
  mc_issuer : string;
  mc_acrs : option (list string);
  mc_jwks_uri : option string;
  mc_scopes : list string;
  mc_claims : list string;
  mc_dpop : option (option (list string));
  mc_id_token : option (dict cval) }.

(** create_providerinfo: src/oidcop/endpoint_context.py 312-340. The claims are
    those for the scopes that are advertised: given by the configuration here. *)
Definition create_providerinfo (c : mconf) (cap : dict cval) : dict cval :=
  let p := dset (dset cap "issuer" (CStr (mc_issuer c))) "version" (CStr "3.0") in
  let p := match mc_acrs c with Some l => dset p "acr_values_supported" (CList l) | None => p end in
  let p := match mc_jwks_uri c with Some u => dset p "jwks_uri" (CStr u) | None => p end in
  let p := if dmem p "scopes_supported" then p else dset p "scopes_supported" (CList (mc_scopes c)) in
  if dmem p "claims_supported" then p else dset p "claims_supported" (CList (mc_claims c)).

(** IDToken.default_capabilities: src/oidcop/token/id_token.py 113-117. *)
Definition id_token_defaults : dict (option cval) := [
  ("id_token_signing_alg_values_supported", None);
  ("id_token_encryption_alg_values_supported", None);
  ("id_token_encryption_enc_values_supported", None)].

(** Server.__init__: server.py 81-127. The other add-ons that ship change
    scopes_supported and claims_supported only and are left out. *)
Definition metadata (L : lib) (c : mconf) : res (dict cval) :=
  rbind (build_endpoints L (mc_endpoints c) []) (fun eps =>
  let p := create_providerinfo c (get_capabilities (mc_capabilities c) eps) in
  let p := match mc_dpop c with
           | Some a => dset p "dpop_signing_alg_values_supported"
               (CList (match a with Some (x :: r) => x :: r | _ => ["RS256"] end))
           | None => p
           end in
  match mc_id_token c with
  | Some kw => rbind (construct_info L id_token_defaults kw []) (fun i => Ok (dupdate p i))
  | None => Ok p
  end).

(** The default_capabilities of the endpoints that ship:
    src/oidcop/oauth2/authorization.py 287-298, oauth2/token.py 372,
    oidc/authorization.py 78-97, oidc/token.py 366, oidc/userinfo.py 30-36,
    oidc/session.py 84-90, oidc/provider_config.py 16; the others have None
    (endpoint.py 93). *)
Definition oauth2_authorization_defaults : dict (option cval) := [
  ("claims_parameter_supported", Some (CBool true));
  ("request_parameter_supported", Some (CBool true));
  ("request_uri_parameter_supported", Some (CBool true));
  ("response_types_supported", Some (CList ["code"; "token"; "code token"]));
  ("response_modes_supported", Some (CList ["query"; "fragment"; "form_post"]));
  ("request_object_signing_alg_values_supported", None);
  ("request_object_encryption_alg_values_supported", None);
  ("request_object_encryption_enc_values_supported", None);
  ("grant_types_supported", Some (CList ["authorization_code"; "implicit"]));
  ("scopes_supported", Some (CList []))].
Definition oidc_authorization_defaults : dict (option cval) := [
  ("claims_parameter_supported", Some (CBool true));
  ("request_parameter_supported", Some (CBool true));
  ("request_uri_parameter_supported", Some (CBool true));
  ("response_types_supported", Some (CList ["code"; "token"; "id_token"; "code token";
     "code id_token"; "id_token token"; "code id_token token"]));
  ("response_modes_supported", Some (CList ["query"; "fragment"; "form_post"]));
  ("request_object_signing_alg_values_supported", None);
  ("request_object_encryption_alg_values_supported", None);
  ("request_object_encryption_enc_values_supported", None);
  ("grant_types_supported", Some (CList ["authorization_code"; "implicit"]));
  ("claim_types_supported", Some (CList ["normal"; "aggregated"; "distributed"]))].
Definition token_defaults : dict (option cval) :=
  [("token_endpoint_auth_signing_alg_values_supported", None)].
Definition userinfo_defaults : dict (option cval) := [
  ("claim_types_supported", Some (CList ["normal"; "aggregated"; "distributed"]));
  ("userinfo_signing_alg_values_supported", None);
  ("userinfo_encryption_alg_values_supported", None);
  ("userinfo_encryption_enc_values_supported", None);
  ("client_authn_method", Some (CList ["bearer_header"; "bearer_body"]))].
Definition session_defaults : dict (option cval) := [
  ("frontchannel_logout_supported", Some (CBool true));
  ("frontchannel_logout_session_supported", Some (CBool true));
  ("backchannel_logout_supported", Some (CBool true));
  ("backchannel_logout_session_supported", Some (CBool true));
  ("check_session_iframe", None)].
Definition provider_config_defaults : dict (option cval) :=
  [("require_request_uri_registration", None)].
Definition shipped : list (option (dict (option cval))) := [
  None; Some oauth2_authorization_defaults; Some oidc_authorization_defaults; Some token_defaults;
  Some userinfo_defaults; Some session_defaults; Some provider_config_defaults].
