(** The PKCE add-on: src/oidcop/oidc/add_on/pkce.py. *)
From Verif Require Import M_Base M_Types M_Codec M_Grant M_Env M_Session M_Claims M_Handler M_TokenEP.

(** CC_METHOD[method](verifier): src/oidcop/oidc/add_on/pkce.py 25-30. *)
Definition cc_method (e : env) (m v : string) : res string :=
  if String.eqb m "plain" then Ok v
  else if smem m ["S256"; "S384"; "S512"] then e_cc_hash e m v
  else Raise KeyError.

(** verify_code_challenge: src/oidcop/oidc/add_on/pkce.py 65-80. *)
Definition verify_code_challenge (e : env) (verifier challenge m : string) : res bool :=
  rbind (cc_method e m verifier) (fun x => Ok (String.eqb x challenge)).

(** post_token_parse, for a request with a code (it lets requests of the
    refresh class pass): src/oidcop/oidc/add_on/pkce.py 83-124. *)
Definition pkce_check (e : env) (now : Z) (q : treq) : M st (outcome treq) :=
  oi <- catch (c <- (match tr_code q with Some c => ret c | None => raise KeyError end) ;;
               i <- get_session_info_by_token e now c ;;
               ret (Some i))
          (fun x => if is_KeyError x then Some (ret None) else None) ;;
  match oi with
  | None => ret (Err "invalid_grant")
  | Some i =>
      g <- grant_at (ss_grant i) ;;
      ar <- (match g_areq g with Some a => ret a | None => raise TypeError end) ;;
      match ar_code_challenge ar with
      | None => ret (Good q)
      | Some ch =>
          match tr_verifier q with
          | None => ret (Err "invalid_grant")
          | Some v =>
              m <- (match ar_code_challenge_method ar with
                    | Some m => ret m | None => raise KeyError end) ;;
              ok <- lift (verify_code_challenge e v ch m) ;;
              if (ok : bool) then ret (Good q) else ret (Err "invalid_grant")
          end
      end
  end.

(** Endpoint.do_post_parse_request of the token endpoint:
    src/oidcop/endpoint.py 235-243, with the functions the endpoint and the
    add-on put into its list (src/oidcop/oidc/add_on/pkce.py 136). The loop ends
    at the first error. *)
Definition token_parse_all (e : env) (now : Z) (cid : string) (req : treq) : M st (outcome treq) :=
  r <- token_parse e now cid req ;;
  match r with
  | Err x => ret (Err x)
  | Good q => if e_pkce e && String.eqb (tr_grant_type q) CODE then pkce_check e now q
              else ret (Good q)
  end.

(** The arguments of the add-on, kept in context.args["pkce"]: "essential" and
    the names of "code_challenge_methods". *)
Record pkce_conf : Type := mk_pkce_conf { pk_essential : option bool; pk_methods : list string }.

(** add_pkce_support, as far as the methods go:
    src/oidcop/oidc/add_on/pkce.py 138-150. Without a setting all four methods
    are on. *)
Definition CC_METHODS : list string := ["plain"; "S256"; "S384"; "S512"].
Definition add_pkce_support (essential : option bool) (methods : option (list string)) : res pkce_conf :=
  let ms := match methods with Some l => l | None => CC_METHODS end in
  if forallb (fun m => smem m CC_METHODS) ms then Ok (mk_pkce_conf essential ms)
  else Raise ValueError.

Definition ar_set_method (m : string) (a : areq) : areq :=
  mk_areq (ar_client_id a) (ar_redirect_uri a) (ar_response_type a) (ar_scope a) (ar_state a)
    (ar_nonce a) (ar_code_challenge a) (Some m) (ar_claims a) (ar_sector a) (ar_prompt a)
    (ar_max_age a) (ar_response_mode a) (ar_other a).

(** post_authn_parse: src/oidcop/oidc/add_on/pkce.py 33-62. [own] is the
    client's pkce_essential, if it has that entry. *)
Definition post_authn_parse (p : pkce_conf) (own : option bool) (ar : areq) : outcome areq :=
  let essential := match own with Some b => b | None => otrue (pk_essential p) end in
  if essential && match ar_code_challenge ar with None => true | Some _ => false end
  then Err "invalid_request"
  else
    let ar1 := match ar_code_challenge_method ar with
               | None => ar_set_method "plain" ar
               | Some _ => ar end in
    match ar_code_challenge ar1, ar_code_challenge_method ar1 with
    | Some _, Some m => if smem m (pk_methods p) then Good ar1 else Err "invalid_request"
    | _, _ => Good ar1
    end.
