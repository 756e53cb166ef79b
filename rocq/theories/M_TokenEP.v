(** The token endpoint: src/oidcop/oauth2/token.py and src/oidcop/oidc/token.py.
    [e_oidc] selects the helper classes. *)
From Verif Require Import M_Base M_Types M_Codec M_Grant M_Env M_Session M_Claims M_Handler.

(** A token request. *)
Record treq : Type := mk_treq {
  tr_grant_type : string;
  tr_code : option string;
  tr_refresh : option string;
  tr_client : option string;
  tr_redirect : option string;
  tr_scope : option (list string);
  tr_dpop : option string;             (* dpop_jkt, set by the DPoP add-on *)
  tr_verifier : option string          (* code_verifier *)
}.
Definition tr_set_client (c : string) (r : treq) : treq :=
  mk_treq (tr_grant_type r) (tr_code r) (tr_refresh r) (Some c) (tr_redirect r) (tr_scope r)
    (tr_dpop r) (tr_verifier r).

(** A token response. *)
Record tresp : Type := mk_tresp {
  rs_type : option string;
  rs_scope : list string;
  rs_access : option string;
  rs_expires : option Z;
  rs_refresh : option string;
  rs_id : option string
}.

(** Either an error message (with its error code) or a proper answer. *)
Inductive outcome (A : Type) : Type :=
| Err (code : string)
| Good (a : A).
Arguments Err {A} code.
Arguments Good {A} a.

(** The token at position [i] of the grant at [l], as it is now. *)
Definition tok_at (l i : nat) : M st token :=
  g <- grant_at l ;;
  match nth_error (g_tokens g) i with Some t => ret t | None => raise AttributeError end.

(** DEFAULT_TOKEN_LIFETIME: src/oidcop/constant.py 6. *)
Definition DEFAULT_TOKEN_LIFETIME : Z := 1800%Z.

(** The life time _mint_token gives a token: src/oidcop/oauth2/token.py 60-64,
    87-92. 0 and absent mean: no expiry. *)
Definition ep_lifetime (r : option rule) : option Z :=
  let x := match r with
           | Some r => if rule_true r then r_exp r else Some DEFAULT_TOKEN_LIFETIME
           | None => Some DEFAULT_TOKEN_LIFETIME
           end in
  match x with Some z => if Z.eqb z 0 then None else Some z | None => None end.

(** Use of a token that mint_token did not give (None): AttributeError. *)
Definition need {A} (o : option A) : M st A :=
  match o with Some i => ret i | None => raise AttributeError end.

(** TokenEndpointHelper._mint_token: src/oidcop/oauth2/token.py 47-96. The
    token_args_methods (custom arguments) are not modelled. The last step
    stores the grant under the still encrypted session id. *)
Definition ep_mint (e : env) (now : Z) (l : nat) (sid tc : string) (based : option token)
    (scope : option (list string)) (ttype : string) : M st (option nat) :=
  g <- grant_at l ;;
  let rules := dget (g_rules g) tc in
  (if dmem (e_handlers e) tc then ret tt else raise KeyError) ;;
  r <- mint e now l sid tc based rules scope ttype no_args ;;
  (match ep_lifetime rules with
   | Some x => i <- need r ;; upd_tok l i (tok_set_exp (now + x))
   | None => ret tt
   end) ;;
  db_set (unpack_session_key sid) l ;;
  ret r.

(** [except MintingNotAllowed] of src/oidcop/oauth2/token.py 162, 182: the class
    imported there is not the one mint_token raises. *)
Definition except_minting {A} (m : M st A) : M st (option A) :=
  catch (a <- m ;; ret (Some a))
    (fun x => match x with MintingNotAllowedTok => Some (ret None) | _ => None end).

(** A token minted with _mint_token, for the response: value and expires_in. *)
Definition mint_value (e : env) (now : Z) (l : nat) (sid tc : string) (based : option token)
    (scope : option (list string)) (ttype : string) : M st token :=
  r <- ep_mint e now l sid tc based scope ttype ;;
  i <- need r ;;
  tok_at l i.

Definition expires_in (now : Z) (t : token) : option Z :=
  if Z.eqb (t_exp t) 0 then None else Some (t_exp t - now)%Z.

(** [except (JWEException, NoSuitableSigningKeys)]: src/oidcop/oidc/token.py
    147, 280. *)
Definition except_jwe {A} (m : M st A) : M st (option A) :=
  catch (a <- m ;; ret (Some a))
    (fun x => match x with JWEException | NoSuitableSigningKeys => Some (ret None)
                         | _ => None end).

(** The grant types of a client, or else of the provider:
    src/oidcop/oauth2/token.py 126-129. *)
Definition grant_types_of (e : env) (cid : string) : res (list string) :=
  match dget (e_clients e) cid with
  | None => Raise KeyError
  | Some c => match c_grant_types c with
              | Some l => Ok l
              | None => match e_grant_types e with Some l => Ok l | None => Raise KeyError end
              end
  end.

Definition otrue (o : option bool) : bool := match o with Some b => b | None => false end.

(** AccessTokenHelper.process_request: src/oidcop/oauth2/token.py 100-192 and
    src/oidcop/oidc/token.py 25-159. [issue] is the issue_refresh keyword
    argument. *)
Definition code_process (e : env) (now : Z) (req : treq) (issue : option bool)
  : M st (outcome tresp) :=
  if negb (String.eqb (tr_grant_type req) CODE) then ret (Err "invalid_request")
  else match tr_code req with
  | None => ret (Err "invalid_request")
  | Some raw =>
      let code := replace_char " " "+" raw in
      i <- get_session_info_by_token e now code ;;
      rc <- (match tr_client req with Some c => ret c | None => raise KeyError end) ;;
      if negb (String.eqb (ss_client i) rc) then ret (Err "invalid_grant")
      else
      gts <- lift (grant_types_of e (ss_client i)) ;;
      let l := ss_grant i in
      let sid := ss_sid i in
      g <- grant_at l ;;
      let dpop := if e_oidc e && e_dpop e then
                    match tr_dpop req with
                    | Some j => if str_true j then Some j else None
                    | None => None end
                  else None in
      (match dpop with
       | Some j => upd_obj l (on_grant (fun g => g_set_extra (dset (g_extra g) "dpop_jkt" j) g))
       | None => ret tt
       end) ;;
      let ttype := match dpop with Some _ => "DPoP" | None => "Bearer" end in
      pos <- need (find_pos code (g_tokens g) 0) ;;
      based <- tok_at l pos ;;
      let mints := match r_minting (t_rules based) with Some m => m | None => [] end in
      ar <- (match g_areq g with Some a => ret a | None => raise TypeError end) ;;
      same <- (match ar_redirect_uri ar with
               | None => ret true
               | Some u => match tr_redirect req with
                           | None => raise KeyError
                           | Some v => ret (String.eqb v u)
                           end
               end) ;;
      if negb same then ret (Err "invalid_request")
      else
      let issue := if e_oidc e then
                     match issue with
                     | Some b => b
                     | None => smem "offline_access" (g_scope g)
                     end
                   else otrue issue in
      access <- (if smem ACCESS mints then
                   except_minting (mint_value e now l sid ACCESS (Some based) None
                                     (if e_oidc e then ttype else ""))
                 else ret None) ;;
      refresh <- (if issue && smem REFRESH mints && smem REFRESH gts then
                    based <- tok_at l pos ;;
                    except_minting (mint_value e now l sid REFRESH (Some based) None "")
                  else ret None) ;;
      mgr_put e sid l ;;
      idt <- (if e_oidc e then
                sc <- (match ar_scope ar with Some s => ret s | None => raise KeyError end) ;;
                if smem "openid" sc && smem IDTOKEN mints then
                  based <- tok_at l pos ;;
                  t <- except_jwe (mint_value e now l sid IDTOKEN (Some based) None "") ;;
                  match t with
                  | Some t => ret (Good (Some (t_value t)))
                  | None => ret (Err "invalid_request")
                  end
                else ret (Good None)
              else ret (Good None)) ;;
      match idt with
      | Err x => ret (Err x)
      | Good idv =>
          upd_tok l pos tok_register ;;
          ret (Good (mk_tresp (Some ttype) (g_scope g)
                 (option_map t_value access)
                 (match access with Some t => expires_in now t | None => None end)
                 (option_map t_value refresh) idv))
      end
  end.

Definition tok_set_rules (r : rule) (t : token) : token :=
  mk_token (t_class t) (t_value t) (t_based t) r (t_issued t) (t_exp t)
    (t_nbf t) (t_revoked t) (t_used t) (t_id t) (t_scope t) (t_resources t) (t_type t) (t_sid t).

(** Grant.find_scope(token.based_on), the argument being a value or None. *)
Definition parent_scope (e : env) (g : grant) (t : token) : res (list string) :=
  find_scope (e_limit e) g
    (match t_based t with Some v => get_token g v | None => None end).

(** Whether a refresh token is revoked once used: src/oidcop/oauth2/token.py
    298-305. *)
Definition revoke_refresh (e : env) (cid : string) : bool :=
  match dget (e_clients e) cid with
  | Some c => match c_revoke_refresh c with Some b => b | None => e_revoke_refresh e end
  | None => e_revoke_refresh e
  end.

(** _mint_token for a new refresh token, which then gets a copy of the usage
    rules of the old one: src/oidcop/oauth2/token.py 285-293. *)
Definition mint_rotated (e : env) (now : Z) (l : nat) (sid : string) (old : token)
    (scope : list string) : M st token :=
  r <- ep_mint e now l sid REFRESH (Some old) (Some scope) "" ;;
  i <- need r ;;
  upd_tok l i (tok_set_rules (t_rules old)) ;;
  tok_at l i.

(** RefreshTokenHelper.process_request: src/oidcop/oauth2/token.py 231-310 and
    src/oidcop/oidc/token.py 203-304. *)
Definition refresh_process (e : env) (now : Z) (req : treq) (issue : option bool)
  : M st (outcome tresp) :=
  if negb (String.eqb (tr_grant_type req) REFRESH) then ret (Err "invalid_request")
  else
  v <- (match tr_refresh req with Some v => ret v | None => raise KeyError end) ;;
  i <- get_session_info_by_token e now v ;;
  rc <- (match tr_client req with Some c => ret c | None => raise KeyError end) ;;
  if negb (String.eqb (ss_client i) rc) then ret (Err "invalid_grant")
  else
  let l := ss_grant i in
  let sid := ss_sid i in
  g <- grant_at l ;;
  let dpop := if e_dpop_info e then
                match tr_dpop req with
                | Some j => if str_true j then Some j else None
                | None => None end
              else None in
  (match dpop with
   | Some j => upd_obj l (on_grant (fun g => g_set_extra (dset (g_extra g) "dpop_jkt" j) g))
   | None => ret tt
   end) ;;
  let ttype := match dpop with Some _ => "DPoP" | None => "Bearer" end in
  pos <- need (find_pos v (g_tokens g) 0) ;;
  tok <- tok_at l pos ;;
  psc <- lift (parent_scope e g tok) ;;
  let scope := match tr_scope req with Some s => s | None => psc end in
  access <- mint_value e now l sid ACCESS (Some tok) (Some scope) ttype ;;
  mints <- (match r_minting (t_rules tok) with Some m => ret m | None => raise TypeError end) ;;
  let issue := if e_oidc e then
                 match issue with Some b => b | None => smem "offline_access" scope end
               else otrue issue in
  refresh <- (if smem REFRESH mints && issue then
                tok <- tok_at l pos ;;
                t <- mint_rotated e now l sid tok scope ;;
                ret (Some (t_value t))
              else ret None) ;;
  idt <- (if e_oidc e && smem IDTOKEN mints && smem "openid" scope then
            tok <- tok_at l pos ;;
            t <- except_jwe (mint_value e now l sid IDTOKEN (Some tok) (Some scope) "") ;;
            match t with
            | Some t => ret (Good (Some (t_value t)))
            | None => ret (Err "invalid_request")
            end
          else ret (Good None)) ;;
  match idt with
  | Err x => ret (Err x)
  | Good idv =>
      upd_tok l pos tok_register ;;
      (if revoke_refresh e rc then upd_tok l pos tok_set_revoked else ret tt) ;;
      ret (Good (mk_tresp (if e_oidc e then Some ttype else t_type access) scope
             (Some (t_value access)) (expires_in now access) refresh idv))
  end.

(** Token.process_request: src/oidcop/oauth2/token.py 442-490. The answer is
    given only after the new access token has been looked up for the cookie. *)
Definition token_process (e : env) (now : Z) (req : treq) (issue : option bool)
  : M st (outcome tresp) :=
  r <- (if negb (smem (tr_grant_type req) (e_helpers e)) then ret (Err "invalid_request")
        else catch (if String.eqb (tr_grant_type req) CODE then code_process e now req issue
                    else if String.eqb (tr_grant_type req) REFRESH
                         then refresh_process e now req issue
                         else ret (Err "unmodelled helper"))
               (fun x => match x with
                         | JWEException => Some (ret (Err "invalid_request"))
                         | _ => None end)) ;;
  match r with
  | Err x => ret (Err x)
  | Good a =>
      v <- (match rs_access a with Some v => ret v | None => raise KeyError end) ;;
      i <- get_session_info_by_token e now v ;;
      grant_at (ss_grant i) ;;
      ret (Good a)
  end.

(** AccessTokenHelper.post_parse_request: src/oidcop/oauth2/token.py 194-227
    and src/oidcop/oidc/token.py 161-199. *)
Definition code_parse (e : env) (now : Z) (req : treq) : M st (outcome treq) :=
  oi <- catch (c <- (match tr_code req with Some c => ret c | None => raise KeyError end) ;;
               i <- get_session_info_by_token e now c ;;
               ret (Some (c, i)))
          (fun x => if is_KeyError x then Some (ret None)
                    else match x with UnknownToken => Some (ret None) | _ => None end) ;;
  match oi with
  | None => ret (Err "invalid_grant")
  | Some (c, i) =>
      let l := ss_grant i in
      g <- grant_at l ;;
      match get_token g c with
      | None => ret (Err "invalid_request")
      | Some t =>
          if negb (String.eqb (t_class t) CODE) then ret (Err "invalid_request")
          else if e_oidc e && negb (Z.eqb (t_used t) 0) then
            on_tokens l (revoke_token (e_limit e) "" c true) ;;
            ret (Err "invalid_grant")
          else if negb (tok_active now t) then
            ret (Err (if e_oidc e then "invalid_grant" else "invalid_request"))
          else
            match tr_client req with
            | Some _ => ret (Good req)
            | None => match g_areq g with
                      | Some a => ret (Good (tr_set_client (ar_client_id a) req))
                      | None => raise TypeError
                      end
            end
      end
  end.

(** RefreshTokenHelper.post_parse_request: src/oidcop/oauth2/token.py 312-359
    and src/oidcop/oidc/token.py 306-353. A request without refresh_token does
    not verify ([Other 1] stands for the library's exception). *)
Definition refresh_parse (e : env) (now : Z) (req : treq) : M st (outcome treq) :=
  v <- (match tr_refresh req with Some v => ret v | None => raise (Other 1) end) ;;
  oi <- catch (i <- get_session_info_by_token e now v ;; ret (Some i))
          (fun x => if is_KeyError x then Some (ret None) else None) ;;
  match oi with
  | None => ret (Err "invalid_grant")
  | Some i =>
      g <- grant_at (ss_grant i) ;;
      match get_token g v with
      | None => ret (Err "invalid_request")
      | Some t =>
          if negb (String.eqb (t_class t) REFRESH) then ret (Err "invalid_request")
          else if negb (tok_active now t) then ret (Err "invalid_request")
          else
            match tr_scope req with
            | None => ret (Good req)
            | Some s =>
                psc <- lift (parent_scope e g t) ;;
                if subset_b s psc then ret (Good req) else ret (Err "invalid_request")
            end
      end
  end.

(** Token._post_parse_request: src/oidcop/oauth2/token.py 423-440. [cid] is the
    client that client authentication found. *)
Definition token_parse (e : env) (now : Z) (cid : string) (req : treq) : M st (outcome treq) :=
  match dget (e_clients e) cid with
  | None => raise KeyError
  | Some c =>
      if match c_grant_types c with
         | Some l => negb (smem (tr_grant_type req) l)
         | None => false end
      then ret (Err "invalid_request")
      else if negb (smem (tr_grant_type req) (e_helpers e)) then ret (Err "invalid_request")
      else if String.eqb (tr_grant_type req) CODE then code_parse e now req
      else if String.eqb (tr_grant_type req) REFRESH then refresh_parse e now req
      else ret (Err "unmodelled helper")
  end.
