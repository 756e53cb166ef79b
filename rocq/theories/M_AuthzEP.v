(** The authorization endpoint, from the authentication onwards:
    src/oidcop/oauth2/authorization.py (src/oidcop/oidc/authorization.py adds
    only do_request_user, whose result is the argument [req_user] here). *)
From Verif Require Import M_Base M_Types M_Codec M_Grant M_Env M_Session M_Claims M_Handler
  M_Authz M_TokenEP.

(** ** Equality of requests: [request != grant.authorization_request]. *)
Definition opt_eqb {A} (f : A -> A -> bool) (a b : option A) : bool :=
  match a, b with
  | None, None => true
  | Some x, Some y => f x y
  | _, _ => false
  end.
Fixpoint list_eqb {A} (f : A -> A -> bool) (a b : list A) : bool :=
  match a, b with
  | [], [] => true
  | x :: a, y :: b => f x y && list_eqb f a b
  | _, _ => false
  end.
Definition pair_eqb {A} (f : A -> A -> bool) (a b : string * A) : bool :=
  String.eqb (fst a) (fst b) && f (snd a) (snd b).
Definition cspec_eqb : cspec -> cspec -> bool := opt_eqb (list_eqb (pair_eqb jval_eqb)).
Definition claims_eqb : claims_map -> claims_map -> bool :=
  list_eqb (pair_eqb (list_eqb (pair_eqb cspec_eqb))).

(** Message equality (oidcmsg): member by member. Simplification: claims
    requests compare as ordered lists. *)
Definition areq_eqb (a b : areq) : bool :=
  String.eqb (ar_client_id a) (ar_client_id b)
  && opt_eqb String.eqb (ar_redirect_uri a) (ar_redirect_uri b)
  && list_eqb String.eqb (ar_response_type a) (ar_response_type b)
  && opt_eqb (list_eqb String.eqb) (ar_scope a) (ar_scope b)
  && opt_eqb String.eqb (ar_state a) (ar_state b)
  && opt_eqb String.eqb (ar_nonce a) (ar_nonce b)
  && opt_eqb String.eqb (ar_code_challenge a) (ar_code_challenge b)
  && opt_eqb String.eqb (ar_code_challenge_method a) (ar_code_challenge_method b)
  && opt_eqb claims_eqb (ar_claims a) (ar_claims b)
  && String.eqb (ar_sector a) (ar_sector b)
  && opt_eqb (list_eqb String.eqb) (ar_prompt a) (ar_prompt b)
  && opt_eqb Z.eqb (ar_max_age a) (ar_max_age b)
  && opt_eqb String.eqb (ar_response_mode a) (ar_response_mode b)
  && list_eqb (pair_eqb String.eqb) (ar_other a) (ar_other b).

(** ** Authentication *)

(** AuthnEvent.is_valid: src/oidcop/authn_event.py 28-32, with the clock. *)
Definition event_valid (now : Z) (a : aevent) : bool := (now <? ae_valid_until a)%Z.

(** create_authn_event as called by create_session
    (src/oidcop/authn_event.py 38-72): the keyword argument given there is
    called time_stamp and is not read, so that the time is now. [exp_in] is
    the expires_in argument of the authentication method (authorization.py
    493-495). *)
Definition new_event (now : Z) (uid acr : string) (exp_in : option Z) : aevent :=
  mk_aevent uid acr now
    (match exp_in with
     | Some x => if Z.eqb x 0 then now + 3600 else now + x
     | None => now + 3600
     end)%Z.

(** Authorization.create_session: src/oidcop/oauth2/authorization.py 485-504. *)
Definition ep_create_session (e : env) (now : Z) (ar : areq) (uid acr : string)
    (exp_in : option Z) : M st string :=
  create_session e now (new_event now uid acr exp_in) ar uid (ar_client_id ar)
    (Some (env_rules e (ar_client_id ar))) None.

(** What the authentication method says about the user agent
    ([authenticated_as], after _unwrap_identity): nobody (no identity, or one
    of the exceptions caught in 569-580), or a user, with the session the
    cookie names, if any. *)
Inductive auth_answer : Type :=
| ANobody
| AUser (uid : string) (sid : option string).

Inductive setup : Type :=
| SLogin                             (* {"function": authn, ...} *)
| SLoginRequired                     (* error login_required *)
| SGo (sid user : string).

Definition prompts (ar : areq) : list string :=
  match ar_prompt ar with Some l => l | None => [] end.

(** Authorization.setup_auth: src/oidcop/oauth2/authorization.py 529-653, given
    the answer of the authentication method. re_authenticate: 1042-1059. *)
Definition setup_auth (e : env) (now : Z) (ar : areq) (req_user : option string) (acr : string)
    (exp_in : option Z) (ans : auth_answer) : M st setup :=
  id <- (match ans with
         | ANobody => ret None
         | AUser u sid =>
             if ostr_true sid then
               l <- mgr_get e (ostr sid) ;;
               g <- grant_at l ;;
               ret (if grant_active now g then Some (u, sid) else None)
             else ret (Some (u, sid))
         end) ;;
  let refuse := if smem "none" (prompts ar) then SLoginRequired else SLogin in
  match id with
  | None => ret refuse
  | Some (u, sid) =>
      if smem "login" (prompts ar) then ret SLogin
      else if match req_user with Some r => negb (String.eqb u r) | None => false end
      then ret refuse
      else
        o <- (match sid with
              | None => ret (Some "")
              | Some sid =>
                  x <- lift (dec_sid3 e sid) ;;
                  let '(_, c, _) := x in
                  if negb (String.eqb (ar_client_id ar) c) then ret None
                  else
                    l <- mgr_get e sid ;;
                    g <- grant_at l ;;
                    if negb (grant_active now g) then ret None
                    else if match g_areq g with Some a => areq_eqb ar a | None => false end
                    then ret (Some sid)
                    else
                      ev <- get_authentication_event e sid ;;
                      ev <- need ev ;;
                      if negb (event_valid now ev) then ret None
                      else s <- create_grant e now ev ar u (ar_client_id ar) None None ;;
                           ret (Some s)
              end) ;;
        match o with
        | None => ret SLogin
        | Some s =>
            if str_true s then
              ev <- get_authentication_event e s ;;
              ev <- need ev ;;
              if negb (event_valid now ev) then ret SLogin else ret (SGo s u)
            else
              s <- ep_create_session e now ar u acr exp_in ;;
              ret (SGo s u)
        end
  end.

(** ** The response *)

(** Authorization.mint_token: src/oidcop/oauth2/authorization.py 329-349. *)
Definition az_mint (e : env) (now : Z) (l : nat) (sid tc : string)
    (scope : option (list string)) (ia : idt_args) : M st (option nat) :=
  g <- grant_at l ;;
  let rules := match dget (g_rules g) tc with Some r => r | None => empty_rule end in
  r <- mint e now l sid tc None (Some rules) scope "" ia ;;
  (match r_exp rules with
   | Some x => if Z.eqb x 0 then ret tt
               else i <- need r ;; upd_tok l i (tok_set_exp (now + x))
   | None => ret tt
   end) ;;
  db_set (unpack_session_key sid) l ;;
  ret r.

(** [self.mint_token(...)] followed by the use of the token. *)
Definition az_value (e : env) (now : Z) (l : nat) (sid tc : string)
    (scope : option (list string)) (ia : idt_args) : M st token :=
  r <- az_mint e now l sid tc scope ia ;;
  i <- need r ;;
  tok_at l i.

(** The members of an authorization response. *)
Record aresp : Type := mk_aresp {
  ap_state : option string;
  ap_scope : option (list string);
  ap_code : option string;
  ap_access : option string;
  ap_expires : option Z;
  ap_id : option string
}.

Definition nonempty (o : option string) : option string :=
  match o with Some s => if str_true s then Some s else None | None => None end.

(** The code, token and ID token of src/oidcop/oauth2/authorization.py 748-813;
    [l] is the grant. *)
Definition authn_tokens (e : env) (now : Z) (ar : areq) (sid : string) (l : nat)
    (scope : option (list string)) : M st (outcome aresp) :=
  let rt := ar_response_type ar in
  code <- (if smem "code" rt then
             t <- az_value e now l sid CODE None no_args ;; ret (Some (t_value t))
           else ret None) ;;
  access <- (if smem "token" rt then
               t <- az_value e now l sid ACCESS None no_args ;;
               ret (Some (t_value t, expires_in now t))
             else ret None) ;;
  idt <- (if smem "id_token" rt then
            sc <- (match ar_scope ar with Some s => ret s | None => raise KeyError end) ;;
            let ia := mk_idt_args code (option_map fst access)
                        (match rt with [_] => "userinfo" | _ => "" end) in
            t <- except_jwe (az_value e now l sid IDTOKEN (Some sc) ia) ;;
            match t with
            | Some t => ret (Good (Some (t_value t)))
            | None => ret (Err "invalid_request")
            end
          else ret (Good None)) ;;
  match idt with
  | Err x => ret (Err x)
  | Good idv =>
      if forallb (fun x => smem x ["code"; "token"; "id_token"]) rt then
        ret (Good (mk_aresp (nonempty (ar_state ar)) scope code
               (option_map fst access)
               (match access with Some (_, x) => x | None => None end) idv))
      else ret (Err "invalid_request")
  end.

(** Authorization.create_authn_response: src/oidcop/oauth2/authorization.py
    720-821. The second component is fragment_enc. *)
Definition create_authn_response (e : env) (now : Z) (ar : areq) (sid : string)
  : M st (outcome aresp * bool) :=
  match ar_response_type ar with
  | ["none"] => ret (Good (mk_aresp (nonempty (ar_state ar)) None None None None None), false)
  | rt =>
      i <- get_session_info e sid ;;
      let scope := match ar_scope ar with
                   | Some (x :: r) => Some (filter_scopes e (x :: r) (ss_client i))
                   | _ => None end in
      r <- authn_tokens e now ar (ss_sid i) (ss_grant i) scope ;;
      ret (r, negb (smem "code" rt && forallb (String.eqb "code") rt))
  end.

(** Authorization.response_mode: src/oidcop/oauth2/authorization.py 658-704.
    [frag] is fragment_enc as given (None: not given). The answer says
    whether the response is a form, and the new fragment_enc. *)
Definition response_mode (mode : string) (frag : option bool) : res (bool * option bool) :=
  if String.eqb mode "form_post" then Ok (true, None)
  else if String.eqb mode "fragment" then
    match frag with Some false => Raise InvalidRequest | _ => Ok (false, Some true) end
  else if String.eqb mode "query" then
    match frag with Some true => Raise InvalidRequest | _ => Ok (false, None) end
  else Raise InvalidRequest.

(** What the endpoint returns: the response parameters, whether they are
    delivered as a form, the place they go to, fragment_enc, the issuer (Mix-Up
    mitigation) and whether there is a session_state. *)
Record aout : Type := mk_aout {
  ao_args : outcome aresp;
  ao_form : bool;
  ao_uri : option string;
  ao_frag : option bool;
  ao_iss : option string;
  ao_session_state : bool
}.
Definition aout_error (x : string) : aout := mk_aout (Err x) false None None None false.

(** Authorization.post_authentication: src/oidcop/oauth2/authorization.py
    823-887. [uri] is the answer of get_uri (M_Redirect), None when it raises. *)
Definition post_authentication (e : env) (now : Z) (ar : areq) (sid : string)
    (uri : option string) : M st aout :=
  l <- authz e now sid ar ;;
  g <- grant_at l ;;
  if negb (grant_active now g) then ret (aout_error "server_error")
  else
    x <- lift (dec_sid3 e sid) ;;
    let '(u, c, gid) := x in
    ok <- catch (db_set [u; c; gid] l ;; ret true) (fun _ => Some (ret false)) ;;
    if negb ok then ret (aout_error "server_error")
    else
      r <- create_authn_response e now ar sid ;;
      let '(args, frag) := r in
      match uri with
      | None => ret (mk_aout (Err "invalid_request") false None (Some frag) None false)
      | Some v =>
          match ar_response_mode ar with
          | None => ret (mk_aout args false (Some v) (Some frag) None false)
          | Some m =>
              match response_mode m (Some frag) with
              | Raise _ => ret (mk_aout (Err "invalid_request") false (Some v) (Some frag) None false)
              | Ok (form, frag) => ret (mk_aout args form (Some v) frag None false)
              end
          end
      end.

(** error_by_response_mode({}, request, error, ...): 713-718. A request without
    response_mode has no such key. *)
Definition error_by_response_mode (ar : areq) (x : string) : res aout :=
  match ar_redirect_uri ar, ar_response_mode ar with
  | Some u, Some m =>
      rbind (response_mode m None)
        (fun r => Ok (mk_aout (Err x) (fst r) (Some u) (snd r) None false))
  | _, _ => Raise KeyError
  end.

(** Authorization.authz_part2: src/oidcop/oauth2/authorization.py 889-957.
    [iframe]: check_session_iframe is in provider_info. The answer of the form
    response mode has no response_args, so nothing is added to it. *)
Definition authz_part2 (e : env) (now : Z) (iframe : bool) (ar : areq) (sid : string)
    (uri : option string) : M st aout :=
  o <- catch (o <- post_authentication e now ar sid uri ;; ret (Some o))
         (fun _ => Some (ret None)) ;;
  match o with
  | None => lift (error_by_response_mode ar "server_error")
  | Some o =>
      let fin ss := mk_aout (ao_args o) (ao_form o) (ao_uri o) (ao_frag o)
                      (if ao_form o then None else Some (e_issuer e)) (ss && negb (ao_form o)) in
      if iframe then
        ev <- catch (ev <- get_authentication_event e sid ;; ret (Some ev))
                (fun x => if is_KeyError x then Some (ret None) else None) ;;
        match ev with
        | None => lift (error_by_response_mode ar "server_error")
        | Some ev =>
            ev <- need ev ;;
            if negb (event_valid now ev) then lift (error_by_response_mode ar "server_error")
            else ret (fin true)
        end
      else ret (fin false)
  end.

(** Authorization.process_request: src/oidcop/oauth2/authorization.py 962-1021.
    [deny]: deny_unknown_scopes. *)
Inductive ares : Type :=
| RLogin                   (* the authentication page *)
| RLoginRequired (form : bool)
| ROut (o : aout).

Definition authorize (e : env) (now : Z) (deny iframe : bool) (ar : areq)
    (req_user : option string) (acr : string) (exp_in : option Z) (ans : auth_answer)
    (uri : option string) : M st ares :=
  match dget (e_clients e) (ar_client_id ar) with
  | None => raise KeyError
  | Some _ =>
      lift (check_unknown_scopes e deny (ar_scope ar) (ar_client_id ar)) ;;
      s <- setup_auth e now ar req_user acr exp_in ans ;;
      match s with
      | SLogin => ret RLogin
      | SLoginRequired =>
          match ar_response_mode ar with
          | None => ret (RLoginRequired false)
          | Some m => r <- lift (response_mode m None) ;; ret (RLoginRequired (fst r))
          end
      | SGo sid _ => o <- authz_part2 e now iframe ar sid uri ;; ret (ROut o)
      end
  end.

(** What the login page does once the user has been verified: a session is
    created and the authorization completed (the web application calls
    create_session and authz_part2; see e.g. flask_op/views.py verify). *)
Definition login (e : env) (now : Z) (iframe : bool) (ar : areq) (uid acr : string)
    (exp_in : option Z) (uri : option string) : M st aout :=
  sid <- ep_create_session e now ar uid acr exp_in ;;
  authz_part2 e now iframe ar sid uri.
