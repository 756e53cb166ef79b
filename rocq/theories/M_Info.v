(** Introspection (src/oidcop/oauth2/introspection.py) and userinfo
    (src/oidcop/oidc/userinfo.py). *)
From Verif Require Import M_Base M_Types M_Codec M_Grant M_Env M_Session M_Claims M_Handler
  M_TokenEP.

(** The answer about an active token. [ir_claims] are the user claims merged
    into it by [_resp.update(user_info)]; they may shadow the other members but
    [active]. *)
Record iresp : Type := mk_iresp {
  ir_scope : list string;
  ir_client : string;
  ir_class : string;
  ir_exp : Z;
  ir_iat : Z;
  ir_sub : string;
  ir_iss : string;
  ir_type : option string;
  ir_aud : list string;
  ir_username : option string;
  ir_claims : dict jval
}.

(** Introspection._introspect: src/oidcop/oauth2/introspection.py 28-76.
    token_args_methods are not modelled. None is Python's None. *)
Definition introspect_token (e : env) (now : Z) (t : token) (client : string) (g : grant)
  : res (option iresp) :=
  if negb (smem (t_class t) [ACCESS; REFRESH]) then Ok None
  else if negb (tok_active now t) then Ok None
  else
    rbind (if list_true (t_scope t) then Ok (t_scope t)
           else if ostr_true (t_based t) then parent_scope e g t
           else Ok (g_scope g))
      (fun scope =>
         Ok (Some (mk_iresp scope client (t_class t) (t_exp t) (t_issued t) (g_sub g)
                     (e_issuer e)
                     (match t_type t with Some s => if str_true s then Some s else None
                                        | None => None end)
                     (match t_resources t with [] => g_resources g | r => r end)
                     None []))).

Definition ir_set_user (u : option string) (r : iresp) : iresp :=
  mk_iresp (ir_scope r) (ir_client r) (ir_class r) (ir_exp r) (ir_iat r) (ir_sub r) (ir_iss r)
    (ir_type r) (ir_aud r) u (ir_claims r).
Definition ir_set_claims (c : dict jval) (r : iresp) : iresp :=
  mk_iresp (ir_scope r) (ir_client r) (ir_class r) (ir_exp r) (ir_iat r) (ir_sub r) (ir_iss r)
    (ir_type r) (ir_aud r) (ir_username r) c.

(** Introspection.process_request: src/oidcop/oauth2/introspection.py 78-128.
    The answer is active=false (None) or the data of the token, active=true.
    [release]: whether the caller has username in its release list. *)
Definition introspect (e : env) (now : Z) (release : bool) (tok : string)
  : M st (option iresp) :=
  oi <- catch (i <- get_session_info_by_token e now tok ;; ret (Some i))
          (fun x => match x with
                    | UnknownToken | WrongTokenClass => Some (ret None)
                    | _ => None end) ;;
  match oi with
  | None => ret None
  | Some i =>
      g <- grant_at (ss_grant i) ;;
      match get_token g tok with
      | None => raise AttributeError
      | Some t =>
          r <- lift (introspect_token e now t (ss_client i) g) ;;
          match r with
          | None => ret None
          | Some r =>
              let r := if release then ir_set_user (Some (ss_user i)) r else r in
              match dget (g_claims g) "introspection" with
              | None | Some [] => ret (Some r)
              | Some restr =>
                  info <- lift (get_user_claims e (ss_user i) (Some restr)) ;;
                  ret (Some (ir_set_claims info r))
              end
          end
      end
  end.

(** UserInfo.process_request: src/oidcop/oidc/userinfo.py 111-158. UnknownToken,
    WrongTokenClass and ToOld are neither KeyError nor ValueError and escape. A
    token that get_token does not find is None: AttributeError. *)
Definition is_lookup_error (x : exn) : bool :=
  is_KeyError x || match x with ValueError => true | _ => false end.

Definition userinfo (e : env) (now : Z) (tok : string) : M st (outcome (dict jval * string)) :=
  oi <- catch (i <- get_session_info_by_token e now tok ;; ret (Some i))
          (fun x => if is_lookup_error x then Some (ret None) else None) ;;
  match oi with
  | None => ret (Err "invalid_token")
  | Some i =>
      g <- grant_at (ss_grant i) ;;
      match get_token g tok with
      | None => raise AttributeError
      | Some t =>
          if negb (String.eqb (t_class t) ACCESS) then ret (Err "invalid_token")
          else if negb (tok_active now t) then ret (Err "invalid_token")
          else
            match g_aevent g with
            | None => raise TypeError
            | Some ev =>
                if (ae_valid_until ev <? now)%Z then ret (Err "invalid_request")
                else
                  info <- lift (get_user_claims e (ss_user i) (dget (g_claims g) "userinfo")) ;;
                  let info := dset info "sub" (JStr (g_sub g)) in
                  a <- lift (add_acr_value g "userinfo") ;;
                  ret (Good ((if a then dset info "acr" (JStr (ae_authn_info ev)) else info),
                             ss_client i))
            end
      end
  end.
