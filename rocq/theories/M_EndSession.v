(** The end-session endpoint: src/oidcop/oidc/session.py. *)
From Verif Require Import M_Base M_Types M_Codec M_Grant M_Env M_Session M_Handler M_Uri M_Redirect M_Cookie M_Logout.

(** What the endpoint reads of its configuration and context. [en_loads] is
    json.loads of a session cookie's value: a document that is not an object
    raises an exception; the values of other members than strings are left
    out. *)
Record endconf : Type := mkEndConf {
  en_lib : clib;
  en_handler : handler;
  en_cookie : string;               (* cookie_handler.name["session"] *)
  en_loads : string -> res (dict string);
  en_cdb : dict cl_info;
  en_path : string;                 (* post_logout_uri_path *)
  en_alg : string;                  (* signing_alg *)
  en_verify_url : string            (* logout_verify_url *)
}.

(** The claims of an ID token hint that parse_request (src/oidcop/oidc/session.py
    351-394) has verified. "aud" is a list in a verified ID token. *)
Record hint : Type := mkHint { hi_aud : list string; hi_sub : string }.

(** An end-session request as parse_request hands it over: the parameters, and
    the verified claims if id_token_hint is among them. *)
Record endreq : Type := mkEndReq { er_params : request; er_hint : option hint }.

(** [except VerificationError: raise InvalidRequest]: src/oidcop/oidc/session.py
    272-277. VerificationError is [Other 32] in M_Cookie. *)
Definition cookie_error {A} (r : res A) : res A :=
  match r with
  | Raise (Other n) => if Nat.eqb n 32 then Raise InvalidRequest else r
  | _ => r
  end.

(** The session cookie: src/oidcop/oidc/session.py 266-290. *)
Definition cookie_session (E : endconf) (e : env) (cookies : list cookie) : M st (option sess) :=
  match cookies with
  | [] => ret None
  | _ =>
      infos <- lift (cookie_error (parse_cookie (en_lib E) (en_handler E) (en_cookie E) cookies)) ;;
      match infos with
      | Some (i :: _) =>
          doc <- lift (en_loads E (ct_value i)) ;;
          match dget doc "sid" with
          | None => raise ValueError
          | Some sid =>
              x <- catch (get_session_info e sid)
                     (fun x => if is_KeyError x then Some (raise ValueError) else None) ;;
              ret (Some x)
          end
      | _ => ret None
      end
  end.

(** The check of the hint against the session: src/oidcop/oidc/session.py
    292-304. *)
Definition check_hint (h : option hint) (i : sess) : M st unit :=
  match h with
  | None => ret tt
  | Some h =>
      if negb (smem (ss_client i) (hi_aud h)) then raise ValueError
      else g <- grant_at (ss_grant i) ;;
           if String.eqb (hi_sub h) (g_sub g) then ret tt else raise ValueError
  end.

(** The provider's own page: src/oidcop/oidc/session.py 314-318. *)
Definition own_page (E : endconf) (e : env) : string :=
  if ends_with "/" (e_issuer e) then append (e_issuer e) (en_path E)
  else append (e_issuer e) (append "/" (en_path E)).

(** Where the user is sent in the end, and the state if it is passed on:
    src/oidcop/oidc/session.py 311-338. *)
Definition end_target (E : endconf) (e : env) (rq : request) (c : string)
  : res (string * option string) :=
  match dget rq "post_logout_redirect_uri" with
  | None => Ok (own_page E e, None)
  | Some u =>
      rbind (verify_uri (en_cdb E) rq "post_logout_redirect_uri" (Some c)) (fun _ =>
      match dget rq "state" with
      | None => Ok (u, None)
      | Some s => Ok (append u (append "?" (urlencode [("state", [s])])), Some s)
      end)
  end.

(** The payload of the confirmation: src/oidcop/oidc/session.py 328-338. *)
Definition end_payload (sid : string) (t : string * option string) : dict jval :=
  ("sid", JStr sid)
    :: (match snd t with None => [] | Some s => [("state", JStr s)] end)
    ++ [("redirect_uri", JStr (fst t))].

(** Session.process_request: src/oidcop/oidc/session.py 246-349. The result
    is the signed confirmation and the redirect location. *)
Definition end_session (E : endconf) (e : env) (now : Z) (rq : endreq) (cookies : list cookie)
  : M st (string * string) :=
  match dget (er_params rq) "post_logout_redirect_uri", er_hint rq with
  | Some _, None => raise InvalidRequest
  | _, _ =>
      oi <- cookie_session E e cookies ;;
      match oi with
      | None => raise ValueError
      | Some i =>
          check_hint (er_hint rq) i ;;
          t <- lift (end_target E e (er_params rq) (ss_client i)) ;;
          n <- tick ;;
          sjwt <- lift (e_sign e (en_alg E) n
                          (jwt_claims (e_issuer e) 86400 now (e_issuer e) (end_payload (ss_sid i) t))) ;;
          ret (sjwt, append (en_verify_url E) (append "?" (urlencode [("sjwt", [sjwt])])))
      end
  end.

(** Session.unpack_signed_jwt without sig_alg: src/oidcop/oidc/session.py
    212-224. The signature is verified with the provider's own keys; neither
    the expiry time nor the issuer or audience is looked at. *)
Definition unpack_signed_jwt (E : endconf) (e : env) (sjwt : string) : res (dict jval) :=
  e_verify e [en_alg E] sjwt.
