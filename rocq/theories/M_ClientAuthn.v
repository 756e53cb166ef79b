(** Client authentication: src/oidcop/client_authn.py, and its use by the
    endpoints, src/oidcop/endpoint.py 136-233. *)
From Verif Require Import M_Base.

(** An entry of the client database, as far as it is read here: the client
    information (client_secret, client_secret_expires_at), or the name of
    another entry (client_authn.py 388-390). *)
Inductive centry : Type :=
| CAlias (name : string)
| CInfo (secret : option string) (expires : Z).

(** A client assertion or request object, as JWT.unpack returns it: members of
    the header (alg, kid) and of the payload. *)
Record assertion : Type := mk_assertion {
  as_alg : option string;
  as_kid : option string;
  as_iss : string;
  as_aud : list string;
  as_jti : option string
}.

(** The parts of a request that client authentication reads. *)
Record creq : Type := mk_creq {
  cr_client_id : option string;
  cr_client_secret : option string;
  cr_access_token : option string;
  cr_assertion : option string;            (* client_assertion *)
  cr_request : option string               (* request *)
}.

(** Configuration and libraries: the client database; base64.b64decode followed
    by decoding to text; unquote_plus; JWT.unpack at a time, with the key jar of
    the provider; the symmetric keys of an issuer in the key jar. *)
Record aenv : Type := mk_aenv {
  a_cdb : dict centry;
  a_b64 : string -> res string;
  a_unquote : string -> string;
  a_unpack : Z -> string -> res assertion;
  a_oct : string -> option string -> list string
}.

(** The methods: CLIENT_AUTHN_METHOD, client_authn.py 303-312, and the one of
    the DPoP add-on, src/oidcop/oauth2/add_on/dpop.py 151-170. *)
Inductive meth : Set :=
| MNone | MBasic | MPost | MBearerHeader | MBearerBody | MSecretJWT | MPrivateJWT
| MRequestParam | MDPoP.

(** The [tag] of a method. *)
Definition tag (m : meth) : string :=
  match m with
  | MNone => "none"
  | MBasic => "client_secret_basic"
  | MPost => "client_secret_post"
  | MBearerHeader => "bearer_header"
  | MBearerBody => "bearer_body"
  | MSecretJWT => "client_secret_jwt"
  | MPrivateJWT => "private_key_jwt"
  | MRequestParam => "request_param"
  | MDPoP => "dpop_client_auth"
  end.

(** An endpoint: client_authn_method, allowed_target_uris()
    (src/oidcop/endpoint.py 417-425) and get_client_id_from_token, if it has
    that. *)
Record cendpoint : Type := mk_cendpoint {
  ep_methods : list meth;
  ep_targets : list string;
  ep_from_token : option (string -> res string)
}.

(** What verify returns: client_id, token, method, jwt. *)
Record ainfo : Type := mk_ainfo {
  ai_client : option string;
  ai_token : option string;
  ai_method : string;
  ai_jwt : option assertion
}.

(** The state: the keys of context.jti_db. *)
Definition jtis : Type := list string.

(** basic_authn: client_authn.py 77-88. *)
Definition basic_authn (A : aenv) (hdr : string) : res (string * string) :=
  if negb (starts_with "Basic " hdr) then Raise FailedAuthentication
  else rbind (a_b64 A (drop 6 hdr))
         (fun text => match map (a_unquote A) (py_split ":" text) with
                      | [c; s] => Ok (c, s)
                      | _ => Raise ValueError
                      end).

(** [context.cdb[c]["client_secret"] == s]: subscripting an alias raises
    TypeError. *)
Definition secret_is (A : aenv) (c s : string) : res bool :=
  match dget (a_cdb A) c with
  | None => Raise KeyError
  | Some (CAlias _) => Raise TypeError
  | Some (CInfo None _) => Raise KeyError
  | Some (CInfo (Some x) _) => Ok (String.eqb x s)
  end.

Definition present {A} (o : option A) : bool := match o with Some _ => true | None => false end.

(** is_usable: client_authn.py 100-103, 127-132, 149-152, 165-168, 183-188,
    275-277; dpop.py 154-157. *)
Definition is_usable (m : meth) (q : creq) (hdr : option string) : bool :=
  match m with
  | MNone => false
  | MBasic => match hdr with Some h => starts_with "Basic " h | None => false end
  | MPost => present (cr_client_id q) && present (cr_client_secret q)
  | MBearerHeader => match hdr with Some h => starts_with "Bearer " h | None => false end
  | MBearerBody => present (cr_access_token q)
  | MSecretJWT | MPrivateJWT => present (cr_assertion q)
  | MRequestParam => present (cr_request q)
  | MDPoP => match hdr with Some h => starts_with "DPoP " h | None => false end
  end.

(** One-time use of a jti: client_authn.py 223-230, 288-295. *)
Definition use_jti (a : assertion) : M jtis unit :=
  match as_jti a with
  | Some j =>
      if str_true j then
        let key := append (as_iss a) (append ":" j) in
        db <- get_st ;;
        if smem key db then raise MultipleUsage else put_st (db ++ [key])
      else ret tt
  | None => ret tt
  end.

(** JWSAuthnMethod.verify: client_authn.py 190-235. [private] says which of the
    two key types is asked for. *)
Definition verify_jws (A : aenv) (now : Z) (ep : cendpoint) (private : bool) (m : meth) (q : creq)
  : M jtis ainfo :=
  match cr_assertion q with
  | None => raise KeyError
  | Some text =>
      a <- lift (match a_unpack A now text with Ok a => Ok a | Raise _ => Raise FailedAuthentication end) ;;
      (if match as_alg a with Some g => starts_with "HS" g | None => false end then
         if private then raise AttributeError
         else
           match dget (a_cdb A) (as_iss a) with
           | None => raise KeyError
           | Some (CAlias _) => raise AttributeError
           | Some (CInfo (Some s) _) =>
               if str_true s then
                 match a_oct A (as_iss a) (as_kid a) with
                 | [] => raise IndexError
                 | k :: _ => if String.eqb k s then ret tt else raise AttributeError
                 end
               else ret tt
           | Some (CInfo None _) => ret tt
           end
       else if private then ret tt else raise AttributeError) ;;
      (if existsb (fun x => smem x (ep_targets ep)) (as_aud a) then ret tt else raise NotForMe) ;;
      use_jti a ;;
      ret (mk_ainfo (Some (as_iss a)) None (tag m) (Some a))
  end.

(** [verify] of each method: client_authn.py 105-114, 134-141, 154-155, 170-179,
    248-252, 262-266, 279-300; dpop.py 159-170, whose [verify] does not take the
    keyword arguments it is called with (TypeError). *)
Definition verify_meth (A : aenv) (now : Z) (ep : cendpoint) (m : meth) (q : creq)
    (hdr : option string) : M jtis ainfo :=
  match m with
  | MNone => raise AttributeError
  | MBasic =>
      h <- (match hdr with Some h => ret h | None => raise AttributeError end) ;;
      cs <- lift (basic_authn A h) ;;
      ok <- lift (secret_is A (fst cs) (snd cs)) ;;
      if (ok : bool) then ret (mk_ainfo (Some (fst cs)) None (tag MBasic) None)
      else raise FailedAuthentication
  | MPost =>
      match cr_client_id q, cr_client_secret q with
      | Some c, Some s =>
          ok <- lift (secret_is A c s) ;;
          if (ok : bool) then ret (mk_ainfo (Some c) None (tag MPost) None)
          else raise FailedAuthentication
      | _, _ => raise KeyError
      end
  | MBearerHeader =>
      match hdr with
      | Some h => match split1 " " h with
                  | Some (_, t) => ret (mk_ainfo None (Some t) (tag MBearerHeader) None)
                  | None => raise IndexError
                  end
      | None => raise AttributeError
      end
  | MBearerBody =>
      match cr_access_token q with
      | None => raise FailedAuthentication
      | Some t =>
          ret (mk_ainfo (match cr_client_id q with
                         | Some c => if str_true c then Some c else None
                         | None => None end) (Some t) (tag MBearerBody) None)
      end
  | MSecretJWT => verify_jws A now ep false m q
  | MPrivateJWT => verify_jws A now ep true m q
  | MRequestParam =>
      match cr_request q with
      | None => raise KeyError
      | Some text =>
          a <- lift (match a_unpack A now text with Ok a => Ok a | Raise _ => Raise FailedAuthentication end) ;;
          use_jti a ;;
          ret (mk_ainfo (Some (as_iss a)) None (tag MRequestParam) (Some a))
      end
  | MDPoP => raise TypeError
  end.

(** The loop of verify_client: client_authn.py 352-367. Every exception of
    [verify] is logged and the next method tried. *)
Fixpoint try_methods (A : aenv) (now : Z) (ep : cendpoint) (q : creq) (hdr : option string)
    (ms : list meth) : M jtis (option ainfo) :=
  match ms with
  | [] => ret None
  | m :: r =>
      if is_usable m q hdr then
        o <- catch (i <- verify_meth A now ep m q hdr ;; ret (Some i)) (fun _ => Some (ret None)) ;;
        match o with
        | Some i => ret (Some i)
        | None => try_methods A now ep q hdr r
        end
      else try_methods A now ep q hdr r
  end.

Definition is_none (m : meth) : bool := match m with MNone => true | _ => false end.

(** valid_client_info: client_authn.py 317-321. An alias is a [str], which has
    no [get]. *)
Definition valid_client_info (now : Z) (c : centry) : res bool :=
  match c with
  | CAlias _ => Raise AttributeError
  | CInfo _ eta => Ok (negb (negb (Z.eqb eta 0) && Z.ltb eta now))
  end.

(** verify_client: client_authn.py 324-420. also_known_as is never passed and
    is not modelled, nor is the note of the method used (397-406), which nothing
    reads. *)
Definition verify_client (A : aenv) (now : Z) (ep : cendpoint) (q : creq) (hdr : option string)
  : M jtis (option ainfo) :=
  o <- try_methods A now ep q hdr (ep_methods ep) ;;
  let o := match o with
           | Some i => Some i
           | None => if existsb is_none (ep_methods ep)
                     then Some (mk_ainfo (cr_client_id q) None "none" None) else None
           end in
  match o with
  | None => ret None
  | Some i =>
      if match ai_client i with Some c => str_true c | None => false end then
        let c := match ai_client i with Some c => c | None => "" end in
        match dget (a_cdb A) c with
        | None => raise UnknownClient
        | Some x =>
            (match x with
             | CAlias n => if dmem (a_cdb A) n then ret tt else raise UnknownClient
             | CInfo _ _ => ret tt end) ;;
            ok <- lift (valid_client_info now x) ;;
            if (ok : bool) then ret (Some i) else raise InvalidClient
        end
      else
        match ep_from_token ep with
        | None => ret (Some i)
        | Some f =>
            match ai_token i with
            | None => raise BearerTokenAuthenticationError
            | Some t =>
                if negb (str_true t) then raise BearerTokenAuthenticationError
                else match f t with
                     | Ok c => ret (Some (mk_ainfo (Some c) (Some t) (ai_method i) (ai_jwt i)))
                     | Raise x =>
                         if is_KeyError x then raise BearerTokenAuthenticationError
                         else match x with
                              | ToOld => raise BearerTokenAuthenticationError
                              | _ => raise x
                              end
                     end
            end
        end
  end.

(** Endpoint.client_authentication: src/oidcop/endpoint.py 208-233. *)
Definition client_authentication (A : aenv) (now : Z) (ep : cendpoint) (q : creq)
    (hdr : option string) : M jtis (option ainfo) :=
  o <- verify_client A now ep q hdr ;;
  match o with
  | None => if list_true (ep_methods ep) then raise UnAuthorizedClient else ret None
  | Some i => ret (Some i)
  end.

(** The client a request is attributed to: src/oidcop/endpoint.py 178-184. When
    the authentication names no client, that is the one the request names. *)
Definition attributed (q : creq) (o : option ainfo) : option string :=
  match o with
  | Some i => match ai_client i with Some c => Some c | None => cr_client_id q end
  | None => cr_client_id q
  end.

(** ** A history of authentications, at any endpoints. *)
Record attempt : Type := mk_attempt {
  at_time : Z; at_endpoint : cendpoint; at_request : creq; at_header : option string
}.
Fixpoint attempts (A : aenv) (db : jtis) (xs : list attempt) : list (res (option ainfo)) * jtis :=
  match xs with
  | [] => ([], db)
  | x :: r =>
      let (o, db1) := client_authentication A (at_time x) (at_endpoint x) (at_request x) (at_header x) db in
      let (os, db2) := attempts A db1 r in
      (o :: os, db2)
  end.
