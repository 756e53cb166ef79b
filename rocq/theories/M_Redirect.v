(** Model of the checks an authorization request goes through before it is
    processed (src/oidcop/oauth2/authorization.py, src/oidcop/oidc/authorization.py)
    and of pushed authorization requests
    (src/oidcop/oauth2/pushed_authorization.py). *)
From Verif Require Import M_Base M_Uri.

(** A registered redirect URI: a string, or a pair of base and query. *)
Inductive reg_uri : Type :=
| RegStr (u : string)
| RegPair (base : string) (q : query).

(** What the checks read of a client's registration. [cl_uris] maps
    "redirect_uris" and "post_logout_redirect_uris" to what is registered;
    [cl_request_uris] holds the bases of the registered request URIs. *)
Record cl_info : Type := mkClInfo {
  cl_uris : dict (list reg_uri);
  cl_response_types : list string;
  cl_request_uris : option (list string)
}.

(** A request: parameters as strings. The response type is kept as the text
    that was sent, its words separated by blanks. *)
Definition request : Type := dict string.

(** The checks within one registered item whose base matches:
    src/oidcop/oauth2/authorization.py 146-170. *)
Fixpoint vals_in (vs l : list string) : bool :=
  match vs with [] => true | v :: r => smem v l && vals_in r l end.
Fixpoint covered (a b : query) : bool :=
  match a with
  | [] => true
  | (k, vs) :: r => match dget b k with
                    | None => false
                    | Some l => vals_in vs l && covered r b
                    end
  end.
Definition check_query (q rq : query) : res unit :=
  if list_true rq && (negb (list_true q) || negb (covered rq q)) then Raise ValueError
  else if list_true q && (negb (list_true rq) || negb (covered q rq)) then Raise ValueError
  else Ok tt.

(** The loop over the registered items: 136-175. *)
Fixpoint match_uris (base : string) (q : query) (l : list reg_uri) : res unit :=
  match l with
  | [] => Raise RedirectURIError
  | it :: r =>
      let (rb, rq) := match it with RegStr u => (u, []) | RegPair b rq => (b, rq) end in
      if String.eqb base rb then check_query q rq else match_uris base q r
  end.

(** verify_uri: src/oidcop/oauth2/authorization.py 92-175. *)
Definition verify_uri (cdb : dict cl_info) (rq : request) (uri_type : string) (client_id : option string)
  : res unit :=
  let cid := match dget rq "client_id" with Some c => Some c | None => client_id end in
  match cid with
  | None | Some EmptyString => Raise UnknownClient
  | Some c =>
      match dget rq uri_type with
      | None => Raise ValueError
      | Some uri =>
          let u := unquote uri in
          rbind (urlsplit u) (fun part =>
          if str_true (us_frag part) then Raise URIErrorExn
          else rbind (split_uri u) (fun bq =>
          match dget cdb c with
          | None => Raise KeyError
          | Some info =>
              match dget (cl_uris info) (append uri_type "s") with
              | None => Raise RedirectURIError
              | Some uris => match_uris (fst bq) (snd bq) uris
              end
          end))
      end
  end.

(** join_query: src/oidcop/oauth2/authorization.py 178-188. *)
Definition join_query (base : string) (q : query) : string :=
  if list_true q then append base (append "?" (urlencode q)) else base.

(** get_uri: src/oidcop/oauth2/authorization.py 191-219. Unpacking a string
    as the two arguments of join_query raises TypeError (unless the string has
    exactly one or two characters; that case is left out). *)
Definition get_uri (cdb : dict cl_info) (rq : request) (uri_type : string) : res string :=
  match dget rq uri_type with
  | Some u => rbind (verify_uri cdb rq uri_type None) (fun _ => Ok u)
  | None =>
      match dget rq "client_id" with
      | None => Raise KeyError
      | Some c =>
          match dget cdb c with
          | None => Raise UnknownClient
          | Some info =>
              match dget (cl_uris info) (append uri_type "s") with
              | None | Some [] => Raise ParameterErrorExn
              | Some [RegPair b q] => Ok (join_query b q)
              | Some [RegStr _] => Raise TypeError
              | Some _ => Raise ParameterErrorExn
              end
          end
      end
  end.

(** Sets of words. *)
Definition words (s : string) : list string := py_split " " s.
Definition same_set (a b : list string) : bool := subset_b a b && subset_b b a.

(** Authorization.verify_response_type:
    src/oidcop/oauth2/authorization.py 319-327. *)
Definition verify_response_type (rt : string) (info : cl_info) : bool :=
  let reg := match cl_response_types info with [] => ["code"] | l => l end in
  existsb (fun r => same_set (words rt) (words r)) reg.

Inductive parsed : Type :=
| PGood (rq : request)
| PErr (code : string).

(** Authorization._post_parse_request:
    src/oidcop/oauth2/authorization.py 414-459. *)
Definition post_parse_request (cdb : dict cl_info) (client_id : string) (rq : request) : res parsed :=
  match rq with
  | [] => Ok (PErr "invalid_request")
  | _ =>
      match dget cdb client_id with
      | None => match dget rq "client_id" with
                | None => Raise KeyError
                | Some _ => Ok (PErr "unauthorized_client")
                end
      | Some info =>
          match dget rq "response_type" with
          | None => Raise KeyError
          | Some rt =>
              if verify_response_type rt info then
                match get_uri cdb rq "redirect_uri" with
                | Ok u => Ok (PGood (dset rq "redirect_uri" u))
                | Raise RedirectURIError | Raise ParameterErrorExn => Ok (PErr "invalid_request")
                | Raise x => Raise x
                end
              else Ok (PErr "invalid_request")
          end
      end
  end.

(** The configuration: whether there is a pushed-authorization endpoint,
    whether request_uri is supported, fetching and verifying a request object
    (including the check of its algorithms), and the client database. *)
Record pconf : Type := mkPconf {
  pc_par : bool;
  pc_request_uri : bool;
  pc_fetch : string -> string -> res request;
  pc_cdb : dict cl_info
}.

(** The pushed requests, by URN: EndpointContext.par_db. *)
Definition par_db : Type := dict request.

(** Authorization._do_request_uri:
    src/oidcop/oauth2/authorization.py 351-412. *)
Definition do_request_uri (c : pconf) (client_id : string) (rq : request) : M par_db request :=
  match dget rq "request_uri" with
  | None | Some EmptyString => ret rq
  | Some uri =>
      db <- get_st ;;
      if pc_par c && starts_with "urn:uuid:" uri then
        match dget db uri with
        | None | Some [] => raise ValueError
        | Some r => put_st (ddel db uri) ;; ret r
        end
      else if negb (pc_request_uri c) then raise ServiceErrorExn
      else
        match dget (pc_cdb c) client_id with
        | None => raise KeyError
        | Some info =>
            let ok := match cl_request_uris info with
                      | None | Some [] => true
                      | Some l => match py_split "#" uri with p :: _ => smem p l | [] => false end
                      end in
            if negb ok then raise ValueError
            else v <- lift (pc_fetch c client_id uri) ;; ret (dupdate rq v)
        end
  end.

(** Endpoint.do_post_parse_request: src/oidcop/endpoint.py 235-243, over the
    methods of the endpoint. *)
Inductive pmeth : Type := MRequestUri | MPostParse.
Fixpoint run_chain (c : pconf) (client_id : string) (ms : list pmeth) (p : parsed) : M par_db parsed :=
  match ms with
  | [] => ret p
  | m :: r =>
      match p with
      | PErr _ => ret p
      | PGood rq =>
          p' <- match m with
                | MRequestUri => q <- do_request_uri c client_id rq ;; ret (PGood q)
                | MPostParse => lift (post_parse_request (pc_cdb c) client_id rq)
                end ;;
          run_chain c client_id r p'
      end
  end.

(** The chains: src/oidcop/oauth2/authorization.py 301-305;
    src/oidcop/oidc/authorization.py 99-103, which appends the two methods a
    second time; src/oidcop/oauth2/pushed_authorization.py 18-22. The methods
    of add-ons are in their own models. *)
Definition chain_oauth2 : list pmeth := [MRequestUri; MPostParse].
Definition chain_oidc : list pmeth := [MRequestUri; MPostParse; MRequestUri; MPostParse].
Definition chain_par : list pmeth := [MRequestUri; MPostParse; MPostParse].

(** The part of parse_request that comes after client authentication and
    message verification. *)
Definition authz_parse (c : pconf) (oidc : bool) (client_id : string) (rq : request) : M par_db parsed :=
  run_chain c client_id (if oidc then chain_oidc else chain_oauth2) (PGood rq).

(** PushedAuthorization.process_request:
    src/oidcop/oauth2/pushed_authorization.py 24-38. What was parsed is stored
    even if it is an error message; then the missing redirect_uri raises. *)
Definition par_process (urn : string) (p : parsed) : M par_db string :=
  db <- get_st ;;
  match p with
  | PGood rq =>
      put_st (dset db urn rq) ;;
      match dget rq "redirect_uri" with Some _ => ret urn | None => raise KeyError end
  | PErr code => put_st (dset db urn [("error", code)]) ;; raise KeyError
  end.

(** A call of the pushed-authorization endpoint. *)
Definition par_push (c : pconf) (urn client_id : string) (rq : request) : M par_db string :=
  p <- run_chain c client_id chain_par (PGood rq) ;;
  par_process urn p.
