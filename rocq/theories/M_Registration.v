(** Dynamic client registration, and reading a registration:
    src/oidcop/oidc/registration.py and read_registration.py. *)
From Verif Require Import M_Base M_Uri M_Redirect M_Meta M_ClientAuthn.

(** Values in registration requests and client records: strings, lists of
    strings, numbers, and what registration stores for redirect_uris (pairs of
    base and query), post_logout_redirect_uri and request_uris. [RJson] is any
    other value. *)
Inductive rval : Type :=
| RStr (s : string)
| RList (l : list string)
| RInt (z : Z)
| RUris (l : list (string * query))
| RUri (b : string) (q : query)
| RFrags (l : list (list string))
| RJson (j : string).

(** PREFERENCE2PROVIDER: registration.py 28-45. *)
Definition preferences : dict string := [
  ("request_object_signing_alg", "request_object_signing_alg_values_supported");
  ("request_object_encryption_alg", "request_object_encryption_alg_values_supported");
  ("request_object_encryption_enc", "request_object_encryption_enc_values_supported");
  ("userinfo_signed_response_alg", "userinfo_signing_alg_values_supported");
  ("userinfo_encrypted_response_alg", "userinfo_encryption_alg_values_supported");
  ("userinfo_encrypted_response_enc", "userinfo_encryption_enc_values_supported");
  ("id_token_signed_response_alg", "id_token_signing_alg_values_supported");
  ("id_token_encrypted_response_alg", "id_token_encryption_alg_values_supported");
  ("id_token_encrypted_response_enc", "id_token_encryption_enc_values_supported");
  ("default_acr_values", "acr_values_supported");
  ("subject_type", "subject_types_supported");
  ("token_endpoint_auth_method", "token_endpoint_auth_methods_supported");
  ("token_endpoint_auth_signing_alg", "token_endpoint_auth_signing_alg_values_supported");
  ("response_types", "response_types_supported");
  ("grant_types", "grant_types_supported")].

(** The configuration and the libraries. [g_prepare] is request.verify()
    followed by request.rm_blanks(), of oidcmsg; [g_fetch] gets a URL and reads
    the JSON list there, or raises InvalidSectorIdentifier
    (registration.py 331-345); [g_key] tells whether the key jar has a key for
    an algorithm, or none is needed (242-252); [g_load] is the loading of the
    client's keys (256-264); [g_rnd] and [g_secret] are rndstr and [secret] with the
    n-th draw; [g_public] is the set of parameters of RegistrationResponse. *)
Record regconf : Type := mk_regconf {
  g_info : dict cval;                         (* provider_info *)
  g_prepare : dict rval -> res (dict rval);
  g_fetch : string -> res (list string);
  g_key : string -> res bool;
  g_load : dict rval -> res unit;
  g_rnd : nat -> string;
  g_secret : nat -> string -> string;
  g_read : option string;                     (* full_path of registration_read *)
  g_expires : option Z;                       (* client_secret_expires(_in) *)
  g_public : list string
}.
(** The state: the client database, registration_access_token, and the number
    of random draws. *)
Record rctx : Type := mk_rctx {
  x_cdb : dict (dict rval); x_rat : dict string; x_n : nat }.

(** match_sp_sep: registration.py 50-73. Sets of words are compared. *)
Definition words_of (s : string) : list string := py_split " " s.
Definition match_sp_sep (first : rval) (second : cval) : res bool :=
  rbind (match first with
         | RList l => Ok (map words_of l)
         | RStr s => Ok (map (fun w => [w]) (words_of s))
         | _ => Raise AttributeError
         end) (fun one =>
  rbind (match second with
         | CList l => Ok (map words_of l)
         | CStr s => Ok (map (fun w => [w]) (words_of s))
         | _ => Raise AttributeError
         end) (fun other =>
  Ok (forallb (fun rt => existsb (same_set rt) other) one))).

(** [s in v]. *)
Definition py_in (s : string) (v : cval) : res bool :=
  match v with
  | CList l => Ok (smem s l)
  | CStr t => Ok (contains s t)
  | _ => Raise TypeError
  end.

(** One turn of the loop of match_client_request: registration.py 157-170. *)
Definition match_one (info : dict cval) (pref prov : string) (v : rval) : res unit :=
  match dget info prov with
  | None => Raise KeyError
  | Some sup =>
      if smem pref ["response_types"; "default_acr_values"] then
        rbind (match_sp_sep v sup) (fun ok => if (ok : bool) then Ok tt else Raise CapabilitiesMisMatch)
      else
        match v with
        | RStr s => rbind (py_in s sup) (fun ok => if (ok : bool) then Ok tt else Raise CapabilitiesMisMatch)
        | RList l => rbind (iter sup) (fun k => if subset_b l k then Ok tt else Raise CapabilitiesMisMatch)
        | _ => Raise TypeError
        end
  end.
Fixpoint match_client_request (info : dict cval) (prefs : dict string) (rq : dict rval) : res unit :=
  match prefs with
  | [] => Ok tt
  | (pref, prov) :: r =>
      rbind (match dget rq pref with
             | None => Ok tt
             | Some v => match_one info pref prov v
             end) (fun _ => match_client_request info r rq)
  end.

(** SplitResult.hostname of the Python library: after the last "@", in brackets
    or up to the first ":", in lower case (except for an IPv6 zone). *)
Fixpoint after_last (c : ascii) (s : string) : string :=
  match s with
  | EmptyString => EmptyString
  | String a r => if has_char c r then after_last c r
                  else if Ascii.eqb a c then r else s
  end.
Definition host_part (netloc : string) : string :=
  let info := after_last "@" netloc in
  match split1 "[" info with
  | Some (_, b) => fst (split_or "]" b)
  | None => fst (split_or ":" info)
  end.
Definition hostname (netloc : string) : option string :=
  let h := host_part netloc in
  if str_true h
  then match split1 "%" h with
       | Some (a, z) => Some (append (lower a) (append "%" z))
       | None => Some (lower h)
       end
  else None.

(** verify_redirect_uris: registration.py 274-320. urlparse and urlsplit agree
    on all parts that are used. That redirect_uris is a list and the other two
    have their types is made sure by oidcmsg; otherwise TypeError. *)
Definition app_type (rq : dict rval) : rval :=
  match dget rq "application_type" with Some v => v | None => RStr "web" end.
Definition is_str (v : rval) (s : string) : bool :=
  match v with RStr x => String.eqb x s | _ => false end.
Definition only_code (rq : dict rval) : bool :=
  match dget rq "response_types" with Some (RList [x]) => String.eqb x "code" | _ => false end.
Definition must_https (rq : dict rval) : bool :=
  is_str (app_type rq) "web" && negb (only_code rq).
Definition verify_one (rq : dict rval) (uri : string) : res (string * query) :=
  rbind (urlsplit uri) (fun p =>
  let http := smem (us_scheme p) ["http"; "https"] in
  rbind
    (if is_str (app_type rq) "native" then
       if negb http then Ok true
       else if String.eqb (us_scheme p) "http"
               && match hostname (us_netloc p) with
                  | Some h => smem h ["localhost"; "127.0.0.1"]
                  | None => false
                  end
            then Ok false
            else Raise InvalidRedirectURIError
     else if must_https rq && negb (String.eqb (us_scheme p) "https") then Raise InvalidRedirectURIError
     else if negb http then Raise InvalidRedirectURIError
     else if str_true (us_frag p) then Raise InvalidRedirectURIError
     else Ok false)
    (fun custom => if (custom : bool) then Ok (uri, []) else split_uri uri)).
Fixpoint mapM {A B} (f : A -> res B) (l : list A) : res (list B) :=
  match l with
  | [] => Ok []
  | a :: r => rbind (f a) (fun b => rbind (mapM f r) (fun bs => Ok (b :: bs)))
  end.
Definition verify_redirect_uris (rq : dict rval) : res (list (string * query)) :=
  match dget rq "redirect_uris" with
  | Some (RList l) => mapM (verify_one rq) l
  | Some _ => Raise TypeError
  | None => Raise KeyError
  end.

(** verify_url: registration.py 76-84. *)
Fixpoint verify_url (p : usplit) (urls : list (string * query)) : res bool :=
  match urls with
  | [] => Ok false
  | (reg, _) :: r =>
      rbind (urlsplit reg) (fun q =>
      if String.eqb (us_scheme p) (us_scheme q) && String.eqb (us_netloc p) (us_netloc q)
      then Ok true else verify_url p r)
  end.

(** What registration comes to: a response, or an error. *)
Inductive regres (A : Type) : Type := Done (a : A) | Refused (error : string).
Arguments Done {A} a.
Arguments Refused {A} error.

(** The result of one of the checks of do_client_registration. *)
Definition step_t : Type := res (regres (dict rval)).
Definition sbind (x : step_t) (f : dict rval -> step_t) : step_t :=
  rbind x (fun r => match r with Done c => f c | Refused e => Ok (Refused e) end).

Definition copy_request (rq : dict rval) (ignore : list string) (c : dict rval) : dict rval :=
  fold_left (fun c kv => if smem (fst kv) ignore then c else dset c (fst kv) (snd kv)) rq c.
Definition invalid_config : string := "invalid_configuration_parameter".
(** registration.py 183-191. *)
Definition reg_post_logout (rq c : dict rval) : step_t :=
  match dget rq "post_logout_redirect_uri" with
  | None => Ok (Done c)
  | Some (RStr u) =>
      if str_true u then
        rbind (urlsplit u) (fun p =>
        if str_true (us_frag p) then Ok (Refused invalid_config)
        else rbind (split_uri u) (fun bq =>
             Ok (Done (dset c "post_logout_redirect_uri" (RUri (fst bq) (snd bq))))))
      else Ok (Done c)
  | Some _ => Raise TypeError
  end.
(** registration.py 193-198. *)
Definition reg_redirects (rq c : dict rval) : step_t :=
  if dmem rq "redirect_uris" then
    match verify_redirect_uris rq with
    | Ok l => Ok (Done (dset c "redirect_uris" (RUris l)))
    | Raise InvalidRedirectURIError => Ok (Refused "invalid_redirect_uri")
    | Raise x => Raise x
    end
  else Ok (Done c).
(** registration.py 200-215. *)
Fixpoint request_uris (l : list string) : res (option (list (list string))) :=
  match l with
  | [] => Ok (Some [])
  | u :: r =>
      rbind (urlsplit u) (fun p =>
      if str_true (us_query p) then Ok None
      else rbind (request_uris r) (fun o =>
           Ok (match o with
               | Some x => Some ((if str_true (us_frag p) then py_split "#" u else [u; ""]) :: x)
               | None => None
               end)))
  end.
Definition reg_request_uris (rq c : dict rval) : step_t :=
  match dget rq "request_uris" with
  | None => Ok (Done c)
  | Some (RList l) =>
      rbind (request_uris l) (fun o =>
      match o with
      | Some x => Ok (Done (dset c "request_uris" (RFrags x)))
      | None => Ok (Refused invalid_config)
      end)
  | Some _ => Raise TypeError
  end.
(** registration.py 217-226 and 322-353. The JSON text is taken to be a list
    of strings. *)
Definition reg_sector (G : regconf) (rq c : dict rval) : step_t :=
  match dget rq "sector_identifier_uri" with
  | None => Ok (Done c)
  | Some (RStr u) =>
      match rbind (g_fetch G u) (fun si =>
            match dget rq "redirect_uris" with
            | Some (RList l) => if subset_b l si then Ok si else Raise InvalidSectorIdentifier
            | Some _ => Raise TypeError
            | None => Ok si
            end) with
      | Ok si => Ok (Done (dset (dset c "si_redirects" (RList si)) "sector_id" (RStr u)))
      | Raise InvalidSectorIdentifier => Ok (Refused invalid_config)
      | Raise x => Raise x
      end
  | Some _ => Raise TypeError
  end.
(** registration.py 228-236. *)
Fixpoint reg_urls (items : list string) (rq c : dict rval) : step_t :=
  match items with
  | [] => Ok (Done c)
  | item :: r =>
      match dget rq item with
      | None => reg_urls r rq c
      | Some (RStr u) =>
          match dget c "redirect_uris" with
          | Some (RUris l) =>
              rbind (urlsplit u) (fun p => rbind (verify_url p l) (fun ok =>
              if (ok : bool) then reg_urls r rq (dset c item (RStr u)) else Ok (Refused invalid_config)))
          | _ => Raise KeyError
          end
      | Some _ => Raise TypeError
      end
  end.
(** registration.py 238-254. *)
Fixpoint reg_algs (G : regconf) (items : list string) (rq c : dict rval) : step_t :=
  match items with
  | [] => Ok (Done c)
  | item :: r =>
      match dget rq item with
      | Some (RStr a) =>
          match dget preferences item with
          | None => Raise KeyError
          | Some prov =>
              match dget (g_info G) prov with
              | None => Raise KeyError
              | Some sup =>
                  rbind (py_in a sup) (fun ok =>
                  if (ok : bool) then
                    rbind (g_key G a) (fun k => reg_algs G r rq (if (k : bool) then c else ddel c item))
                  else reg_algs G r rq c)
              end
          end
      | Some _ => Raise TypeError
      | None => reg_algs G r rq c
      end
  end.
(** do_client_registration: registration.py 172-272, on the record [c0]. *)
Definition do_registration (G : regconf) (rq : dict rval) (ignore : list string) (c0 : dict rval) : step_t :=
  sbind (reg_post_logout rq (copy_request rq ignore c0)) (fun c =>
  sbind (reg_redirects rq c) (fun c =>
  sbind (reg_request_uris rq c) (fun c =>
  sbind (reg_sector G rq c) (fun c =>
  sbind (reg_urls ["policy_uri"; "logo_uri"; "tos_uri"] rq c) (fun c =>
  sbind (reg_algs G ["id_token_signed_response_alg"; "userinfo_signed_response_alg"] rq c) (fun c =>
  rbind (g_load G rq) (fun _ => Ok (Done c)))))))).

(** comb_uri: registration.py 93-124. *)
Definition join_uri (bq : string * query) : string :=
  if list_true (snd bq) then append (fst bq) (append "?" (urlencode (snd bq))) else fst bq.
Fixpoint join_frags (l : list (list string)) : res (list string) :=
  match l with
  | [] => Ok []
  | [b; f] :: r => rbind (join_frags r) (fun x =>
      Ok ((if str_true f then append b (append "#" f) else b) :: x))
  | _ => Raise ValueError
  end.
Definition comb_uri (args : dict rval) : res (dict rval) :=
  let a := match dget args "redirect_uris" with
           | Some (RUris (x :: r)) => dset args "redirect_uris" (RList (map join_uri (x :: r)))
           | _ => args
           end in
  let a := match dget a "post_logout_redirect_uri" with
           | Some (RUri b q) => dset a "post_logout_redirect_uri" (RStr (join_uri (b, q)))
           | _ => a
           end in
  match dget a "request_uris" with
  | Some (RFrags (x :: r)) => rbind (join_frags (x :: r)) (fun l => Ok (dset a "request_uris" (RList l)))
  | _ => Ok a
  end.
(** The part of a record that is told: registration.py 445,
    read_registration.py 28-31. *)
Definition public_part (G : regconf) (c : dict rval) : dict rval :=
  filter (fun kv => smem (fst kv) (g_public G)) c.

(** rndstr: src/oidcop/__init__.py 26-33. *)
Definition draw : M rctx nat :=
  fun x => (Ok (x_n x), mk_rctx (x_cdb x) (x_rat x) (S (x_n x))).
(** random_client_id: registration.py 127-133. The loop ends at the latest when
    it has drawn more names than there are clients, if draws differ. *)
Fixpoint new_id (G : regconf) (reserved : list string) (fuel : nat) : M rctx string :=
  n <- draw ;;
  if smem (g_rnd G n) reserved
  then match fuel with O => raise (Other 0) | S k => new_id G reserved k end
  else ret (g_rnd G n).

Definition put_client (id : string) (c : dict rval) : M rctx unit :=
  x <- get_st ;; put_st (mk_rctx (dset (x_cdb x) id c) (x_rat x) (x_n x)).

(** add_registration_api: registration.py 355-364. *)
Definition add_api (G : regconf) (id : string) (c : dict rval) : M rctx (dict rval) :=
  match g_read G with
  | None => ret c
  | Some path =>
      n <- draw ;;
      let t := g_rnd G n in
      x <- get_st ;;
      put_st (mk_rctx (x_cdb x) (dset (x_rat x) t id) (x_n x)) ;;
      ret (dset (dset c "registration_access_token" (RStr t))
             "registration_client_uri" (RStr (append path (append "?client_id=" id))))
  end.
(** add_client_secret: registration.py 366-383. *)
Definition add_secret (G : regconf) (now : Z) (id : string) (c : dict rval) : M rctx (dict rval) :=
  n <- draw ;;
  let c := dset c "client_secret" (RStr (g_secret G n id)) in
  ret (match g_expires G with
       | Some z => if Z.eqb (now + z) 0 then c else dset c "client_secret_expires_at" (RInt (now + z))
       | None => c
       end).

(** client_registration_setup with a new id and a secret: registration.py
    385-465. The default generator of client ids. The key jar is not modelled, nor
    is a failure of the response class on what it is given. *)
Definition registration_setup (G : regconf) (now : Z) (rq0 : dict rval)
  : M rctx (regres (string * dict rval)) :=
  match g_prepare G rq0 with
  | Raise _ => ret (Refused "invalid_configuration_request")
  | Ok rq1 =>
      match match_client_request (g_info G) preferences rq1 with
      | Raise CapabilitiesMisMatch => ret (Refused "invalid_request")
      | Raise x => raise x
      | Ok _ =>
          x <- get_st ;;
          id <- new_id G (dkeys (x_cdb x)) (List.length (x_cdb x)) ;;
          let rq := if dmem rq1 "client_id" then ddel rq1 "client_id" else rq1 in
          n <- draw ;;
          let c := [("client_id", RStr id); ("client_salt", RStr (g_rnd G n))] in
          c <- add_api G id c ;;
          let c := dset c "client_id_issued_at" (RInt now) in
          c <- add_secret G now id c ;;
          put_client id c ;;
          r <- lift (do_registration G rq ["redirect_uris"; "policy_uri"; "logo_uri"; "tos_uri"] c) ;;
          match r with
          | Refused e => ret (Refused e)
          | Done c' =>
              args <- lift (comb_uri (public_part G c')) ;;
              put_client id c' ;;
              ret (Done (id, args))
          end
      end
  end.

(** Registration.process_request: registration.py 467-485. Every exception is an
    error response. The cookie is not modelled. *)
Definition register (G : regconf) (now : Z) (rq : dict rval) : M rctx (regres (string * dict rval)) :=
  catch (registration_setup G now rq) (fun _ => Some (ret (Refused "invalid_configuration_request"))).

(** ** Reading a registration *)

(** get_client_id_from_token: read_registration.py 18-25. *)
Definition read_client (rat : dict string) (q : creq) (t : string) : res string :=
  match cr_client_id q with
  | None => Ok ""
  | Some c => match dget rat t with
              | None => Raise KeyError
              | Some c' => if String.eqb c c' then Ok c else Ok ""
              end
  end.
Definition read_endpoint (methods : list meth) (rat : dict string) (q : creq) : cendpoint :=
  mk_cendpoint methods [] (Some (read_client rat q)).
(** The client database, as client authentication sees it. *)
Definition as_centry (c : dict rval) : centry :=
  CInfo (match dget c "client_secret" with Some (RStr s) => Some s | _ => None end)
        (match dget c "client_secret_expires_at" with Some (RInt z) => z | _ => 0%Z end).

(** parse_request (src/oidcop/endpoint.py 178-184) and process_request
    (read_registration.py 27-31). [A] gives the libraries of client
    authentication. *)
Definition read_registration (G : regconf) (A : aenv) (methods : list meth) (now : Z) (q : creq)
    (hdr : option string) (x : rctx) (db : jtis) : res (dict rval) * jtis :=
  let A' := mk_aenv (map (fun kv => (fst kv, as_centry (snd kv))) (x_cdb x))
              (a_b64 A) (a_unquote A) (a_unpack A) (a_oct A) in
  match client_authentication A' now (read_endpoint methods (x_rat x) q) q hdr db with
  | (Raise e, db') => (Raise e, db')
  | (Ok o, db') =>
      (match attributed q o with
       | None => Raise KeyError
       | Some c => match dget (x_cdb x) c with
                   | None => Raise KeyError
                   | Some r => comb_uri (public_part G r)
                   end
       end, db')
  end.
