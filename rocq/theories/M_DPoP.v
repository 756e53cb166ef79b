(** The DPoP add-on: src/oidcop/oauth2/add_on/dpop.py. *)
From Verif Require Import M_Base M_Types M_Codec M_Grant M_Env M_Session M_Claims M_Handler M_TokenEP.

(** The library: cryptojwt's factory (the protected headers of a compact JWS, or
    nothing), key_from_jwk_dict with deserialize, verify_compact with one key and
    an algorithm (the payload), and thumbprint("SHA-256"). Member values are
    texts; a JWK is its text, a key is named by a text. *)
Record dlib : Type := mk_dlib {
  d_factory : string -> res (option (dict string));
  d_key : string -> res string;
  d_verify : string -> string -> string -> res (dict string);   (* JWS, key, alg *)
  d_thumb : string -> string
}.

(** HTTP information: headers["dpop"], url, method. *)
Record hinfo : Type := mk_hinfo {
  hi_dpop : option string; hi_url : string; hi_method : string
}.

Definition sub {A} (d : dict A) (k : string) : res A :=
  match dget d k with Some v => Ok v | None => Raise KeyError end.

(** DPoPProof.verify_header: dpop.py 66-84. The result holds the headers,
    overwritten by the payload (74-78). Assigning a member checks or converts its
    type in the message library; not modelled. *)
Definition verify_header (D : dlib) (t : string) : res (option (dict string)) :=
  rbind (d_factory D t) (fun o =>
  match o with
  | None => Ok None
  | Some h =>
      match dget h "jwk" with
      | None => Raise (Other 0)
      | Some j =>
          rbind (d_key D j) (fun k =>
          rbind (sub h "alg") (fun alg =>
          rbind (d_verify D t k alg) (fun p => Ok (Some (dupdate h p)))))
      end
  end).

Definition tr_set_dpop (j : string) (r : treq) : treq :=
  mk_treq (tr_grant_type r) (tr_code r) (tr_refresh r) (tr_client r) (tr_redirect r) (tr_scope r)
    (Some j) (tr_verifier r).

(** post_parse_request: dpop.py 87-119. The key attribute of the fresh DPoPProof
    is None, so that it is always made from the member jwk (114-115). A request
    is parsed with http_info = None or {} when the caller has none. *)
Definition dpop_parse (D : dlib) (req : treq) (info : option hinfo) : res treq :=
  match info with
  | None => Ok req
  | Some hi =>
      rbind (match hi_dpop hi with Some t => Ok t | None => Raise KeyError end) (fun t =>
      rbind (verify_header D t) (fun o =>
      match o with
      | None => Raise TypeError
      | Some m =>
          rbind (sub m "htu") (fun u =>
          if negb (String.eqb u (hi_url hi)) then Raise ValueError
          else
          rbind (sub m "htm") (fun x =>
          if negb (String.eqb x (hi_method hi)) then Raise ValueError
          else
          rbind (sub m "jwk") (fun j =>
          rbind (d_key D j) (fun k => Ok (tr_set_dpop (d_thumb D k) req)))))
      end))
  end.
