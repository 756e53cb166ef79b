(** Token handlers: src/oidcop/token/. *)
From Verif Require Import M_Base M_Types M_Codec M_Grant M_Env M_Session M_Claims.

(** ALT_TOKEN_NAME: src/oidcop/token/__init__.py 18-23, read by 38-41. *)
Definition alt_token_name (cls : string) : string :=
  match dget [(CODE, "A"); (ACCESS, "T"); (REFRESH, "R"); (IDTOKEN, "I")] cls with
  | Some a => a | None => "" end.

(** is_expired: src/oidcop/token/__init__.py 26-32. *)
Definition is_expired (exp when : Z) : bool :=
  if (exp <? 0)%Z then false else (exp <? when)%Z.

(** Truth value of a JSON value. *)
Definition jval_true (v : jval) : bool :=
  match v with
  | JNull => false
  | JBool b => b
  | JInt z => negb (Z.eqb z 0)
  | JStr s => str_true s
  | JList l => list_true l
  | JObj l => list_true l
  end.

(** What a handler reports about a token. *)
Record tinfo : Type := mk_tinfo { ti_sid : string; ti_class : option string; ti_exp : jval }.

(** ** DefaultToken *)

(** DefaultToken.__call__: src/oidcop/token/__init__.py 84-110. [tc_arg] is the
    token_class argument (callers give none, unless a released user claim is
    called token_class). *)
Definition default_mint (c : crypto) (pw cls : string) (lifetime : Z) (rnd : string)
    (nonce : nat) (now : Z) (sid : string) (tc_arg : bool) : string :=
  let tc := if negb tc_arg && str_true cls then cls else CODE in
  let exp := if (0 <=? lifetime)%Z then show_Z (now + lifetime) else "-1" in
  b64e c (crypt_encrypt c pw nonce (lv_pack [rnd; tc; sid; exp])).

(** DefaultToken.split_token: src/oidcop/token/__init__.py 112-118. *)
Definition split_token (c : crypto) (pw tok : string) : res (list string) :=
  match b64d c tok with
  | None => Raise UnknownToken
  | Some ct => match crypt_decrypt c pw ct with
               | None => Raise UnknownToken
               | Some plain => lv_unpack plain
               end
  end.

(** DefaultToken.info: src/oidcop/token/__init__.py 120-133. With fewer than
    four fields the later keys are missing: a missing token_class is a
    KeyError here, a missing sid is None for the caller. *)
Definition default_info (c : crypto) (pw cls : string) (tok : string) : res tinfo :=
  rbind (split_token c pw tok)
    (fun l => match nth_error l 1 with
              | None => Raise KeyError
              | Some tc =>
                  if smem tc [cls; alt_token_name cls] then
                    Ok (mk_tinfo (match nth_error l 2 with Some s => s | None => "" end)
                          (Some cls)
                          (match nth_error l 3 with Some x => JStr x | None => JNull end))
                  else Raise WrongTokenClass
              end).

(** DefaultToken.is_expired: src/oidcop/token/__init__.py 135-141. *)
Definition default_is_expired (c : crypto) (pw cls tok : string) (when : Z) : res bool :=
  rbind (default_info c pw cls tok)
    (fun i => match ti_exp i with
              | JStr x => if String.eqb x "-1" then Ok false
                          else match py_int x with
                               | Some z => Ok (is_expired z when)
                               | None => Raise ValueError
                               end
              | _ => Raise KeyError
              end).

(** ** JWTToken *)

(** The claims cryptojwt's JWT.pack adds: iss, iat, exp (for a non-zero
    life time) and aud (for a receiver). *)
Definition jwt_claims (iss : string) (lifetime now : Z) (recv : string) (p : dict jval)
  : dict jval :=
  let p := dset p "iss" (JStr iss) in
  let p := dset p "iat" (JInt now) in
  let p := if Z.eqb lifetime 0 then p else dset p "exp" (JInt (now + lifetime)) in
  if str_true recv then dset p "aud" (JList [JStr recv]) else p.

(** JWTToken.__call__: src/oidcop/token/jwt_token.py 49-86. load_custom_claims
    is the identity unless overridden. *)
Definition jwt_payload (cls iss : string) (lifetime now : Z) (sid : string)
    (rules : option rule) (payload : dict jval) : dict jval :=
  let tc := match dget payload "token_class" with
            | Some v => if jval_true v then v
                        else JStr (if str_true cls then cls else CODE)
            | None => JStr (if str_true cls then cls else CODE)
            end in
  let payload := dset (dset payload "sid" (JStr sid)) "token_class" tc in
  let lifetime := match rules with
                  | Some r => match r_exp r with Some x => x | None => lifetime end
                  | None => lifetime
                  end in
  jwt_claims iss lifetime now "" payload.

(** JWTToken.get_payload: src/oidcop/token/jwt_token.py 88-96. *)
Definition jwt_get_payload (e : env) (algs : list string) (tok : string) : res (dict jval) :=
  match e_verify e algs tok with
  | Raise JWSException => Raise UnknownToken
  | r => r
  end.

(** [is_expired(payload["exp"])]. *)
Definition payload_expired (now : Z) (p : dict jval) : res bool :=
  match dget p "exp" with
  | None => Raise KeyError
  | Some (JInt x) => Ok (is_expired x now)
  | Some _ => Raise TypeError
  end.

(** JWTToken.info: src/oidcop/token/jwt_token.py 98-125. A sid that is not a
    string counts as absent. *)
Definition jwt_info (e : env) (now : Z) (cls alg tok : string) : res tinfo :=
  rbind (jwt_get_payload e [alg] tok)
    (fun p =>
       let tc := match dget p "ttype" with
                 | None | Some JNull => dget p "token_class"
                 | x => x
                 end in
       let ok := match tc with
                 | Some (JStr s) => smem s [cls; alt_token_name cls]
                 | _ => false
                 end in
       if negb ok then
         match dget p "token_class" with
         | None => Raise KeyError
         | Some _ => Raise WrongTokenClass
         end
       else
         rbind (payload_expired now p)
           (fun x => if x then Raise ToOld
                     else match dget p "sid" with
                          | None => Raise KeyError
                          | Some v => Ok (mk_tinfo (match v with JStr s => s | _ => "" end)
                                            (Some cls)
                                            (match dget p "exp" with
                                             | Some x => x | None => JNull end))
                          end)).

(** ** IDToken *)

(** include_session_id: src/oidcop/token/id_token.py 30-57. *)
Definition include_session_id (e : env) (cid : string) : bool :=
  match dget (e_clients e) cid with
  | None => false
  | Some c => (e_bc_sid e && c_bc_logout c) || (e_fc_sid e && c_fc_logout c)
  end.

(** The signing algorithm of get_sign_and_encrypt_algorithms:
    src/oidcop/token/id_token.py 60-82, for id_token (default RS256). *)
Definition idt_sign_alg (e : env) (c : client) : string :=
  match c_idt_alg c with
  | Some a => a
  | None =>
      match e_idt_alg_def e with
      | Some a => a
      | None => match e_idt_algs e with
                | [] => "RS256"
                | a :: _ => if smem "RS256" (e_idt_algs e) then "RS256" else a
                end
      end
  end.

(** The keys IDToken.payload removes from the user information: line 184. *)
Definition id_reserved : list string :=
  ["iss"; "sub"; "aud"; "exp"; "acr"; "nonce"; "auth_time"].

Definition last3 (s : string) : string := slice_from s (-3)%Z.

(** IDToken.payload: src/oidcop/token/id_token.py 133-211. [info] is the
    payload given by Grant.payload_arguments, which always has a scope and is
    therefore never empty, so the branch 164-175 is dead. *)
Definition id_payload (e : env) (g : grant) (sid alg : string) (code access : option string)
    (with_sid : bool) (info : dict jval) : dict jval :=
  let p := [("sub", JStr (g_sub g)); ("sid", JStr sid)] in
  let p := match g_aevent g with
           | None => p
           | Some a =>
               let p := if Z.eqb (ae_authn_time a) 0 then p
                        else dset p "auth_time" (JInt (ae_authn_time a)) in
               if str_true (ae_authn_info a) then dset p "acr" (JStr (ae_authn_info a)) else p
           end in
  let p := dupdate p (filter (fun kv => negb (smem (fst kv) id_reserved)) info) in
  let p := if with_sid then dset p "sid" (JStr sid) else p in
  let halg := append "HS" (last3 alg) in
  let p := match code with
           | Some c => if str_true c then dset p "c_hash" (JStr (e_left_hash e halg c)) else p
           | None => p end in
  let p := match access with
           | Some a => if str_true a then dset p "at_hash" (JStr (e_left_hash e halg a)) else p
           | None => p end in
  match g_areq g with
  | Some a => match ar_nonce a with Some n => dset p "nonce" (JStr n) | None => p end
  | None => p
  end.

(** IDToken.info: src/oidcop/token/id_token.py 301-338. InvalidToken is, like
    UnknownToken, a TokenException that no caller tells apart. The library is
    given one algorithm name as the allowed algorithms. *)
Definition id_info (e : env) (now : Z) (tok : string) : res tinfo :=
  match e_peek e tok with
  | None => Raise UnknownToken
  | Some p0 =>
      rbind (match dget p0 "aud" with
             | None => Raise KeyError
             | Some (JList (JStr c :: _)) => Ok c
             | Some (JList []) => Raise IndexError
             | Some _ => Raise TypeError
             end)
      (fun cid =>
         match dget (e_clients e) cid with
         | None => Raise KeyError
         | Some c =>
             rbind (jwt_get_payload e [idt_sign_alg e c] tok)
               (fun p => rbind (payload_expired now p)
                  (fun x => if x then Raise ToOld
                            else Ok (mk_tinfo (match dget p "sid" with
                                               | Some (JStr s) => s | _ => "" end)
                                       None
                                       (match dget p "exp" with
                                        | Some x => x | None => JNull end))))
         end)
  end.

(** ** The handler table *)

Definition handler_info (e : env) (now : Z) (h : handler) (tok : string) : res tinfo :=
  match h with
  | HDefault pw cls _ => default_info (e_crypto e) pw cls tok
  | HJWT cls alg _ _ => jwt_info e now cls alg tok
  | HId _ => id_info e now tok
  end.

(** The exceptions TokenHandler.get_handler swallows:
    src/oidcop/token/handler.py 74. *)
Definition swallowed (x : exn) : bool :=
  is_KeyError x || is_TokenException x ||
  match x with Invalid | AttributeError => true | _ => false end.

(** TokenHandler.get_handler: src/oidcop/token/handler.py 67-79. *)
Fixpoint get_handler {A} (info : A -> res tinfo) (order : list A) : res (option (A * tinfo)) :=
  match order with
  | [] => Ok None
  | h :: r => match info h with
              | Ok i => Ok (Some (h, i))
              | Raise x => if swallowed x then get_handler info r else Raise x
              end
  end.

(** TokenHandler.info: src/oidcop/token/handler.py 52-59. *)
Definition token_info (e : env) (now : Z) (tok : string) : res tinfo :=
  rbind (get_handler (fun h => handler_info e now h tok) (map snd (e_handlers e)))
    (fun r => match r with Some (_, i) => Ok i | None => Raise UnknownToken end).

(** A user claim whose name is a parameter of the handler's __call__ that the
    caller also passes makes the call raise TypeError. *)
Definition clash (payload : dict jval) : bool :=
  dmem payload "session_id" || dmem payload "usage_rules".

(** token_handler(session_id=..., usage_rules=..., **payload):
    src/oidcop/session/grant.py 344-346; IDToken.__call__ and sign_encrypt:
    src/oidcop/token/id_token.py 213-299. Encryption is not modelled
    ([encrypt] is False unless a released user claim has that name). *)
Definition handler_mint (e : env) (now : Z) (h : handler) (sid : string)
    (rules : option rule) (code access : option string) (payload : dict jval) : M st string :=
  if clash payload then raise TypeError
  else
    n <- tick ;;
    match h with
    | HDefault pw cls lt =>
        ret (default_mint (e_crypto e) pw cls lt (e_rnd e n) n now sid
               (match dget payload "token_class" with Some v => jval_true v | None => false end))
    | HJWT cls alg iss lt =>
        lift (e_sign e alg n (jwt_payload cls iss lt now sid rules payload))
    | HId lt =>
        p <- lift (dec_sid3 e sid) ;;
        let '(_, cid, _) := p in
        match dget (e_clients e) cid with
        | None => raise KeyError
        | Some c =>
            i <- get_session_info e sid ;;
            g <- grant_at (ss_grant i) ;;
            let alg := idt_sign_alg e c in
            lift (e_sign e alg n
                    (jwt_claims (e_issuer e) lt now cid
                       (id_payload e g sid alg code access (include_session_id e cid) payload)))
        end
    end.

(** ** Minting in a session *)

(** Grant.add_acr_value: src/oidcop/session/grant.py 187-193. [.get] on a
    missing authentication event raises AttributeError. *)
Definition add_acr_value (g : grant) (point : string) : res bool :=
  match dget (g_claims g) point with
  | None | Some [] => Ok false
  | Some rel =>
      match g_aevent g with
      | None => Raise AttributeError
      | Some a => claims_match (Some (JStr (ae_authn_info a)))
                    (match dget rel "acr" with Some s => s | None => None end)
      end
  end.

(** Grant.payload_arguments: src/oidcop/session/grant.py 195-248, without the
    extra_payload (code and access token for an ID token), which the handler
    consumes as arguments. *)
Definition payload_arguments (e : env) (g : grant) (sid point : string) (scope : list string)
    (second : string) : M st (dict jval) :=
  n <- tick ;;
  let p := [("scope", JList (map JStr scope)); ("aud", JList (map JStr (g_resources g)));
            ("jti", JStr (e_uuid e n))] in
  let p := match dget (g_extra g) "dpop_jkt" with
           | Some j => if str_true j then dset p "cnf" (JObj [("jkt", JStr j)]) else p
           | None => p
           end in
  let p := match g_areq g with
           | Some a => if str_true (ar_client_id a)
                       then dset (dset p "client_id" (JStr (ar_client_id a))) "sub" (JStr (g_sub g))
                       else p
           | None => p
           end in
  restr <- get_claims e sid scope point second ;;
  x <- lift (dec_sid3 e sid) ;;
  let '(u, _, _) := x in
  info <- lift (get_user_claims e u (Some restr)) ;;
  let p := dupdate p info in
  a1 <- lift (add_acr_value g point) ;;
  a2 <- (if a1 then ret true else lift (add_acr_value g second)) ;;
  ret (if a2 then match g_aevent g with
                  | Some a => dset p "acr" (JStr (ae_authn_info a))
                  | None => p
                  end
       else p).

(** Keyword arguments of mint_token for an ID token: code, access_token,
    as_if. *)
Record idt_args : Type := mk_idt_args {
  ia_code : option string; ia_access : option string; ia_as_if : string
}.
Definition no_args : idt_args := mk_idt_args None None "".

(** Grant.mint_token: src/oidcop/session/grant.py 250-353, on the grant at
    location [l]. The token object is made first (without value, 309-315), then
    its value, then it is appended. The result is its position. *)
Definition mint (e : env) (now : Z) (l : nat) (sid tc : string) (based : option token)
    (rules : option rule) (scope : option (list string)) (ttype : string) (ia : idt_args)
  : M st (option nat) :=
  g <- grant_at l ;;
  n <- tick ;;
  r <- lift (mint_token (e_limit e) g now sid tc based rules scope ttype (e_uuid e n)
               (fun _ => Ok "")) ;;
  match r with
  | None => ret None
  | Some (t, _) =>
      match dget (e_handlers e) tc with
      | None => raise KeyError
      | Some h =>
          let rules := match rules with Some r => Some r | None => dget (g_rules g) tc end in
          let point := if smem tc (release_points e) then tc else "" in
          p <- payload_arguments e g sid point (t_scope t) (ia_as_if ia) ;;
          v <- handler_mint e now h sid rules (ia_code ia) (ia_access ia) p ;;
          upd_obj l (on_grant (g_add_token (tok_set_value v t))) ;;
          ret (Some (List.length (g_tokens g)))
      end
  end.

(** ** Session look-up by token: src/oidcop/session/manager.py 473-511. *)

(** _compatible_sid: manager.py 473-478. *)
Definition compatible_sid (e : env) (sid : string) : M st string :=
  let p := unpack_session_key sid in
  if Nat.eqb (List.length p) 3 then enc_sid e p else ret sid.

(** get_session_info_by_token(token, grant=True): manager.py 480-506. *)
Definition get_session_info_by_token (e : env) (now : Z) (tok : string) : M st sess :=
  i <- lift (token_info e now tok) ;;
  if negb (str_true (ti_sid i)) then raise WrongTokenClass
  else
    sid <- compatible_sid e (ti_sid i) ;;
    get_session_info e sid.
