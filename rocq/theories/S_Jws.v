(** A toy signature scheme for JSON objects, used only to show that the laws
    assumed of JWS can hold and to compute examples: a token is the algorithm
    name, a serial number and the payload in a length-prefixed notation. *)
From Verif Require Import M_Base M_Types M_Codec M_Grant M_Env S_Codec S_Toy.

Fixpoint ser (v : jval) : string :=
  match v with
  | JNull => "n"
  | JBool true => "t"
  | JBool false => "f"
  | JInt z => String "i" (show_Z z)
  | JStr s => String "s" s
  | JList l => String "l" (lv_pack (map ser l))
  | JObj l => String "o" (lv_pack (flat_map (fun kv => let '(k, x) := kv in [k; ser x]) l))
  end.

Fixpoint all_some {A} (l : list (option A)) : option (list A) :=
  match l with
  | [] => Some []
  | Some x :: r => option_map (cons x) (all_some r)
  | None :: _ => None
  end.

Fixpoint pairs (p : string -> option jval) (l : list string) : option (list (string * jval)) :=
  match l with
  | [] => Some []
  | k :: x :: r => match p x, pairs p r with
                   | Some v, Some r => Some ((k, v) :: r)
                   | _, _ => None
                   end
  | _ => None
  end.

Fixpoint parse (fuel : nat) (s : string) : option jval :=
  match fuel with
  | O => None
  | S f =>
      match s with
      | EmptyString => None
      | String c r =>
          if Ascii.eqb c "n" then Some JNull
          else if Ascii.eqb c "t" then Some (JBool true)
          else if Ascii.eqb c "f" then Some (JBool false)
          else if Ascii.eqb c "i" then option_map JInt (py_int r)
          else if Ascii.eqb c "s" then Some (JStr r)
          else match lv_loop (String.length r) r with
               | Ok l => if Ascii.eqb c "l" then option_map JList (all_some (map (parse f) l))
                         else if Ascii.eqb c "o" then option_map JObj (pairs (parse f) l)
                         else None
               | Raise _ => None
               end
      end
  end.

Definition toy_sign (alg : string) (n : nat) (p : dict jval) : res string :=
  Ok (lv_pack [alg; show_N (N.of_nat n); ser (JObj p)]).

Definition toy_open (tok : string) : option (string * dict jval) :=
  match lv_loop (String.length tok) tok with
  | Ok [alg; _; body] => match parse (S (String.length body)) body with
                         | Some (JObj p) => Some (alg, p)
                         | _ => None
                         end
  | _ => None
  end.

Definition toy_verify (algs : list string) (tok : string) : res (dict jval) :=
  match toy_open tok with
  | Some (alg, p) => if smem alg algs then Ok p else Raise JWSException
  | None => Raise JWSException
  end.

(** The toy provider with that scheme, and with the given handlers. *)
Definition with_jws (e : env) (handlers : dict handler) : env := {|
  e_oidc := e_oidc e; e_limit := e_limit e; e_crypto := e_crypto e; e_skey := e_skey e;
  e_sign := toy_sign; e_verify := toy_verify; e_peek := fun t => option_map snd (toy_open t);
  e_left_hash := e_left_hash e; e_uuid := e_uuid e; e_rnd := e_rnd e; e_issuer := e_issuer e;
  e_handlers := handlers; e_modules := e_modules e; e_clients := e_clients e;
  e_users := e_users e; e_scopes := e_scopes e; e_scope_map := e_scope_map e;
  e_grant_types := e_grant_types e; e_helpers := e_helpers e; e_authz := e_authz e;
  e_implicit := e_implicit e; e_sub := e_sub e; e_revoke_refresh := e_revoke_refresh e;
  e_dpop := e_dpop e; e_dpop_info := e_dpop_info e; e_idt_alg_def := e_idt_alg_def e;
  e_idt_algs := e_idt_algs e; e_bc_sid := e_bc_sid e; e_fc_sid := e_fc_sid e;
  e_pkce := e_pkce e; e_cc_hash := e_cc_hash e
|}.

Definition jwt_handlers : dict handler :=
  [ (CODE, HDefault "pw_c" CODE 300); (ACCESS, HJWT ACCESS "ES256" "https://op.example.com/" 600);
    (REFRESH, HJWT REFRESH "ES256" "https://op.example.com/" 86400); (IDTOKEN, HId 300) ].
Definition jws_env : env := with_jws (toy_env true) jwt_handlers.
