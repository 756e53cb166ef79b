(** A concrete provider that satisfies the laws assumed of the libraries; used
    for examples only. Encryption writes key and nonce in front of the text,
    base64 is replaced by a hexadecimal notation with the digits a-p. *)
From Verif Require Import M_Base M_Types M_Codec M_Grant M_Env M_Session M_Claims M_Handler
  M_Authz M_TokenEP M_PKCE M_AuthzEP M_Info M_Logout M_History S_Toy S_History.

Definition hex_digit (n : nat) : ascii := ascii_of_nat (97 + n).
Definition hex_value (c : ascii) : option nat :=
  let n := nat_of_ascii c in
  if Nat.leb 97 n && Nat.ltb n 113 then Some (n - 97) else None.
Fixpoint hex (s : string) : string :=
  match s with
  | EmptyString => EmptyString
  | String c r => let n := nat_of_ascii c in
                  String (hex_digit (Nat.div n 16)) (String (hex_digit (Nat.modulo n 16)) (hex r))
  end.
Fixpoint unhex (s : string) : option string :=
  match s with
  | EmptyString => Some EmptyString
  | String a (String b r) =>
      match hex_value a, hex_value b, unhex r with
      | Some x, Some y, Some t => Some (String (ascii_of_nat (x * 16 + y)) t)
      | _, _, _ => None
      end
  | _ => None
  end.

Definition hex_crypto : crypto := {|
  fenc := fun key nonce text => lv_pack [key; show_N (N.of_nat nonce); text];
  fdec := fun key ct => match lv_loop (String.length ct) ct with
                        | Ok [k; _; t] => if String.eqb k key then Some t else None
                        | _ => None
                        end;
  b64e := hex;
  b64d := unhex;
  sha256hex := fun s => s
|}.

Definition hex_env (oidc rotate : bool) : env :=
  let e := toy_env oidc in {|
  e_oidc := oidc; e_limit := e_limit e; e_crypto := hex_crypto; e_skey := e_skey e;
  e_sign := e_sign e; e_verify := e_verify e; e_peek := e_peek e; e_left_hash := e_left_hash e;
  e_uuid := e_uuid e; e_rnd := e_rnd e; e_issuer := e_issuer e;
  e_handlers := e_handlers e; e_modules := e_modules e; e_clients := e_clients e;
  e_users := e_users e; e_scopes := e_scopes e; e_scope_map := e_scope_map e;
  e_grant_types := e_grant_types e; e_helpers := e_helpers e; e_authz := e_authz e;
  e_implicit := e_implicit e; e_sub := e_sub e; e_revoke_refresh := rotate;
  e_dpop := e_dpop e; e_dpop_info := e_dpop_info e; e_idt_alg_def := e_idt_alg_def e;
  e_idt_algs := e_idt_algs e; e_bc_sid := e_bc_sid e; e_fc_sid := e_fc_sid e;
  e_pkce := e_pkce e; e_cc_hash := e_cc_hash e
|}.

(** Reading the results of a run: the last code, and the tokens of the last
    token answer. *)
Definition last_code (evs : list event) : string :=
  fold_left (fun x ev => match ev with
    | EvLogin (Ok o) => match ao_args o with
                        | Good r => match ap_code r with Some v => v | None => x end
                        | _ => x end
    | _ => x end) evs "".
Definition last_answer (evs : list event) : option tresp :=
  fold_left (fun x ev => match ev with EvToken _ (Ok (Good a)) => Some a | _ => x end) evs None.
Definition answered_refresh (evs : list event) : string :=
  match last_answer evs with
  | Some a => match rs_refresh a with Some v => v | None => "" end
  | None => "" end.
Definition answered_access (evs : list event) : string :=
  match last_answer evs with
  | Some a => match rs_access a with Some v => v | None => "" end
  | None => "" end.

(** Requests of the client c1. *)
Definition hex_code_req (code : string) : treq :=
  mk_treq CODE (Some code) None (Some "c1") (Some "https://rp.example.com/cb") None None None.
Definition hex_refresh_req (v : string) (scope : option (list string)) : treq :=
  mk_treq REFRESH None (Some v) (Some "c1") None scope None None.

(** A run in which every request may depend on the answers so far. *)
Fixpoint play (e : env) (h : hst) (evs : list event) (fs : list (list event -> op))
  : list op * (list event * hst) :=
  match fs with
  | [] => ([], (evs, h))
  | f :: r => let o := f evs in
              let (ev, h1) := step e h o in
              let (ops, x) := play e h1 (evs ++ [ev]) r in
              (o :: ops, x)
  end.

(** A simple sufficient condition for a proper call. *)
Definition plain_id (x : string) : bool := str_true x && negb (has_char ";" x).
Definition plain_call (o : op) : bool :=
  match o with
  | OAuthorize _ _ _ ar _ _ _ ans _ =>
      plain_id (ar_client_id ar)
      && match ans with ANobody => true | AUser u None => plain_id u | _ => false end
  | OLogin _ _ ar uid _ _ _ => plain_id (ar_client_id ar) && plain_id uid
  | _ => true
  end.
