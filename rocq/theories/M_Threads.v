(** Token requests that are processed at the same time, by threads.

    M_History lets each call run to its end before the next one starts. A web
    server runs one thread per request: here the processing of a token request
    (src/oidcop/oauth2/token.py 442-490) is a sequence of actions, and between
    two actions of a thread the other threads may act and other calls may come.

    One action is one use of shared data: a look-up in the session manager, a
    reading of the grant, a call of _mint_token, the storing of the grant,
    register_usage, revoke. That each of these is not interrupted is a
    simplification (inside _mint_token Python could switch threads too), and so
    is that the parse phase of a token request and all other calls are one
    action each. Every action reads the clock, and whatever it needs of the
    configuration, when it is taken.

    The configuration may change at any time: clients are registered, changed
    and deleted, and so are users and settings. *)
From Verif Require Import M_Base M_Types M_Codec M_Grant M_Env M_Session M_Claims M_Handler
  M_Authz M_TokenEP M_PKCE M_AuthzEP M_Info M_Logout M_History.

(** A program of a thread: finished, or an action, whose result decides how it
    goes on. *)
Inductive prog (A : Type) : Type :=
| Done (r : res A)
| Act (B : Type) (m : env -> Z -> M st B) (k : res B -> prog A).
Arguments Done {A} r.
Arguments Act {A B} m k.

Definition act {B} (m : env -> Z -> M st B) : prog B := Act m (fun r => Done r).
Definition pret {A} (a : A) : prog A := Done (Ok a).
Definition praise {A} (x : exn) : prog A := Done (Raise x).
Fixpoint pbind {A B} (p : prog A) (f : A -> prog B) : prog B :=
  match p with
  | Done (Ok a) => f a
  | Done (Raise x) => Done (Raise x)
  | Act m k => Act m (fun r => pbind (k r) f)
  end.
Fixpoint pcatch {A} (p : prog A) (h : exn -> option (prog A)) : prog A :=
  match p with
  | Done (Ok a) => Done (Ok a)
  | Done (Raise x) => match h x with Some q => q | None => Done (Raise x) end
  | Act m k => Act m (fun r => pcatch (k r) h)
  end.
Notation "x <~ p ;; k" := (pbind p (fun x => k))
  (at level 61, p at next level, right associativity).
Notation "x <! m ;; k" := (pbind (act (fun _ _ => m)) (fun x => k))
  (at level 61, m at next level, right associativity).
Notation "x <@ m ;; k" := (pbind (act m) (fun x => k))
  (at level 61, m at next level, right associativity).

(** The program run without interruption, the clock standing at [now], in the
    configuration [e]. *)
Fixpoint run {A} (e : env) (now : Z) (p : prog A) : M st A :=
  match p with
  | Done r => lift r
  | Act m k => fun s => let (r, s') := m e now s in run e now (k r) s'
  end.

(** _mint_token (src/oidcop/oauth2/token.py 47-96) from the token object at
    [pos], which is read when the call is made, with the expires_in of the
    response (171-172). *)
Definition mint_act (e : env) (l : nat) (sid : string) (pos : nat) (tc : string)
    (scope : option (list string)) (ttype : string) (now : Z) : M st (token * option Z) :=
  (b <- tok_at l pos ;;
   t <- mint_value e now l sid tc (Some b) scope ttype ;;
   ret (t, expires_in now t))%monad.
Definition rotate_act (e : env) (l : nat) (sid : string) (pos : nat) (scope : list string) (now : Z)
  : M st token :=
  (b <- tok_at l pos ;; mint_rotated e now l sid b scope)%monad.

(** AccessTokenHelper.process_request: src/oidcop/oauth2/token.py 100-192 and
    src/oidcop/oidc/token.py 25-159, as [code_process] in M_TokenEP. *)
Definition code_prog (e : env) (req : treq) (issue : option bool) : prog (outcome tresp) :=
  if negb (String.eqb (tr_grant_type req) CODE) then pret (Err "invalid_request")
  else match tr_code req with
  | None => pret (Err "invalid_request")
  | Some raw =>
      let code := replace_char " " "+" raw in
      i <@ (fun e now => get_session_info_by_token e now code) ;;
      rc <~ (match tr_client req with Some c => pret c | None => praise KeyError end) ;;
      if negb (String.eqb (ss_client i) rc) then pret (Err "invalid_grant")
      else
      gts <@ (fun e _ => lift (grant_types_of e (ss_client i))) ;;
      let l := ss_grant i in
      let sid := ss_sid i in
      g <! grant_at l ;;
      let dpop := if e_oidc e && e_dpop e then
                    match tr_dpop req with
                    | Some j => if str_true j then Some j else None
                    | None => None end
                  else None in
      u <! (match dpop with
            | Some j => upd_obj l (on_grant (fun g => g_set_extra (dset (g_extra g) "dpop_jkt" j) g))
            | None => ret tt
            end) ;;
      let ttype := match dpop with Some _ => "DPoP" | None => "Bearer" end in
      pos <~ (match find_pos code (g_tokens g) 0 with Some p => pret p | None => praise AttributeError end) ;;
      based <! tok_at l pos ;;
      let mints := match r_minting (t_rules based) with Some m => m | None => [] end in
      ar <~ (match g_areq g with Some a => pret a | None => praise TypeError end) ;;
      same <~ (match ar_redirect_uri ar with
               | None => pret true
               | Some u => match tr_redirect req with
                           | None => praise KeyError
                           | Some v => pret (String.eqb v u)
                           end
               end) ;;
      if negb same then pret (Err "invalid_request")
      else
      let issue := if e_oidc e then
                     match issue with
                     | Some b => b
                     | None => smem "offline_access" (g_scope g)
                     end
                   else otrue issue in
      access <~ (if smem ACCESS mints then
                   act (fun e' now => except_minting (mint_act e' l sid pos ACCESS None
                                     (if e_oidc e then ttype else "") now))
                 else pret None) ;;
      refresh <~ (if issue && smem REFRESH mints && smem REFRESH gts then
                    act (fun e now => except_minting (mint_act e l sid pos REFRESH None "" now))
                  else pret None) ;;
      u <@ (fun e _ => mgr_put e sid l) ;;
      idt <~ (if e_oidc e then
                sc <~ (match ar_scope ar with Some s => pret s | None => praise KeyError end) ;;
                if smem "openid" sc && smem IDTOKEN mints then
                  t <~ act (fun e now => except_jwe (mint_act e l sid pos IDTOKEN None "" now)) ;;
                  match t with
                  | Some (t, _) => pret (Good (Some (t_value t)))
                  | None => pret (Err "invalid_request")
                  end
                else pret (Good None)
              else pret (Good None)) ;;
      match idt with
      | Err x => pret (Err x)
      | Good idv =>
          u <! upd_tok l pos tok_register ;;
          pret (Good (mk_tresp (Some ttype) (g_scope g)
                 (option_map (fun p => t_value (fst p)) access)
                 (match access with Some p => snd p | None => None end)
                 (option_map (fun p => t_value (fst p)) refresh) idv))
      end
  end.

(** RefreshTokenHelper.process_request: src/oidcop/oauth2/token.py 231-310 and
    src/oidcop/oidc/token.py 203-304, as [refresh_process] in M_TokenEP. *)
Definition refresh_prog (e : env) (req : treq) (issue : option bool) : prog (outcome tresp) :=
  if negb (String.eqb (tr_grant_type req) REFRESH) then pret (Err "invalid_request")
  else
  v <~ (match tr_refresh req with Some v => pret v | None => praise KeyError end) ;;
  i <@ (fun e now => get_session_info_by_token e now v) ;;
  rc <~ (match tr_client req with Some c => pret c | None => praise KeyError end) ;;
  if negb (String.eqb (ss_client i) rc) then pret (Err "invalid_grant")
  else
  let l := ss_grant i in
  let sid := ss_sid i in
  g <! grant_at l ;;
  let dpop := if e_dpop_info e then
                match tr_dpop req with
                | Some j => if str_true j then Some j else None
                | None => None end
              else None in
  u <! (match dpop with
        | Some j => upd_obj l (on_grant (fun g => g_set_extra (dset (g_extra g) "dpop_jkt" j) g))
        | None => ret tt
        end) ;;
  let ttype := match dpop with Some _ => "DPoP" | None => "Bearer" end in
  pos <~ (match find_pos v (g_tokens g) 0 with Some p => pret p | None => praise AttributeError end) ;;
  tok <! tok_at l pos ;;
  psc <@ (fun e _ => lift (parent_scope e g tok)) ;;
  let scope := match tr_scope req with Some s => s | None => psc end in
  access <@ (fun e now => mint_act e l sid pos ACCESS (Some scope) ttype now) ;;
  mints <~ (match r_minting (t_rules tok) with Some m => pret m | None => praise TypeError end) ;;
  let issue := if e_oidc e then
                 match issue with Some b => b | None => smem "offline_access" scope end
               else otrue issue in
  refresh <~ (if smem REFRESH mints && issue then
                t <@ (fun e now => rotate_act e l sid pos scope now) ;;
                pret (Some (t_value t))
              else pret None) ;;
  idt <~ (if e_oidc e && smem IDTOKEN mints && smem "openid" scope then
            t <~ act (fun e now => except_jwe (mint_act e l sid pos IDTOKEN (Some scope) "" now)) ;;
            match t with
            | Some (t, _) => pret (Good (Some (t_value t)))
            | None => pret (Err "invalid_request")
            end
          else pret (Good None)) ;;
  match idt with
  | Err x => pret (Err x)
  | Good idv =>
      u <! upd_tok l pos tok_register ;;
      u' <@ (fun e _ => if revoke_refresh e rc then upd_tok l pos tok_set_revoked else ret tt) ;;
      pret (Good (mk_tresp (if e_oidc e then Some ttype else t_type (fst access)) scope
             (Some (t_value (fst access))) (snd access) refresh idv))
  end.

(** Token.process_request: src/oidcop/oauth2/token.py 442-490, as
    [token_process] in M_TokenEP. *)
Definition token_prog (e : env) (req : treq) (issue : option bool) : prog (outcome tresp) :=
  r <~ (if negb (smem (tr_grant_type req) (e_helpers e)) then pret (Err "invalid_request")
        else pcatch (if String.eqb (tr_grant_type req) CODE then code_prog e req issue
                     else if String.eqb (tr_grant_type req) REFRESH
                          then refresh_prog e req issue
                          else pret (Err "unmodelled helper"))
               (fun x => match x with
                         | JWEException => Some (pret (Err "invalid_request"))
                         | _ => None end)) ;;
  match r with
  | Err x => pret (Err x)
  | Good a =>
      v <~ (match rs_access a with Some v => pret v | None => praise KeyError end) ;;
      i <@ (fun e now => get_session_info_by_token e now v) ;;
      g <! grant_at (ss_grant i) ;;
      pret (Good a)
  end.

(** ** The provider with threads *)

(** A thread: the request it processes and what it has still to do. *)
Record thread : Type := mk_thread { th_req : treq; th_prog : prog (outcome tresp) }.

(** What can not change while sessions exist, and what can: [under e c] has the
    keys, the random numbers, the subject identifiers and the rules of grants of
    [e] and everything else of [c]. *)
Definition under (e c : env) : env := {|
  e_crypto := e_crypto e; e_skey := e_skey e; e_sign := e_sign e; e_uuid := e_uuid e;
  e_authz := e_authz e; e_implicit := e_implicit e; e_sub := e_sub e;
  e_oidc := e_oidc c; e_limit := e_limit c; e_verify := e_verify c; e_peek := e_peek c;
  e_left_hash := e_left_hash c; e_rnd := e_rnd c; e_issuer := e_issuer c;
  e_handlers := e_handlers c; e_modules := e_modules c; e_clients := e_clients c;
  e_users := e_users c; e_scopes := e_scopes c; e_scope_map := e_scope_map c;
  e_grant_types := e_grant_types c; e_helpers := e_helpers c; e_revoke_refresh := e_revoke_refresh c;
  e_dpop := e_dpop c; e_dpop_info := e_dpop_info c; e_idt_alg_def := e_idt_alg_def c;
  e_idt_algs := e_idt_algs c; e_bc_sid := e_bc_sid c; e_fc_sid := e_fc_sid c;
  e_pkce := e_pkce c; e_cc_hash := e_cc_hash c
|}.

(** The provider, the threads it has started, in order (those that have answered
    are gone: [None]), and the configuration in force. *)
Record pool : Type := mk_pool { p_st : hst; p_threads : list (option thread); p_conf : env }.

(** What can happen next: a call that is one action, a thread is started for
    the [i]-th parsed request, the thread [k] takes an action, or the
    configuration changes. What a thread uses outside its actions (the classes
    of the endpoint, the add-ons) it takes from the configuration in force when
    it is started. *)
Inductive move : Type :=
| MCall (o : op)
| MConf (c : env)
| MStart (i : nat) (issue : option bool)
| MAct (now : Z) (k : nat).

(** What is seen: the answer to a call, the number of the thread that was
    started, the answer of a thread to its request, or nothing. *)
Inductive sight : Type :=
| SeenCall (ev : event)
| SeenStart (k : nat) (q : treq)
| SeenAnswer (k : nat) (q : treq) (r : res (outcome tresp))
| SeenNothing.

(** The program after its next action, and the state. *)
Definition advance {A} (e : env) (now : Z) (p : prog A) (s : st) : prog A * st :=
  match p with
  | Done r => (Done r, s)
  | Act m k => let (r, s') := m e now s in (k r, s')
  end.

Definition set_nth {A} (k : nat) (x : A) (l : list A) : list A := upd_nth k (fun _ => x) l.

Definition pmove (e : env) (w : pool) (m : move) : sight * pool :=
  let e1 := under e (p_conf w) in
  match m with
  | MCall o => let (ev, h) := step e1 (p_st w) o in (SeenCall ev, mk_pool h (p_threads w) (p_conf w))
  | MConf c => (SeenNothing, mk_pool (p_st w) (p_threads w) c)
  | MStart i issue =>
      match nth_error (h_parsed (p_st w)) i with
      | None => (SeenNothing, w)
      | Some q => (SeenStart (List.length (p_threads w)) q,
                   mk_pool (p_st w) (p_threads w ++ [Some (mk_thread q (token_prog e1 q issue))]) (p_conf w))
      end
  | MAct now k =>
      match nth_error (p_threads w) k with
      | Some (Some t) =>
          let (p, s) := advance e1 now (th_prog t) (h_st (p_st w)) in
          let h := mk_hst s (h_parsed (p_st w)) in
          match p with
          | Done r => (SeenAnswer k (th_req t) r, mk_pool h (set_nth k None (p_threads w)) (p_conf w))
          | Act _ _ => (SeenNothing, mk_pool h (set_nth k (Some (mk_thread (th_req t) p)) (p_threads w)) (p_conf w))
          end
      | _ => (SeenNothing, w)
      end
  end.

Fixpoint pexec (e : env) (w : pool) (ms : list move) : list sight * pool :=
  match ms with
  | [] => ([], w)
  | m :: r => let (x, w1) := pmove e w m in
              let (xs, w2) := pexec e w1 r in
              (x :: xs, w2)
  end.

(** A new provider, with the configuration [e]. *)
Definition p_init (e : env) (always : dict (dict (list string))) : pool := mk_pool (h_init always) [] e.
