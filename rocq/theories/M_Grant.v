(** Session tokens and grants: src/oidcop/session/token.py and
    src/oidcop/session/grant.py. *)
From Verif Require Import M_Base M_Types.

(** ** Usage rules: the dict of one token class, with the members
    supports_minting, max_usage and expires_in
    (src/oidcop/session/grant.py 405-413). Other members are never read and not
    modelled. *)
Record rule : Type := mk_rule {
  r_minting : option (list string);
  r_max : option Z;
  r_exp : option Z
}.

Definition empty_rule : rule := mk_rule None None None.

(** Truth value of the dict. *)
Definition rule_true (r : rule) : bool :=
  match r with mk_rule None None None => false | _ => true end.

(** ** Tokens: src/oidcop/session/token.py 12-51 (Item) and 77-251. The Python
    class of a token is the one TOKEN_MAP gives for its token_class
    (src/oidcop/session/grant.py 55-60). The token's own [claims] are never
    read outside get_spec and are not modelled. *)
Record token : Type := mk_token {
  t_class : string;
  t_value : string;
  t_based : option string;
  t_rules : rule;
  t_issued : Z;
  t_exp : Z;
  t_nbf : Z;
  t_revoked : bool;
  t_used : Z;
  t_id : string;
  t_scope : list string;
  t_resources : list string;
  t_type : option string;
  t_sid : string
}.

Definition tok_set_revoked (t : token) : token :=
  mk_token (t_class t) (t_value t) (t_based t) (t_rules t) (t_issued t) (t_exp t)
    (t_nbf t) true (t_used t) (t_id t) (t_scope t) (t_resources t) (t_type t) (t_sid t).
Definition tok_set_exp (e : Z) (t : token) : token :=
  mk_token (t_class t) (t_value t) (t_based t) (t_rules t) (t_issued t) e
    (t_nbf t) (t_revoked t) (t_used t) (t_id t) (t_scope t) (t_resources t) (t_type t) (t_sid t).
(** register_usage: src/oidcop/session/token.py 135-136. *)
Definition tok_register (t : token) : token :=
  mk_token (t_class t) (t_value t) (t_based t) (t_rules t) (t_issued t) (t_exp t)
    (t_nbf t) (t_revoked t) (t_used t + 1) (t_id t) (t_scope t) (t_resources t) (t_type t) (t_sid t).
Definition tok_set_value (v : string) (t : token) : token :=
  mk_token (t_class t) v (t_based t) (t_rules t) (t_issued t) (t_exp t)
    (t_nbf t) (t_revoked t) (t_used t) (t_id t) (t_scope t) (t_resources t) (t_type t) (t_sid t).

(** Item.max_usage_reached: src/oidcop/session/token.py 47-51. *)
Definition max_usage_reached (mx : option Z) (used : Z) : bool :=
  match mx with Some m => (m <=? used)%Z | None => false end.

(** Item.is_active: src/oidcop/session/token.py 53-71. [now] is the clock
    reading (the callers use the default argument 0, which reads the clock). *)
Definition item_active (mx : option Z) (used : Z) (revoked : bool) (nbf exp now : Z) : bool :=
  if max_usage_reached mx used then false
  else if revoked then false
  else if negb (Z.eqb nbf 0) && (now <? nbf)%Z then false
  else if negb (Z.eqb exp 0) && (exp <? now)%Z then false
  else true.

Definition tok_active (now : Z) (t : token) : bool :=
  item_active (r_max (t_rules t)) (t_used t) (t_revoked t) (t_nbf t) (t_exp t) now.

(** SessionToken.supports_minting: src/oidcop/session/token.py 141-146. *)
Definition supports_minting (t : token) (tc : string) : bool :=
  match r_minting (t_rules t) with None => false | Some l => smem tc l end.

Definition CODE : string := "authorization_code".
Definition ACCESS : string := "access_token".
Definition REFRESH : string := "refresh_token".
Definition IDTOKEN : string := "id_token".

(** The keys of TOKEN_MAP: src/oidcop/session/grant.py 55-60. A grant with its
    own token_map is not modelled. *)
Definition known_class (tc : string) : bool := smem tc [CODE; ACCESS; REFRESH; IDTOKEN].

(** set_defaults: src/oidcop/session/token.py 132-133, 193-201, 205-207.
    The Python code writes into the dict it was given, which the grant shares;
    the write is idempotent and repeated for each token, so values suffice. *)
Definition set_defaults (tc : string) (r : rule) : rule :=
  if String.eqb tc CODE then
    mk_rule (match r_minting r with
             | None => Some [ACCESS; REFRESH; IDTOKEN]
             | m => m end) (Some 1%Z) (r_exp r)
  else if String.eqb tc REFRESH then
    mk_rule (match r_minting r with
             | None => Some [ACCESS; REFRESH]
             | m => m end) (r_max r) (r_exp r)
  else r.

(** ** Grants: src/oidcop/session/grant.py 102-164. [g_max] is the member
    max_usage of the grant's usage_rules dict, [g_rules] its members that are
    token classes. authorization_details is never read and not modelled. *)
Record grant : Type := mk_grant {
  g_scope : list string;
  g_claims : claims_map;
  g_resources : list string;
  g_areq : option areq;
  g_aevent : option aevent;
  g_tokens : list token;
  g_rules : dict rule;
  g_max : option Z;
  g_issued : Z;
  g_exp : Z;
  g_nbf : Z;
  g_revoked : bool;
  g_used : Z;
  g_id : string;
  g_sub : string;
  g_extra : dict string
}.

Definition g_set_tokens (ts : list token) (g : grant) : grant :=
  mk_grant (g_scope g) (g_claims g) (g_resources g) (g_areq g) (g_aevent g) ts (g_rules g)
    (g_max g) (g_issued g) (g_exp g) (g_nbf g) (g_revoked g) (g_used g) (g_id g) (g_sub g) (g_extra g).
Definition g_set_revoked (g : grant) : grant :=
  mk_grant (g_scope g) (g_claims g) (g_resources g) (g_areq g) (g_aevent g) (g_tokens g) (g_rules g)
    (g_max g) (g_issued g) (g_exp g) (g_nbf g) true (g_used g) (g_id g) (g_sub g) (g_extra g).
Definition g_add_token (t : token) (g : grant) : grant :=
  mk_grant (g_scope g) (g_claims g) (g_resources g) (g_areq g) (g_aevent g) (g_tokens g ++ [t])
    (g_rules g) (g_max g) (g_issued g) (g_exp g) (g_nbf g) (g_revoked g) (g_used g + 1) (g_id g)
    (g_sub g) (g_extra g).
Definition g_set_scope (sc : list string) (g : grant) : grant :=
  mk_grant sc (g_claims g) (g_resources g) (g_areq g) (g_aevent g) (g_tokens g) (g_rules g)
    (g_max g) (g_issued g) (g_exp g) (g_nbf g) (g_revoked g) (g_used g) (g_id g) (g_sub g) (g_extra g).
Definition g_set_exp (e : Z) (g : grant) : grant :=
  mk_grant (g_scope g) (g_claims g) (g_resources g) (g_areq g) (g_aevent g) (g_tokens g) (g_rules g)
    (g_max g) (g_issued g) e (g_nbf g) (g_revoked g) (g_used g) (g_id g) (g_sub g) (g_extra g).
Definition g_set_claims (c : claims_map) (g : grant) : grant :=
  mk_grant (g_scope g) c (g_resources g) (g_areq g) (g_aevent g) (g_tokens g) (g_rules g)
    (g_max g) (g_issued g) (g_exp g) (g_nbf g) (g_revoked g) (g_used g) (g_id g) (g_sub g) (g_extra g).
Definition g_set_rules (r : dict rule) (g : grant) : grant :=
  mk_grant (g_scope g) (g_claims g) (g_resources g) (g_areq g) (g_aevent g) (g_tokens g) r
    (g_max g) (g_issued g) (g_exp g) (g_nbf g) (g_revoked g) (g_used g) (g_id g) (g_sub g) (g_extra g).
Definition g_set_resources (r : list string) (g : grant) : grant :=
  mk_grant (g_scope g) (g_claims g) r (g_areq g) (g_aevent g) (g_tokens g) (g_rules g)
    (g_max g) (g_issued g) (g_exp g) (g_nbf g) (g_revoked g) (g_used g) (g_id g) (g_sub g) (g_extra g).
Definition g_set_extra (x : dict string) (g : grant) : grant :=
  mk_grant (g_scope g) (g_claims g) (g_resources g) (g_areq g) (g_aevent g) (g_tokens g) (g_rules g)
    (g_max g) (g_issued g) (g_exp g) (g_nbf g) (g_revoked g) (g_used g) (g_id g) (g_sub g) x.

Definition grant_active (now : Z) (g : grant) : bool :=
  item_active (g_max g) (g_used g) (g_revoked g) (g_nbf g) (g_exp g) now.

(** Grant.get_token: src/oidcop/session/grant.py 355-359. *)
Definition get_token (g : grant) (v : string) : option token :=
  find (fun t => String.eqb (t_value t) v) (g_tokens g).

(** Grant.find_scope: src/oidcop/session/grant.py 174-185. [limit] is Python's
    recursion limit. *)
Fixpoint find_scope (limit : nat) (g : grant) (b : option token) : res (list string) :=
  match limit with
  | O => Raise RecursionError
  | S k =>
      match b with
      | None => Ok (g_scope g)
      | Some t =>
          if list_true (t_scope t) then Ok (t_scope t)
          else match t_based t with
               | Some v => if str_true v then find_scope k g (get_token g v)
                           else Ok (g_scope g)
               | None => Ok (g_scope g)
               end
      end
  end.

(** Grant.mint_token: src/oidcop/session/grant.py 250-353, with
    SessionToken.__init__ (src/oidcop/session/token.py 94-130). [mkval] stands
    for payload_arguments followed by the token handler (333-346): it sees the
    scope and gives the value or an exception. [tid] is the uuid of the token.
    [based] is the token object as it is at the call. The keyword arguments
    issued_at, expires_in, ... are never passed by the callers. *)
Definition new_token (now : Z) (sid tc : string) (based : option string) (r : option rule)
    (sc : list string) (ttype tid v : string) : token :=
  mk_token tc v based
    (set_defaults tc (match r with Some r => r | None => empty_rule end))
    now 0 0 false 0 tid sc []
    (if String.eqb tc ACCESS then Some (if str_true ttype then ttype else "bearer") else None)
    (if String.eqb tc IDTOKEN then sid else "").

Definition mint_token (limit : nat) (g : grant) (now : Z) (sid tc : string)
    (based : option token) (rules : option rule) (scope : option (list string))
    (ttype tid : string) (mkval : list string -> res string) : res (option (token * grant)) :=
  if negb (grant_active now g) then Ok None
  else
    rbind (match based with
           | None => Ok None
           | Some b =>
               if negb (supports_minting b tc) then Raise MintingNotAllowed
               else if negb (tok_active now b) then Raise MintingNotAllowed
               else Ok (Some (t_value b))
           end)
    (fun base_ref =>
    let rules := match rules with Some r => Some r | None => dget (g_rules g) tc end in
    if negb (known_class tc) then Raise ValueError
    else
      rbind (match scope with
             | Some sc => Ok sc
             | None => match based with
                       | Some b => find_scope limit g (Some b)
                       | None => Ok (g_scope g)
                       end
             end)
      (fun sc =>
      rbind (mkval sc)
      (fun v =>
      let t := new_token now sid tc base_ref rules sc ttype tid v in
      Ok (Some (t, g_add_token t g))))).

(** ** Revocation inside a grant. The state is the list of issued tokens; a
    loop [for t in self.issued_token] that changes flags only is a loop over
    the positions. *)
Fixpoint upd_nth {A} (i : nat) (f : A -> A) (l : list A) : list A :=
  match l, i with
  | [], _ => []
  | x :: r, O => f x :: r
  | x :: r, S k => x :: upd_nth k f r
  end.

Definition revoke_nth (i : nat) : M (list token) unit :=
  fun ts => (Ok tt, upd_nth i tok_set_revoked ts).

(** Run [f] for each position of the list, in order. *)
Fixpoint for_pos {S} (f : nat -> M S unit) (is : list nat) : M S unit :=
  match is with
  | [] => ret tt
  | i :: r => f i ;; for_pos f r
  end.

(** Grant.revoke_token: src/oidcop/session/grant.py 361-377. *)
Fixpoint revoke_token (limit : nat) (value based_on : string) (recursive : bool)
  : M (list token) unit :=
  match limit with
  | O => raise RecursionError
  | S k => fun ts0 =>
      for_pos (fun i ts =>
        match nth_error ts i with
        | None => (Ok tt, ts)
        | Some t =>
            if negb (str_true value) && negb (str_true based_on) then revoke_nth i ts
            else if str_true value && str_true based_on then
              if String.eqb value (t_value t)
                 && match t_based t with Some b => String.eqb based_on b | None => false end
              then revoke_nth i ts
              else (Ok tt, ts)
            else if str_true value && String.eqb (t_value t) value then
              (revoke_nth i ;;
               if recursive then revoke_token k "" (t_value t) true else ret tt) ts
            else if str_true based_on
                    && match t_based t with Some b => String.eqb b based_on | None => false end
            then
              (revoke_nth i ;;
               if recursive then revoke_token k "" (t_value t) true else ret tt) ts
            else (Ok tt, ts)
        end) (seq 0 (List.length ts0)) ts0
  end.

(** SessionManager._revoke_dependent: src/oidcop/session/manager.py 298-302. *)
Fixpoint revoke_dependent (limit : nat) (v : string) : M (list token) unit :=
  match limit with
  | O => raise RecursionError
  | S k => fun ts0 =>
      for_pos (fun i ts =>
        match nth_error ts i with
        | None => (Ok tt, ts)
        | Some t =>
            if match t_based t with Some b => String.eqb b v | None => false end
            then (revoke_nth i ;; revoke_dependent k (t_value t)) ts
            else (Ok tt, ts)
        end) (seq 0 (List.length ts0)) ts0
  end.

(** Grant.last_issued_token_of_type: src/oidcop/session/grant.py 394-402. *)
Definition last_issued (g : grant) (tc : string) : option token :=
  fold_left (fun acc t =>
    if String.eqb (t_class t) tc then
      match acc with
      | None => Some t
      | Some r => if (t_issued r <? t_issued t)%Z then Some t else acc
      end
    else acc) (g_tokens g) None.

(** DEFAULT_USAGE: src/oidcop/session/grant.py 405-413. *)
Definition DEFAULT_USAGE : dict rule :=
  [ (CODE, mk_rule (Some [ACCESS; REFRESH; IDTOKEN]) (Some 1%Z) (Some 300%Z));
    (ACCESS, mk_rule (Some []) None (Some 3600%Z));
    (REFRESH, mk_rule (Some [ACCESS; REFRESH; IDTOKEN]) None None) ].

(** [a.update(b)] on usage rules. *)
Definition rule_update (a b : rule) : rule :=
  mk_rule (match r_minting b with Some x => Some x | None => r_minting a end)
          (match r_max b with Some x => Some x | None => r_max a end)
          (match r_exp b with Some x => Some x | None => r_exp a end).
