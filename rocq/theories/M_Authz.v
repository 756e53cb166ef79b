(** Authorization policy: src/oidcop/authz/__init__.py. *)
From Verif Require Import M_Base M_Types M_Codec M_Grant M_Env M_Session M_Claims.

(** AuthzHandling.usage_rules: src/oidcop/authz/__init__.py 23-50. A client
    that is not in the database, or has no token_usage_rules, gets the global
    rules. *)
Definition merge_rule (pc : option rule) (r : rule) : rule :=
  match pc with
  | None => r
  | Some p => if rule_true p then rule_update r p else empty_rule
  end.

Definition merge_rules (glob per : dict rule) : dict rule :=
  let d := map (fun kr => (fst kr, merge_rule (dget per (fst kr)) (snd kr))) glob in
  fold_left (fun acc kr => if dmem acc (fst kr) then acc else dset acc (fst kr) (snd kr)) per d.

Definition usage_rules (glob : option (dict rule)) (clients : dict client) (cid : string)
  : dict rule :=
  let g := match glob with Some g => g | None => [] end in
  if negb (str_true cid) then g
  else match dget clients cid with
       | None => g
       | Some c => match c_rules c with
                   | None => g
                   | Some per => match g with [] => per | _ => merge_rules g per end
                   end
       end.

(** AuthzHandling.usage_rules_for: src/oidcop/authz/__init__.py 52-57. *)
Definition usage_rules_for (glob : option (dict rule)) (clients : dict client)
    (cid tc : string) : rule :=
  match dget (usage_rules glob clients cid) tc with Some r => r | None => empty_rule end.

Definition env_rules (e : env) (cid : string) : dict rule :=
  usage_rules (gc_rules (e_authz e)) (e_clients e) cid.

(** Grant settings by grant_config: src/oidcop/authz/__init__.py 70-78. *)
Definition apply_gconf (e : env) (now : Z) (ar : areq) (g : grant) : grant :=
  let c := e_authz e in
  let g := match gc_exp c with Some x => g_set_exp (now + x) g | None => g end in
  let g := match gc_rules c with Some _ => g_set_rules (env_rules e (ar_client_id ar)) g
                               | None => g end in
  match gc_scope c with Some s => g_set_scope s g | None => g end.

Definition gconf_empty (c : gconf) : bool :=
  match c with mk_gconf None None None => true | _ => false end.

(** AuthzHandling.__call__: src/oidcop/authz/__init__.py 59-94, and
    Implicit.__call__: 97-108, whose loop over the configuration unpacks the
    key strings and raises ValueError unless there is none. *)
Definition authz (e : env) (now : Z) (sid : string) (ar : areq) : M st nat :=
  if e_implicit e then
    l <- get_grant e sid ;;
    if gconf_empty (e_authz e) then ret l else raise ValueError
  else
    i <- get_session_info e sid ;;
    let l := ss_grant i in
    g <- grant_at l ;;
    upd_obj l (on_grant (fun g => g_set_resources [ss_client i] (apply_gconf e now ar g))) ;;
    g <- grant_at l ;;
    let scopes := match g_scope g with
                  | [] => match ar_scope ar with Some s => s | None => [] end
                  | s => s
                  end in
    upd_obj l (on_grant (g_set_scope scopes)) ;;
    c <- get_claims_all_usage e sid scopes ;;
    upd_obj l (on_grant (g_set_claims c)) ;;
    ret l.
