(** Property theorems about tokens and grants (C01, C04, C05, C06, C16 at the
    level of one grant). *)
From Verif Require Import M_Base M_Types M_Grant S_Grant L_Grant.

(** ** C01: active exactly while live. *)
Theorem C01_token_active_iff_live : forall t now,
  tok_active now t = true <-> token_live t now.
Proof. exact (fun t now => tok_active_live now t). Qed.
Print Assumptions C01_token_active_iff_live.

Theorem C01_grant_active_iff_live : forall g now,
  grant_active now g = true <-> grant_live g now.
Proof. exact (fun g now => grant_active_live now g). Qed.
Print Assumptions C01_grant_active_iff_live.

(** A code issued at 100 for 300 seconds, usable once. *)
Example ex_code : token :=
  mk_token CODE "c" None (mk_rule (Some [ACCESS; REFRESH; IDTOKEN]) (Some 1%Z) (Some 300%Z))
    100 400 0 false 0 "id1" ["openid"] [] None "".
Example C01_case :
  tok_active 400 ex_code = true /\ tok_active 401 ex_code = false
  /\ tok_active 400 (tok_register ex_code) = false
  /\ tok_active 400 (tok_set_revoked ex_code) = false.
Proof. vm_compute. auto. Qed.

(** ** C04: recursive revocation is exact. [limit] is the interpreter's
    recursion limit. *)
Theorem C04_recursive_revocation_exact : forall limit v ts,
  forest ts -> v <> "" -> List.length ts < limit ->
  exists ts', revoke_token limit v "" true ts = (Ok tt, ts')
    /\ revoked_exactly (fun t => t_value t = v \/ descends ts v t) ts ts'.
Proof.
  exact (fun limit v ts F N L =>
    revoke_value_ok limit v ts F
      (match v as v return v <> "" -> str_true v = true with
       | EmptyString => fun n => match n eq_refl with end
       | String _ _ => fun _ => eq_refl end N) L).
Qed.
Print Assumptions C04_recursive_revocation_exact.

(** The manager's walk over the dependants of a token. *)
Theorem C04_revoke_dependent_exact : forall limit v ts,
  forest ts -> List.length ts < limit ->
  exists ts', revoke_dependent limit v ts = (Ok tt, ts')
    /\ revoked_exactly (descends ts v) ts ts'.
Proof. exact revoke_dependent_exact. Qed.
Print Assumptions C04_revoke_dependent_exact.

Theorem C04_single_revocation_exact : forall limit v ts,
  v <> "" -> 0 < limit ->
  exists ts', revoke_token limit v "" false ts = (Ok tt, ts')
    /\ revoked_exactly (fun t => t_value t = v) ts ts'.
Proof. exact revoke_single_exact. Qed.
Print Assumptions C04_single_revocation_exact.

Theorem C04_revoke_all_exact : forall limit recursive ts,
  0 < limit ->
  exists ts', revoke_token limit "" "" recursive ts = (Ok tt, ts')
    /\ revoked_exactly (fun _ => True) ts ts'.
Proof. exact revoke_all_exact. Qed.
Print Assumptions C04_revoke_all_exact.

(** What the code does not give: whatever the recursion limit is, a long enough
    refresh chain makes the recursive revocation fail half-way, leaving a
    descendant alive. *)
Theorem C04_revocation_of_long_chains_refuted : forall limit,
  exists ts v ts' t t', forest ts /\ v <> ""
    /\ revoke_token limit v "" true ts = (Raise RecursionError, ts')
    /\ descends ts v t /\ same_but_revoked t t' /\ In t' ts' /\ t_revoked t' = false.
Proof. exact long_chain_refuted. Qed.
Print Assumptions C04_revocation_of_long_chains_refuted.

Example ex_refresh : token :=
  mk_token REFRESH "r" (Some "c") (mk_rule (Some [ACCESS; REFRESH]) None None)
    110 0 0 false 0 "id2" ["openid"] [] None "".
Example ex_access : token :=
  mk_token ACCESS "a" (Some "r") empty_rule 120 500 0 false 0 "id3" [] [] (Some "bearer") "".
Example ex_other : token :=
  mk_token ACCESS "b" None empty_rule 120 500 0 false 0 "id4" ["openid"] [] (Some "bearer") "".
Example ex_tokens : list token := [tok_register ex_code; ex_refresh; ex_access; ex_other].
Example ex_tokens_forest : forest ex_tokens.
Proof. apply ex_forest4; reflexivity. Qed.
Example C04_case : exists ts', revoke_token 10 "c" "" true ex_tokens = (Ok tt, ts')
  /\ map t_revoked ts' = [true; true; true; false].
Proof. eexists; vm_compute; auto. Qed.

(** ** C05: the minting guard. *)
Theorem C05_minting_guard : forall limit g now sid tc based rules scope ttype tid mkval t g',
  mint_token limit g now sid tc based rules scope ttype tid mkval = Ok (Some (t, g')) ->
  grant_live g now
  /\ (forall b, based = Some b ->
        token_live b now
        /\ (exists l, r_minting (t_rules b) = Some l /\ In tc l)
        /\ t_based t = Some (t_value b))
  /\ (based = None -> t_based t = None)
  /\ t_class t = tc /\ t_revoked t = false /\ t_used t = 0%Z
  /\ g' = mk_grant (g_scope g) (g_claims g) (g_resources g) (g_areq g) (g_aevent g)
            (g_tokens g ++ [t]) (g_rules g) (g_max g) (g_issued g) (g_exp g) (g_nbf g)
            (g_revoked g) (g_used g + 1) (g_id g) (g_sub g) (g_extra g).
Proof. exact mint_guard. Qed.
Print Assumptions C05_minting_guard.

Theorem C05_no_minting_otherwise : forall limit g now sid tc based rules scope ttype tid mkval,
  ~ grant_live g now
  \/ (exists b, based = Some b
       /\ (~ token_live b now \/ ~ (exists l, r_minting (t_rules b) = Some l /\ In tc l))) ->
  forall t g', mint_token limit g now sid tc based rules scope ttype tid mkval <> Ok (Some (t, g')).
Proof. exact mint_guard_otherwise. Qed.
Print Assumptions C05_no_minting_otherwise.

(** Minting does succeed when allowed. *)
Theorem C05_minting_succeeds : forall limit g now sid tc based rules sc ttype tid mkval v,
  grant_live g now ->
  (forall b, based = Some b ->
     token_live b now /\ exists l, r_minting (t_rules b) = Some l /\ In tc l) ->
  In tc ["authorization_code"; "access_token"; "refresh_token"; "id_token"] ->
  mkval sc = Ok v ->
  exists t g', mint_token limit g now sid tc based rules (Some sc) ttype tid mkval
               = Ok (Some (t, g'))
    /\ t_value t = v /\ t_scope t = sc.
Proof. exact mint_succeeds. Qed.
Print Assumptions C05_minting_succeeds.

Example ex_grant : grant :=
  mk_grant ["openid"; "profile"] [] [] None None [ex_code] DEFAULT_USAGE None 100 1000 0 false 0
    "g1" "sub" [].
Example C05_case : exists t g',
  mint_token 100 ex_grant 150 "sid" ACCESS (Some ex_code) None None "" "id9" (fun _ => Ok "at")
    = Ok (Some (t, g')) /\ t_scope t = ["openid"] /\ t_based t = Some "c".
Proof. eexists _, _; vm_compute; auto. Qed.

(** ** C06: derivation is a forest and walks along it end. *)
Theorem C06_minting_keeps_forest :
  forall limit g now sid tc based rules scope ttype tid mkval t g',
  mint_token limit g now sid tc based rules scope ttype tid mkval = Ok (Some (t, g')) ->
  forest (g_tokens g) ->
  (forall b, based = Some b -> In b (g_tokens g)) ->
  t_value t <> "" -> ~ In (t_value t) (map t_value (g_tokens g)) ->
  forest (g_tokens g').
Proof. exact mint_forest. Qed.
Print Assumptions C06_minting_keeps_forest.

Theorem C06_scope_walk_ends : forall limit g t,
  forest (g_tokens g) -> In t (g_tokens g) -> List.length (g_tokens g) <= limit ->
  exists sc, find_scope limit g (Some t) = Ok sc
    /\ inherited_scope (g_tokens g) (g_scope g) (Some (t_value t)) sc.
Proof. exact scope_walk. Qed.
Print Assumptions C06_scope_walk_ends.

Example C06_case :
  find_scope 10 (g_set_tokens ex_tokens ex_grant) (Some ex_access) = Ok ["openid"]
  /\ In ex_access ex_tokens.
Proof. vm_compute. auto. Qed.
