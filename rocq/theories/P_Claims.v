(** Property theorems about claims and scopes (C25, C26, C27). *)
From Verif Require Import M_Base M_Types M_Codec M_Grant M_Env M_Session M_Claims M_Handler
  S_Codec S_Claims S_Store S_Toy L_Base L_Claims L_Claims2 L_Store.

(** ** C25: a value is released only if it matches *)
Theorem C25_claims_match_exact : forall v spec, well_formed spec ->
  exists b, claims_match v spec = Ok b
    /\ (b = true <-> exists x, v = Some x /\ x <> JNull /\ accepts x spec).
Proof. exact claims_match_spec. Qed.
Print Assumptions C25_claims_match_exact.

Example C25_example :
  let spec := Some [("essential", JBool true); ("values", JList [JStr "urn:a"; JStr "urn:b"])] in
  well_formed spec /\ accepts (JStr "urn:b") spec /\ ~ accepts (JStr "urn:c") spec
  /\ claims_match (Some (JStr "urn:b")) spec = Ok true
  /\ claims_match (Some (JStr "urn:c")) spec = Ok false
  /\ claims_match None None = Ok false.
Proof.
  split.
  { intros d v [= <-] [H|[H|[]]]; [discriminate|]. injection H as <-. eauto. }
  split. { eapply acc_values; [right; left; reflexivity|]. right. now left. }
  split.
  { intros H. inversion H as [|d I|d l I1 I2|]; subst.
    - cbn in I. repeat (destruct I as [I|I]; [discriminate I|]). exact I.
    - destruct I1 as [I1|[I1|[]]]; [discriminate|]. injection I1 as <-.
      cbn in I2. repeat (destruct I2 as [I2|I2]; [discriminate I2|]). exact I2. }
  vm_compute. auto.
Qed.

(** Refuted when "values" is a string instead of a list: a substring of it
    matches (claims.py 246, [value in val]). *)
Theorem C25_values_as_string_refuted : exists v d,
  claims_match (Some v) (Some d) = Ok true /\ ~ accepts v (Some d).
Proof.
  exists (JStr "urn"), [("values", JStr "urn:mace:silver")]. split; [vm_compute; reflexivity|].
  intros H. inversion H as [|d I|d l I1 I2|]; subst.
  - destruct I as [I|[]]. discriminate.
  - destruct I1 as [I1|[]]. discriminate.
Qed.
Print Assumptions C25_values_as_string_refuted.

(** ** C26: where claims come from *)

(** The claims of a release point, before looking at the user. *)
Theorem C26_claims_asked_for : forall e ar point scopes cid second s d s',
  get_claims_from_request e ar point scopes cid second s = (Ok d, s') ->
  forall k sp, In (k, sp) d -> asked_for e s ar point scopes (eff_client cid ar) second k.
Proof. exact (fun e ar point scopes cid second s d s' H => proj2 (gcfr_run e ar point scopes cid second s _ s' H) d eq_refl). Qed.
Print Assumptions C26_claims_asked_for.

(** What is released of the user's attributes. *)
Theorem C26_released_claims_match : forall e users u restr out k v,
  e_users e = Some users -> get_user_claims e u (Some restr) = Ok out -> In (k, v) out ->
  exists spec, In (k, spec) restr /\ dget (users u) k = Some v
    /\ claims_match (Some v) spec = Ok true.
Proof. exact (fun e users u restr out k v H => user_claims_In e u restr out k v users H). Qed.
Print Assumptions C26_released_claims_match.

(** A restriction in the claims parameter prevails over the other sources. *)
Theorem C26_request_restriction_prevails : forall e ar point scopes cid second s d s',
  (forall m, In (point, m) (e_modules e) -> NoDup (dkeys (m_base m))) ->
  (forall a cl c, ar = Some a -> ar_claims a = Some cl -> In (point, c) cl -> NoDup (dkeys c)) ->
  get_claims_from_request e ar point scopes cid second s = (Ok d, s') ->
  NoDup (dkeys d)
  /\ (d = [] \/ forall k sp, dget (request_claims ar point) k = Some sp -> dget d k = Some sp).
Proof. exact gcfr_restr. Qed.
Print Assumptions C26_request_restriction_prevails.

(** Every member of a token's payload is technical, or a claim of the session's
    user that was asked for. *)
Theorem C26_token_payload : forall e g sid point scope second s p s',
  payload_arguments e g sid point scope second s = (Ok p, s') ->
  exists u c gid l gr, dec_sid3 e sid = Ok (u, c, gid) /\ reads s [u; c; gid] l
    /\ nth_error (s_heap s) l = Some (OGrant gr)
    /\ forall k v, In (k, v) p -> In k technical
         \/ releasable e s (g_areq gr) point scope (eff_client c (g_areq gr)) second u k v.
Proof. exact payload_In. Qed.
Print Assumptions C26_token_payload.

(** A session whose userinfo claims include the e-mail address but not the
    nickname. *)
Definition exc_s : st := snd (create_session (toy_env true) 1000 toy_event toy_areq "diana" "c1"
  None None (st_init [("c1", [("id_token", ["nickname"]); ("userinfo", ["name"])])])).
Definition exc_sid : string :=
  match create_session (toy_env true) 1000 toy_event toy_areq "diana" "c1"
    None None (st_init [("c1", [("id_token", ["nickname"]); ("userinfo", ["name"])])]) with
  | (Ok x, _) => x | _ => "" end.
Definition exc_grant : grant :=
  match nth_error (s_heap exc_s) 4 with Some (OGrant g) => g | _ =>
    new_grant 0 toy_areq toy_event "" "" None None end.
Example C26_example :
  exists p s', payload_arguments (toy_env true) exc_grant exc_sid "userinfo" ["openid"] "" exc_s
      = (Ok p, s')
    /\ In ("email", JStr "diana@example.org") p /\ In ("name", JStr "Diana") p
    /\ ~ In "nickname" (dkeys p).
Proof.
  eexists. eexists. split; [vm_compute; reflexivity|].
  split; [vm_compute; tauto|]. split; [vm_compute; tauto|].
  vm_compute. intuition discriminate.
Qed.

(** Refuted relative to the configuration as written: making an ID token "as if"
    for userinfo extends the client's own list in place (claims.py 85), so that a
    later ID token carries a claim configured for userinfo only. *)
Theorem C26_configured_elsewhere_refuted : exists e s0 ar cid d1 s1 d2 s2 k,
  get_claims_from_request e (Some ar) "id_token" None cid "userinfo" s0 = (Ok d1, s1)
  /\ get_claims_from_request e (Some ar) "id_token" None cid "" s1 = (Ok d2, s2)
  /\ In k (dkeys d2)
  /\ ~ asked_for e s0 (Some ar) "id_token" None cid "" k.
Proof.
  exists (toy_env true), exc_s, toy_areq, "c1". eexists. eexists. eexists. eexists. exists "name".
  split; [vm_compute; reflexivity|]. split; [vm_compute; reflexivity|].
  split; [vm_compute; tauto|].
  intros H. inversion H; subst.
  - injection H0 as <-. discriminate.
  - cbn in H0. repeat (destruct H0 as [H0|H0]; [try discriminate H0|]); [|destruct H0].
    injection H0 as <-. destruct H1 as [H1|[_ [c [H1 [Hq|[Hq _]]]]]]; [discriminate| |congruence].
    cbn in H1. injection H1 as <-. discriminate.
  - cbn in H0. repeat (destruct H0 as [H0|H0]; [try discriminate H0|]); [|destruct H0].
    injection H0 as <-. destruct H1.
  - cbn in H0. repeat (destruct H0 as [H0|H0]; [try discriminate H0|]); [|destruct H0].
    injection H0 as <-. destruct H1.
  - vm_compute in H2. injection H2 as <-. destruct H3 as [->|[H3 _]]; [|congruence].
    destruct H4 as [H4|[H4|[]]]; [|discriminate]. injection H4 as <-.
    destruct H5 as [H5|[]]. discriminate.
Qed.
Print Assumptions C26_configured_elsewhere_refuted.

(** ** C27: only allowed scopes are mapped *)
Theorem C27_scopes_to_claims_exact : forall e scopes cid m k,
  mapping e cid m -> m <> [] ->
  (In k (dkeys (scopes_to_claims e scopes cid))
   <-> exists s names, In s scopes /\ scope_allowed e cid s /\ dget m s = Some names /\ In k names).
Proof. exact scopes_to_claims_spec. Qed.
Print Assumptions C27_scopes_to_claims_exact.

Theorem C27_scopes_add_no_restriction : forall e scopes cid k sp,
  In (k, sp) (scopes_to_claims e scopes cid) -> sp = None.
Proof. exact scopes_to_claims_null. Qed.
Print Assumptions C27_scopes_add_no_restriction.

Theorem C27_filter_scopes_exact : forall e scopes cid s,
  In s (filter_scopes e scopes cid) <-> In s scopes /\ scope_allowed e cid s.
Proof. exact filter_scopes_spec. Qed.
Print Assumptions C27_filter_scopes_exact.

Theorem C27_unknown_scopes_denied : forall e sc cid,
  check_unknown_scopes e true (Some sc) cid = Ok tt <-> forall s, In s sc -> scope_allowed e cid s.
Proof. exact check_unknown_ok. Qed.
Print Assumptions C27_unknown_scopes_denied.

Theorem C27_disallowed_scope_refused : forall e sc cid s,
  In s sc -> ~ scope_allowed e cid s ->
  check_unknown_scopes e true (Some sc) cid = Raise UnAuthorizedClientScope.
Proof. exact check_unknown_no. Qed.
Print Assumptions C27_disallowed_scope_refused.

Example C27_example :
  let e := toy_env true in
  mapping e "c2" (e_scope_map e) /\ scope_allowed e "c2" "email" /\ ~ scope_allowed e "c2" "profile"
  /\ dkeys (scopes_to_claims e ["profile"; "email"; "x"] "c2") = ["email"; "email_verified"]
  /\ dkeys (scopes_to_claims e ["profile"; "email"; "x"] "c1")
     = ["name"; "nickname"; "email"; "email_verified"].
Proof.
  cbv zeta. split; [apply mapping_spec; reflexivity|].
  split; [apply allowed_spec; vm_compute; tauto|].
  split; [rewrite <- allowed_spec; vm_compute; intuition discriminate|].
  vm_compute. auto.
Qed.

(** Refuted for a client whose own mapping is empty: the standard mapping is
    used instead (scopes.py 29-30 tests the truth value of the mapping). *)
Theorem C27_empty_mapping_refuted : exists e cid scopes k,
  mapping e cid [] /\ In k (dkeys (scopes_to_claims e scopes cid)).
Proof.
  exists (mk_env true 100 toy_crypto "" (fun _ _ _ => Ok "") (fun _ _ => Ok []) (fun _ => None)
    (fun a _ => a) (fun _ => "") (fun _ => "") "" [] []
    [("c", mk_client None (Some ["email"]) (Some []) None None [] None false false)]
    None ["email"] [] None [] (mk_gconf None None None) false (fun a _ => a) false false false
    None [] false false false (fun _ v => Ok v)), "c", ["email"], "email".
  split; [apply mapping_spec; reflexivity|]. vm_compute. tauto.
Qed.
Print Assumptions C27_empty_mapping_refuted.
