(** C44: DPoP. *)
From Verif Require Import M_Base M_Types M_Codec M_Grant M_Env M_Session M_Claims M_Handler
  M_Authz M_TokenEP M_PKCE M_AuthzEP M_Info M_Logout M_History M_ClientAuthn M_DPoP
  S_Codec S_Grant S_Toy S_History S_Hex S_ClientAuthn S_DPoP L_Base L_Hex L_Hist1 L_ClientAuthn L_DPoP.

(** A request that comes with HTTP information is let through only with a
    proof: a JWS whose signature verifies with the key in its header, made for
    this URL and this method. The request is then marked with the thumbprint of
    the key. *)
Theorem C44_proof_checked D req hi req' :
  objects D -> dpop_parse D req (Some hi) = Ok req' ->
  exists t j, hi_dpop hi = Some t /\ proof_for D t (hi_url hi) (hi_method hi) j /\ req' = tr_set_dpop j req.
Proof. exact (fun W => parse_ok D W req hi req'). Qed.
Print Assumptions C44_proof_checked.

(** And every such proof is accepted. *)
Theorem C44_proof_accepted D req hi t j :
  objects D -> hi_dpop hi = Some t -> proof_for D t (hi_url hi) (hi_method hi) j ->
  dpop_parse D req (Some hi) = Ok (tr_set_dpop j req).
Proof. exact (fun W => parse_complete D W req hi t j). Qed.
Print Assumptions C44_proof_accepted.

(** When the payload has no member jwk, the thumbprint is that of the key that
    signed. *)
Theorem C44_confirms_signing_key D t url method j :
  proof_for D t url method j ->
  (forall k alg p, d_verify D t k alg = Ok p -> dget p "jwk" = None) ->
  exists h p k, signed_by D t h p k /\ d_thumb D k = j.
Proof.
  intros (h & p & k & jwk & k' & S & _ & _ & Hj & Ek & Et) N. exists h, p, k. split; auto.
  destruct S as (j0 & alg & Ef & J & Ek0 & Ea & Ev). destruct Hj as [Hj|[_ Hj]]; [rewrite (N _ _ _ Ev) in Hj; discriminate|].
  congruence.
Qed.
Print Assumptions C44_confirms_signing_key.

(** A library for examples: keys and JWKs are the same text; the proof "p" is
    signed by "k1"; "jwt" is of another type, signed with an algorithm that is
    not advertised; "evil" is signed by "k1" and names "k2" in its payload. *)
Definition ex_D : dlib := mk_dlib
  (fun t => if String.eqb t "p" then Ok (Some [("typ", "dpop+jwt"); ("alg", "RS256"); ("jwk", "k1")])
            else if String.eqb t "jwt" then Ok (Some [("typ", "JWT"); ("alg", "HS256"); ("jwk", "k1")])
            else if String.eqb t "evil" then Ok (Some [("typ", "dpop+jwt"); ("alg", "RS256"); ("jwk", "k1")])
            else Ok None)
  Ok
  (fun t k _ => if negb (String.eqb k "k1") then Raise ValueError
                else if String.eqb t "evil" then
                  Ok [("jti", "1"); ("htm", "POST"); ("htu", "https://op/token"); ("iat", "0"); ("jwk", "k2")]
                else Ok [("jti", "1"); ("htm", "POST"); ("htu", "https://op/token"); ("iat", "0")])
  (fun k => k).
Lemma ex_D_objects : objects ex_D.
Proof.
  intros t k alg p. cbn. destruct (negb (String.eqb k "k1")); [discriminate|].
  destruct (String.eqb t "evil"); intros E; injection E as <-; repeat constructor; cbn; intuition discriminate.
Qed.
Definition ex_hi (t : string) : hinfo := mk_hinfo (Some t) "https://op/token" "POST".

Example C44_proof_ex :
  objects ex_D
  /\ dpop_parse ex_D (hex_code_req "x") (Some (ex_hi "p")) = Ok (tr_set_dpop "k1" (hex_code_req "x"))
  /\ dpop_parse ex_D (hex_code_req "x") (Some (mk_hinfo (Some "p") "https://op/other" "POST")) = Raise ValueError
  /\ dpop_parse ex_D (hex_code_req "x") (Some (mk_hinfo (Some "p") "https://op/token" "GET")) = Raise ValueError
  /\ dpop_parse ex_D (hex_code_req "x") (Some (mk_hinfo None "https://op/token" "POST")) = Raise KeyError
  /\ dpop_parse ex_D (hex_code_req "x") (Some (ex_hi "junk")) = Raise TypeError.
Proof. split; [exact ex_D_objects|]. vm_compute. auto 6. Qed.

(** A token request is answered with tokens of type DPoP exactly if the request
    is marked with a key, and the payload of the tokens then names that key,
    unless a user claim is called "cnf". *)
Theorem C44_code_answer_type e now req issue s a s' :
  code_process e now req issue s = (Ok (Good a), s') ->
  rs_type a = Some "DPoP" <-> e_oidc e = true /\ e_dpop e = true /\ exists j, tr_dpop req = Some j /\ j <> "".
Proof. exact (code_type e now req issue s a s'). Qed.
Print Assumptions C44_code_answer_type.

Theorem C44_refresh_answer_type e now req issue s a s' :
  e_oidc e = true -> refresh_process e now req issue s = (Ok (Good a), s') ->
  rs_type a = Some "DPoP" <-> e_dpop_info e = true /\ exists j, tr_dpop req = Some j /\ j <> "".
Proof. exact (refresh_type e now req issue s a s'). Qed.
Print Assumptions C44_refresh_answer_type.

Theorem C44_payload_names_key e g sid point scope second j s p s' :
  payload_arguments e g sid point scope second s = (Ok p, s') ->
  dget (g_extra g) "dpop_jkt" = Some j -> j <> "" ->
  (forall u info c, get_user_claims e u c = Ok info -> NoDup (dkeys info) /\ dget info "cnf" = None) ->
  dget p "cnf" = Some (JObj [("jkt", JStr j)]).
Proof. exact (payload_cnf e g sid point scope second j s p s'). Qed.
Print Assumptions C44_payload_names_key.

(** The client authentication method of the add-on never authenticates anyone. *)
Theorem C44_dpop_client_auth_never A now ep q hdr s i s' :
  client_authentication A now ep q hdr s = (Ok (Some i), s') -> ai_method i <> "dpop_client_auth".
Proof.
  intros E X. destruct (method_allowed A now ep q hdr s i s' E) as (m & _ & T & N). apply N. apply tag_inj.
  cbn. congruence.
Qed.
Print Assumptions C44_dpop_client_auth_never.

(** ** What is false *)

(** "A proof is of type dpop+jwt and uses an advertised algorithm": neither is
    looked at (DPoPProof.verify is never called). *)
Theorem C44_type_and_algorithm_refuted :
  exists D req hi req' t h, objects D /\ dpop_parse D req (Some hi) = Ok req' /\ hi_dpop hi = Some t
    /\ d_factory D t = Ok (Some h) /\ dget h "typ" <> Some "dpop+jwt" /\ dget h "alg" = Some "HS256".
Proof.
  exists ex_D, (hex_code_req "x"), (ex_hi "jwt"). do 3 eexists. split; [exact ex_D_objects|].
  split; [vm_compute; reflexivity|]. split; [reflexivity|]. split; [vm_compute; reflexivity|].
  split; [vm_compute; discriminate|vm_compute; reflexivity].
Qed.
Print Assumptions C44_type_and_algorithm_refuted.

(** "The key that is confirmed is the one that signed": the payload may name
    another one. *)
Theorem C44_signing_key_refuted :
  exists D req hi req', objects D /\ dpop_parse D req (Some hi) = Ok req'
    /\ forall t h p k, hi_dpop hi = Some t -> signed_by D t h p k -> tr_dpop req' <> Some (d_thumb D k).
Proof.
  exists ex_D, (hex_code_req "x"), (ex_hi "evil"). eexists. split; [exact ex_D_objects|]. split; [vm_compute; reflexivity|].
  intros t h p k E (j & alg & Ef & J & Ek & Ea & Ev). injection E as <-. vm_compute in Ef. injection Ef as <-.
  vm_compute in J. injection J as <-. vm_compute in Ek. injection Ek as <-. vm_compute. discriminate.
Qed.
Print Assumptions C44_signing_key_refuted.

(** "A token request must carry a proof": not when the caller passes no HTTP
    information. *)
Theorem C44_proof_required_refuted :
  exists D req, objects D /\ tr_dpop req = None /\ dpop_parse D req None = Ok req.
Proof. exists ex_D, (hex_code_req "x"). split; [exact ex_D_objects|]. split; reflexivity. Qed.
Print Assumptions C44_proof_required_refuted.

(** "A DPoP-bound token needs a proof wherever it is used": userinfo answers to
    the token alone. The run is a log-in and the redemption of the code with the
    key "k1"; the answer says DPoP. *)
Definition dpop_env : env :=
  let e := hex_env true false in {|
  e_oidc := true; e_limit := e_limit e; e_crypto := hex_crypto; e_skey := e_skey e;
  e_sign := e_sign e; e_verify := e_verify e; e_peek := e_peek e; e_left_hash := e_left_hash e;
  e_uuid := e_uuid e; e_rnd := e_rnd e; e_issuer := e_issuer e;
  e_handlers := e_handlers e; e_modules := e_modules e; e_clients := e_clients e;
  e_users := e_users e; e_scopes := e_scopes e; e_scope_map := e_scope_map e;
  e_grant_types := e_grant_types e; e_helpers := e_helpers e; e_authz := e_authz e;
  e_implicit := e_implicit e; e_sub := e_sub e; e_revoke_refresh := false;
  e_dpop := true; e_dpop_info := true; e_idt_alg_def := e_idt_alg_def e;
  e_idt_algs := e_idt_algs e; e_bc_sid := e_bc_sid e; e_fc_sid := e_fc_sid e;
  e_pkce := e_pkce e; e_cc_hash := e_cc_hash e
|}.
Definition dpop_run : list (list event -> op) := [
  (fun _ => OLogin 1000 true toy_areq "diana" "password" (Some 3600%Z) (Some "https://rp.example.com/cb"));
  (fun evs => OParse 1001 "c1" (tr_set_dpop "k1" (hex_code_req (last_code evs))));
  (fun _ => OProcess 1002 0 None) ].
Theorem C44_proof_at_userinfo_refuted :
  exists e ops evs h q a v h' r, laws e /\ history e ops evs h
    /\ In (EvToken q (Ok (Good a))) evs /\ rs_type a = Some "DPoP" /\ rs_access a = Some v
    /\ step e h (OUserinfo 1003 v) = (EvUserinfo (Ok (Good r)), h').
Proof.
  exists dpop_env, (run_ops dpop_env dpop_run), (run_evs dpop_env dpop_run), (run_end dpop_env dpop_run).
  destruct (nth 2 (run_evs dpop_env dpop_run) EvNothing) as [| | |q o| | | | |] eqn:E; try (vm_compute in E; discriminate).
  exists q. vm_compute in E. injection E as <- <-. do 4 eexists.
  split; [destruct (hex_laws true false); constructor; assumption|].
  split; [apply run_history; vm_compute; reflexivity|].
  split; [vm_compute; right; right; left; reflexivity|]. split; [reflexivity|]. split; [reflexivity|].
  vm_compute. reflexivity.
Qed.
Print Assumptions C44_proof_at_userinfo_refuted.
