(** Property theorems about what the tokens that a provider signs say (C59). *)
From Verif Require Import M_Base M_Types M_Codec M_Grant M_Env M_Session M_Claims M_Handler
  M_Authz M_TokenEP M_PKCE M_AuthzEP M_Info M_Logout M_History S_Codec S_Claims S_Grant S_Store S_Toy S_History S_Hex
  S_AuthzResp S_TokenResp S_Release S_IdToken S_Jws L_Base L_Codec L_Hex L_Release L_IdToken2 P_History.

(** After a log-in. The grant that answers is of the client that asked and of
    the user who logged in; [ae] is the authentication it records. *)
Theorem C59_login_response : forall e always ops evs h now iframe ar uid acr exp_in uri o h' a,
  laws e -> Forall (proper e) ops -> exec e (h_init always) ops = (evs, h) ->
  good_id (ar_client_id ar) -> good_id uid ->
  step e h (OLogin now iframe ar uid acr exp_in uri) = (EvLogin (Ok o), h') -> ao_args o = Good a ->
  exists gid g ae, grant_of h' gid g /\ belongs e g uid (ar_client_id ar) /\ g_areq g = Some ar /\ g_aevent g = Some ae
    /\ signed_as_due e always now uid ar ae (alone ar) (ap_id a) (ap_access a).
Proof.
  exact (fun e always ops evs h now iframe ar uid acr exp_in uri o h' a W =>
    login_signed e W always ops evs h now iframe ar uid acr exp_in uri o h' a).
Qed.
Print Assumptions C59_login_response.

(** Without a log-in page. *)
Theorem C59_direct_response : forall e always ops evs h now deny iframe ar ru acr exp_in ans uri o h' a,
  laws e -> Forall (proper e) ops -> exec e (h_init always) ops = (evs, h) ->
  proper e (OAuthorize now deny iframe ar ru acr exp_in ans uri) ->
  step e h (OAuthorize now deny iframe ar ru acr exp_in ans uri) = (EvAuthorize (Ok (ROut o)), h') ->
  ao_args o = Good a ->
  exists u sid, ans = AUser u sid
    /\ exists gid g ae, grant_of h' gid g /\ belongs e g u (ar_client_id ar) /\ g_areq g = Some ar /\ g_aevent g = Some ae
         /\ signed_as_due e always now u ar ae (alone ar) (ap_id a) (ap_access a).
Proof.
  exact (fun e always ops evs h now deny iframe ar ru acr exp_in ans uri o h' a W =>
    authorize_signed e W always ops evs h now deny iframe ar ru acr exp_in ans uri o h' a).
Qed.
Print Assumptions C59_direct_response.

(** From the token endpoint, whatever the grant type. The parts of
    [token_answer] are those of C47. *)
Theorem C59_token_response : forall e always ops evs h now k issue q a h',
  laws e -> Forall (proper e) ops -> exec e (h_init always) ops = (evs, h) ->
  step e h (OProcess now k issue) = (EvToken q (Ok (Good a)), h') ->
  exists gid g u ar p ae, grant_of h' gid g /\ token_answer e now q g u ar p a /\ g_aevent g = Some ae
    /\ signed_as_due e always now u ar ae "" (rs_id a) (rs_access a).
Proof.
  exact (fun e always ops evs h now k issue q a h' W => token_signed e W always ops evs h now k issue q a h').
Qed.
Print Assumptions C59_token_response.

(** ** Examples *)

(** A signature scheme under which the laws hold and tokens can be opened. *)
Definition hex_sign (alg : string) (n : nat) (p : dict jval) : res string :=
  Ok (append "J" (hex (lv_pack [alg; show_N (N.of_nat n); ser (JObj p)]))).
Definition hex_open (v : string) : option (dict jval) :=
  match v with
  | String "J" r => match unhex r with
                    | Some t => option_map snd (toy_open t)
                    | None => None
                    end
  | _ => None
  end.
Definition hex_verify (algs : list string) (v : string) : res (dict jval) :=
  match v with
  | String "J" r => match unhex r with Some t => toy_verify algs t | None => Raise JWSException end
  | _ => Raise JWSException
  end.
Definition signing_env : env := let e := hex_env true false in {|
  e_oidc := e_oidc e; e_limit := e_limit e; e_crypto := e_crypto e; e_skey := e_skey e;
  e_sign := hex_sign; e_verify := hex_verify; e_peek := hex_open; e_left_hash := e_left_hash e;
  e_uuid := e_uuid e; e_rnd := e_rnd e; e_issuer := e_issuer e;
  e_handlers := jwt_handlers; e_modules := e_modules e; e_clients := e_clients e;
  e_users := e_users e; e_scopes := e_scopes e; e_scope_map := e_scope_map e;
  e_grant_types := e_grant_types e; e_helpers := e_helpers e; e_authz := e_authz e;
  e_implicit := e_implicit e; e_sub := e_sub e; e_revoke_refresh := e_revoke_refresh e;
  e_dpop := e_dpop e; e_dpop_info := e_dpop_info e; e_idt_alg_def := e_idt_alg_def e;
  e_idt_algs := e_idt_algs e; e_bc_sid := e_bc_sid e; e_fc_sid := e_fc_sid e;
  e_pkce := e_pkce e; e_cc_hash := e_cc_hash e
|}.
Lemma signing_made n v : made signing_env n v ->
  (exists a b, v = hex (lv_pack [a; show_N (N.of_nat n); b]))
  \/ (exists a b, v = append "J" (hex (lv_pack [a; show_N (N.of_nat n); b]))).
Proof.
  intros [(pw & text & ->)|(alg & p & E)].
  - left. exists pw, text. reflexivity.
  - right. exists alg, (ser (JObj p)). cbn [signing_env e_sign] in E. unfold hex_sign in E. injection E as <-. reflexivity.
Qed.
Lemma signing_laws : laws signing_env.
Proof.
  destruct (hex_laws true false) as [L1 L2 L3 L4 L5 _ _].
  assert (forall s, ~ occurs_in " " (hex s)) as Nb.
  { intros s K. eapply (hex_occurs " "); [reflexivity| |exact K]. eapply unhex_all; [apply le_n|apply unhex_hex]. }
  constructor; [exact L1|exact L2|exact L3|exact L4|exact L5| |].
  - intros n m v A B.
    apply signing_made in A as [(a & b & A)|(a & b & A)]; apply signing_made in B as [(a' & b' & B)|(a' & b' & B)]; subst v.
    + apply hex_inj, lv_pack_inj in B. injection B as _ B _. apply show_N_inj in B. lia.
    + exfalso. eapply hex_not_J. exact B.
    + exfalso. eapply hex_not_J. symmetry. exact B.
    + apply sapp_inj_l in B. apply hex_inj, lv_pack_inj in B. injection B as _ B _. apply show_N_inj in B. lia.
  - intros n v A. apply signing_made in A as [(a & b & ->)|(a & b & ->)].
    + split; [|apply Nb].
      intros E. apply (f_equal unhex) in E. rewrite unhex_hex in E. cbn [unhex lv_pack] in E.
      injection E as E. pose proof (show_N_ne (N.of_nat (String.length a))).
      destruct (show_N (N.of_nat (String.length a))); [congruence|discriminate].
    + split; [discriminate|]. intros (x & y & E). destruct x as [|c x]; cbn in E; [discriminate|].
      injection E as _ E. apply (Nb (lv_pack [a; show_N (N.of_nat n); b])). exists x, y. exact E.
Qed.

(** A request for a code and an ID token, with the nickname wanted in the ID
    token, and with a name that is not the user's. *)
Definition signed_areq : areq :=
  mk_areq "c1" (Some "https://rp.example.com/cb") ["code"; "id_token"] (Some ["openid"; "email"])
    (Some "state") (Some "nonce") None None
    (Some [("id_token", [("nickname", Some [("value", JStr "Dina")]); ("name", Some [("value", JStr "Ann")])])])
    "" None None None [].
Definition alone_areq : areq :=
  mk_areq "c1" (Some "https://rp.example.com/cb") ["id_token"] (Some ["openid"])
    (Some "state") (Some "nonce") None None None "" None None None [].
Lemma signed_proper : proper_dicts signing_env signed_areq.
Proof.
  split.
  - intros p m I. cbn in I. repeat (destruct I as [I|I]; [injection I as <- <-; cbn; repeat constructor; intros []|]). destruct I.
  - intros cl p d C I. injection C as <-. cbn in I.
    repeat (destruct I as [I|I]; [injection I as <- <-; repeat constructor; cbn; intuition discriminate|]). destruct I.
Qed.
Definition signed_login (ar : areq) : op :=
  OLogin 1000 true ar "diana" "password" (Some 3600%Z) (Some "https://rp.example.com/cb").
Definition id_of (ev : event) : option (dict jval) :=
  match ev with
  | EvLogin (Ok o) => match ao_args o with
                      | Good a => match ap_id a with Some v => hex_open v | None => None end
                      | Err _ => None
                      end
  | EvToken _ (Ok (Good a)) => match rs_id a with Some v => hex_open v | None => None end
  | _ => None
  end.
Definition own_claims (o : option (dict jval)) : option (dict jval) :=
  option_map (filter (fun kv => negb (smem (fst kv) id_members))) o.
Definition member (o : option (dict jval)) (k : string) : option jval :=
  match o with Some p => dget p k | None => None end.

(** The clients' settings: claims of c1 that are always released. *)
Definition lists : dict (dict (list string)) := [("c1", [("id_token", ["email_verified"]); ("userinfo", ["email"])])].

(** Other claims than the protocol's own: the e-mail status, which the client's
    settings name for ID tokens, and the nickname, which was asked for. The name
    is not Ann, so it is not in. *)
Example C59_example : exists o a h' v,
  step signing_env (h_init lists) (signed_login signed_areq) = (EvLogin (Ok o), h') /\ ao_args o = Good a
  /\ ap_id a = Some v /\ proper_dicts signing_env signed_areq
  /\ own_claims (hex_open v) = Some [("email_verified", JBool false); ("nickname", JStr "Dina")]
  /\ member (hex_open v) "exp" = Some (JInt 1300) /\ member (hex_open v) "acr" = Some (JStr "password")
  /\ (exists gid g ae, grant_of h' gid g /\ g_aevent g = Some ae
        /\ id_token_says signing_env lists 1000 300 "diana" signed_areq ae "" v)
  /\ token_claim signing_env lists signed_areq "id_token" "" "diana" "nickname" (JStr "Dina").
Proof.
  assert (exists o a h' v, step signing_env (h_init lists) (signed_login signed_areq) = (EvLogin (Ok o), h')
    /\ ao_args o = Good a /\ ap_id a = Some v
    /\ own_claims (hex_open v) = Some [("email_verified", JBool false); ("nickname", JStr "Dina")]
    /\ member (hex_open v) "exp" = Some (JInt 1300) /\ member (hex_open v) "acr" = Some (JStr "password"))
    as (o & a & h' & v & E & A & Ai & X1 & X2 & X3).
  { eexists _, _, _, _. do 5 (split; [vm_compute; reflexivity|]). vm_compute. reflexivity. }
  exists o, a, h', v. do 3 (split; [assumption|]). split; [exact signed_proper|]. do 3 (split; [assumption|]).
  destruct (C59_login_response signing_env lists [] [] (h_init lists) _ _ signed_areq "diana" _ _ _ o h' a signing_laws
    (Forall_nil _) eq_refl (plain_good "c1" eq_refl) (plain_good "diana" eq_refl) E A)
    as (gid & g & ae & G & B & _ & Ae & S1 & _).
  pose proof (S1 v 300%Z Ai eq_refl) as T.
  split; [exists gid, g, ae; auto|].
  split; [|split].
  - exists ["openid"; "email"]. split; [intros s I; right; exists ["openid"; "email"]; split; [reflexivity|exact I]|].
    left. eapply af_request; [reflexivity|reflexivity|left; reflexivity|left; reflexivity].
  - exists toy_users. split; reflexivity.
  - intros sp (cl & d & C & D & K). injection C as <-. injection D as <-. injection K as <-. reflexivity.
Qed.

(** The code flow: the ID token comes from the token endpoint. *)
Definition flow_areq : areq :=
  mk_areq "c1" (Some "https://rp.example.com/cb") ["code"] (Some ["openid"; "email"])
    (Some "state") (Some "nonce") None None (ar_claims signed_areq) "" None None None [].
Definition flow_run : list (list event -> op) := [
  (fun _ => signed_login flow_areq);
  (fun evs => OParse 1001 "c1" (hex_code_req (last_code evs))) ].
Definition flow_end : hst := run_end signing_env flow_run.
Example C59_token_example : exists q a h' v w gid g u ar p ae,
  step signing_env flow_end (OProcess 1002 0 None) = (EvToken q (Ok (Good a)), h') /\ rs_id a = Some v
  /\ rs_access a = Some w /\ own_claims (hex_open v) = Some [("nickname", JStr "Dina")]
  /\ member (hex_open v) "exp" = Some (JInt 1302) /\ member (hex_open v) "auth_time" = Some (JInt 1000)
  /\ grant_of h' gid g /\ token_answer signing_env 1002 q g u ar p a
  /\ id_token_says signing_env [] 1002 300 u ar ae "" v
  /\ access_token_says signing_env [] "ES256" u ar w.
Proof.
  assert (exists q a h' v w, step signing_env flow_end (OProcess 1002 0 None) = (EvToken q (Ok (Good a)), h')
    /\ rs_id a = Some v /\ rs_access a = Some w /\ own_claims (hex_open v) = Some [("nickname", JStr "Dina")]
    /\ member (hex_open v) "exp" = Some (JInt 1302) /\ member (hex_open v) "auth_time" = Some (JInt 1000))
    as (q & a & h' & v & w & E & X1 & X2 & X3 & X4 & X5).
  { eexists _, _, _, _, _. do 5 (split; [vm_compute; reflexivity|]). vm_compute. reflexivity. }
  assert (forallb plain_call (run_ops signing_env flow_run) = true) as F by (vm_compute; reflexivity).
  apply run_start in F as (Po & Ex).
  destruct (C59_token_response signing_env [] _ _ flow_end 1002 0 None q a h' signing_laws Po Ex E)
    as (gid & g & u & ar & p & ae & G & T & Ae & S1 & S2).
  exists q, a, h', v, w, gid, g, u, ar, p, ae. do 6 (split; [assumption|]). split; [exact G|]. split; [exact T|].
  split; [exact (S1 v 300%Z X1 eq_refl)|].
  exact (S2 w ACCESS "ES256" "https://op.example.com/" 600%Z X2 eq_refl).
Qed.

(** Finding: what an ID token says depends on earlier requests. Under one
    configuration and for one request, the ID token has no e-mail address on a
    new provider and has it after another user asked for an ID token alone. That
    request appended the client's list for userinfo to its list for ID tokens. *)
Theorem C59_no_trace_of_others_refuted : exists e always ops evs h o p1 p2,
  laws e /\ Forall (proper e) ops /\ exec e (h_init always) ops = (evs, h) /\ proper e o
  /\ own_claims (id_of (fst (step e (h_init always) o))) = Some p1 /\ dget p1 "email" = None
  /\ own_claims (id_of (fst (step e h o))) = Some p2 /\ dget p2 "email" = Some (JStr "diana@example.org").
Proof.
  exists signing_env, lists.
  exists [OLogin 900 true alone_areq "bob" "password" (Some 3600%Z) (Some "https://rp.example.com/cb")].
  eexists _, _. exists (signed_login signed_areq). eexists _, _. split; [exact signing_laws|].
  split; [constructor; [apply plain_proper; reflexivity|constructor]|].
  split; [unfold exec; vm_compute; reflexivity|]. split; [apply plain_proper; reflexivity|].
  do 3 (split; [vm_compute; reflexivity|]). vm_compute. reflexivity.
Qed.
Print Assumptions C59_no_trace_of_others_refuted.

(** Finding: the session id is in the ID tokens of every client, also of one
    without a logout URI, for which the code decides not to include it. *)
Definition plain_areq : areq :=
  mk_areq "c2" (Some "https://rp.example.com/cb") ["code"; "id_token"] (Some ["openid"])
    (Some "state") (Some "nonce") None None None "" None None None [].
Theorem C59_sid_for_logout_only_refuted : exists e always o ci x,
  laws e /\ proper e (signed_login o) /\ dget (e_clients e) (ar_client_id o) = Some ci
  /\ c_bc_logout ci = false /\ c_fc_logout ci = false
  /\ member (id_of (fst (step e (h_init always) (signed_login o)))) "sid" = Some x.
Proof.
  exists signing_env, [], plain_areq, toy_client2. eexists. split; [exact signing_laws|].
  split; [apply plain_proper; reflexivity|]. do 3 (split; [reflexivity|]). vm_compute. reflexivity.
Qed.
Print Assumptions C59_sid_for_logout_only_refuted.
