(** Property theorems: a valid token request is answered (C66). *)
From Verif Require Import M_Base M_Types M_Codec M_Grant M_Env M_Session M_Claims M_Handler
  M_Authz M_TokenEP M_PKCE M_AuthzEP M_Info M_Logout M_History S_Codec S_Grant S_Toy S_Claims S_History
  S_PKCE S_Hex S_Handler S_Answer L_Base L_Codec L_Hex L_Answer P_History.

(** ** C66: a code can be redeemed *)

(** A client that presents a live authorization code of a live grant of its
    own, with the redirect URI of the authorization request and the PKCE
    verifier, if one is due, gets its answer: the request passes the first
    stage, and the second stage answers it with all the tokens that are due,
    whatever happened before. *)
Theorem C66_code_request_succeeds : forall e ops evs h now1 now2 gid g u c gts ar t v q issue,
  laws e -> history e ops evs h ->
  grant_of h gid g -> belongs e g u c -> g_areq g = Some ar ->
  In t (g_tokens g) -> t_value t = v -> t_class t = "authorization_code" ->
  token_live t now1 -> token_live t now2 -> grant_live g now2 ->
  leads_to e now1 h v gid -> leads_to e now2 h v gid ->
  lets_mint t "access_token" -> may_use e c "authorization_code" ->
  sent_request q v ar -> keeps_challenge e q ar ->
  in_order e now2 u c gts -> (forall p, dec_sid e u <> Ok p) ->
  legible (g_claims g) -> (forall m, ar_claims ar = Some m -> legible m) ->
  (e_oidc e = true -> exists sc, ar_scope ar = Some sc) ->
  List.length (g_tokens g) < e_limit e ->
  exists q' a h',
    exec e h [OParse now1 c q; OProcess now2 (List.length (h_parsed h)) issue]
      = ([EvParse (Ok (Good q')); EvToken q' (Ok (Good a))], h')
    /\ full_answer e g ar t gts issue a.
Proof. exact (fun e ops evs h now1 now2 gid g u c gts ar t v q issue W => code_request_succeeds e W ops evs h now1 now2 gid g u c gts ar t v q issue). Qed.
Print Assumptions C66_code_request_succeeds.

(** The second stage alone, some time after the first: if nothing happened in
    between that ends the code or the grant, the request is still answered. *)
Theorem C66_parsed_request_answered : forall e ops evs h now gid g u c gts ar t v k q issue,
  laws e -> history e ops evs h ->
  grant_of h gid g -> belongs e g u c -> g_areq g = Some ar ->
  In t (g_tokens g) -> t_value t = v -> token_live t now -> grant_live g now ->
  leads_to e now h v gid -> lets_mint t "access_token" ->
  nth_error (h_parsed h) k = Some q -> right_request q v ar ->
  in_order e now u c gts -> (forall p, dec_sid e u <> Ok p) ->
  legible (g_claims g) -> (forall m, ar_claims ar = Some m -> legible m) ->
  (e_oidc e = true -> exists sc, ar_scope ar = Some sc) ->
  List.length (g_tokens g) < e_limit e ->
  exists a h', step e h (OProcess now k issue) = (EvToken q (Ok (Good a)), h')
    /\ full_answer e g ar t gts issue a.
Proof. exact (fun e ops evs h now gid g u c gts ar t v k q issue W => code_request_answered e W ops evs h now gid g u c gts ar t v k q issue). Qed.
Print Assumptions C66_parsed_request_answered.

(** The same for a refresh token: a client that presents a live refresh token of
    a live grant of its own and asks for no more scopes than the chain above the
    token carries gets its answer. *)
Theorem C66_refresh_request_succeeds : forall e ops evs h now1 now2 gid g u c gts ar t v q issue,
  laws e -> history e ops evs h ->
  grant_of h gid g -> belongs e g u c -> g_areq g = Some ar ->
  In t (g_tokens g) -> t_value t = v -> t_class t = "refresh_token" ->
  token_live t now1 -> token_live t now2 -> grant_live g now2 ->
  leads_to e now1 h v gid -> leads_to e now2 h v gid ->
  lets_mint t "access_token" -> may_use e c "refresh_token" ->
  presents q v "refresh_token" -> tr_client q = Some c -> asks_within g t q ->
  in_order e now2 u c gts -> (forall p, dec_sid e u <> Ok p) ->
  legible (g_claims g) -> (forall m, ar_claims ar = Some m -> legible m) ->
  List.length (g_tokens g) < e_limit e ->
  exists a h',
    exec e h [OParse now1 c q; OProcess now2 (List.length (h_parsed h)) issue]
      = ([EvParse (Ok (Good q)); EvToken q (Ok (Good a))], h')
    /\ full_refresh e g t q issue a.
Proof. exact (fun e ops evs h now1 now2 gid g u c gts ar t v q issue W => refresh_request_succeeds e W ops evs h now1 now2 gid g u c gts ar t v q issue). Qed.
Print Assumptions C66_refresh_request_succeeds.

(** One of the conditions, that the provider recognises its own access tokens,
    holds for the usual set-up with opaque tokens. *)
Theorem C66_opaque_tokens_recognised : forall e now pre post pw lt,
  laws e -> fernet_authentic (e_crypto e) ->
  e_handlers e = pre ++ ("access_token", HDefault pw "access_token" lt) :: post ->
  (forall k h, In (k, h) pre ->
     k <> "access_token" /\ exists pw' cls' lt', h = HDefault pw' cls' lt' /\ pw' <> pw) ->
  recognises e now.
Proof. exact opaque_recognised. Qed.
Print Assumptions C66_opaque_tokens_recognised.

(** A log-in with a code challenge, at an OpenID Connect provider. *)
Definition pk_areq : areq :=
  mk_areq "c1" (Some "https://rp.example.com/cb") ["code"] (Some ["openid"; "email"; "offline_access"])
    (Some "state") (Some "nonce") (Some "S256:secret") (Some "S256") None "" None None None [].
Definition pk_run : list (list event -> op) := [
  fun _ => OLogin 1000 true pk_areq "diana" "password" (Some 3600%Z) (Some "https://rp.example.com/cb") ].
Definition pk_end : hst := run_end demo_env pk_run.
Definition pk_token : token := nth 0 (g_tokens (the_grant pk_end)) ex_no_token.
Definition pk_request : treq :=
  mk_treq CODE (Some (t_value pk_token)) None None (Some "https://rp.example.com/cb") None None (Some "secret").

Lemma hex_authentic : fernet_authentic hex_crypto.
Proof.
  intros key key' nonce text N. cbn [fdec fenc hex_crypto].
  change [key; show_N (N.of_nat nonce); text] with ([key; show_N (N.of_nat nonce)] ++ [text]).
  rewrite lv_loop_pack_exact. cbn [app]. destruct (String.eqb_spec key key'); [congruence|reflexivity].
Qed.
Lemma demo_in_order now : in_order demo_env now "diana" "c1" [CODE; REFRESH].
Proof.
  constructor.
  - intros tc [<-|[<-|[]]]; eexists; reflexivity.
  - intros alg n p. eexists. reflexivity.
  - apply (opaque_recognised demo_env now [(CODE, HDefault "pw_c" CODE 300)]
      [(REFRESH, HDefault "pw_r" REFRESH 86400); (IDTOKEN, HId 300)] "pw_a" 600).
    + exact demo_laws.
    + exact hex_authentic.
    + reflexivity.
    + intros k h [X|[]]. injection X as <- <-. split; [discriminate|]. exists "pw_c", CODE, 300%Z. split; [reflexivity|discriminate].
  - eexists. split; [reflexivity|]. left. reflexivity.
  - left. reflexivity.
  - exists toy_users. split; [reflexivity|]. intros w I. repeat (destruct I as [<-|I]; [reflexivity|]). destruct I.
  - intros point m k sp I J. repeat (destruct I as [I|I];
      [injection I as <- <-; cbn in J; destruct J as [J|J];
       repeat (destruct J as [J|J]; [injection J as <- <-; intros d v X; discriminate|]); destruct J|]). destruct I.
  - intros _. eexists _, _. split; reflexivity.
Qed.

Example C66_example :
  history demo_env (run_ops demo_env pk_run) (run_evs demo_env pk_run) pk_end
  /\ grant_of pk_end "u0" (the_grant pk_end) /\ belongs demo_env (the_grant pk_end) "diana" "c1"
  /\ g_areq (the_grant pk_end) = Some pk_areq
  /\ In pk_token (g_tokens (the_grant pk_end)) /\ t_class pk_token = "authorization_code"
  /\ token_live pk_token 1001 /\ token_live pk_token 1002 /\ grant_live (the_grant pk_end) 1002
  /\ leads_to demo_env 1001 pk_end (t_value pk_token) "u0" /\ leads_to demo_env 1002 pk_end (t_value pk_token) "u0"
  /\ lets_mint pk_token "access_token" /\ may_use demo_env "c1" "authorization_code"
  /\ sent_request pk_request (t_value pk_token) pk_areq /\ keeps_challenge demo_env pk_request pk_areq
  /\ in_order demo_env 1002 "diana" "c1" [CODE; REFRESH] /\ (forall p, dec_sid demo_env "diana" <> Ok p)
  /\ legible (g_claims (the_grant pk_end)) /\ (exists sc, ar_scope pk_areq = Some sc)
  /\ List.length (g_tokens (the_grant pk_end)) < e_limit demo_env
  /\ wants_refresh demo_env (the_grant pk_end) None /\ lets_mint pk_token "refresh_token".
Proof.
  split; [apply run_history; vm_compute; reflexivity|].
  split; [exists 4; split; vm_compute; reflexivity|].
  split; [eexists _, _; vm_compute; repeat split; reflexivity|].
  split; [vm_compute; reflexivity|]. split; [vm_compute; auto|]. split; [vm_compute; reflexivity|].
  split; [apply L_Grant.tok_active_live; vm_compute; reflexivity|].
  split; [apply L_Grant.tok_active_live; vm_compute; reflexivity|].
  split; [apply L_Grant.grant_active_live; vm_compute; reflexivity|].
  split; [eexists _, _; split; vm_compute; reflexivity|]. split; [eexists _, _; split; vm_compute; reflexivity|].
  split; [eexists; split; [vm_compute; reflexivity|now left]|].
  split; [eexists; split; [reflexivity|]; split; [intros l0 X; injection X as <-; now left|now left]|].
  split. { split; [left; vm_compute; auto|]. split; [left; reflexivity|]. intros uri X. injection X as <-. reflexivity. }
  split. { intros _ ch X. injection X as <-. exists "S256", "secret". split; [reflexivity|]. split; [reflexivity|].
    right. split; [now left|reflexivity]. }
  split; [apply demo_in_order|].
  split; [intros p; vm_compute; discriminate|].
  split. { assert (exists m, g_claims (the_grant pk_end) = m /\ forallb (fun x => forallb (fun y => match snd y with None => true | Some _ => false end) (snd x)) m = true) as (m & Em & Fm)
      by (eexists; split; [reflexivity|vm_compute; reflexivity]). rewrite Em. clear Em.
    intros point d k sp I J. rewrite forallb_forall in Fm. apply Fm in I. cbn [snd] in I. rewrite forallb_forall in I.
    apply I in J. cbn [snd] in J. destruct sp; [discriminate J|]. intros d' v X. discriminate X. }
  split; [eexists; reflexivity|]. split; [vm_compute; repeat constructor|].
  split; [right; split; [reflexivity|]; split; [reflexivity|]; vm_compute; auto|].
  eexists; split; [vm_compute; reflexivity|]. right. left. reflexivity.
Qed.

(** The same log-in after the code was redeemed; the refresh token is presented
    with a narrower scope. *)
Definition rf_run : list (list event -> op) :=
  pk_run ++ [fun _ => OParse 1001 "c1" pk_request; fun _ => OProcess 1002 0 None].
Definition rf_end : hst := run_end demo_env rf_run.
Definition rf_token : token := nth 2 (g_tokens (the_grant rf_end)) ex_no_token.
Definition rf_request : treq :=
  mk_treq REFRESH None (Some (t_value rf_token)) (Some "c1") None (Some ["openid"; "email"]) None None.

Example C66_refresh_example :
  history demo_env (run_ops demo_env rf_run) (run_evs demo_env rf_run) rf_end
  /\ grant_of rf_end "u0" (the_grant rf_end) /\ belongs demo_env (the_grant rf_end) "diana" "c1"
  /\ g_areq (the_grant rf_end) = Some pk_areq
  /\ In rf_token (g_tokens (the_grant rf_end)) /\ t_class rf_token = "refresh_token"
  /\ token_live rf_token 1601 /\ token_live rf_token 1602 /\ grant_live (the_grant rf_end) 1602
  /\ leads_to demo_env 1601 rf_end (t_value rf_token) "u0" /\ leads_to demo_env 1602 rf_end (t_value rf_token) "u0"
  /\ lets_mint rf_token "access_token" /\ may_use demo_env "c1" "refresh_token"
  /\ presents rf_request (t_value rf_token) "refresh_token" /\ tr_client rf_request = Some "c1"
  /\ asks_within (the_grant rf_end) rf_token rf_request
  /\ in_order demo_env 1602 "diana" "c1" [CODE; REFRESH] /\ (forall p, dec_sid demo_env "diana" <> Ok p)
  /\ legible (g_claims (the_grant rf_end))
  /\ List.length (g_tokens (the_grant rf_end)) < e_limit demo_env.
Proof.
  split; [apply run_history; vm_compute; reflexivity|].
  split; [exists 4; split; vm_compute; reflexivity|].
  split; [eexists _, _; vm_compute; repeat split; reflexivity|].
  split; [vm_compute; reflexivity|]. split; [vm_compute; auto|]. split; [vm_compute; reflexivity|].
  split; [apply L_Grant.tok_active_live; vm_compute; reflexivity|].
  split; [apply L_Grant.tok_active_live; vm_compute; reflexivity|].
  split; [apply L_Grant.grant_active_live; vm_compute; reflexivity|].
  split; [eexists _, _; split; vm_compute; reflexivity|]. split; [eexists _, _; split; vm_compute; reflexivity|].
  split; [eexists; split; [vm_compute; reflexivity|now left]|].
  split; [eexists; split; [reflexivity|]; split; [intros l0 X; injection X as <-; right; now left|right; now left]|].
  split; [right; vm_compute; auto|]. split; [reflexivity|].
  split. { assert (forallb (fun t => if list_eq_dec string_dec (t_scope t) ["openid"; "email"; "offline_access"] then true else false)
        (g_tokens (the_grant rf_end)) = true) as A by (vm_compute; reflexivity). rewrite forallb_forall in A.
    assert (exists w, t_based rf_token = Some w) as (w & Ew) by (eexists; vm_compute; reflexivity).
    intros sc above X Y. rewrite Ew in Y. assert (sc = ["openid"; "email"]) as -> by (cbn in X; congruence).
    clear X Ew. revert A Y. generalize (g_tokens (the_grant rf_end)) (g_scope (the_grant rf_end)). intros ts gs A Y.
    inversion Y as [|t0 v0 I V N|t0 v0 sc0 I V N]; subst; specialize (A _ I); destruct (list_eq_dec _ _ _) as [E|]; try discriminate A; rewrite E in *.
    - intros z [<-|[<-|[]]]; cbn; auto.
    - discriminate N. }
  split; [apply demo_in_order|].
  split; [intros p; vm_compute; discriminate|].
  split. { assert (exists m, g_claims (the_grant rf_end) = m /\ forallb (fun x => forallb (fun y => match snd y with None => true | Some _ => false end) (snd x)) m = true) as (m & Em & Fm)
      by (eexists; split; [reflexivity|vm_compute; reflexivity]). rewrite Em. clear Em.
    intros point d k sp I J. rewrite forallb_forall in Fm. apply Fm in I. cbn [snd] in I. rewrite forallb_forall in I.
    apply I in J. cbn [snd] in J. destruct sp; [discriminate J|]. intros d' v X. discriminate X. }
  vm_compute; repeat constructor.
Qed.
