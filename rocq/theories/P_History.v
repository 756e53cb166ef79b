(** Property theorems about all histories of the provider (C01, C02, C03, C06,
    C07, C08, C09, C15, C16, C21, C22, C46). *)
From Verif Require Import M_Base M_Types M_Codec M_Grant M_Env M_Session M_Claims M_Handler
  M_Authz M_TokenEP M_PKCE M_AuthzEP M_Info M_Logout M_History S_Codec S_Grant S_Toy S_History S_Hex
  L_Base L_Hex L_Hist10 L_Hist11 P_Grant.

(** ** The histories used in the examples *)

(** A log-in; two token requests for the same code, both parsed before the first
    is processed; a refresh, processed twice. *)
Definition demo_login : list event -> op := fun _ =>
  OLogin 1000 true toy_areq "diana" "password" (Some 3600%Z) (Some "https://rp.example.com/cb").
Definition demo : list (list event -> op) := [
  demo_login;
  fun evs => OParse 1001 "c1" (hex_code_req (last_code evs));
  fun evs => OParse 1001 "c1" (hex_code_req (last_code evs));
  fun _ => OProcess 1002 0 None;
  fun _ => OProcess 1003 1 None;
  fun evs => OParse 1004 "c1" (hex_refresh_req (answered_refresh evs) None);
  fun _ => OProcess 1005 2 None;
  fun _ => OProcess 1006 2 None ].
Definition demo_env : env := hex_env true true.
Definition demo_evs : list event := run_evs demo_env demo.
Definition demo_end : hst := run_end demo_env demo.
Definition demo_code : string := last_code demo_evs.
(** The only grant of the run. *)
Definition the_grant (h : hst) : grant :=
  fold_left (fun x o => match o with OGrant g => g | _ => x end) (s_heap (h_st h)) (g_set_tokens [] (
    mk_grant [] [] [] None None [] [] None 0 0 0 false 0 "" "" [])).
Definition first_refresh : string := answered_refresh (firstn 4 demo_evs).

Definition ex_no_token : token := mk_token "" "" None empty_rule 0 0 0 false 0 "" [] [] None "".

Example demo_laws : laws demo_env.
Proof. exact (hex_laws true true). Qed.
Example demo_history : history demo_env (run_ops demo_env demo) demo_evs demo_end.
Proof. apply run_history. vm_compute. reflexivity. Qed.
Lemma demo_grant : grant_of demo_end "u0" (the_grant demo_end).
Proof. exists 4. split; vm_compute; reflexivity. Qed.

(** ** C02: an authorization code is redeemed at most once *)
Theorem C02_code_redeemed_at_most_once : forall e ops evs h i j q q' a a' code,
  laws e -> history e ops evs h ->
  answer_at evs i q a -> presents q code "authorization_code" ->
  answer_at evs j q' a' -> presents q' code "authorization_code" ->
  i = j.
Proof.
  exact (fun e ops evs h i j q q' a a' code W Hi A P A' P' =>
    code_at_most_once e W ops evs h i j q q' a a' code Hi A A' P P').
Qed.
Print Assumptions C02_code_redeemed_at_most_once.

(** The second of two requests that were parsed while the code was unused is not
    answered. *)
Example C02_example :
  (exists q a, answer_at demo_evs 3 q a /\ presents q demo_code "authorization_code")
  /\ (exists q r, nth_error demo_evs 4 = Some (EvToken q r)
        /\ presents q demo_code "authorization_code" /\ forall a, r <> Ok (Good a)).
Proof.
  split.
  - eexists _, _. split; [vm_compute; reflexivity|]. left. vm_compute. auto.
  - eexists _, _. split; [vm_compute; reflexivity|]. split; [left; vm_compute; auto|discriminate].
Qed.

(** ** C21: a rotated refresh token is dead *)
Theorem C21_rotated_refresh_token_is_dead : forall e ops evs h i j q q' a a' c token,
  laws e -> history e ops evs h ->
  answer_at evs i q a -> presents q token "refresh_token" ->
  answer_at evs j q' a' -> presents q' token "refresh_token" ->
  tr_client q = Some c -> rotates e c ->
  i = j.
Proof.
  exact (fun e ops evs h i j q q' a a' c token W Hi A P A' P' C R =>
    rotated_at_most_once e W ops evs h i j q q' a a' token c Hi A A' P P' C R).
Qed.
Print Assumptions C21_rotated_refresh_token_is_dead.

Example C21_example :
  rotates demo_env "c1"
  /\ (exists q a, answer_at demo_evs 6 q a /\ presents q first_refresh "refresh_token"
        /\ tr_client q = Some "c1" /\ rs_refresh a <> None)
  /\ (exists q r, nth_error demo_evs 7 = Some (EvToken q r)
        /\ presents q first_refresh "refresh_token" /\ forall a, r <> Ok (Good a)).
Proof.
  split; [right; vm_compute; auto|]. split.
  - eexists _, _. split; [vm_compute; reflexivity|]. split; [right; vm_compute; auto|].
    split; [reflexivity|discriminate].
  - eexists _, _. split; [vm_compute; reflexivity|]. split; [right; vm_compute; auto|discriminate].
Qed.

(** ** C08: tokens are only handed to the client they belong to *)
Theorem C08_tokens_go_to_their_client : forall e ops evs h i q a,
  laws e -> history e ops evs h -> answer_at evs i q a ->
  exists gid g u c p pc,
    grant_of h gid g /\ belongs e g u c /\ tr_client q = Some c
    /\ presents q p pc /\ in_grant g p pc
    /\ (forall v tc, hands_out a v tc -> drawn_from g p v tc)
    /\ (exists v, hands_out a v "access_token").
Proof. exact (fun e ops evs h i q a W => answer_owner e W ops evs h i q a). Qed.
Print Assumptions C08_tokens_go_to_their_client.

(** A token text is in one grant only, once, so the owner is determined by it. *)
Theorem C08_one_owner : forall e ops evs h gid gid' g g' t t',
  laws e -> history e ops evs h ->
  grant_of h gid g -> In t (g_tokens g) -> grant_of h gid' g' -> In t' (g_tokens g') ->
  t_value t = t_value t' ->
  gid = gid' /\ g = g' /\ t = t'.
Proof.
  exact (fun e ops evs h gid gid' g g' t t' W Hi G I G' I' =>
    one_owner e W ops evs h gid gid' g g' t t' Hi G G' I I').
Qed.
Print Assumptions C08_one_owner.

Example C08_example :
  grant_of demo_end "u0" (the_grant demo_end) /\ belongs demo_env (the_grant demo_end) "diana" "c1"
  /\ in_grant (the_grant demo_end) demo_code "authorization_code"
  /\ drawn_from (the_grant demo_end) demo_code first_refresh "refresh_token"
  /\ drawn_from (the_grant demo_end) first_refresh (answered_refresh demo_evs) "refresh_token".
Proof.
  split; [exact demo_grant|]. split; [eexists _, _; vm_compute; repeat split; reflexivity|].
  split; [|split].
  - apply in_grant_check. vm_compute. reflexivity.
  - apply drawn_from_check. vm_compute. reflexivity.
  - apply drawn_from_check. vm_compute. reflexivity.
Qed.

(** A request by another client for the same code is not answered. *)
Definition steal : list (list event -> op) := [
  demo_login;
  fun evs => OParse 1001 "c2" (mk_treq CODE (Some (last_code evs)) None (Some "c2")
                                 (Some "https://rp.example.com/cb") None None None);
  fun _ => OProcess 1002 0 None ].
Example C08_other_client :
  nth_error (run_evs demo_env steal) 2
  = Some (EvToken (mk_treq CODE (Some (last_code (run_evs demo_env steal))) None (Some "c2")
                     (Some "https://rp.example.com/cb") None None None)
            (Ok (Err "invalid_grant"))).
Proof. vm_compute. reflexivity. Qed.

(** ** C09: code redemption is bound to the redirect URI *)
Theorem C09_redirect_uri_bound : forall e ops evs h i q a code,
  laws e -> history e ops evs h -> answer_at evs i q a -> presents q code "authorization_code" ->
  exists gid g ar,
    grant_of h gid g /\ in_grant g code "authorization_code" /\ g_areq g = Some ar
    /\ (forall uri, ar_redirect_uri ar = Some uri -> tr_redirect q = Some uri).
Proof. exact (fun e ops evs h i q a code W => answer_redirect e W ops evs h i q a code). Qed.
Print Assumptions C09_redirect_uri_bound.

(** On mismatch there is no answer, no token is added to any grant and none
    changes: the code stays unused. *)
Theorem C09_mismatch_changes_no_token : forall e ops evs h k q code gid g ar uri now issue ev h',
  laws e -> history e ops evs h ->
  nth_error (h_parsed h) k = Some q -> presents q code "authorization_code" ->
  grant_of h gid g -> in_grant g code "authorization_code" -> g_areq g = Some ar ->
  ar_redirect_uri ar = Some uri -> tr_redirect q <> Some uri ->
  step e h (OProcess now k issue) = (ev, h') ->
  (forall a, ev <> EvToken q (Ok (Good a))) /\ same_tokens h h'.
Proof.
  exact (fun e ops evs h k q code gid g ar uri now issue ev h' W =>
    redirect_mismatch e W ops evs h k q code gid g ar uri now issue ev h').
Qed.
Print Assumptions C09_mismatch_changes_no_token.

Definition wrong_uri : list (list event -> op) := [
  demo_login;
  fun evs => OParse 1001 "c1" (mk_treq CODE (Some (last_code evs)) None (Some "c1")
                                 (Some "https://rp.example.com/other") None None None) ].
Example C09_example : let h := run_end demo_env wrong_uri in
  history demo_env (run_ops demo_env wrong_uri) (run_evs demo_env wrong_uri) h
  /\ exists q g ar,
    nth_error (h_parsed h) 0 = Some q
    /\ presents q (last_code (run_evs demo_env wrong_uri)) "authorization_code"
    /\ grant_of h "u0" g /\ in_grant g (last_code (run_evs demo_env wrong_uri)) "authorization_code"
    /\ g_areq g = Some ar /\ ar_redirect_uri ar = Some "https://rp.example.com/cb"
    /\ tr_redirect q <> Some "https://rp.example.com/cb"
    /\ fst (step demo_env h (OProcess 1002 0 None)) = EvToken q (Ok (Err "invalid_request")).
Proof.
  split; [apply run_history; vm_compute; reflexivity|].
  eexists _, (the_grant (run_end demo_env wrong_uri)), toy_areq.
  split; [vm_compute; reflexivity|]. split; [left; vm_compute; auto|].
  split; [exists 4; split; vm_compute; reflexivity|].
  split; [apply in_grant_check; vm_compute; reflexivity|].
  split; [vm_compute; reflexivity|]. split; [reflexivity|]. split; [discriminate|].
  vm_compute. reflexivity.
Qed.

(** ** C46: every response is backed by an earlier authorization *)
Theorem C46_backed_by_authorization : forall e ops evs h i q a p pc,
  laws e -> history e ops evs h -> answer_at evs i q a -> presents q p pc ->
  exists gid g u c,
    grant_of h gid g /\ belongs e g u c /\ tr_client q = Some c /\ in_grant g p pc
    /\ (exists j o, j < i /\ made_by e ops j o p pc
          /\ (pc = "authorization_code" -> exists ar, authorizes o ar)
          /\ (pc = "refresh_token" -> token_call o))
    /\ (exists j o ar, j < i /\ nth_error ops j = Some o /\ g_areq g = Some ar /\ authorizes o ar
          /\ ar_client_id ar = c /\ by_user o u).
Proof. exact (fun e ops evs h i q a p pc W => answer_backed e W ops evs h i q a p pc). Qed.
Print Assumptions C46_backed_by_authorization.

(** The run has answers for a code and for a refresh token. A text that was never
    issued is not accepted. *)
Example C46_example :
  (exists q a, answer_at demo_evs 6 q a /\ presents q first_refresh "refresh_token")
  /\ fst (step demo_env demo_end (OParse 1007 "c1" (hex_code_req "aabb")))
     = EvParse (Ok (Err "invalid_grant")).
Proof.
  split; [|vm_compute; reflexivity].
  eexists _, _. split; [vm_compute; reflexivity|]. right. vm_compute. auto.
Qed.

(** ** C03: replaying a code kills everything derived from it *)

(** A redeemed code is refused, at both kinds of endpoint. *)
Theorem C03_replay_refused : forall e ops evs h i q a code now cid q' r h',
  laws e -> history e ops evs h -> answer_at evs i q a ->
  presents q code "authorization_code" -> presents q' code "authorization_code" ->
  step e h (OParse now cid q') = (EvParse r, h') ->
  forall q'', r <> Ok (Good q'').
Proof. exact (fun e ops evs h i q a code now cid q' r h' W => replay_refused e W ops evs h i q a code now cid q' r h'). Qed.
Print Assumptions C03_replay_refused.

(** At the OpenID Connect endpoint exactly the descendants of the code are
    revoked, and nothing else changes. *)
Theorem C03_replay_revokes_descendants : forall e ops evs h i q a code now cid q' gid g,
  laws e -> history e ops evs h -> answer_at evs i q a ->
  presents q code "authorization_code" -> presents q' code "authorization_code" ->
  e_oidc e = true -> may_use e cid "authorization_code" -> leads_to e now h code gid ->
  grant_of h gid g -> in_grant g code "authorization_code" -> List.length (g_tokens g) < e_limit e ->
  exists ts' h',
    step e h (OParse now cid q') = (EvParse (Ok (Err "invalid_grant")), h')
    /\ only_tokens h h' gid (g_tokens g) ts'
    /\ revoked_exactly (descends (g_tokens g) code) (g_tokens g) ts'.
Proof.
  exact (fun e ops evs h i q a code now cid q' gid g W =>
    replay_kills e W ops evs h i q a code now cid q' gid g).
Qed.
Print Assumptions C03_replay_revokes_descendants.

Example C03_example :
  may_use demo_env "c1" "authorization_code" /\ leads_to demo_env 1010 demo_end demo_code "u0"
  /\ List.length (g_tokens (the_grant demo_end)) < e_limit demo_env
  /\ map t_revoked (g_tokens (the_grant demo_end)) = [false; false; true; false; false; false; false]
  /\ map t_revoked (g_tokens (the_grant (snd (step demo_env demo_end
        (OParse 1010 "c1" (hex_code_req demo_code))))))
     = [false; true; true; true; true; true; true].
Proof.
  split. { eexists. split; [vm_compute; reflexivity|]. split; [|left; reflexivity].
           intros l H. vm_compute in H. injection H as <-. left; reflexivity. }
  split. { eexists _, _. split; vm_compute; reflexivity. }
  split; [vm_compute; lia|]. split; vm_compute; reflexivity.
Qed.

(** Refuted for the plain OAuth2 endpoint: a replay is refused but revokes
    nothing (src/oidcop/oauth2/token.py 217-219). *)
Definition oauth_env : env := hex_env false false.
Definition oauth_run : list (list event -> op) := [
  demo_login;
  fun evs => OParse 1001 "c1" (hex_code_req (last_code evs));
  fun _ => OProcess 1002 0 None ].
Theorem C03_replay_revokes_oauth2_refuted : exists e ops evs h i q a code now cid q' r h' g t,
  laws e /\ history e ops evs h /\ answer_at evs i q a
  /\ presents q code "authorization_code" /\ presents q' code "authorization_code"
  /\ step e h (OParse now cid q') = (r, h')
  /\ grant_of h' "u0" g /\ In t (g_tokens g) /\ t_based t = Some code /\ token_live t now.
Proof.
  exists oauth_env, (run_ops oauth_env oauth_run), (run_evs oauth_env oauth_run), (run_end oauth_env oauth_run).
  exists 2. eexists _, _, (last_code (run_evs oauth_env oauth_run)), 1010%Z, "c1".
  exists (hex_code_req (last_code (run_evs oauth_env oauth_run))). eexists _, _.
  exists (the_grant (run_end oauth_env oauth_run)).
  exists (nth 1 (g_tokens (the_grant (run_end oauth_env oauth_run))) ex_no_token).
  split; [apply hex_laws|]. split; [apply run_history; vm_compute; reflexivity|].
  split; [vm_compute; reflexivity|]. split; [left; vm_compute; auto|]. split; [left; vm_compute; auto|].
  split; [vm_compute; reflexivity|].
  split; [exists 4; split; vm_compute; reflexivity|].
  split; [vm_compute; right; left; reflexivity|]. split; [vm_compute; reflexivity|].
  vm_compute. repeat split; congruence.
Qed.
Print Assumptions C03_replay_revokes_oauth2_refuted.

(** ** C01: what is dead stays dead *)
Theorem C01_dead_token_stays_dead : forall e ops1 evs1 h ops2 evs2 h' gid g t now now',
  laws e -> history e ops1 evs1 h -> Forall (proper e) ops2 -> exec e h ops2 = (evs2, h') ->
  grant_of h gid g -> In t (g_tokens g) -> ~ token_live t now -> (now <= now')%Z ->
  exists g' t', grant_of h' gid g' /\ In t' (g_tokens g') /\ t_value t' = t_value t
    /\ ~ token_live t' now'.
Proof.
  exact (fun e ops1 evs1 h ops2 evs2 h' gid g t now now' W =>
    token_dead_stays e W ops1 evs1 h ops2 evs2 h' gid g t now now').
Qed.
Print Assumptions C01_dead_token_stays_dead.

Theorem C01_dead_grant_stays_dead : forall e ops1 evs1 h ops2 evs2 h' gid g now now',
  laws e -> history e ops1 evs1 h -> Forall (proper e) ops2 ->
  Forall (fun o => now <= op_time o)%Z ops2 -> exec e h ops2 = (evs2, h') ->
  grant_of h gid g -> ~ grant_live g now -> (now <= now')%Z ->
  exists g', grant_of h' gid g' /\ ~ grant_live g' now'
    /\ map t_value (g_tokens g') = map t_value (g_tokens g).
Proof.
  exact (fun e ops1 evs1 h ops2 evs2 h' gid g now now' W =>
    grant_dead_stays e W ops1 evs1 h ops2 evs2 h' gid g now now').
Qed.
Print Assumptions C01_dead_grant_stays_dead.

(** The used code of the run is dead long before it expires, and the grant has
    expired a day later. *)
Example C01_history_example :
  (exists t, In t (g_tokens (the_grant demo_end)) /\ t_value t = demo_code /\ ~ token_live t 1010)
  /\ ~ grant_live (the_grant demo_end) 100000 /\ grant_live (the_grant demo_end) 1010.
Proof.
  split; [|split].
  - exists (nth 0 (g_tokens (the_grant demo_end)) ex_no_token).
    split; [vm_compute; left; reflexivity|]. split; [vm_compute; reflexivity|].
    intros H. apply C01_token_active_iff_live in H. vm_compute in H. discriminate.
  - intros H. apply C01_grant_active_iff_live in H. vm_compute in H. discriminate.
  - apply C01_grant_active_iff_live. vm_compute. reflexivity.
Qed.

(** ** C06: the tokens of every reachable grant form a forest *)
Theorem C06_reachable_forest : forall e ops evs h gid g,
  laws e -> history e ops evs h -> grant_of h gid g -> forest (g_tokens g).
Proof. exact (fun e ops evs h gid g W => history_forest e W ops evs h gid g). Qed.
Print Assumptions C06_reachable_forest.

(** So the walk that looks for an inherited scope ends in every reachable state
    that is within the recursion limit. *)
Theorem C06_reachable_scope_walk_ends : forall e ops evs h gid g t,
  laws e -> history e ops evs h -> grant_of h gid g -> In t (g_tokens g) ->
  List.length (g_tokens g) <= e_limit e ->
  exists sc, find_scope (e_limit e) g (Some t) = Ok sc
    /\ inherited_scope (g_tokens g) (g_scope g) (Some (t_value t)) sc.
Proof.
  exact (fun e ops evs h gid g t W Hi G It L =>
    C06_scope_walk_ends (e_limit e) g t (C06_reachable_forest e ops evs h gid g W Hi G) It L).
Qed.
Print Assumptions C06_reachable_scope_walk_ends.

Example C06_history_example :
  grant_of demo_end "u0" (the_grant demo_end)
  /\ List.length (g_tokens (the_grant demo_end)) = 7 /\ 7 <= e_limit demo_env
  /\ find_scope (e_limit demo_env) (the_grant demo_end)
       (nth_error (g_tokens (the_grant demo_end)) 5) = Ok ["openid"; "email"; "offline_access"].
Proof.
  split; [exact demo_grant|]. split; [vm_compute; reflexivity|]. split; [vm_compute; lia|].
  vm_compute. reflexivity.
Qed.

(** ** C07: scope *)
Theorem C07_token_scope_within_grant : forall e ops evs h gid g t,
  laws e -> history e ops evs h -> grant_of h gid g -> In t (g_tokens g) ->
  t_class t <> "id_token" ->
  incl (t_scope t) (g_scope g) /\ forall x, In x (g_scope g) -> authorized_scope e g x.
Proof. exact (fun e ops evs h gid g t W => token_scope e W ops evs h gid g t). Qed.
Print Assumptions C07_token_scope_within_grant.

Theorem C07_answer_scope_within_grant : forall e ops evs h i q a p pc,
  laws e -> history e ops evs h -> answer_at evs i q a -> presents q p pc ->
  exists gid g, grant_of h gid g /\ in_grant g p pc /\ incl (rs_scope a) (g_scope g)
    /\ (pc = "refresh_token" -> forall sc, tr_scope q = Some sc -> rs_scope a = sc).
Proof. exact (fun e ops evs h i q a p pc W => answer_scope e W ops evs h i q a p pc). Qed.
Print Assumptions C07_answer_scope_within_grant.

(** A refresh request is accepted only if it asks for scopes that the chain
    above the refresh token carries. *)
Theorem C07_refresh_scope_checked : forall e ops evs h now cid q q' h' v sc,
  laws e -> history e ops evs h ->
  step e h (OParse now cid q) = (EvParse (Ok (Good q')), h') ->
  presents q v "refresh_token" -> tr_scope q = Some sc ->
  exists gid g t sc',
    grant_of h gid g /\ In t (g_tokens g) /\ t_value t = v /\ t_class t = "refresh_token"
    /\ inherited_scope (g_tokens g) (g_scope g) (t_based t) sc' /\ incl sc sc'.
Proof.
  exact (fun e ops evs h now cid q q' h' v sc W =>
    refresh_scope_checked e W ops evs h now cid q q' h' v sc).
Qed.
Print Assumptions C07_refresh_scope_checked.

(** A refresh that narrows the scope, and one with the narrowed token that asks
    for the full scope again. *)
Definition narrow : list (list event -> op) := [
  demo_login;
  fun evs => OParse 1001 "c1" (hex_code_req (last_code evs));
  fun _ => OProcess 1002 0 None;
  fun evs => OParse 1003 "c1" (hex_refresh_req (answered_refresh evs) (Some ["openid"; "offline_access"]));
  fun _ => OProcess 1004 1 None;
  fun evs => OParse 1005 "c1" (hex_refresh_req (answered_refresh evs)
                                 (Some ["openid"; "email"; "offline_access"]));
  fun _ => OProcess 1006 2 None ].
Definition narrow_evs : list event := run_evs demo_env narrow.
Definition narrow_end : hst := run_end demo_env narrow.
Definition narrow_token : string := answered_refresh (firstn 5 narrow_evs).

Example C07_example :
  history demo_env (run_ops demo_env narrow) narrow_evs narrow_end
  /\ (exists q a, answer_at narrow_evs 4 q a /\ rs_scope a = ["openid"; "offline_access"])
  /\ fst (step demo_env narrow_end (OParse 1007 "c1" (hex_refresh_req (answered_refresh narrow_evs)
            (Some ["openid"; "profile"])))) = EvParse (Ok (Err "invalid_request")).
Proof.
  split; [apply run_history; vm_compute; reflexivity|]. split; [|vm_compute; reflexivity].
  eexists _, _. split; vm_compute; reflexivity.
Qed.

(** Refuted: that a refresh is limited to the scope of the refresh token itself.
    The scope of its parent is what is compared (src/oidcop/oidc/token.py
    297-314, src/oidcop/oauth2/token.py 345-360), so the narrowing is undone. *)
Theorem C07_narrowed_token_refuted : exists e ops evs h i q a v gid g t x,
  laws e /\ history e ops evs h /\ answer_at evs i q a /\ presents q v "refresh_token"
  /\ grant_of h gid g /\ In t (g_tokens g) /\ t_value t = v
  /\ In x (rs_scope a) /\ ~ In x (t_scope t).
Proof.
  exists demo_env, (run_ops demo_env narrow), narrow_evs, narrow_end, 6.
  eexists _, _, narrow_token, "u0", (the_grant narrow_end).
  exists (nth 5 (g_tokens (the_grant narrow_end)) ex_no_token), "email".
  split; [apply hex_laws|]. split; [apply run_history; vm_compute; reflexivity|].
  split; [vm_compute; reflexivity|]. split; [right; vm_compute; auto|].
  split; [exists 4; split; vm_compute; reflexivity|].
  split; [apply nth_In; vm_compute; lia|]. split; [vm_compute; reflexivity|].
  split; [vm_compute; auto|]. vm_compute. intuition discriminate.
Qed.
Print Assumptions C07_narrowed_token_refuted.

(** Refuted for ID tokens: with a scope fixed by the provider's policy, an ID
    token from the authorization endpoint carries the scope of the request
    (src/oidcop/oauth2/authorization.py 818-836). *)
Definition fixed_env : env := let e := hex_env true false in {|
  e_oidc := e_oidc e; e_limit := e_limit e; e_crypto := e_crypto e; e_skey := e_skey e;
  e_sign := e_sign e; e_verify := e_verify e; e_peek := e_peek e; e_left_hash := e_left_hash e;
  e_uuid := e_uuid e; e_rnd := e_rnd e; e_issuer := e_issuer e;
  e_handlers := e_handlers e; e_modules := e_modules e; e_clients := e_clients e;
  e_users := e_users e; e_scopes := e_scopes e; e_scope_map := e_scope_map e;
  e_grant_types := e_grant_types e; e_helpers := e_helpers e;
  e_authz := mk_gconf (Some 43200%Z) (Some toy_rules) (Some ["openid"]);
  e_implicit := e_implicit e; e_sub := e_sub e; e_revoke_refresh := e_revoke_refresh e;
  e_dpop := e_dpop e; e_dpop_info := e_dpop_info e; e_idt_alg_def := e_idt_alg_def e;
  e_idt_algs := e_idt_algs e; e_bc_sid := e_bc_sid e; e_fc_sid := e_fc_sid e;
  e_pkce := e_pkce e; e_cc_hash := e_cc_hash e
|}.
Definition id_areq : areq :=
  mk_areq "c1" (Some "https://rp.example.com/cb") ["id_token"] (Some ["openid"; "email"])
    (Some "state") (Some "nonce") None None None "" None None None [].
Definition id_run : list (list event -> op) := [
  fun _ => OLogin 1000 true id_areq "diana" "password" (Some 3600%Z) (Some "https://rp.example.com/cb") ].
Lemma fixed_laws : laws fixed_env.
Proof. destruct (hex_laws true false); constructor; assumption. Qed.
Theorem C07_id_token_scope_refuted : exists e ops evs h gid g t x,
  laws e /\ history e ops evs h /\ grant_of h gid g /\ In t (g_tokens g)
  /\ t_class t = "id_token" /\ In x (t_scope t) /\ ~ In x (g_scope g).
Proof.
  exists fixed_env, (run_ops fixed_env id_run), (run_evs fixed_env id_run), (run_end fixed_env id_run).
  exists "u0", (the_grant (run_end fixed_env id_run)).
  exists (nth 0 (g_tokens (the_grant (run_end fixed_env id_run))) ex_no_token), "email".
  split; [exact fixed_laws|]. split; [apply run_history; vm_compute; reflexivity|].
  split; [exists 4; split; vm_compute; reflexivity|].
  split; [apply nth_In; vm_compute; lia|]. split; [vm_compute; reflexivity|].
  split; [vm_compute; auto|]. vm_compute. intuition discriminate.
Qed.
Print Assumptions C07_id_token_scope_refuted.

(** ** C16: a revoked grant mints nothing, for ever *)
Theorem C16_revoked_grant_final : forall e ops1 evs1 h ops2 evs2 h' gid g,
  laws e -> history e ops1 evs1 h -> Forall (proper e) ops2 -> exec e h ops2 = (evs2, h') ->
  grant_of h gid g -> g_revoked g = true ->
  exists g', grant_of h' gid g' /\ g_revoked g' = true
    /\ map t_value (g_tokens g') = map t_value (g_tokens g).
Proof.
  exact (fun e ops1 evs1 h ops2 evs2 h' gid g W =>
    revoked_grant_final e W ops1 evs1 h ops2 evs2 h' gid g).
Qed.
Print Assumptions C16_revoked_grant_final.

(** The grant of a log-in is revoked before its code is redeemed: the redemption
    fails and adds nothing. *)
Definition revoked_run : list (list event -> op) := [
  demo_login;
  fun evs => OParse 1001 "c1" (hex_code_req (last_code evs));
  fun _ => ORevokeGrant 1002 (encrypted_session_id hex_crypto "skey" "r1" 1 ["diana"; "c1"; "u0"]);
  fun _ => OProcess 1003 0 None ].
Example C16_example :
  history demo_env (run_ops demo_env (firstn 3 revoked_run)) (run_evs demo_env (firstn 3 revoked_run))
    (run_end demo_env (firstn 3 revoked_run))
  /\ g_revoked (the_grant (run_end demo_env (firstn 3 revoked_run))) = true
  /\ List.length (g_tokens (the_grant (run_end demo_env revoked_run))) = 1
  /\ (exists q x, nth_error (run_evs demo_env revoked_run) 3 = Some (EvToken q (Raise x))).
Proof.
  split; [apply run_history; vm_compute; reflexivity|]. split; [vm_compute; reflexivity|].
  split; [vm_compute; reflexivity|]. eexists _, _. vm_compute. reflexivity.
Qed.

(** ** C22: clients only use grant types they may use *)

(** A request with another grant type is refused, whatever the state, and the
    whole state stays as it was. *)
Theorem C22_grant_type_refused : forall e h now cid q ev h',
  ~ may_use e cid (tr_grant_type q) -> step e h (OParse now cid q) = (ev, h') ->
  h' = h /\ (ev = EvParse (Ok (Err "invalid_request"))
             \/ (dget (e_clients e) cid = None /\ ev = EvParse (Raise KeyError))).
Proof. exact parse_refused. Qed.
Print Assumptions C22_grant_type_refused.

Theorem C22_refresh_token_allowed : forall e ops evs h i q a v c,
  laws e -> history e ops evs h -> answer_at evs i q a ->
  tr_grant_type q = "authorization_code" -> rs_refresh a = Some v -> tr_client q = Some c ->
  supports e c "refresh_token".
Proof. exact (fun e ops evs h i q a v c W => refresh_allowed e W ops evs h i q a v c). Qed.
Print Assumptions C22_refresh_token_allowed.

Example C22_example :
  ~ may_use demo_env "c1" "implicit"
  /\ may_use demo_env "c1" "authorization_code" /\ supports demo_env "c1" "refresh_token"
  /\ (exists q a v, answer_at demo_evs 3 q a /\ tr_grant_type q = "authorization_code"
        /\ rs_refresh a = Some v /\ tr_client q = Some "c1").
Proof.
  split. { intros (cl & _ & _ & H). vm_compute in H. intuition discriminate. }
  split. { eexists. split; [vm_compute; reflexivity|]. split; [|left; reflexivity].
           intros l H. vm_compute in H. injection H as <-. left; reflexivity. }
  split. { eexists. split; [vm_compute; reflexivity|]. left. eexists. split; [reflexivity|].
           vm_compute. auto. }
  eexists _, _, _. split; [vm_compute; reflexivity|]. split; [reflexivity|]. split; reflexivity.
Qed.
