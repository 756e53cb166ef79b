(** Property theorems about subject identifiers (C43). *)
From Verif Require Import M_Base M_Types M_Codec M_Grant M_Env M_Session M_Claims M_Handler
  M_Authz M_TokenEP M_PKCE M_AuthzEP M_Info M_Logout M_History S_Codec S_Grant S_Toy S_History S_Hex
  M_Subject S_Subject L_Base L_Hex L_Subject L_Subject2.

(** ** What clients are told *)

(** Public identifiers: userinfo tells the same subject for the same user,
    whatever the client, the request and the sector, also after restarts; and it
    tells different subjects for different users. *)
Theorem C43_public : forall rnd H c m m' e e' cl cl' u u' s s' x x',
  a_dict c -> configured c "public" = Some Public -> salt_is_fixed c "public" ->
  set_up rnd c m m' -> uses H m e -> uses H m' e' ->
  told e cl u s x -> told e' cl' u' s' x' ->
  (u = u' -> x = x') /\ (x = x' -> u = u' \/ collides H).
Proof. exact told_public. Qed.
Print Assumptions C43_public.

(** Pairwise identifiers (the class or function for them configured as the one
    to use): the same subject for the same user and sector; different subjects if
    one of them differs and the two texts can be told apart. *)
Theorem C43_pairwise : forall rnd H c m m' e e' cl cl' u u' s s' x x',
  a_dict c -> configured c "public" = Some Pairwise -> salt_is_fixed c "public" ->
  set_up rnd c m m' -> uses H m e -> uses H m' e' ->
  told e cl u s x -> told e' cl' u' s' x' ->
  (u = u' /\ s = s' -> x = x') /\
  (x = x' -> unambiguous u s u' s' -> (u = u' /\ s = s') \/ collides H).
Proof. exact told_pairwise. Qed.
Print Assumptions C43_pairwise.

(** ** The functions, for every kind *)

(** Restarts do not change an identifier whose salt is configured. *)
Theorem C43_stable_across_restarts : forall rnd H c kind w m w1 w2 m' w3,
  a_dict c -> salt_is_fixed c kind -> configured c kind <> Some Ephemeral ->
  start rnd c w = (Ok m, w1) -> S_Subject.later rnd w1 w2 -> start rnd c w2 = (Ok m', w3) ->
  forall u s d d', make_sub H m' kind u s d' = make_sub H m kind u s d.
Proof. exact stable. Qed.
Print Assumptions C43_stable_across_restarts.

Theorem C43_public_function : forall rnd H c kind w m w' u u' s s' d d' x x',
  a_dict c -> start rnd c w = (Ok m, w') -> configured c kind = Some Public ->
  make_sub H m kind u s d = Ok x -> make_sub H m kind u' s' d' = Ok x' ->
  (u = u' -> x = x') /\ (x = x' -> u = u' \/ collides H).
Proof. exact public_spec. Qed.
Print Assumptions C43_public_function.

Theorem C43_pairwise_function : forall rnd H c kind w m w' u u' s s' d d' x x',
  a_dict c -> start rnd c w = (Ok m, w') -> configured c kind = Some Pairwise ->
  make_sub H m kind u s d = Ok x -> make_sub H m kind u' s' d' = Ok x' ->
  (u = u' /\ s = s' -> x = x') /\
  (x = x' -> unambiguous u s u' s' -> (u = u' /\ s = s') \/ collides H).
Proof. exact pairwise_spec. Qed.
Print Assumptions C43_pairwise_function.

(** ** Examples *)

(** A provider whose salt is kept in a file; [H] writes a mark in front. *)
Definition toy_H (x : string) : string := append "#" x.
Definition toy_rnd (n : nat) : string := append "rnd" (show_N (N.of_nat n)).
Definition file_conf (k : mclass) : sconf :=
  mk_sconf "" "" [("public", EClass k "" "salt.txt"); ("pairwise", EFunction FPair)].
Definition first_boot (c : sconf) : res smgr * world := start toy_rnd c (mk_world [] 0).
Definition second_boot (c : sconf) : res smgr * world := start toy_rnd c (snd (first_boot c)).
Definition boot (x : res smgr * world) : smgr :=
  match fst x with Ok m => m | Raise _ => mk_smgr "" "" [] end.

Example C43_example_boots :
  set_up toy_rnd (file_conf KPub) (boot (first_boot (file_conf KPub))) (boot (second_boot (file_conf KPub)))
  /\ a_dict (file_conf KPub) /\ salt_is_fixed (file_conf KPub) "public"
  /\ configured (file_conf KPub) "public" = Some Public
  /\ make_sub toy_H (boot (first_boot (file_conf KPub))) "public" "diana" "" "" = Ok "#dianarnd0"
  /\ make_sub toy_H (boot (second_boot (file_conf KPub))) "public" "diana" "" "" = Ok "#dianarnd0"
  /\ boot (first_boot (file_conf KPub)) <> boot (second_boot (file_conf KPub)).
Proof.
  split.
  { exists (mk_world [] 0), (snd (first_boot (file_conf KPub))). split; [vm_compute; reflexivity|]. right.
    exists (snd (first_boot (file_conf KPub))), (snd (second_boot (file_conf KPub))).
    split; [apply later_same|vm_compute; reflexivity]. }
  split. { repeat constructor; cbn; intuition discriminate. }
  split; [right; discriminate|]. do 3 (split; [vm_compute; reflexivity|]). vm_compute. discriminate.
Qed.

(** The provider of the examples with such subject identifiers. *)
Definition sub_env (f : string -> string -> string) : env := let e := hex_env true false in {|
  e_oidc := e_oidc e; e_limit := e_limit e; e_crypto := e_crypto e; e_skey := e_skey e;
  e_sign := e_sign e; e_verify := e_verify e; e_peek := e_peek e; e_left_hash := e_left_hash e;
  e_uuid := e_uuid e; e_rnd := e_rnd e; e_issuer := e_issuer e;
  e_handlers := e_handlers e; e_modules := e_modules e; e_clients := e_clients e;
  e_users := e_users e; e_scopes := e_scopes e; e_scope_map := e_scope_map e;
  e_grant_types := e_grant_types e; e_helpers := e_helpers e; e_authz := e_authz e;
  e_implicit := e_implicit e; e_sub := f; e_revoke_refresh := e_revoke_refresh e;
  e_dpop := e_dpop e; e_dpop_info := e_dpop_info e; e_idt_alg_def := e_idt_alg_def e;
  e_idt_algs := e_idt_algs e; e_bc_sid := e_bc_sid e; e_fc_sid := e_fc_sid e;
  e_pkce := e_pkce e; e_cc_hash := e_cc_hash e
|}.
Lemma sub_laws f : laws (sub_env f).
Proof. destruct (hex_laws true false); constructor; assumption. Qed.
Definition public_env : env := sub_env (fun u _ => toy_H (append u "rnd0")).
Definition pairwise_env : env := sub_env (fun u s => toy_H (append u (append s "rnd0"))).

(** The log-in of a user at a client, with a sector in the request, and the
    redemption of the code. *)
Definition at_client (c u s : string) : list (list event -> op) :=
  let ar := mk_areq c (Some "https://rp.example.com/cb") ["code"] (Some ["openid"; "email"])
    (Some "state") (Some "nonce") None None None s None None None [] in [
  (fun _ => OLogin 1000 true ar u "password" (Some 3600%Z) (Some "https://rp.example.com/cb"));
  (fun evs => OParse 1001 c (mk_treq CODE (Some (last_code evs)) None (Some c)
                               (Some "https://rp.example.com/cb") None None None));
  (fun _ => OProcess 1002 0 None) ].
Ltac show_told e c u s :=
  let h := constr:(run_end e (at_client c u s)) in
  let tok := constr:(answered_access (run_evs e (at_client c u s))) in
  exists (run_ops e (at_client c u s)), (run_evs e (at_client c u s)), h, 1003%Z, tok;
  do 6 eexists; split; [apply sub_laws|]; split; [apply run_history; vm_compute; reflexivity|];
  split; [vm_compute; reflexivity|]; split; [vm_compute; reflexivity|];
  split; [do 2 eexists; split; vm_compute; reflexivity|];
  split; [exists 4; split; vm_compute; reflexivity|];
  repeat split; vm_compute; reflexivity.

Example C43_example_public :
  uses toy_H (boot (first_boot (file_conf KPub))) public_env
  /\ uses toy_H (boot (second_boot (file_conf KPub))) public_env
  /\ told public_env "c1" "diana" "" "#dianarnd0"
  /\ told public_env "c2" "diana" "https://x" "#dianarnd0"
  /\ told public_env "c2" "bob" "" "#bobrnd0".
Proof.
  split; [intros u s d; reflexivity|]. split; [intros u s d; reflexivity|].
  split; [show_told public_env "c1" "diana" ""|].
  split; [show_told public_env "c2" "diana" "https://x"|].
  show_told public_env "c2" "bob" "".
Qed.
Example C43_example_pairwise :
  configured (file_conf KPair) "public" = Some Pairwise
  /\ uses toy_H (boot (first_boot (file_conf KPair))) pairwise_env
  /\ told pairwise_env "c1" "diana" "https://x" "#dianahttps://xrnd0"
  /\ told pairwise_env "c2" "diana" "https://y" "#dianahttps://yrnd0"
  /\ unambiguous "diana" "https://x" "bob" "https://y".
Proof.
  split; [reflexivity|]. split; [intros u s d; reflexivity|].
  split; [show_told pairwise_env "c1" "diana" "https://x"|].
  split; [show_told pairwise_env "c2" "diana" "https://y"|].
  right. split; [|split; [|split; eexists; reflexivity]];
    intros a b E; repeat (destruct a as [|? a]; cbn in E; [discriminate E|]; injection E as _ E); destruct a; discriminate E.
Qed.

(** ** Limits *)

(** Two clients with no common sector are told the same subject: the sector is a
    parameter of the authorization request, which the client chooses, not a
    property of the client. *)
Theorem C43_sector_of_client_refuted : exists rnd H c m e u x,
  (forall a b, H a = H b -> a = b) /\ configured c "public" = Some Pairwise
  /\ set_up rnd c m m /\ uses H m e
  /\ told e "c1" u "https://c1.example.com/s" x /\ told e "c2" u "https://c1.example.com/s" x.
Proof.
  exists toy_rnd, toy_H, (file_conf KPair), (boot (first_boot (file_conf KPair))), pairwise_env, "diana",
    "#dianahttps://c1.example.com/srnd0".
  split; [intros a b E; now injection E|]. split; [reflexivity|].
  split. { exists (mk_world [] 0), (snd (first_boot (file_conf KPair))). split; [vm_compute; reflexivity|now left]. }
  split; [intros u s d; reflexivity|].
  split; [show_told pairwise_env "c1" "diana" "https://c1.example.com/s"
         |show_told pairwise_env "c2" "diana" "https://c1.example.com/s"].
Qed.
Print Assumptions C43_sector_of_client_refuted.

(** User and sector are written one after the other: for any hash function two
    users with two sectors share an identifier. *)
Theorem C43_concatenation_refuted : exists u s u' s', u <> u' /\ s <> s' /\
  forall rnd H c kind w m w' d d', a_dict c -> start rnd c w = (Ok m, w') ->
    configured c kind = Some Pairwise -> make_sub H m kind u s d = make_sub H m kind u' s' d'.
Proof.
  exists "bob", "1x", "bob1", "x". split; [discriminate|]. split; [discriminate|].
  intros rnd H c kind w m w' d d' N E C. pose proof (sub_way _ _ _ _ _ H kind E N) as K. rewrite C in K.
  destruct K as (salt & K). now rewrite !K.
Qed.
Print Assumptions C43_concatenation_refuted.

(** Public and pairwise identifiers of different users coincide, if both use the
    salt of the session parameters. *)
Theorem C43_public_and_pairwise_refuted : exists c w m w' rnd u s u', u <> u' /\
  start rnd c w = (Ok m, w') /\ configured c "public" = Some Public /\ configured c "pairwise" = Some Pairwise /\
  forall H d d', make_sub H m "public" u' "" d' = make_sub H m "pairwise" u s d.
Proof.
  exists (mk_sconf "pw" "salt" []), (mk_world [] 0), (boot (start toy_rnd (mk_sconf "pw" "salt" []) (mk_world [] 0))),
    (mk_world [] 0), toy_rnd, "bob", "x", "bobx".
  split; [discriminate|]. split; [vm_compute; reflexivity|]. do 2 (split; [reflexivity|]). intros. reflexivity.
Qed.
Print Assumptions C43_public_and_pairwise_refuted.

(** Without a configured salt a restart changes every identifier. *)
Theorem C43_no_salt_refuted : exists rnd H c w m w1 m' w2,
  (forall a b, H a = H b -> a = b) /\ (forall i j, rnd i = rnd j -> i = j) /\
  start rnd c w = (Ok m, w1) /\ start rnd c w1 = (Ok m', w2) /\ configured c "public" = Some Public /\
  forall u s d, make_sub H m "public" u s d <> make_sub H m' "public" u s d.
Proof.
  exists toy_rnd, toy_H, (mk_sconf "pw" "" []), (mk_world [] 0).
  do 4 eexists. split; [intros a b E; now injection E|].
  split. { intros i j E. injection E as E. apply show_N_inj in E. lia. }
  split; [vm_compute; reflexivity|]. split; [vm_compute; reflexivity|]. split; [reflexivity|].
  intros u s d E. cbn in E. injection E as E. apply sapp_inj_l in E. vm_compute in E. discriminate E.
Qed.
Print Assumptions C43_no_salt_refuted.
