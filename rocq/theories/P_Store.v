(** Property theorems about the session store (C10, C14, C15). *)
From Verif Require Import M_Base M_Types M_Codec M_Grant M_Env M_Session S_Codec S_Store S_Toy
  L_Base L_Codec L_Store L_Store2 L_Store3.

(** ** C10: the store behaves like a tree keyed by user, client and grant *)

(** A new grant is read back under its path; every other user path holds what
    it held; the parents exist and differ by their lists of children only. *)
Theorem C10_store_grant : forall isuser s u c g gr,
  built isuser s -> valid_path [u; c; g] -> isuser u ->
  exists s', (l <- new_obj (OGrant gr) ;; db_set [u; c; g] l) s = (Ok tt, s')
    /\ built isuser s'
    /\ holds s' [u; c; g] (OGrant gr)
    /\ (forall p o, user_path isuser p -> p <> [u; c; g] -> ~ parent_of p [u; c; g] ->
          (holds s' p o <-> holds s p o))
    /\ (forall p, p <> [] -> parent_of p [u; c; g] ->
          exists o', holds s' p o' /\ forall o, holds s p o -> more_children o o')
    /\ s_ctr s' = s_ctr s /\ s_always s' = s_always s.
Proof. exact store_grant_run. Qed.
Print Assumptions C10_store_grant.

Theorem C10_store_client : forall isuser s u c l0,
  built isuser s -> valid_path [u; c] -> isuser u -> reads s [u] l0 -> absent s [u; c] ->
  exists s', (l <- new_obj (OInfo (new_client_info c)) ;; db_set [u; c] l) s = (Ok tt, s')
    /\ built isuser s'
    /\ holds s' [u; c] (OInfo (new_client_info c))
    /\ (forall p o, user_path isuser p -> p <> [u; c] -> p <> [u] -> (holds s' p o <-> holds s p o))
    /\ (exists o', holds s' [u] o' /\ forall o, holds s [u] o -> more_children o o')
    /\ s_ctr s' = s_ctr s /\ s_always s' = s_always s.
Proof. exact store_client_run. Qed.
Print Assumptions C10_store_client.

Theorem C10_store_user : forall isuser s u,
  built isuser s -> valid_path [u] -> isuser u -> absent s [u] ->
  exists s', (l <- new_obj (OInfo (new_user_info u)) ;; db_set [u] l) s = (Ok tt, s')
    /\ built isuser s'
    /\ holds s' [u] (OInfo (new_user_info u))
    /\ (forall p o, user_path isuser p -> p <> [u] -> (holds s' p o <-> holds s p o))
    /\ s_ctr s' = s_ctr s /\ s_always s' = s_always s.
Proof. exact store_user_run. Qed.
Print Assumptions C10_store_user.

(** Storing the record read at a path under that path again changes nothing. *)
Theorem C10_store_again : forall isuser s p l,
  built isuser s -> valid_path p -> reads s p l -> db_set p l s = (Ok tt, s).
Proof. exact (fun isuser s p l B V R => set_again isuser s p l (built_tree isuser s B) V R). Qed.
Print Assumptions C10_store_again.

(** Reading never changes the store, whatever the path. *)
Theorem C10_reading_changes_nothing : forall p s, snd (db_get p s) = s.
Proof. exact db_get_state. Qed.
Print Assumptions C10_reading_changes_nothing.

(** Changing the record read at one path shows at no other user path. *)
Theorem C10_change_is_local : forall isuser s p l f,
  built isuser s -> user_path isuser p -> reads s p l -> (forall o, same_children o (f o)) ->
  exists s', upd_obj l f s = (Ok tt, s') /\ built isuser s'
    /\ (forall o, holds s p o -> holds s' p (f o))
    /\ (forall q o, user_path isuser q -> q <> p -> (holds s' q o <-> holds s q o)).
Proof. exact change_run. Qed.
Print Assumptions C10_change_is_local.

(** Parents of stored paths are stored and list their children; listed children
    are stored. *)
Theorem C10_parents_exist : forall isuser s p x,
  built isuser s -> user_path isuser (p ++ [x]) -> (exists o, holds s (p ++ [x]) o) -> p <> [] ->
  exists i, holds s p (OInfo i) /\ In x (si_sub i).
Proof.
  exact (fun isuser s p x B U H N =>
    parents_exist isuser s p (p ++ [x]) x (built_tree isuser s B) U H eq_refl N).
Qed.
Print Assumptions C10_parents_exist.

Theorem C10_children_exist : forall isuser s p i x,
  built isuser s -> user_path isuser p -> List.length p <= 2 ->
  holds s p (OInfo i) -> In x (si_sub i) -> valid_path (p ++ [x]) /\ exists o, holds s (p ++ [x]) o.
Proof. exact (fun isuser s p i x B => listed_exist isuser s p i x (built_tree isuser s B)). Qed.
Print Assumptions C10_children_exist.

(** Creating a session stores one new grant and leaves every other one. *)
Theorem C10_create_session : forall isuser e now ae ar s u c rules scopes,
  let gid := e_uuid e (s_ctr s) in
  built isuser s -> isuser u -> valid_path [u; c; gid] ->
  exists s' sid, create_session e now ae ar u c rules scopes s = (Ok sid, s')
    /\ sid = encrypted_session_id (e_crypto e) (e_skey e) (e_rnd e (S (s_ctr s))) (S (s_ctr s)) [u; c; gid]
    /\ built isuser s'
    /\ holds s' [u; c; gid]
         (OGrant (new_grant now ar ae (e_sub e u (ar_sector ar)) gid rules scopes))
    /\ (forall p, user_path isuser p -> p <> [u; c; gid] -> ~ parent_of p [u; c; gid] ->
          forall o, holds s' p o <-> holds s p o)
    /\ (forall p o, p <> [] -> parent_of p [u; c; gid] -> holds s p o ->
          exists o', holds s' p o' /\ more_children o o')
    /\ s_ctr s' = S (S (s_ctr s)).
Proof. exact create_session_run. Qed.
Print Assumptions C10_create_session.

(** Example: three sessions, two users. *)
Definition ex_isuser (x : string) : Prop := x = "diana" \/ x = "bob" \/ x = "c9".
Definition ex_login (u c : string) (s : st) : st :=
  snd (create_session (toy_env true) 1000 toy_event toy_areq u c None None s).
Definition ex_s1 : st := ex_login "diana" "c1" (st_init []).
Definition ex_s2 : st := ex_login "diana" "c1" ex_s1.
Definition ex_s3 : st := ex_login "bob" "c2" ex_s2.

Lemma valid_ok p : p <> [] -> List.length p <= 3 -> ~ In "" p ->
  unpack_session_key (session_key p) = p -> valid_path p.
Proof.
  intros N L E R. split; [exact N|]. split; [exact L|]. split; [exact E|].
  now apply session_key_roundtrip_iff.
Qed.
Ltac ex_valid := apply valid_ok;
  [ discriminate | repeat constructor
  | cbn; let H := fresh in intros H; repeat (destruct H as [H|H]; [discriminate H|]); exact H
  | vm_compute; reflexivity ].

Lemma ex_login_built s u c g : e_uuid (toy_env true) (s_ctr s) = g ->
  built ex_isuser s -> ex_isuser u -> valid_path [u; c; g] -> built ex_isuser (ex_login u c s).
Proof.
  intros <- B U V.
  destruct (C10_create_session ex_isuser (toy_env true) 1000 toy_event toy_areq s u c None None B U V)
    as [s' [sid [R [_ [B' _]]]]].
  unfold ex_login. rewrite R. exact B'.
Qed.
Lemma ex_built1 : built ex_isuser ex_s1.
Proof.
  apply (ex_login_built _ _ _ "u0"); [vm_compute; reflexivity|apply built_init|left; reflexivity|ex_valid].
Qed.
Lemma ex_built2 : built ex_isuser ex_s2.
Proof.
  apply (ex_login_built _ _ _ "u2"); [vm_compute; reflexivity|exact ex_built1|left; reflexivity|ex_valid].
Qed.
Lemma ex_built3 : built ex_isuser ex_s3.
Proof.
  apply (ex_login_built _ _ _ "u4"); [vm_compute; reflexivity|exact ex_built2|right; left; reflexivity|ex_valid].
Qed.
Example C10_example :
  built ex_isuser ex_s3 /\ valid_path ["bob"; "c1"; "u6"]
  /\ reads ex_s3 ["diana"; "c1"; "u0"] 4 /\ reads ex_s3 ["diana"; "c1"; "u2"] 5
  /\ reads ex_s3 ["bob"; "c2"; "u4"] 10 /\ absent ex_s3 ["bob"; "c1"]
  /\ ~ parent_of ["diana"; "c1"; "u0"] ["bob"; "c1"; "u6"].
Proof.
  split; [exact ex_built3|]. split; [ex_valid|].
  split; [vm_compute; reflexivity|]. split; [vm_compute; reflexivity|]. split; [vm_compute; reflexivity|].
  split; [eexists; vm_compute; reflexivity|]. intros [r [_ H]]. discriminate.
Qed.

(** Refuted: that storing under one path never changes what another path
    returns. Storing a new record for a user whose sessions exist makes those
    sessions unreadable (database.py 86-90 replaces the list of children). *)
Theorem C10_store_over_parent_refuted : exists isuser s u c l s',
  built isuser s /\ isuser u /\ reads s [u; c] l
  /\ (l <- new_obj (OInfo (new_user_info u)) ;; db_set [u] l) s = (Ok tt, s')
  /\ absent s' [u; c].
Proof.
  exists ex_isuser, ex_s1, "diana", "c1", 2.
  eexists. split; [exact ex_built1|]. split; [left; reflexivity|].
  split; [vm_compute; reflexivity|]. split; [vm_compute; reflexivity|].
  eexists. vm_compute. reflexivity.
Qed.
Print Assumptions C10_store_over_parent_refuted.

(** ** C14: deleting a session removes that session and nothing else *)

(** When no user has the id of the client: the grant is gone, every path that is
    not one of its parents holds what it held, and a parent either stays with
    exactly the children that are still there or goes when none is. *)
Theorem C14_remove_session_exact : forall isuser e s sid u c g l,
  built isuser s -> valid_path [u; c; g] -> isuser u -> ~ isuser c ->
  dec_sid3 e sid = Ok (u, c, g) -> reads s [u; c; g] l ->
  exists s', remove_session e sid s = (Ok tt, s') /\ built isuser s' /\ absent s' [u; c; g]
    /\ (forall p o, user_path isuser p -> p <> [u; c; g] -> ~ parent_of p [u; c; g] ->
          (holds s' p o <-> holds s p o))
    /\ (forall p i, p <> [] -> parent_of p [u; c; g] -> holds s p (OInfo i) ->
          (exists x, holds s' p (OInfo (mk_sinfo x (si_revoked i) (si_client i) (si_id i)))
             /\ (forall y, In y x <-> In y (si_sub i) /\ exists o, holds s' (p ++ [y]) o))
          \/ (absent s' p /\ forall y, In y (si_sub i) -> absent s' (p ++ [y]))).
Proof. exact remove_session_run. Qed.
Print Assumptions C14_remove_session_exact.

Definition ex_sid (s : st) (p : list string) : string :=
  match enc_sid (toy_env true) p s with (Ok x, _) => x | _ => "" end.
Example C14_example :
  let sid := ex_sid ex_s3 ["diana"; "c1"; "u0"] in
  let s' := snd (remove_session (toy_env true) sid ex_s3) in
  built ex_isuser ex_s3 /\ valid_path ["diana"; "c1"; "u0"] /\ ex_isuser "diana" /\ ~ ex_isuser "c1"
  /\ dec_sid3 (toy_env true) sid = Ok ("diana", "c1", "u0")
  /\ reads ex_s3 ["diana"; "c1"; "u0"] 4
  /\ absent s' ["diana"; "c1"; "u0"] /\ reads s' ["diana"; "c1"; "u2"] 5
  /\ reads s' ["bob"; "c2"; "u4"] 10.
Proof.
  split; [exact ex_built3|]. split; [ex_valid|]. split; [left; reflexivity|].
  split; [intros [H|[H|H]]; discriminate|]. split; [vm_compute; reflexivity|].
  split; [vm_compute; reflexivity|]. split; [eexists; vm_compute; reflexivity|].
  split; vm_compute; reflexivity.
Qed.

(** Refuted: a client id that is also a user id. Removing one of two sessions a
    user has at that client puts the client's record in the place of the other
    user's record (database.py 157-160), whose sessions become unreadable. *)
Definition ex_clash : st :=
  ex_login "c9" "c2" (ex_login "diana" "c9" (ex_login "diana" "c9" (st_init []))).
Lemma ex_clash_built : built ex_isuser ex_clash.
Proof.
  apply (ex_login_built _ _ _ "u4"); [vm_compute; reflexivity| |right; right; reflexivity|ex_valid].
  apply (ex_login_built _ _ _ "u2"); [vm_compute; reflexivity| |left; reflexivity|ex_valid].
  apply (ex_login_built _ _ _ "u0"); [vm_compute; reflexivity|apply built_init|left; reflexivity|ex_valid].
Qed.
Theorem C14_remove_session_frame_refuted : exists isuser e s sid u c g l q l' s',
  built isuser s /\ dec_sid3 e sid = Ok (u, c, g) /\ reads s [u; c; g] l
  /\ remove_session e sid s = (Ok tt, s')
  /\ user_path isuser q /\ ~ parent_of q [u; c; g] /\ q <> [u; c; g]
  /\ reads s q l' /\ absent s' q.
Proof.
  exists ex_isuser, (toy_env true), ex_clash, (ex_sid ex_clash ["diana"; "c9"; "u0"]),
    "diana", "c9", "u0", 4, ["c9"; "c2"; "u4"], 10. eexists.
  split; [exact ex_clash_built|]. split; [vm_compute; reflexivity|].
  split; [vm_compute; reflexivity|]. split; [vm_compute; reflexivity|].
  split. { split; [ex_valid|]. right. right. reflexivity. }
  split. { intros [r [_ H]]. discriminate. } split; [discriminate|].
  split; [vm_compute; reflexivity|]. eexists. vm_compute. reflexivity.
Qed.
Print Assumptions C14_remove_session_frame_refuted.

(** ** C15: revoking a client session is complete *)
Theorem C15_revoke_client_session_complete : forall isuser e s sid u c rest i,
  built isuser s -> valid_path [u; c] -> isuser u ->
  dec_sid e sid = Ok (u :: c :: rest) -> List.length rest <= 1 ->
  holds s [u; c] (OInfo i) ->
  exists s', revoke_client_session e sid s = (Ok tt, s') /\ built isuser s'
    /\ holds s' [u; c] (OInfo (si_revoke i))
    /\ (forall g gr, valid_path [u; c; g] -> holds s [u; c; g] (OGrant gr) ->
          holds s' [u; c; g] (OGrant (g_set_revoked gr)))
    /\ (forall p o, user_path isuser p -> p <> [u; c] -> ~ parent_of [u; c] p ->
          (holds s' p o <-> holds s p o)).
Proof. exact revoke_client_session_run. Qed.
Print Assumptions C15_revoke_client_session_complete.

Example C15_example :
  let sid := ex_sid ex_s3 ["diana"; "c1"; "u0"] in
  let s' := snd (revoke_client_session (toy_env true) sid ex_s3) in
  built ex_isuser ex_s3 /\ valid_path ["diana"; "c1"]
  /\ dec_sid (toy_env true) sid = Ok ("diana" :: "c1" :: ["u0"])
  /\ holds ex_s3 ["diana"; "c1"] (OInfo (mk_sinfo ["u0"; "u2"] false true "c1"))
  /\ (forall l g, reads s' ["diana"; "c1"; "u2"] l ->
        nth_error (s_heap s') l = Some (OGrant g) -> g_revoked g = true)
  /\ (forall l g, reads s' ["bob"; "c2"; "u4"] l ->
        nth_error (s_heap s') l = Some (OGrant g) -> g_revoked g = false).
Proof.
  split; [exact ex_built3|]. split; [ex_valid|]. split; [vm_compute; reflexivity|].
  split; [exists 2; split; vm_compute; reflexivity|].
  split; intros l g R H; vm_compute in R; injection R as <-; vm_compute in H; injection H as <-; reflexivity.
Qed.
