(** Property theorems about revoked client sessions and log-outs, in all
    histories (C15, C41). *)
From Verif Require Import M_Base M_Types M_Codec M_Grant M_Env M_Session M_Claims M_Handler
  M_Authz M_TokenEP M_PKCE M_AuthzEP M_Info M_Logout M_History S_Codec S_Grant S_Store S_Toy S_History S_Hex
  S_Logout L_Base L_Hex L_Hist10 L_Hist11 L_Logout2 P_Grant P_History.

(** ** The history used in the examples *)

(** Diana logs in at c1, which redeems its code and gets an ID token, and then
    at c2; Bob logs in at c1. *)
Definition areq_for (c : string) : areq :=
  mk_areq c (Some "https://rp.example.com/cb") ["code"] (Some ["openid"; "email"; "offline_access"])
    (Some "state") (Some "nonce") None None None "" None None None [].
Definition login_at (t : Z) (u c : string) : list event -> op := fun _ =>
  OLogin t true (areq_for c) u "password" (Some 3600%Z) (Some "https://rp.example.com/cb").
Definition visits : list (list event -> op) := [
  login_at 1000 "diana" "c1";
  fun evs => OParse 1001 "c1" (hex_code_req (last_code evs));
  fun _ => OProcess 1002 0 None;
  login_at 1003 "diana" "c2";
  login_at 1004 "bob" "c1" ].
Definition visits_end : hst := run_end demo_env visits.
Definition some_sid (p : list string) : string := encrypted_session_id hex_crypto "skey" "r1" 1 p.
Definition grants_in (h : hst) : list (string * bool * nat) :=
  flat_map (fun o => match o with OGrant g => [(g_id g, g_revoked g, List.length (g_tokens g))] | _ => [] end)
    (s_heap (h_st h)).
Definition grant_no (h : hst) (l : nat) : grant :=
  match nth_error (s_heap (h_st h)) l with Some (OGrant g) => g | _ => the_grant h end.
Example visits_history : history demo_env (run_ops demo_env visits) (run_evs demo_env visits) visits_end.
Proof. apply run_history. vm_compute. reflexivity. Qed.
Definition diana_c1 : string := some_sid ["diana"; "c1"; "u0"].
Definition diana_c2 : string := some_sid ["diana"; "c2"; "u14"].
Definition bob_c1 : string := some_sid ["bob"; "c1"; "u19"].

(** ** C15: a revoked client session stays revoked *)

(** Revoking the session of user [u] with client [c] revokes the record of that
    session and all its grants. They are revoked after any further calls, and
    the grants have got no further token. *)
Theorem C15_revoked_session_final : forall e ops1 evs1 h now sid u c rest ops2 evs2 h',
  laws e -> history e ops1 evs1 h ->
  dec_sid e sid = Ok (u :: c :: rest) -> good_id c ->
  Forall (proper e) ops2 ->
  exec e h (ORevokeClient now sid :: ops2) = (EvDone (Ok tt) :: evs2, h') ->
  ended h h' u c /\ record_revoked h h' u c.
Proof.
  exact (fun e ops1 evs1 h now sid u c rest ops2 evs2 h' W =>
    revoked_session_final e W ops1 evs1 h now sid u c rest ops2 evs2 h').
Qed.
Print Assumptions C15_revoked_session_final.

(** Asked about the session of [u] with [c], by any session id for it, the
    provider says that it is revoked, as long as no session is removed. *)
Theorem C15_reports_revoked : forall e ops1 evs1 h now sid u c rest ops2 evs2 h' sid' g b s,
  laws e -> history e ops1 evs1 h ->
  dec_sid e sid = Ok (u :: c :: rest) ->
  Forall (proper e) ops2 -> (forall o, In o ops2 -> ~ deletes o) ->
  exec e h (ORevokeClient now sid :: ops2) = (EvDone (Ok tt) :: evs2, h') ->
  dec_sid3 e sid' = Ok (u, c, g) -> client_session_is_revoked e sid' (h_st h') = (Ok b, s) ->
  b = true.
Proof.
  exact (fun e ops1 evs1 h now sid u c rest ops2 evs2 h' sid' g b s W =>
    revoked_session_reports e W ops1 evs1 h now sid u c rest ops2 evs2 h' sid' g b s).
Qed.
Print Assumptions C15_reports_revoked.

(** It does answer, if the user's name is not itself a session id. *)
Theorem C15_answers_revoked : forall e ops1 evs1 h now sid u c rest ops2 evs2 h' sid' g,
  laws e -> history e ops1 evs1 h ->
  dec_sid e sid = Ok (u :: c :: rest) -> (forall p, dec_sid e u <> Ok p) ->
  Forall (proper e) ops2 -> (forall o, In o ops2 -> ~ deletes o) ->
  exec e h (ORevokeClient now sid :: ops2) = (EvDone (Ok tt) :: evs2, h') ->
  dec_sid3 e sid' = Ok (u, c, g) ->
  client_session_is_revoked e sid' (h_st h') = (Ok true, h_st h').
Proof.
  exact (fun e ops1 evs1 h now sid u c rest ops2 evs2 h' sid' g W =>
    revoked_session_answers e W ops1 evs1 h now sid u c rest ops2 evs2 h' sid' g).
Qed.
Print Assumptions C15_answers_revoked.

(** The call changes the record of that session and grants of that user and
    client, and nothing else. *)
Theorem C15_others_unaffected : forall e ops1 evs1 h now sid u c rest h1,
  laws e -> history e ops1 evs1 h ->
  dec_sid e sid = Ok (u :: c :: rest) -> good_id c ->
  step e h (ORevokeClient now sid) = (EvDone (Ok tt), h1) ->
  confined e h h1 (fun u' c' => u' = u /\ c' = c).
Proof.
  exact (fun e ops1 evs1 h now sid u c rest h1 W =>
    revoked_session_confined e W ops1 evs1 h now sid u c rest h1).
Qed.
Print Assumptions C15_others_unaffected.

(** Diana's session with c1 is revoked; c1 tries to refresh, and Diana logs in
    there again. *)
Definition after_revoke : list (list event -> op) := [
  fun _ => ORevokeClient 1010 diana_c1;
  fun evs => OParse 1011 "c1" (hex_refresh_req (answered_refresh (run_evs demo_env visits)) None);
  fun _ => OProcess 1012 1 None;
  login_at 1013 "diana" "c1" ].
Definition relogin : list (list event -> op) := visits ++ after_revoke.
Definition relogin_end : hst := run_end demo_env relogin.
Example C15_history_example :
  history demo_env (run_ops demo_env visits) (run_evs demo_env visits) visits_end
  /\ dec_sid demo_env diana_c1 = Ok ["diana"; "c1"; "u0"] /\ good_id "c1"
  /\ (forall p, dec_sid demo_env "diana" <> Ok p)
  /\ nth_error (run_evs demo_env relogin) 5 = Some (EvDone (Ok tt))
  /\ grants_in visits_end = [("u0", false, 4); ("u14", false, 1); ("u19", false, 1)]
  /\ firstn 3 (grants_in relogin_end) = [("u0", true, 4); ("u14", false, 1); ("u19", false, 1)]
  /\ client_session_is_revoked demo_env diana_c1 (h_st visits_end) = (Ok false, h_st visits_end)
  /\ client_session_is_revoked demo_env diana_c1 (h_st relogin_end) = (Ok true, h_st relogin_end)
  /\ client_session_is_revoked demo_env diana_c2 (h_st relogin_end) = (Ok false, h_st relogin_end)
  /\ client_session_is_revoked demo_env bob_c1 (h_st relogin_end) = (Ok false, h_st relogin_end).
Proof.
  split; [exact visits_history|]. split; [vm_compute; reflexivity|]. split; [apply plain_good; vm_compute; reflexivity|].
  split; [intros p; vm_compute; discriminate|]. do 6 (split; [vm_compute; reflexivity|]). vm_compute. reflexivity.
Qed.

(** Revoking a session does not lock the client out: when the user logs in
    again, the client gets a new grant, which is live, and a code, although the
    client session still says that it is revoked. *)
Theorem C15_new_login_refuted : exists e ops1 evs1 h now sid u c rest ops2 evs2 h' gid g,
  laws e /\ history e ops1 evs1 h /\ dec_sid e sid = Ok (u :: c :: rest) /\ good_id c
  /\ Forall (proper e) ops2
  /\ exec e h (ORevokeClient now sid :: ops2) = (EvDone (Ok tt) :: evs2, h')
  /\ client_session_is_revoked e sid (h_st h') = (Ok true, h_st h')
  /\ session_grant h' u c gid g /\ grant_live g 1010 /\ g_tokens g <> [].
Proof.
  exists demo_env, (run_ops demo_env visits), (run_evs demo_env visits), visits_end, 1010%Z, diana_c1, "diana", "c1", ["u0"].
  pose (ops2 := [login_at 1013 "diana" "c1" []]).
  pose (x := exec demo_env visits_end (ORevokeClient 1010 diana_c1 :: ops2)).
  exists ops2, (tl (fst x)), (snd x), "u24", (grant_no (snd x) 16).
  split; [exact demo_laws|]. split; [exact visits_history|]. split; [vm_compute; reflexivity|].
  split; [apply plain_good; vm_compute; reflexivity|].
  split; [constructor; [split; apply plain_good; vm_compute; reflexivity|constructor]|].
  split; [vm_compute; reflexivity|]. split; [vm_compute; reflexivity|].
  split; [exists 16; split; vm_compute; reflexivity|].
  split; [|vm_compute; discriminate]. vm_compute. repeat split; intros; discriminate.
Qed.
Print Assumptions C15_new_login_refuted.

(** A removed session is forgotten: after the next log-in the client session is
    not revoked. *)
Theorem C15_removed_refuted : exists e ops1 evs1 h now sid u c rest ops2 evs2 h',
  laws e /\ history e ops1 evs1 h /\ dec_sid e sid = Ok (u :: c :: rest) /\ good_id c
  /\ Forall (proper e) ops2
  /\ exec e h (ORevokeClient now sid :: ops2) = (EvDone (Ok tt) :: evs2, h')
  /\ client_session_is_revoked e sid (h_st h') = (Ok false, h_st h').
Proof.
  exists demo_env, (run_ops demo_env visits), (run_evs demo_env visits), visits_end, 1010%Z, bob_c1, "bob", "c1", ["u19"].
  pose (ops2 := [ORemove 1011 bob_c1; login_at 1013 "bob" "c1" []]).
  pose (x := exec demo_env visits_end (ORevokeClient 1010 bob_c1 :: ops2)).
  exists ops2, (tl (fst x)), (snd x).
  split; [exact demo_laws|]. split; [exact visits_history|]. split; [vm_compute; reflexivity|].
  split; [apply plain_good; vm_compute; reflexivity|].
  split; [constructor; [exact Logic.I|constructor; [split; apply plain_good; vm_compute; reflexivity|constructor]]|].
  split; vm_compute; reflexivity.
Qed.
Print Assumptions C15_removed_refuted.

(** ** C41: log-out ends the sessions of the user *)

(** After logging out of one client, the session of the user with that client
    is revoked, with its grants, whatever happens later. *)
Theorem C41_single_final : forall e ops1 evs1 h now sid u c g ms ops2 evs2 h',
  laws e -> history e ops1 evs1 h -> dec_sid3 e sid = Ok (u, c, g) -> Forall (proper e) ops2 ->
  exec e h (OLogout now sid false :: ops2) = (EvLogout (Ok ms) :: evs2, h') ->
  ended h h' u c /\ record_revoked h h' u c.
Proof.
  exact (fun e ops1 evs1 h now sid u c g ms ops2 evs2 h' W =>
    single_final e W ops1 evs1 h now sid u c g ms ops2 evs2 h').
Qed.
Print Assumptions C41_single_final.

Theorem C41_single_reported : forall e ops1 evs1 h now sid u c g ms ops2 evs2 h' sid' g' b s,
  laws e -> history e ops1 evs1 h -> dec_sid3 e sid = Ok (u, c, g) ->
  Forall (proper e) ops2 -> (forall o, In o ops2 -> ~ deletes o) ->
  exec e h (OLogout now sid false :: ops2) = (EvLogout (Ok ms) :: evs2, h') ->
  dec_sid3 e sid' = Ok (u, c, g') -> client_session_is_revoked e sid' (h_st h') = (Ok b, s) ->
  b = true.
Proof.
  exact (fun e ops1 evs1 h now sid u c g ms ops2 evs2 h' sid' g' b s W =>
    single_reports e W ops1 evs1 h now sid u c g ms ops2 evs2 h' sid' g' b s).
Qed.
Print Assumptions C41_single_reported.

(** It changes no other session, and tells the client as it has registered: by
    the back channel, else by the front channel, else not at all. *)
Theorem C41_single_confined : forall e ops1 evs1 h now sid u c g ms h1,
  laws e -> history e ops1 evs1 h -> dec_sid3 e sid = Ok (u, c, g) ->
  step e h (OLogout now sid false) = (EvLogout (Ok ms), h1) ->
  confined e h h1 (fun u' c' => u' = u /\ c' = c)
  /\ exists ci, dget (e_clients e) c = Some ci
    /\ (c_bc_logout ci = true /\ (exists t, ms = [LBack c t] /\ (c <> EmptyString -> logout_token e now c ci sid t))
        \/ c_bc_logout ci = false /\ c_fc_logout ci = true /\ ms = [LFront c sid]
        \/ c_bc_logout ci = false /\ c_fc_logout ci = false /\ ms = []).
Proof.
  exact (fun e ops1 evs1 h now sid u c g ms h1 W => single_told e W ops1 evs1 h now sid u c g ms h1).
Qed.
Print Assumptions C41_single_confined.

(** After logging out everywhere, the session of the user with every client
    that gets a message is revoked, with its grants, whatever happens later. *)
Theorem C41_all_final : forall e ops1 evs1 h now sid u c0 g0 ms ops2 evs2 h' m c,
  laws e -> (forall c ci, dget (e_clients e) c = Some ci -> good_id c) ->
  history e ops1 evs1 h -> dec_sid3 e sid = Ok (u, c0, g0) -> Forall (proper e) ops2 ->
  exec e h (OLogout now sid true :: ops2) = (EvLogout (Ok ms) :: evs2, h') ->
  In m ms -> for_client m c ->
  ended h h' u c /\ record_revoked h h' u c.
Proof.
  exact (fun e ops1 evs1 h now sid u c0 g0 ms ops2 evs2 h' m c W Gc =>
    all_final e W Gc ops1 evs1 h now sid u c0 g0 ms ops2 evs2 h' m c).
Qed.
Print Assumptions C41_all_final.

Theorem C41_all_reported : forall e ops1 evs1 h now sid u c0 g0 ms ops2 evs2 h' m c sid' g' b s,
  laws e -> (forall c ci, dget (e_clients e) c = Some ci -> good_id c) ->
  history e ops1 evs1 h -> dec_sid3 e sid = Ok (u, c0, g0) ->
  Forall (proper e) ops2 -> (forall o, In o ops2 -> ~ deletes o) ->
  exec e h (OLogout now sid true :: ops2) = (EvLogout (Ok ms) :: evs2, h') ->
  In m ms -> for_client m c ->
  dec_sid3 e sid' = Ok (u, c, g') -> client_session_is_revoked e sid' (h_st h') = (Ok b, s) ->
  b = true.
Proof.
  exact (fun e ops1 evs1 h now sid u c0 g0 ms ops2 evs2 h' m c sid' g' b s W Gc =>
    all_reports e W Gc ops1 evs1 h now sid u c0 g0 ms ops2 evs2 h' m c sid' g' b s).
Qed.
Print Assumptions C41_all_reported.

(** It changes no other session than those of this user with the clients that
    get a message. A message goes to the address that the client has
    registered and names the session as an ID token of it did; every client of the
    user that has registered an address and has
    got an ID token in the session gets a message. *)
Theorem C41_all_confined : forall e ops1 evs1 h now sid u c0 g0 ms h1,
  laws e -> (forall c ci, dget (e_clients e) c = Some ci -> good_id c) ->
  history e ops1 evs1 h -> dec_sid3 e sid = Ok (u, c0, g0) ->
  step e h (OLogout now sid true) = (EvLogout (Ok ms), h1) ->
  confined e h h1 (fun u' c => u' = u /\ exists m, In m ms /\ for_client m c)
  /\ (forall m c, In m ms -> for_client m c -> exists ci, dget (e_clients e) c = Some ci
        /\ match m with
           | LBack _ t => c_bc_logout ci = true /\ exists gid sid, dec_sid3 e sid = Ok (u, c, gid)
               /\ in_id_token h u c gid sid /\ logout_token e now c ci sid t
           | LFront _ sid => c_bc_logout ci = false /\ c_fc_logout ci = true
               /\ exists gid, dec_sid3 e sid = Ok (u, c, gid) /\ in_id_token h u c gid sid
           end)
  /\ (forall c ci gid g t, session_grant h u c gid g -> dget (e_clients e) c = Some ci ->
        c_bc_logout ci || c_fc_logout ci = true -> In t (g_tokens g) -> t_class t = "id_token" ->
        exists m, In m ms /\ for_client m c).
Proof.
  exact (fun e ops1 evs1 h now sid u c0 g0 ms h1 W Gc => all_told e W Gc ops1 evs1 h now sid u c0 g0 ms h1).
Qed.
Print Assumptions C41_all_confined.

(** Diana logs out everywhere: c1 gets a message, and its session is revoked.
    Bob's session with c1 is not. *)
Definition out_all : list (list event -> op) := visits ++ [fun _ => OLogout 1010 diana_c1 true].
Definition out_one : list (list event -> op) := visits ++ [fun _ => OLogout 1010 diana_c2 false].
Example C41_example :
  history demo_env (run_ops demo_env visits) (run_evs demo_env visits) visits_end
  /\ dec_sid3 demo_env diana_c1 = Ok ("diana", "c1", "u0")
  /\ dec_sid3 demo_env diana_c2 = Ok ("diana", "c2", "u14")
  /\ (exists t, nth_error (run_evs demo_env out_all) 5 = Some (EvLogout (Ok [LBack "c1" t])))
  /\ nth_error (run_evs demo_env out_one) 5 = Some (EvLogout (Ok []))
  /\ grants_in (run_end demo_env out_all) = [("u0", true, 4); ("u14", false, 1); ("u19", false, 1)]
  /\ grants_in (run_end demo_env out_one) = [("u0", false, 4); ("u14", true, 1); ("u19", false, 1)].
Proof.
  split; [exact visits_history|]. do 2 (split; [vm_compute; reflexivity|]).
  split; [eexists; vm_compute; reflexivity|]. do 2 (split; [vm_compute; reflexivity|]). vm_compute. reflexivity.
Qed.
Example C41_example_clients : forall c ci, dget (e_clients demo_env) c = Some ci -> good_id c.
Proof.
  intros c ci. cbn [demo_env hex_env toy_env e_clients dget]. intros H. apply plain_good.
  destruct (String.eqb c "c1") eqn:A; [apply seqb_eq in A; subst; vm_compute; reflexivity|].
  destruct (String.eqb c "c2") eqn:B; [apply seqb_eq in B; subst; vm_compute; reflexivity|]. discriminate H.
Qed.

(** Logging out everywhere does not end every session of the user: a client
    without a log-out address keeps its grants. *)
Theorem C41_everywhere_refuted : exists e ops1 evs1 h now sid u c0 g0 ms h1 c gid g,
  laws e /\ history e ops1 evs1 h /\ dec_sid3 e sid = Ok (u, c0, g0)
  /\ step e h (OLogout now sid true) = (EvLogout (Ok ms), h1)
  /\ session_grant h1 u c gid g /\ grant_live g 1010 /\ g_tokens g <> [].
Proof.
  pose (x := step demo_env visits_end (OLogout 1010 diana_c1 true)).
  exists demo_env, (run_ops demo_env visits), (run_evs demo_env visits), visits_end, 1010%Z, diana_c1, "diana", "c1", "u0".
  exists (match fst x with EvLogout (Ok ms) => ms | _ => [] end), (snd x), "c2", "u14", (grant_no (snd x) 8).
  split; [exact demo_laws|]. split; [exact visits_history|]. split; [vm_compute; reflexivity|].
  split; [vm_compute; reflexivity|]. split; [exists 8; split; vm_compute; reflexivity|].
  split; [|vm_compute; discriminate]. vm_compute. repeat split; intros; discriminate.
Qed.
Print Assumptions C41_everywhere_refuted.

(** Nor does it end the session it is called with, if the client has no ID token
    yet: Bob logs out everywhere, and his code at c1 stays good. *)
Theorem C41_own_session_refuted : exists e ops1 evs1 h now sid u c gid h1 g,
  laws e /\ history e ops1 evs1 h /\ dec_sid3 e sid = Ok (u, c, gid)
  /\ step e h (OLogout now sid true) = (EvLogout (Ok []), h1)
  /\ session_grant h1 u c gid g /\ grant_live g 1010 /\ g_tokens g <> [].
Proof.
  pose (x := step demo_env visits_end (OLogout 1010 bob_c1 true)).
  exists demo_env, (run_ops demo_env visits), (run_evs demo_env visits), visits_end, 1010%Z, bob_c1, "bob", "c1", "u19".
  exists (snd x), (grant_no (snd x) 14).
  split; [exact demo_laws|]. split; [exact visits_history|]. split; [vm_compute; reflexivity|].
  split; [vm_compute; reflexivity|]. split; [exists 14; split; vm_compute; reflexivity|].
  split; [|vm_compute; discriminate]. vm_compute. repeat split; intros; discriminate.
Qed.
Print Assumptions C41_own_session_refuted.
