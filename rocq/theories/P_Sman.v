(** Property theorems about session management (C63). *)
From Verif Require Import M_Base M_Types M_Codec M_Grant M_Env M_Session M_Claims M_Handler
  M_Authz M_TokenEP M_PKCE M_AuthzEP M_Info M_Logout M_Uri M_Cookie M_Authn M_History M_Browser M_Sman
  S_Codec S_Redirect S_Grant S_Toy S_History S_Hex S_Cookie S_Browser S_Sman
  L_Base L_Hex L_Cookie L_Sman P_History P_Logout P_Cookie P_Authn P_Browser.

(** The state told in a response is about the client of the request, the origin of
    the address that the response goes to, and the cookie that the browser has
    after it. *)
Theorem C63_state_fits : forall S K e m o ev m' b ar iframe salt ss,
  sman_laws S K -> fair_salt o -> mstep S K e m o = (ev, m') -> requests o b ar iframe salt -> me_state ev = Some ss ->
  exists out u, response_in ev out /\ goes_to ar out u /\ me_cookie ev = Some (opbs_of m' b)
    /\ forall origin, origin_of u origin -> unchanged S (ar_client_id ar) origin (opbs_of m' b) ss.
Proof. exact step_state. Qed.
Print Assumptions C63_state_fits.

(** Every response that is not an error, and not delivered as a form, tells a
    state if the provider offers the frame; the cookie comes with all that are not
    errors. Without the frame there is neither. *)
Theorem C63_when_told : forall S K e m o ev m' b ar iframe salt out a,
  sman_laws S K -> mstep S K e m o = (ev, m') -> requests o b ar iframe salt -> response_in ev out -> ao_args out = Good a ->
  ((exists ss, me_state ev = Some ss) <-> iframe = true /\ ao_form out = false)
  /\ ((exists v, me_cookie ev = Some v) <-> iframe = true).
Proof. exact step_presence. Qed.
Print Assumptions C63_when_told.

(** A state says "unchanged" for one client, one origin and one cookie only. *)
Theorem C63_one_client : forall S K client origin v client' origin' v' ss, sman_laws S K ->
  ~ occurs_in " " client -> ~ occurs_in " " client' -> ~ occurs_in " " origin -> ~ occurs_in " " origin' ->
  unchanged S client origin v ss -> unchanged S client' origin' v' ss -> client = client' /\ origin = origin' /\ v = v'.
Proof. exact unchanged_all. Qed.
Print Assumptions C63_one_client.

(** A state that was told in a browser is unchanged there exactly as long as the
    browser gets no new cookie: by another response, for whichever client, or by
    a log-out. *)
Theorem C63_until_next : forall S K e ops evs m j b client origin ss,
  sman_laws S K -> mhistory S K e ops evs m -> one_by_one ops b -> told_state ops evs j b client origin ss ->
  (unchanged S client origin (opbs_of m b) ss <-> forall k, j < k -> ~ new_cookie_at ops evs k b).
Proof. exact (fun S K e ops evs m j b c og ss W '(ex_intro _ al H) => current S K e W _ ops evs m j b c og ss H). Qed.
Print Assumptions C63_until_next.

(** After a log-out without frames for the front channel no state that was told in
    the browser is unchanged, for whichever client, and the browser has no session
    cookie. *)
Theorem C63_log_out_noticed : forall S K e ops evs m o ev m' b,
  sman_laws S K -> mhistory S K e ops evs m -> mstep S K e m o = (ev, m') -> logged_out o ev b ->
  (forall j client origin ss, told_state ops evs j b client origin ss -> ~ unchanged S client origin (opbs_of m' b) ss)
  /\ jar (m_b m') b = [].
Proof.
  exact (fun S K e ops evs m o ev m' b W '(ex_intro _ al H) St Lo =>
    conj (fun j c og ss T => log_out_noticed S K e W _ ops evs m o ev m' j b c og ss H St Lo T)
         (proj2 (proj2 (logged_out_value S K e m o ev m' b St Lo)))).
Qed.
Print Assumptions C63_log_out_noticed.

(** ** Examples *)

Definition toy_sm : smconf := mk_smconf hex hex "oidc_op_sman".
Lemma toy_sman : sman_laws toy_sm brace_K.
Proof.
  constructor.
  - intros x O. cbn [toy_sm sm_hash] in O. eapply (hex_occurs "." (hex x)); [reflexivity| |exact O].
    eapply (unhex_all _ _ x (le_n _)). apply unhex_hex.
  - intros x y. exact (hex_inj x y).
  - intros d. cbn [ac_dumps brace_K]. destruct (S_Jws.ser (JObj d)); discriminate.
Qed.

Fixpoint mrun (e : env) (m : mst) (ops : list mop) : list mevent * mst :=
  match ops with
  | [] => ([], m)
  | o :: r => let (ev, m1) := mstep toy_sm brace_K e m o in
              let (evs, m2) := mrun e m1 r in (ev :: evs, m2)
  end.
Lemma mrun_future e ops : forall m0 ops0 evs0 m, Forall fair_salt ops -> mfuture toy_sm brace_K e m0 ops0 evs0 m ->
  mfuture toy_sm brace_K e m0 (ops0 ++ ops) (evs0 ++ fst (mrun e m ops)) (snd (mrun e m ops)).
Proof.
  induction ops as [|o ops IH]; intros m0 ops0 evs0 m F H.
  - cbn [mrun fst snd]. rewrite !app_nil_r. exact H.
  - inversion F as [|? ? F1 F2]; subst. cbn [mrun]. destruct (mstep toy_sm brace_K e m o) as [ev m1] eqn:E.
    specialize (IH m0 _ _ m1 F2 (mf_more _ _ _ _ _ _ _ _ _ _ H F1 E)).
    destruct (mrun e m1 ops) as [evs m2]. cbn [fst snd] in IH |- *. rewrite <- !app_assoc in IH. exact IH.
Qed.
Lemma mrun_history e ops : Forall fair_salt ops ->
  mhistory toy_sm brace_K e ops (fst (mrun e (m_init []) ops)) (snd (mrun e (m_init []) ops)).
Proof. intros F. exists []. exact (mrun_future e ops _ [] [] _ F (mf_same _ _ _ _)). Qed.

(** Log-ins of the users with a browser, for a client at rp.example.com, and a
    log-out. *)
Definition rp_uri : string := "https://rp.example.com/cb".
Definition signs_in (b : string) (t : Z) (u c : string) : mop :=
  MLogin b t true (areq_for c) u "password" (Some 3600%Z) "iv1" (Some rp_uri) "iv2" "Salt1" t.
Definition signs_out (b : string) (t : Z) (sid : string) : mop := MLogout b t sid false.
Lemma signs_fair b t u c : fair_salt (signs_in b t u c).
Proof. cbn. apply no_char. reflexivity. Qed.

Definition day : list mop := [signs_in "b1" 1000 "diana" "c1"; signs_in "b2" 1010 "bob" "c1"].
Definition day_end (e : env) : list mevent * mst := mrun e (m_init []) day.
Lemma day_history e : mhistory toy_sm brace_K e day (fst (day_end e)) (snd (day_end e)).
Proof. apply mrun_history. repeat constructor; apply signs_fair. Qed.

Definition first_state (evs : list mevent) : string :=
  match evs with ev :: _ => match me_state ev with Some s => s | None => "" end | [] => "" end.
Definition out_at (evs : list mevent) (j : nat) : option (aout * option cookie) :=
  match nth_error evs j with
  | Some ev => match me_ev ev with Ok (BDone (Ok p)) => Some p | _ => None end
  | None => None
  end.
Lemma rp_origin : origin_of rp_uri "https://rp.example.com".
Proof.
  exists "https", "rp.example.com". split; [|reflexivity]. exists "/cb".
  do 4 (split; [reflexivity || discriminate|]). split; [reflexivity|].
  do 3 (split; [apply no_char; reflexivity|]). right. exists "cb". left. reflexivity.
Qed.
(** Checking that a state was told. *)
Lemma told_ok ops evs j b t u c ev out ck : nth_error ops j = Some (signs_in b t u c) ->
  nth_error evs j = Some ev -> me_ev ev = Ok (BDone (Ok (out, ck))) -> ao_uri out = Some rp_uri ->
  forall ss, me_state ev = Some ss -> told_state ops evs j b c "https://rp.example.com" ss.
Proof.
  intros N1 N2 E U ss Es. exists (signs_in b t u c), ev, (areq_for c), true, "Salt1", out, rp_uri.
  split; [exact N1|]. split; [exact N2|]. split; [cbn; auto|]. split; [reflexivity|]. split; [exists ck; right; exact E|].
  split; [left; exact U|]. split; [exact rp_origin|exact Es].
Qed.
Definition ev_at (evs : list mevent) (j : nat) : mevent := nth j evs (mk_mevent (Raise KeyError) None None).
Lemma told_by e j b t u c ops : nth_error ops j = Some (signs_in b t u c) ->
  match me_ev (ev_at (fst (mrun e (m_init []) ops)) j), me_state (ev_at (fst (mrun e (m_init []) ops)) j) with
  | Ok (BDone (Ok (out, _))), Some _ => match ao_uri out with Some x => String.eqb x rp_uri | None => false end
  | _, _ => false
  end = true ->
  List.length ops = List.length (fst (mrun e (m_init []) ops)) ->
  exists ss, told_state ops (fst (mrun e (m_init []) ops)) j b c "https://rp.example.com" ss
    /\ me_state (ev_at (fst (mrun e (m_init []) ops)) j) = Some ss.
Proof.
  generalize (fst (mrun e (m_init []) ops)). intros evs N H L.
  assert (nth_error evs j = Some (ev_at evs j)) as N2.
  { apply nth_error_nth'. rewrite <- L. apply nth_error_Some. congruence. }
  destruct (me_ev (ev_at evs j)) as [[| [[out ck]|]|]|] eqn:E1; try discriminate.
  destruct (me_state (ev_at evs j)) as [ss|] eqn:E2; [|discriminate]. exists ss. split; [|reflexivity].
  destruct (ao_uri out) as [x|] eqn:E3; [|discriminate]. apply String.eqb_eq in H. subst x.
  eapply told_ok; eauto.
Qed.

(** Diana logs in with the first browser at the client c1, Bob with the second:
    Diana's state is unchanged, until Diana logs out. *)
Definition diana_out : mevent * mst := mstep toy_sm brace_K demo_env (snd (day_end demo_env)) (signs_out "b1" 1200 diana_c1).
Example C63_example : exists ss,
  told_state day (fst (day_end demo_env)) 0 "b1" "c1" "https://rp.example.com" ss
  /\ one_by_one day "b1"
  /\ unchanged toy_sm "c1" "https://rp.example.com" (opbs_of (snd (day_end demo_env)) "b1") ss
  /\ logged_out (signs_out "b1" 1200 diana_c1) (fst diana_out) "b1".
Proof.
  destruct (told_by demo_env 0 "b1" 1000 "diana" "c1" day) as (ss & T & _);
    [reflexivity|vm_compute; reflexivity|vm_compute; reflexivity|].
  assert (one_by_one day "b1") as O.
  { intros [|[|i]] [|[|j]] oi oj L Ni Nj Fi Fj; try lia; cbn in Ni, Nj; try (destruct i; discriminate); try (destruct j; discriminate).
    injection Nj as <-. cbn in Fj. discriminate. }
  exists ss. split; [exact T|]. split; [exact O|]. split.
  - apply (proj2 (C63_until_next _ _ _ _ _ _ _ _ _ _ _ toy_sman (day_history demo_env) O T)).
    intros k L (o & ev & v & N & _ & Fb & _). destruct k as [|[|k]]; [lia| |destruct k; discriminate].
    cbn in N. injection N as <-. discriminate Fb.
  - eexists 1200%Z, diana_c1, false, _. split; [reflexivity|]. split; [vm_compute; reflexivity|].
    intros c s [I|[]]. discriminate I.
Qed.

(** "The state is unchanged as long as the user does not log out" is false: here
    Diana logs in at a second client, with the same browser. Nobody has logged out
    and the grant for the first client is live; yet the first client's state is
    changed. *)
Definition two_clients : list mop := [signs_in "b1" 1000 "diana" "c1"; signs_in "b1" 1100 "diana" "c2"].
Definition two_end : list mevent * mst := mrun demo_env (m_init []) two_clients.
Theorem C63_still_logged_in_refuted : exists S K e ops evs m b client origin ss gid g,
  sman_laws S K /\ laws e /\ mhistory S K e ops evs m /\ one_by_one ops b
  /\ told_state ops evs 0 b client origin ss
  /\ (forall o, In o ops -> exists t i ar acr ei iv uri iv' salt at_, o = MLogin b t i ar "diana" acr ei iv uri iv' salt at_)
  /\ grant_of (b_h (m_b m)) gid g /\ belongs e g "diana" client /\ grant_live g 1100
  /\ ~ unchanged S client origin (opbs_of m b) ss.
Proof.
  destruct (told_by demo_env 0 "b1" 1000 "diana" "c1" two_clients) as (ss & T & _);
    [reflexivity|vm_compute; reflexivity|vm_compute; reflexivity|].
  assert (mhistory toy_sm brace_K demo_env two_clients (fst two_end) (snd two_end)) as H.
  { apply mrun_history. repeat constructor; apply signs_fair. }
  assert (one_by_one two_clients "b1") as O.
  { intros [|[|i]] [|[|j]] oi oj L Ni Nj Fi Fj; try lia; cbn in Ni, Nj; try (destruct i; discriminate); try (destruct j; discriminate).
    injection Ni as <-. injection Nj as <-. reflexivity. }
  exists toy_sm, brace_K, demo_env, two_clients, (fst two_end), (snd two_end), "b1", "c1", "https://rp.example.com", ss.
  exists "u0", (grant_no (b_h (m_b (snd two_end))) 4).
  split; [exact toy_sman|]. split; [exact demo_laws|]. split; [exact H|]. split; [exact O|]. split; [exact T|]. split.
  { intros o [<-|[<-|[]]]; do 10 eexists; reflexivity. }
  split; [exists 4; split; vm_compute; reflexivity|]. split.
  { eexists _, _. do 4 (split; [vm_compute; reflexivity|]). vm_compute. reflexivity. }
  split; [vm_compute; intuition congruence|].
  intros U. apply (proj1 (C63_until_next _ _ _ _ _ _ _ _ _ _ _ toy_sman H O T) U 1); [lia|].
  eexists _, (ev_at (fst two_end) 1), _. split; [reflexivity|]. split; [vm_compute; reflexivity|].
  split; [reflexivity|]. vm_compute. reflexivity.
Qed.
Print Assumptions C63_still_logged_in_refuted.

(** "After a log-out no state is unchanged" is false without the condition about
    the front channel: if a client with a front-channel log-out address is logged
    out, the web application of the examples does not take the cookies away. All
    grants of Diana with the client are revoked, and the state is unchanged. *)
Definition front_env : env := let e := demo_env in {|
  e_oidc := e_oidc e; e_limit := e_limit e; e_crypto := e_crypto e; e_skey := e_skey e;
  e_sign := e_sign e; e_verify := e_verify e; e_peek := e_peek e; e_left_hash := e_left_hash e;
  e_uuid := e_uuid e; e_rnd := e_rnd e; e_issuer := e_issuer e;
  e_handlers := e_handlers e; e_modules := e_modules e;
  e_clients := [("c1", mk_client (Some [CODE; REFRESH]) None None None None [] None false true)];
  e_users := e_users e; e_scopes := e_scopes e; e_scope_map := e_scope_map e;
  e_grant_types := e_grant_types e; e_helpers := e_helpers e; e_authz := e_authz e;
  e_implicit := e_implicit e; e_sub := e_sub e; e_revoke_refresh := e_revoke_refresh e;
  e_dpop := e_dpop e; e_dpop_info := e_dpop_info e; e_idt_alg_def := e_idt_alg_def e;
  e_idt_algs := e_idt_algs e; e_bc_sid := e_bc_sid e; e_fc_sid := e_fc_sid e;
  e_pkce := e_pkce e; e_cc_hash := e_cc_hash e
|}.
Lemma front_laws : laws front_env.
Proof. destruct demo_laws; constructor; assumption. Qed.
Definition front_day : list mop := [signs_in "b1" 1000 "diana" "c1"; signs_out "b1" 1200 diana_c1].
Definition front_end : list mevent * mst := mrun front_env (m_init []) front_day.
Definition no_live (h : hst) (u c : string) : bool :=
  forallb (fun o => match o with
    | OGrant g => match g_areq g, g_aevent g with
                  | Some ar, Some ae => negb (String.eqb (ar_client_id ar) c && String.eqb (ae_uid ae) u) || g_revoked g
                  | _, _ => true
                  end
    | _ => true
    end) (s_heap (h_st h)).
Lemma no_live_ok e h u c : no_live h u c = true -> all_revoked e h u c.
Proof.
  intros H gid g (l & N & Eg) (ar & ae & Ea & Ec & Ee & Eu & _). unfold no_live in H. rewrite forallb_forall in H.
  specialize (H _ (nth_error_In _ _ N)). cbv beta iota in H. rewrite Ea, Ee, Ec, Eu, !String.eqb_refl in H. exact H.
Qed.
Theorem C63_front_channel_refuted : exists S K e ops evs m b client origin ss ms,
  sman_laws S K /\ laws e /\ mhistory S K e ops evs m /\ one_by_one ops b
  /\ told_state ops evs 0 b client origin ss
  /\ (exists t sid ev, nth_error ops 1 = Some (MLogout b t sid false) /\ nth_error evs 1 = Some ev
        /\ me_ev ev = Ok (BEv (EvLogout (Ok ms))))
  /\ all_revoked e (b_h (m_b m)) "diana" client
  /\ unchanged S client origin (opbs_of m b) ss.
Proof.
  destruct (told_by front_env 0 "b1" 1000 "diana" "c1" front_day) as (ss & T & _);
    [reflexivity|vm_compute; reflexivity|vm_compute; reflexivity|].
  assert (mhistory toy_sm brace_K front_env front_day (fst front_end) (snd front_end)) as H.
  { apply mrun_history. constructor; [apply signs_fair|]. constructor; [exact Logic.I|constructor]. }
  assert (one_by_one front_day "b1") as O.
  { intros [|[|i]] [|[|j]] oi oj L Ni Nj Fi Fj; try lia; cbn [nth_error front_day] in Ni, Nj; try (destruct i; discriminate); try (destruct j; discriminate).
    injection Ni as <-. injection Nj as <-. reflexivity. }
  exists toy_sm, brace_K, front_env, front_day, (fst front_end), (snd front_end), "b1", "c1", "https://rp.example.com", ss.
  eexists.
  split; [exact toy_sman|]. split; [exact front_laws|]. split; [exact H|]. split; [exact O|]. split; [exact T|]. split.
  { eexists _, _, (ev_at (fst front_end) 1). split; [reflexivity|]. split; vm_compute; reflexivity. }
  split; [apply no_live_ok; vm_compute; reflexivity|].
  apply (proj2 (C63_until_next _ _ _ _ _ _ _ _ _ _ _ toy_sman H O T)).
  intros k L (o & ev & v & N & N' & Fb & E). destruct k as [|[|k]]; [lia| |clear - N; destruct k; discriminate N].
  clear N T H O L Fb.
  assert (me_cookie (ev_at (fst front_end) 1) = None) as X by (vm_compute; reflexivity).
  assert (ev_at (fst front_end) 1 = ev) as Y by (unfold ev_at; apply nth_error_nth; exact N').
  rewrite Y in X. rewrite X in E. clear - E. discriminate E.
Qed.
Print Assumptions C63_front_channel_refuted.
