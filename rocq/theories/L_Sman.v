(** Lemmas on session management. *)
From Verif Require Import M_Base M_Types M_Codec M_Grant M_Env M_Session M_Claims M_Handler
  M_Authz M_TokenEP M_PKCE M_AuthzEP M_Info M_Logout M_Uri M_Cookie M_Authn M_History M_Browser M_Sman
  S_Codec S_Redirect S_Sman L_Base L_Split L_Uri L_Monad L_Cookie L_Browser.

Lemma no_char c s : ~ occurs_in (String c "") s <-> has_char c s = false.
Proof. rewrite (occurs_char c). destruct (has_char c s); split; congruence. Qed.

(** ** Texts with a separator *)
Lemma split_same c a b a' b' : has_char c a = false -> has_char c a' = false ->
  append a (String c b) = append a' (String c b') -> a = a' /\ b = b'.
Proof.
  intros H H' E. pose proof (split1_app c a b H) as S1. rewrite E, (split1_app c a' b' H') in S1.
  injection S1 as -> ->. auto.
Qed.

(** ** The state *)
Lemma origin_split u scheme host : address u scheme host ->
  forall p, urlsplit u = Ok p -> us_scheme p = scheme /\ us_netloc p = host.
Proof.
  intros (rest & E & V & N1 & N2 & N3 & H1 & H2 & H3 & R) p U. unfold urlsplit in U.
  change (remove_chars unsafe_char u) with (visible u) in U. rewrite V, E in U.
  unfold split_scheme in U. change (append "://" (append host rest)) with (String ":" (append "//" (append host rest))) in U.
  rewrite split1_app in U by (apply scheme_no_colon; exact N2).
  assert (str_true scheme = true) as T by (apply str_true_ne; exact N1). rewrite T, N2, N3 in U. cbn [andb] in U.
  unfold split_netloc in U. change (starts_with "//" (append "//" (append host rest))) with true in U. cbn iota in U.
  change (drop 2 (append "//" (append host rest))) with (append host rest) in U.
  rewrite cut_at_here in U.
  - destruct (Bool.eqb (has_char "[" host) (has_char "]" host)); [|discriminate].
    destruct (split_or "#" rest) as [r3 frag]. destruct (split_or "?" r3) as [path query].
    injection U as <-. auto.
  - intros c Hc. unfold netloc_end. apply no_char in H1, H2, H3.
    destruct (Ascii.eqb c "/") eqn:E1; [apply Ascii.eqb_eq in E1; congruence|].
    destruct (Ascii.eqb c "?") eqn:E2; [apply Ascii.eqb_eq in E2; congruence|].
    destruct (Ascii.eqb c "#") eqn:E3; [apply Ascii.eqb_eq in E3; congruence|]. reflexivity.
  - destruct R as [->|(r & [->|[->| ->]])]; [left; reflexivity|right..]; eexists; eexists; (split; [reflexivity|reflexivity]).
Qed.

Lemma state_unchanged S opbs salt client u ss origin : ~ occurs_in "." salt -> origin_of u origin ->
  compute_session_state S opbs salt client u = Ok ss -> unchanged S client origin opbs ss.
Proof.
  intros N (scheme & host & A & ->) H. unfold compute_session_state in H.
  apply rbind_okc in H as (p & U & E). destruct (origin_split _ _ _ A _ U) as [E1 E2]. rewrite E1, E2 in E.
  injection E as <-. exists salt. auto.
Qed.

Lemma salt_of S K x salt y salt' : sman_laws S K ->
  append (sm_hash S x) (append "." salt) = append (sm_hash S y) (append "." salt') -> x = y /\ salt = salt'.
Proof.
  intros W E. change (append "." salt) with (String "." salt) in E. change (append "." salt') with (String "." salt') in E.
  apply split_same in E as [E1 E2]; [|apply no_char, (sl_dots _ _ W)..]. apply (sl_inj _ _ W) in E1. auto.
Qed.

Lemma app_cancel_l a b c : append a b = append a c -> b = c.
Proof. induction a as [|x a IH]; cbn; [auto|]. intros [= E]. auto. Qed.
Lemma app_cancel_r a b c : append a c = append b c -> a = b.
Proof. intros E. exact (proj1 (app_same_len _ _ _ _ E eq_refl)). Qed.

Lemma unchanged_cookie S K client origin v v' ss : sman_laws S K ->
  unchanged S client origin v ss -> unchanged S client origin v' ss -> v = v'.
Proof.
  intros W (salt & _ & E) (salt' & _ & E'). rewrite E in E'. apply (salt_of _ _ _ _ _ _ W) in E' as [E' <-].
  apply app_cancel_l in E'. apply (app_cancel_l " ") in E'. apply app_cancel_l in E'. apply (app_cancel_l " ") in E'.
  now apply app_cancel_r in E'.
Qed.
Lemma unchanged_all S K client origin v client' origin' v' ss : sman_laws S K ->
  ~ occurs_in " " client -> ~ occurs_in " " client' -> ~ occurs_in " " origin -> ~ occurs_in " " origin' ->
  unchanged S client origin v ss -> unchanged S client' origin' v' ss -> client = client' /\ origin = origin' /\ v = v'.
Proof.
  intros W N1 N2 N3 N4 (salt & _ & E) (salt' & _ & E'). rewrite E in E'. apply (salt_of _ _ _ _ _ _ W) in E' as [E' <-].
  apply no_char in N1, N2, N3, N4. apply (split_same " ") in E' as [-> E']; [|assumption..].
  apply (split_same " ") in E' as [-> E']; [|assumption..]. apply app_cancel_r in E'. auto.
Qed.

(** ** The cookie *)
Lemma management_value S K now iv t c : sman_laws S K -> management_cookie S K now iv t = Ok c ->
  exists r, ck_value c = Some (append (show_Z now) (append "|" r)).
Proof.
  intros W H. unfold management_cookie, make_cookie_content in H.
  set (value := ac_dumps K _) in H. assert (str_true value = true) as T by (apply str_true_ne, (sl_text _ _ W)). rewrite T in H.
  cbn [negb andb] in H. apply rbind_okc in H as (v & H & E). injection E as <-. cbn [ck_value].
  change (time_or_now "" (show_Z now)) with (show_Z now) in H. unfold sign_enc_payload in H.
  assert (time_or_now (show_Z now) (show_Z now) = show_Z now) as Et by (unfold time_or_now; destruct (str_true (show_Z now)); reflexivity).
  rewrite Et in H. destruct (ch_enc (ac_handler K)) as [k|].
  - destruct (enc_key_size k); [|discriminate].
    destruct (cl_enc _ _ _ _) as [ctx tg]. injection H as <-. eexists. reflexivity.
  - injection H as <-. eexists. reflexivity.
Qed.

Lemma manage_ok S K now iv salt t iframe ar o ss ck : sman_laws S K ->
  manage S K now iv salt t iframe ar o = Ok (ss, ck) ->
  (ss = None /\ ck = None /\ iframe && went_through o = false) \/
  exists r u s, iframe && went_through o = true /\ ck = Some (append (show_Z now) (append "|" r)) /\ goes_to ar o u
    /\ compute_session_state S (append (show_Z now) (append "|" r)) salt (ar_client_id ar) u = Ok s
    /\ ss = if ao_session_state o then Some s else None.
Proof.
  intros W H. unfold manage in H. destruct (iframe && went_through o); [right|left; injection H as <- <-; auto].
  apply rbind_okc in H as (c & H1 & H). destruct (management_value _ _ _ _ _ _ W H1) as (r & Er). rewrite Er in H.
  cbn [rbind] in H. apply rbind_okc in H as (u & Eu & H). apply rbind_okc in H as (s & Es & H). injection H as <- <-.
  exists r, u, s. split; [reflexivity|]. split; [reflexivity|]. split; [|auto]. unfold goes_to.
  destruct (ao_uri o); [injection Eu as ->; auto|]. destruct (ar_redirect_uri ar); [injection Eu as ->; auto|discriminate].
Qed.

(** ** Steps *)
Definition jar_of (m : mst) (b : string) (ck : option string) : dict string :=
  match ck with Some v => dset (m_opbs m) b v | None => m_opbs m end.
Lemma opbs_set m w b v : opbs_of (mk_mst w (dset (m_opbs m) b v)) b = v.
Proof. unfold opbs_of. cbn [m_opbs]. now rewrite dget_dset_same. Qed.

(** What one call does to the cookies. *)
Definition kept (m m' : mst) (b : string) : Prop := opbs_of m' b = opbs_of m b.
Lemma finish_cookie S K m b now iv salt t iframe ar o ev w mev m' :
  mfinish S K m b now iv salt t iframe ar o ev w = (mev, m') ->
  (forall b', b' <> b -> kept m m' b') /\
  match me_cookie mev with Some v => opbs_of m' b = v | None => kept m m' b end.
Proof.
  unfold mfinish, kept, opbs_of. intros H. destruct o as [o|].
  - destruct (manage _ _ _ _ _ _ _ _ _) as [[ss ck]|x].
    + injection H as <- <-. cbn [me_cookie m_opbs]. destruct ck as [v|].
      * split; [|now rewrite dget_dset_same]. intros b' Nb. rewrite dget_dset_other; [reflexivity|congruence].
      * split; reflexivity.
    + injection H as <- <-. split; reflexivity.
  - injection H as <- <-. split; reflexivity.
Qed.
Lemma step_cookie S K e m o ev m' b : mstep S K e m o = (ev, m') ->
  (from_browser o b /\ exists v, me_cookie ev = Some v /\ opbs_of m' b = v) \/
  ((~ from_browser o b \/ me_cookie ev = None) /\ kept m m' b).
Proof.
  intros H. destruct o as [b0 now deny i acr ei iv uri v iv' salt t|b0 now i ar uid acr ei iv uri iv' salt t|b0 now sid alla|o];
    cbn [mstep from_browser] in *.
  - destruct (bstep K e (m_b m) _) as [bev w]. destruct (finish_cookie _ _ _ _ _ _ _ _ _ _ _ _ _ _ _ H) as [F1 F2].
    destruct (string_dec b b0) as [->|N].
    + destruct (me_cookie ev) as [x|]; [left; eauto|right; auto].
    + right. split; [left; congruence|auto].
  - destruct (bstep K e (m_b m) _) as [bev w]. destruct (finish_cookie _ _ _ _ _ _ _ _ _ _ _ _ _ _ _ H) as [F1 F2].
    destruct (string_dec b b0) as [->|N].
    + destruct (me_cookie ev) as [x|]; [left; eauto|right; auto].
    + right. split; [left; congruence|auto].
  - unfold mlogout in H. destruct (bstep K e (m_b m) _) as [bev w].
    assert (forall x, (mk_mevent (Ok bev) None None, mk_mst x (m_opbs m)) = (ev, m') -> me_cookie ev = None /\ kept m m' b) as D.
    { intros x E. injection E as <- <-. split; reflexivity. }
    destruct bev as [r|r|[r|r|r|q r| |r|r|[ms|x]|r]]; try (right; destruct (D _ H); auto; fail).
    destruct (existsb front ms); [right; destruct (D _ H); auto|]. injection H as <- <-. cbn [me_cookie].
    destruct (string_dec b b0) as [->|N].
    + left. split; [reflexivity|]. exists "". split; [reflexivity|apply opbs_set].
    + right. split; [left; congruence|]. unfold kept, opbs_of. cbn [m_opbs]. rewrite dget_dset_other; [reflexivity|congruence].
  - destruct (step e _ o) as [ev0 h]. injection H as <- <-. right. split; [left; tauto|reflexivity].
Qed.

(** The values that are set. *)
Lemma step_value S K e m o ev m' v : sman_laws S K -> mstep S K e m o = (ev, m') -> me_cookie ev = Some v ->
  (v = "" /\ me_state ev = None) \/ exists r, v = append (show_Z (call_time o)) (append "|" r).
Proof.
  intros W H Ev.
  assert (forall b now iv salt t i ar oo be w, mfinish S K m b now iv salt t i ar oo be w = (ev, m') ->
            exists r, v = append (show_Z now) (append "|" r)) as F.
  { intros b now iv salt t i ar oo be w F. unfold mfinish in F. destruct oo as [oo|].
    - destruct (manage S K now iv salt t i ar oo) as [[ss ck]|x] eqn:Em.
      + injection F as <- <-. cbn [me_cookie] in Ev. destruct (manage_ok _ _ _ _ _ _ _ _ _ _ _ W Em) as [(_ & -> & _)|(r & u & s & _ & -> & _)];
          [discriminate|]. injection Ev as <-. exists r. reflexivity.
      + injection F as <- <-. discriminate.
    - injection F as <- <-. discriminate. }
  destruct o as [b0 now deny i acr ei iv uri v0 iv' salt t|b0 now i ar uid acr ei iv uri iv' salt t|b0 now sid alla|o];
    cbn [mstep call_time] in *.
  - destruct (bstep K e (m_b m) _) as [bev w]. right. eapply F; eauto.
  - destruct (bstep K e (m_b m) _) as [bev w]. right. eapply F; eauto.
  - left. unfold mlogout in H. destruct (bstep K e (m_b m) _) as [bev w].
    assert (forall x, (mk_mevent (Ok bev) None None, mk_mst x (m_opbs m)) = (ev, m') -> v = "" /\ me_state ev = None) as D.
    { intros x E. injection E as <- <-. discriminate. }
    destruct bev as [r|r|[r|r|r|q r| |r|r|[ms|x]|r]]; try (apply (D _ H)).
    destruct (existsb front ms); [apply (D _ H)|]. injection H as <- <-. cbn in Ev. injection Ev as <-. auto.
  - destruct (step e _ o) as [ev0 h]. injection H as <- <-. discriminate.
Qed.

(** The states that are told. *)
Lemma step_state S K e m o ev m' b ar iframe salt ss : sman_laws S K -> fair_salt o ->
  mstep S K e m o = (ev, m') -> requests o b ar iframe salt -> me_state ev = Some ss ->
  exists out u, response_in ev out /\ goes_to ar out u /\ me_cookie ev = Some (opbs_of m' b)
    /\ forall origin, origin_of u origin -> unchanged S (ar_client_id ar) origin (opbs_of m' b) ss.
Proof.
  intros W Fs H R Ess.
  assert (forall b now iv t i oo be w, mfinish S K m b now iv salt t i ar oo be w = (ev, m') -> ~ occurs_in "." salt ->
     (forall out, oo = Some out -> response_in (mk_mevent (Ok be) None None) out) ->
     exists out u, response_in ev out /\ goes_to ar out u /\ me_cookie ev = Some (opbs_of m' b)
       /\ forall origin, origin_of u origin -> unchanged S (ar_client_id ar) origin (opbs_of m' b) ss) as F.
  { intros b0 now iv t i oo be w F Ns Hr. unfold mfinish in F. destruct oo as [oo|].
    - destruct (manage S K now iv salt t i ar oo) as [[s1 ck]|x] eqn:Em.
      + injection F as <- <-. cbn [me_state me_cookie] in *.
        destruct (manage_ok _ _ _ _ _ _ _ _ _ _ _ W Em) as [(-> & _)|(r & u & s & _ & -> & G & C & E)]; [discriminate|].
        rewrite opbs_set. exists oo, u. split; [exact (Hr oo eq_refl)|]. split; [exact G|]. split; [reflexivity|].
        rewrite E in Ess. destruct (ao_session_state oo); [|discriminate]. injection Ess as ->.
        intros origin O. eapply state_unchanged; eauto.
      + injection F as <- <-. discriminate.
    - injection F as <- <-. discriminate. }
  destruct o as [b0 now deny i acr ei iv uri v0 iv' salt0 t|b0 now i ar0 uid acr ei iv uri iv' salt0 t|b0 now sid alla|o];
    cbn [mstep fair_salt requests] in *; [| |destruct R..].
  - destruct R as (-> & Er & -> & ->). subst ar. destruct (bstep K e (m_b m) _) as [bev w]. eapply F; [exact H|exact Fs|].
    intros out E. destruct bev as [[[[| |o] c]|]|[[? ?]|]|]; try discriminate. injection E as ->. exists c. left. reflexivity.
  - destruct R as (-> & -> & -> & ->). destruct (bstep K e (m_b m) _) as [bev w]. eapply F; [exact H|exact Fs|].
    intros out E. destruct bev as [[|]|[[o c]|]|]; try discriminate. injection E as ->. exists c. right. reflexivity.
Qed.

(** ** Whether there is a state *)
Lemma part2_good e now iframe ar sid uri s o s' a : authz_part2 e now iframe ar sid uri s = (Ok o, s') ->
  ao_args o = Good a -> ao_session_state o = iframe && negb (ao_form o) /\ went_through o = true.
Proof.
  unfold authz_part2. intros H G.
  assert (forall x r, error_by_response_mode ar x = Ok r -> forall y, ao_args r <> Good y) as Er.
  { intros x r E y. unfold error_by_response_mode in E. destruct (ar_redirect_uri ar); [|discriminate].
    destruct (ar_response_mode ar); [|discriminate].
    apply rbind_okc in E as (z & _ & E). injection E as <-. discriminate. }
  apply bind_ok in H as (r & s1 & _ & H). destruct r as [o1|].
  - destruct iframe.
    + apply bind_ok in H as (ev & s2 & _ & H). destruct ev as [ev|].
      * apply bind_ok in H as (ev' & s3 & _ & H). destruct (negb (event_valid now ev')).
        -- apply lift_ok in H as [H _]. destruct (Er _ _ H _ G).
        -- apply ret_ok in H as [<- _]. cbn [ao_session_state ao_form] in *. split; [reflexivity|]. unfold went_through.
           cbn [ao_iss ao_args ao_form] in *. destruct (ao_form o1); [rewrite G; reflexivity|reflexivity].
      * apply lift_ok in H as [H _]. destruct (Er _ _ H _ G).
    + apply ret_ok in H as [<- _]. cbn [ao_session_state ao_form] in *. split; [reflexivity|]. unfold went_through.
      cbn [ao_iss ao_args ao_form] in *. destruct (ao_form o1); [rewrite G; reflexivity|reflexivity].
  - apply lift_ok in H as [H _]. destruct (Er _ _ H _ G).
Qed.

Lemma step_presence S K e m o ev m' b ar iframe salt out a : sman_laws S K -> mstep S K e m o = (ev, m') ->
  requests o b ar iframe salt -> response_in ev out -> ao_args out = Good a ->
  ((exists ss, me_state ev = Some ss) <-> iframe = true /\ ao_form out = false)
  /\ ((exists v, me_cookie ev = Some v) <-> iframe = true).
Proof.
  intros W H R (c & Ro) G.
  assert (forall b now iv t be w, mfinish S K m b now iv salt t iframe ar (Some out) be w = (ev, m') ->
    ao_session_state out = iframe && negb (ao_form out) -> went_through out = true ->
    ((exists ss, me_state ev = Some ss) <-> iframe = true /\ ao_form out = false)
    /\ ((exists v, me_cookie ev = Some v) <-> iframe = true)) as F.
  { intros b0 now iv t be w F E1 E2. unfold mfinish in F.
    destruct (manage S K now iv salt t iframe ar out) as [[ss ck]|x] eqn:Em.
    - injection F as <- <-. cbn [me_state me_cookie].
      destruct (manage_ok _ _ _ _ _ _ _ _ _ _ _ W Em) as [(-> & -> & E)|(r & u & s & E & -> & _ & _ & ->)];
        rewrite E2, andb_true_r in E; subst iframe.
      + split; split; (intros (? & ?); congruence) || intros; congruence.
      + rewrite E1. destruct (ao_form out); cbn [andb negb].
        * split; split; intros; eauto; [destruct H0; discriminate|destruct H0; discriminate].
        * split; split; intros; eauto.
    - injection F as <- <-. cbn [me_ev] in Ro. destruct Ro; discriminate. }
  destruct o as [b0 now deny i acr ei iv uri v0 iv' salt0 t|b0 now i ar0 uid acr ei iv uri iv' salt0 t|b0 now sid alla|o];
    cbn [mstep requests] in *; [| |destruct R..].
  - destruct R as (-> & Er & -> & ->). subst ar. destruct (bstep K e (m_b m) _) as [bev w] eqn:Eb.
    cbn [bstep] in Eb. destruct (process_request _ _ _ _ _ _ _ _ _ _ _ _) as [r s] eqn:Ep. injection Eb as <- <-.
    assert (r = Ok (ROut out, c)) as ->.
    { unfold mfinish in H. destruct r as [[[| |oo] cc]|x]; cbn iota in H;
        try (injection H as <- _; cbn [me_ev] in Ro; destruct Ro; congruence).
      destruct (manage _ _ _ _ _ _ _ _ _) as [[ss ck]|x]; injection H as <- _; cbn [me_ev] in Ro; destruct Ro; congruence. }
    cbn iota in H. unfold process_request in Ep. destruct (dget (e_clients e) _); [|discriminate].
    do 4 (apply bind_ok in Ep as (? & ? & _ & Ep)). apply bind_ok in Ep as ([| |sid c1] & ? & _ & Ep).
    + discriminate.
    + destruct (ar_response_mode _); [|discriminate]. apply bind_ok in Ep as (? & ? & _ & Ep). discriminate.
    + apply bind_ok in Ep as (o & s1 & Ea & Ep). assert (o = out) as ->.
      { destruct (ao_args o).
        - apply ret_ok in Ep as [Ep _]. congruence.
        - apply bind_ok in Ep as (? & ? & _ & Ep). apply ret_ok in Ep as [Ep _]. congruence. }
      destruct (part2_good _ _ _ _ _ _ _ _ _ _ Ea G) as [E1 E2]. exact (F _ _ _ _ _ _ H E1 E2).
  - destruct R as (-> & -> & -> & ->). destruct (bstep K e (m_b m) _) as [bev w] eqn:Eb.
    cbn [bstep] in Eb. destruct (login_page _ _ _ _ _ _ _ _ _ _ _) as [r s] eqn:Ep. injection Eb as <- <-.
    assert (r = Ok (out, c)) as ->.
    { unfold mfinish in H. destruct r as [[oo cc]|x]; cbn iota in H;
        try (injection H as <- _; cbn [me_ev] in Ro; destruct Ro; congruence).
      destruct (manage _ _ _ _ _ _ _ _ _) as [[ss ck]|x]; injection H as <- _; cbn [me_ev] in Ro; destruct Ro; congruence. }
    cbn iota in H. unfold login_page in Ep. apply bind_ok in Ep as (sid & ? & _ & Ep).
    apply bind_ok in Ep as (o & s1 & Ea & Ep). assert (o = out) as ->.
    { destruct (ao_args o).
      - apply ret_ok in Ep as [Ep _]. congruence.
      - apply bind_ok in Ep as (? & ? & _ & Ep). apply ret_ok in Ep as [Ep _]. congruence. }
    destruct (part2_good _ _ _ _ _ _ _ _ _ _ Ea G) as [E1 E2]. exact (F _ _ _ _ _ _ H E1 E2).
Qed.

(** ** Histories *)
Lemma nth_snoc {A} (l : list A) x i y : nth_error (l ++ [x]) i = Some y ->
  (i < List.length l /\ nth_error l i = Some y) \/ (i = List.length l /\ y = x).
Proof.
  intros H. destruct (Nat.lt_ge_cases i (List.length l)) as [L|L].
  - left. rewrite nth_error_app1 in H; auto.
  - right. rewrite nth_error_app2 in H by lia. destruct (i - List.length l) as [|k] eqn:E.
    + cbn in H. injection H as <-. split; [lia|reflexivity].
    + destruct k; discriminate H.
Qed.
Lemma nth_last {A} (l : list A) x : nth_error (l ++ [x]) (List.length l) = Some x.
Proof. rewrite nth_error_app2 by lia. now rewrite Nat.sub_diag. Qed.
Lemma nth_before {A} (l : list A) x i y : nth_error l i = Some y -> nth_error (l ++ [x]) i = Some y.
Proof. intros H. rewrite nth_error_app1; [exact H|]. apply nth_error_Some. congruence. Qed.

Section H.
  Variables (S : smconf) (K : aconf) (e : env) (W : sman_laws S K).

  Lemma future_len m0 ops evs m : mfuture S K e m0 ops evs m -> List.length ops = List.length evs.
  Proof. induction 1 as [|ops evs m o ev m' _ IH]; [reflexivity|]. rewrite !app_length, IH. reflexivity. Qed.

  (** Each answer of a history comes from a step. *)
  Lemma future_step m0 ops evs m j o ev : mfuture S K e m0 ops evs m ->
    nth_error ops j = Some o -> nth_error evs j = Some ev ->
    exists m1 m2, mstep S K e m1 o = (ev, m2) /\ fair_salt o.
  Proof.
    induction 1 as [|ops evs m o' ev' m' F IH Fs St]; intros N1 N2; [destruct j; discriminate|].
    pose proof (future_len _ _ _ _ F) as L.
    apply nth_snoc in N1 as [[L1 N1]|[L1 ->]]; apply nth_snoc in N2 as [[L2 N2]|[L2 ->]]; try lia; eauto.
  Qed.

  (** The cookie of a browser is the last one that it was given. *)
  Lemma last_cookie m0 ops evs m b : mfuture S K e m0 ops evs m ->
    (opbs_of m b = opbs_of m0 b /\ forall k, ~ new_cookie_at ops evs k b) \/
    exists k o ev, nth_error ops k = Some o /\ nth_error evs k = Some ev /\ from_browser o b
      /\ me_cookie ev = Some (opbs_of m b) /\ forall k', k < k' -> ~ new_cookie_at ops evs k' b.
  Proof.
    induction 1 as [|ops evs m o ev m' F IH Fs St].
    - left. split; [reflexivity|]. intros k (o & ev & v & N & _). destruct k; discriminate.
    - pose proof (future_len _ _ _ _ F) as L.
      assert (forall k, new_cookie_at (ops ++ [o]) (evs ++ [ev]) k b ->
        new_cookie_at ops evs k b \/ (k = List.length ops /\ from_browser o b /\ exists v, me_cookie ev = Some v)) as D.
      { intros k (o1 & ev1 & v & N1 & N2 & Fb & Ec).
        apply nth_snoc in N1 as [[L1 N1]|[L1 ->]]; apply nth_snoc in N2 as [[L2 N2]|[L2 ->]]; try lia.
        - left. exists o1, ev1, v. auto.
        - right. eauto. }
      destruct (step_cookie _ _ _ _ _ _ _ b St) as [(Fb & v & Ec & Eo)|(N & Ek)].
      + right. exists (List.length ops), o, ev. split; [apply nth_last|]. split; [rewrite L; apply nth_last|].
        split; [exact Fb|]. split; [congruence|]. intros k' Hk C. destruct (D _ C) as [(o1 & ev1 & v1 & N1 & _)|(E & _)]; [|lia].
        assert (k' < List.length ops) by (apply nth_error_Some; congruence). lia.
      + assert (forall k, new_cookie_at (ops ++ [o]) (evs ++ [ev]) k b -> new_cookie_at ops evs k b) as D'.
        { intros k C. destruct (D _ C) as [C'|(_ & Fb & v & Ev)]; [exact C'|]. destruct N; congruence. }
        destruct IH as [(Eo & No)|(k & o1 & ev1 & N1 & N2 & Fb & Ec & Hl)].
        * left. split; [unfold kept in Ek; congruence|]. intros k C. exact (No k (D' k C)).
        * right. exists k, o1, ev1. split; [apply nth_before; exact N1|]. split; [apply nth_before; exact N2|].
          split; [exact Fb|]. split; [unfold kept in Ek; congruence|]. intros k' Hk C. exact (Hl k' Hk (D' k' C)).
  Qed.

  Lemma requests_from o b ar i salt : requests o b ar i salt -> from_browser o b.
  Proof. destruct o; cbn; tauto. Qed.

  (** The state that was told goes with the cookie of the same answer, which is
      not empty. *)
  Lemma told_fits m0 ops evs m j b client origin ss : mfuture S K e m0 ops evs m ->
    told_state ops evs j b client origin ss ->
    exists o ev r, nth_error ops j = Some o /\ nth_error evs j = Some ev /\ from_browser o b
      /\ me_cookie ev = Some (append (show_Z (call_time o)) (append "|" r))
      /\ unchanged S client origin (append (show_Z (call_time o)) (append "|" r)) ss.
  Proof.
    intros F (o & ev & ar & iframe & salt & out & u & N1 & N2 & R & <- & Ro & Gt & Or & Es).
    destruct (future_step _ _ _ _ _ _ _ F N1 N2) as (m1 & m2 & St & Fs).
    destruct (step_state _ _ _ _ _ _ _ _ _ _ _ _ W Fs St R Es) as (out' & u' & Ro' & Gt' & Ec & U).
    assert (out' = out) as ->.
    { destruct Ro as (c & Ro), Ro' as (c' & Ro'). destruct Ro, Ro'; congruence. }
    assert (u' = u) as ->.
    { destruct Gt as [G|[G1 G2]], Gt' as [G'|[G1' G2']]; congruence. }
    destruct (step_value _ _ _ _ _ _ _ _ W St Ec) as [[_ E]|(r & E)]; [congruence|].
    exists o, ev, r. rewrite <- E. split; [exact N1|]. split; [exact N2|]. split; [eapply requests_from; eauto|]. split; [exact Ec|].
    exact (U _ Or).
  Qed.

  Lemma time_of_value t r t' r' : append (show_Z t) (append "|" r) = append (show_Z t') (append "|" r') -> t = t'.
  Proof.
    intros E. apply (split_same "|") in E as [E _]; [|apply no_char, show_Z_bar..]. exact (show_Z_inj _ _ E).
  Qed.

  Lemma current m0 ops evs m j b client origin ss : mfuture S K e m0 ops evs m -> one_by_one ops b ->
    told_state ops evs j b client origin ss ->
    (unchanged S client origin (opbs_of m b) ss <-> forall k, j < k -> ~ new_cookie_at ops evs k b).
  Proof.
    intros F O T. destruct (told_fits _ _ _ _ _ _ _ _ _ F T) as (o & ev & r & N1 & N2 & Fb & Ec & U).
    destruct (last_cookie _ _ _ _ b F) as [(_ & No)|(k & o' & ev' & N1' & N2' & Fb' & Ec' & Hl)].
    { destruct (No j). exists o, ev, (append (show_Z (call_time o)) (append "|" r)). auto. }
    split.
    - intros U' k' Hk C. pose proof (unchanged_cookie _ _ _ _ _ _ _ W U U') as Ev.
      destruct (Nat.lt_trichotomy j k) as [Hjk|[->|Hkj]].
      + pose proof (O _ _ _ _ Hjk N1 N1' Fb Fb') as Ht.
        destruct (future_step _ _ _ _ _ _ _ F N1' N2') as (m1 & m2 & St & _).
        destruct (step_value _ _ _ _ _ _ _ _ W St Ec') as [[Ee _]|(r' & Ee)]; rewrite Ee in Ev.
        * unfold show_Z in Ev. destruct (call_time o <? 0)%Z; [discriminate|]. destruct (show_N _); discriminate.
        * apply time_of_value in Ev. lia.
      + exact (Hl k' Hk C).
      + apply (Hl j Hkj). exists o, ev, (append (show_Z (call_time o)) (append "|" r)). auto.
    - intros Hn. destruct (Nat.lt_trichotomy j k) as [Hjk|[->|Hkj]].
      + destruct (Hn k Hjk). exists o', ev', (opbs_of m b). auto.
      + assert (Some (opbs_of m b) = Some (append (show_Z (call_time o)) (append "|" r))) as E by congruence.
        injection E as ->. exact U.
      + destruct (Hl j Hkj). exists o, ev, (append (show_Z (call_time o)) (append "|" r)). auto.
  Qed.

  Lemma logged_out_value m o ev m' b : mstep S K e m o = (ev, m') -> logged_out o ev b ->
    me_cookie ev = Some "" /\ opbs_of m' b = "" /\ jar (m_b m') b = [].
  Proof.
    intros St (now & sid & alla & ms & -> & Ee & Nf). cbn [mstep] in St. unfold mlogout in St.
    destruct (bstep K e (m_b m) _) as [bev w].
    assert (bev = BEv (EvLogout (Ok ms))) as ->.
    { destruct bev as [r|r|[r|r|r|q r| |r|r|[ms'|x]|r]]; try (injection St as <- _; cbn [me_ev] in Ee; congruence).
      destruct (existsb front ms'); injection St as <- _; cbn [me_ev] in Ee; congruence. }
    destruct (existsb front ms) eqn:Ef.
    - apply existsb_exists in Ef as ([c s|c s] & I & Ef); [discriminate|]. destruct (Nf c s I).
    - injection St as <- <-. split; [reflexivity|]. split; [apply opbs_set|]. unfold jar. cbn [m_b b_jars]. now rewrite dget_dset_same.
  Qed.

  Lemma log_out_noticed m0 ops evs m o ev m' j b client origin ss : mfuture S K e m0 ops evs m ->
    mstep S K e m o = (ev, m') -> logged_out o ev b -> told_state ops evs j b client origin ss ->
    ~ unchanged S client origin (opbs_of m' b) ss.
  Proof.
    intros F St Lo T U'. destruct (told_fits _ _ _ _ _ _ _ _ _ F T) as (o1 & ev1 & r & _ & _ & _ & _ & U).
    destruct (logged_out_value _ _ _ _ _ St Lo) as (_ & E & _). rewrite E in U'.
    pose proof (unchanged_cookie _ _ _ _ _ _ _ W U U') as Ev. unfold show_Z in Ev.
    destruct (call_time o1 <? 0)%Z; [discriminate|]. destruct (show_N _); discriminate.
  Qed.
End H.
