(** Who is at the authorization endpoint. *)
From Verif Require Import M_Base M_Types M_Codec M_Grant M_Env M_Session M_Claims M_Handler
  M_Authz M_TokenEP M_PKCE M_AuthzEP M_Info M_Logout M_Uri M_Cookie M_Authn M_History
  S_Codec S_Grant S_Store S_History S_AuthzResp S_Authn
  L_Base L_Split L_Codec L_Monad L_Grant L_Claims L_Store L_Hist1 L_Hist2 L_Hist3 L_Hist4 L_Hist5 L_Hist6 L_Hist8 L_AuthzResp.

(** ** Cookies and the method *)
Section Who.
  Variables (K : aconf) (e : env) (now : Z).

  Lemma cookie_info_from cs client : forall i, cookie_info K e cs client = Ok (Some i) ->
    exists x d rest sid, In x cs /\ ac_loads K (ct_value x) = Ok d /\ dget d "sid" = Some (JStr sid)
      /\ py_int (ct_time x) = Some (id_time i) /\ dec_sid e sid = Ok (id_uid i :: client :: rest)
      /\ id_sid i = Some sid.
  Proof.
    induction cs as [|c r IH]; intros i H; [discriminate|]. cbn [cookie_info] in H.
    apply rbind_ok in H as (d & Ed & H).
    destruct (py_int (ct_time c)) as [ts|] eqn:Et; [|discriminate].
    destruct (dget d "sid") as [[| | |sid| |]|] eqn:Es; try discriminate.
    apply rbind_ok in H as (p & Ep & H). destruct p as [|u [|c' q]]; try discriminate.
    destruct (negb (String.eqb c' client)) eqn:Ec.
    - destruct (IH _ H) as (x & d' & rest & sid' & A & B). exists x, d', rest, sid'. split; [now right|exact B].
    - apply negb_false_iff, seqb_eq in Ec. subst c'. destruct q; [discriminate|]. injection H as <-.
      eexists c, d, _, sid. split; [now left|]. cbn. eauto 8.
  Qed.

  Lemma session_cookies_names cookies cs client i :
    session_cookies K cookies = Ok (Some cs) -> cookie_info K e cs client = Ok (Some i) ->
    exists sid, id_sid i = Some sid /\ names K e cookies client (id_uid i) sid (id_time i).
  Proof.
    intros H C. destruct (cookie_info_from _ _ _ C) as (x & d & rest & sid & A & B & E1 & E2 & E3 & E4).
    exists sid. split; auto. destruct cookies as [|y cookies]; cbn in H.
    - injection H as <-. contradiction.
    - exists cs, x, d, rest. auto 8.
  Qed.

  Lemma unwrap_plain i j : no_disguise K (id_uid i) -> unwrap_identity K i = Ok j -> j = i.
  Proof.
    unfold unwrap_identity. intros N H. apply rbind_ok in H as (o & E & H). destruct o as [t|]; [|congruence].
    apply rbind_ok in H as (d & Ed & _). exfalso. exact (N _ _ E Ed).
  Qed.

  (** The user that the log-in page knows is one a cookie names. *)
  Lemma page_user cookies cs hdr ar vs u osid :
    (forall c u sid t, names K e cookies c u sid t -> no_disguise K u) ->
    session_cookies K cookies = Ok cs ->
    who_is K e now MPage hdr ar vs cs = Ok (AUser u osid) ->
    exists sid t, osid = Some sid /\ names K e cookies (ar_client_id ar) u sid t
      /\ (max_age ar vs <> 0 -> now <= t + max_age ar vs)%Z.
  Proof.
    intros Nd Hc H. unfold who_is in H. cbn [authenticated_as] in H. unfold page_as in H.
    destruct cs as [cs|]; [|discriminate].
    destruct (cookie_info K e cs (ar_client_id ar)) as [[i|]|x] eqn:Ci; cbn [rbind] in H;
      [|discriminate|destruct x; discriminate].
    destruct (negb (Z.eqb (max_age ar vs) 0) && (id_time i + max_age ar vs <? now)%Z) eqn:Ea; [discriminate|].
    destruct (session_cookies_names _ _ _ _ Hc Ci) as (sid & Es & N).
    apply rbind_ok in H as (j & Ej & H). injection H as E1 E2. subst.
    apply unwrap_plain in Ej; [|eauto]. subst j. exists sid, (id_time i). split; auto. split; auto.
    intros Nz. apply andb_false_iff in Ea as [Ea|Ea]; [|lia].
    apply negb_false_iff, Z.eqb_eq in Ea. contradiction.
  Qed.

  Lemma max_age_asked v a : asks_max_age v a -> max_age (vi_req v) (vi_verified v) = a.
  Proof.
    intros (N & U & A). unfold max_age.
    destruct (match dget (ar_other (vi_req v)) "upm_answer" with Some w => String.eqb w "true" | None => false end) eqn:E.
    - destruct (dget (ar_other (vi_req v)) "upm_answer") as [w|]; [|discriminate]. apply seqb_eq in E. congruence.
    - change (verified_claim_name "request") with "__verified_request".
      destruct (dget (vi_verified v) "__verified_request") as [d|]; rewrite A.
      + destruct (Z.eqb a 0) eqn:Z; [apply Z.eqb_eq in Z; contradiction|auto].
      + reflexivity.
  Qed.
End Who.

(** ** The endpoint, and the call of the histories *)
Section Run.
  Variables (K : aconf) (e : env) (now : Z) (deny iframe : bool) (m : umethod) (acr : string) (exp_in : option Z)
    (iv : string) (uri : option string) (v : visit).
  Notation ar := (vi_req v).
  Notation run := (process_request K e now deny iframe m acr exp_in iv uri v).

  Lemma process_inv s r c s' : run s = (Ok (r, c), s') ->
    exists cs ru ans x s1, session_cookies K (vi_cookies v) = Ok cs /\ request_user K ar (vi_verified v) = Ok ru
      /\ who_is K e now m (vi_hdr v) ar (vi_verified v) cs = Ok ans
      /\ setup_auth e now ar ru acr exp_in ans s = (Ok x, s1)
      /\ authorize e now deny iframe ar ru acr exp_in ans uri s = (Ok r, s')
      /\ match x with
         | SLogin => r = RLogin
         | SLoginRequired => exists b, r = RLoginRequired b
         | SGo _ _ => exists o, r = ROut o
         end.
  Proof.
    unfold process_request, authorize. intros H.
    destruct (dget (e_clients e) (ar_client_id ar)) as [ci|]; [|discriminate].
    apply bind_ok in H as ([] & s0 & E0 & H). pose proof E0 as E0'. apply lift_ok in E0 as [E0 ->].
    apply bind_ok in H as (cs & s0' & E1 & H). apply lift_ok in E1 as [E1 ->].
    apply bind_ok in H as (ru & s0 & E2 & H). apply lift_ok in E2 as [E2 ->].
    apply bind_ok in H as (ans & s0' & E3 & H). apply lift_ok in E3 as [E3 ->].
    apply bind_ok in H as (x & s1 & E4 & H).
    exists cs, ru, ans, x, s1. do 4 (split; [assumption|]).
    unfold bind at 1. rewrite E0'. unfold bind at 1. rewrite E4.
    destruct x as [| |sid u].
    - apply ret_ok in H as [E5 ->]. injection E5 as <- <-. auto.
    - destruct (ar_response_mode ar) as [rm|].
      + apply bind_ok in H as (y & s2 & E5 & H). unfold bind. rewrite E5.
        apply ret_ok in H as [E6 ->]. injection E6 as <- <-. split; eauto.
      + apply ret_ok in H as [E5 ->]. injection E5 as <- <-. split; eauto.
    - apply bind_ok in H as (o & s2 & E5 & H). unfold bind. rewrite E5.
      destruct (ao_args o).
      + apply ret_ok in H as [E6 ->]. injection E6 as <- <-. split; eauto.
      + apply bind_ok in H as (y & s3 & E6 & H). apply lift_ok in E6 as [_ ->].
        apply ret_ok in H as [E6 ->]. injection E6 as <- <-. split; eauto.
  Qed.
End Run.

(** ** Setting up *)
Section Setup.
  Variables (e : env) (now : Z).
  Hypothesis W : laws e.

  Lemma event_read sid u c gid s ev s' : Inv e s -> dec_sid3 e sid = Ok (u, c, gid) ->
    get_authentication_event e sid s = (Ok ev, s') ->
    s' = s /\ exists l g, hp s l = Some (OGrant g) /\ g_id g = gid /\ belongs e g u c /\ ev = g_aevent g.
  Proof.
    intros Iv D H. unfold get_authentication_event in H. apply bind_ok in H as (i & s1 & Ei & H).
    pose proof (reader_get_session_info _ _ _ _ _ Ei). subst s1.
    destruct (get_session_info_read _ _ _ _ Iv Ei) as (_ & D' & _ & O). rewrite D in D'. injection D' as E1 E2 E3.
    rewrite <- E1, <- E2, <- E3 in O. destruct O as (g & Hg & Id & B).
    apply bind_ok in H as (g0 & s1 & Eg & H). apply grant_at_ok in Eg as [-> Eg]. rewrite Hg in Eg. injection Eg as <-.
    apply ret_ok in H as [<- <-]. split; auto. exists (ss_grant i), g. auto.
  Qed.

  Lemma create_grant_event ae ar u rules s sid s' :
    Inv e s -> good_id u -> good_id (ar_client_id ar) -> ae_uid ae = u ->
    create_grant e now ae ar u (ar_client_id ar) rules None s = (Ok sid, s') ->
    Inv e s' /\ exists gid l g, dec_sid3 e sid = Ok (u, ar_client_id ar, gid) /\ hp s' l = Some (OGrant g)
      /\ g_id g = gid /\ g_aevent g = Some ae.
  Proof.
    intros Iv Gu Gc Ea E. destruct (create_grant_spec e now W ae ar u rules Gu Gc Ea s _ _ Iv Logic.I E) as (Iv' & _ & R).
    destruct (R sid eq_refl) as (gid & l & g & D & H & Id & _ & _ & _). split; auto.
    exists gid. unfold create_grant in E. unfold bind at 1 in E. unfold tick in E. unfold bind at 1 in E.
    unfold new_obj in E. cbn [s_heap s_db s_ctr s_always] in E.
    set (g0 := new_grant now ar ae (e_sub e u (ar_sector ar)) (e_uuid e (s_ctr s)) rules None) in *.
    apply bind_ok in E as ([] & s2 & E2 & E).
    pose proof (gsame_db_set _ _ _ _ _ E2 (List.length (s_heap s)) g0 (hp_app_same _ _ _ _ _)) as H2.
    pose proof (gsame_quiet _ (quiet_enc_sid e _) _ _ _ E _ _ H2) as H3.
    exists (List.length (s_heap s)), g0. split; auto. split; auto.
    assert (exists n, sid = encrypted_session_id (e_crypto e) (e_skey e) (e_rnd e n) n [u; ar_client_id ar; e_uuid e (s_ctr s)]) as X.
    { unfold enc_sid, bind, tick, ret in E. injection E as <- _. eauto. }
    destruct X as (n & ->). unfold dec_sid3, dec_sid in D.
    destruct (law_uuid_id _ W (s_ctr s)) as [(N1 & N2 & N3) N4].
    rewrite decrypt_encrypt in D; auto; try apply W; try (apply sep_good; auto).
    cbn in D. injection D as <-. auto.
  Qed.

  (** The outcomes of an authentication for which a cookie names a session. *)
  Definition open_session (s : st) (u c gid : string) (ae : aevent) : Prop :=
    exists l g, hp s l = Some (OGrant g) /\ g_id g = gid /\ belongs e g u c
      /\ grant_active now g = true /\ g_aevent g = Some ae.

  Lemma setup_session ar ru acr exp_in u sid rest s x s' :
    Inv e s -> good_id u -> good_id (ar_client_id ar) -> sid <> "" -> dec_sid e sid = Ok (u :: ar_client_id ar :: rest) ->
    setup_auth e now ar ru acr exp_in (AUser u (Some sid)) s = (Ok x, s') ->
    (x = SLoginRequired /\ smem "none" (prompts ar) = true)
    \/ (x = SLogin /\ smem "none" (prompts ar) = false)
    \/ (x = SLogin /\ smem "login" (prompts ar) = true)
    \/ (exists gid ae, rest = [gid] /\ open_session s u (ar_client_id ar) gid ae /\
         smem "login" (prompts ar) = false /\ (forall r, ru = Some r -> r = u) /\
         ((x = SLogin /\ event_valid now ae = false)
          \/ ((exists sid', x = SGo sid' u) /\ event_valid now ae = true))).
  Proof.
    intros Iv Gu Gc Ns D H. unfold setup_auth in H.
    assert (ostr_true (Some sid) = true) as Ts. { cbn. destruct sid; [congruence|reflexivity]. }
    rewrite Ts in H. cbn [ostr] in H.
    apply bind_ok in H as (id & s0 & E0 & H).
    apply bind_ok in E0 as (l & s1 & E1 & E0). pose proof (reader_mgr_get _ _ _ _ _ E1). subst s1.
    apply bind_ok in E0 as (g & s1 & E2 & E0). apply grant_at_ok in E2 as [-> Hg].
    apply ret_ok in E0 as [<- <-]. cbv zeta in H.
    destruct (grant_active now g) eqn:Ga.
    2:{ apply ret_ok in H as [<- _]. destruct (smem "none" (prompts ar)); auto. }
    destruct (smem "login" (prompts ar)) eqn:Pl.
    { apply ret_ok in H as [<- _]. auto. }
    destruct (match ru with Some r => negb (String.eqb u r) | None => false end) eqn:Er.
    { apply ret_ok in H as [<- _]. destruct (smem "none" (prompts ar)); auto. }
    assert (forall r, ru = Some r -> r = u) as Hr.
    { intros r ->. apply negb_false_iff, seqb_eq in Er. auto. }
    right. right. right.
    apply bind_ok in H as (o & s1 & Eo & H).
    apply bind_ok in Eo as ([[u1 c1] gid] & s2 & E3 & Eo). apply lift_ok in E3 as [D3 <-].
    assert (u1 = u /\ c1 = ar_client_id ar /\ rest = [gid]) as (-> & -> & ->).
    { unfold dec_sid3 in D3. rewrite D in D3. cbn in D3. destruct rest as [|x0 [|? ?]]; try discriminate.
      injection D3 as <- <- <-. auto. }
    exists gid.
    rewrite String.eqb_refl in Eo. cbn [negb] in Eo.
    apply bind_ok in Eo as (l' & s3 & E4 & Eo). rewrite E1 in E4. injection E4 as <- <-.
    apply bind_ok in Eo as (g' & s3 & E5 & Eo). apply grant_at_ok in E5 as [-> Hg']. rewrite Hg in Hg'. injection Hg' as <-.
    rewrite Ga in Eo. cbn [negb] in Eo.
    pose proof (mgr_get_3 _ _ _ _ _ _ _ Iv D3 E1) as (g1 & H1 & Id & B). rewrite Hg in H1. injection H1 as <-.
    assert (exists ae, g_aevent g = Some ae /\ ae_uid ae = u) as (ae & Ge & Ua).
    { destruct B as (a1 & ae & _ & _ & X & Y & _). eauto. }
    exists ae. split; auto. split; [exists l, g; auto 6|]. split; auto. split; auto.
    assert (forall s1 ev, get_authentication_event e sid s = (Ok ev, s1) -> s1 = s /\ ev = Some ae) as Ev.
    { intros s9 ev X. destruct (event_read _ _ _ _ _ _ _ Iv D3 X) as (-> & l2 & g2 & H2 & Id2 & _ & ->).
      assert (l2 = l) as -> by (eapply (inv_uniq _ _ Iv); eauto; congruence). rewrite Hg in H2. injection H2 as <-. auto. }
    destruct (match g_areq g with Some a => areq_eqb ar a | None => false end).
    - apply ret_ok in Eo as [<- <-].
      assert (str_true sid = true) as Ts' by (destruct sid; [congruence|reflexivity]). rewrite Ts' in H.
      apply bind_ok in H as (ev & s4 & E6 & H). destruct (Ev _ _ E6) as [-> ->].
      apply bind_ok in H as (a & s4 & E7 & H). apply ret_ok in E7 as [<- <-].
      destruct (event_valid now ae) eqn:V; cbn [negb] in H; apply ret_ok in H as [<- _]; eauto.
    - apply bind_ok in Eo as (ev & s4 & E6 & Eo). destruct (Ev _ _ E6) as [-> ->].
      apply bind_ok in Eo as (a & s4 & E7 & Eo). apply ret_ok in E7 as [<- <-].
      destruct (event_valid now ae) eqn:V; cbn [negb] in Eo.
      2:{ apply ret_ok in Eo as [<- <-]. apply ret_ok in H as [<- _]. auto. }
      apply bind_ok in Eo as (sid2 & s4 & E8 & Eo). apply ret_ok in Eo as [<- <-].
      destruct (create_grant_event _ _ _ _ _ _ _ Iv Gu Gc Ua E8) as (Iv4 & gid2 & l2 & g2 & D2 & H2 & Id2 & Ge2).
      destruct (str_true sid2) eqn:T2.
      + apply bind_ok in H as (ev & s5 & E9 & H).
        destruct (event_read _ _ _ _ _ _ _ Iv4 D2 E9) as (-> & l3 & g3 & H3 & Id3 & _ & ->).
        assert (l3 = l2) as -> by (eapply (inv_uniq _ _ Iv4); eauto; congruence). rewrite H2 in H3. injection H3 as <-.
        rewrite Ge2 in H. apply bind_ok in H as (a & s5 & E10 & H). apply ret_ok in E10 as [<- <-].
        rewrite V in H. cbn [negb] in H. apply ret_ok in H as [<- _]. right. eauto.
      + apply bind_ok in H as (y & s5 & _ & H). apply ret_ok in H as [<- _]. right. eauto.
  Qed.
End Setup.

(** ** The claims *)
Section Claims.
  Variables (K : aconf) (e : env) (now : Z) (deny iframe : bool) (acr : string) (exp_in : option Z)
    (iv : string) (uri : option string) (v : visit).
  Hypothesis W : laws e.
  Notation ar := (vi_req v).
  Notation run m := (process_request K e now deny iframe m acr exp_in iv uri v).

  Lemma prompts_in x : prompts_for v x -> smem x (prompts ar) = true.
  Proof. intros (l & E & I). unfold prompts. rewrite E. now apply smem_In. Qed.

  Lemma login_not_reused m s r c s' : prompts_for v "login" -> run m s = (Ok (r, c), s') ->
    r = RLogin \/ exists b, r = RLoginRequired b.
  Proof.
    intros P H. apply prompts_in in P. destruct (process_inv _ _ _ _ _ _ _ _ _ _ _ _ _ _ _ H)
      as (cs & ru & ans & x & s1 & _ & _ & _ & E & _ & R).
    destruct x as [| |sid u]; auto. exfalso. unfold setup_auth in E.
    apply bind_ok in E as (id & s2 & _ & E). destruct id as [[u0 sid0]|].
    - rewrite P in E. apply ret_ok in E as [E _]. discriminate.
    - apply ret_ok in E as [E _]. destruct (smem "none" (prompts ar)); discriminate.
  Qed.

  Lemma nobody_none m cs ru s r c s' : prompts_for v "none" ->
    session_cookies K (vi_cookies v) = Ok cs -> request_user K ar (vi_verified v) = Ok ru ->
    who_is K e now m (vi_hdr v) ar (vi_verified v) cs = Ok ANobody ->
    run m s = (Ok (r, c), s') -> exists b, r = RLoginRequired b.
  Proof.
    intros P Ec Er Ew H. apply prompts_in in P. destruct (process_inv _ _ _ _ _ _ _ _ _ _ _ _ _ _ _ H)
      as (cs' & ru' & ans & x & s1 & Ec' & _ & Ew' & E & _ & R).
    rewrite Ec in Ec'. injection Ec' as <-. rewrite Ew in Ew'. injection Ew' as <-.
    unfold setup_auth in E. unfold bind at 1, ret at 1 in E. rewrite P in E. apply ret_ok in E as [<- _]. auto.
  Qed.

  (** What the page method answers, in a state of a history. *)
  Lemma page_cases h r c s' : HI e h -> good_id (ar_client_id ar) -> usual K e v ->
    run MPage (h_st h) = (Ok (r, c), s') ->
    exists ru, request_user K ar (vi_verified v) = Ok ru /\
    ((exists b, r = RLoginRequired b)
    \/ (r = RLogin /\ (smem "none" (prompts ar) = false \/ smem "login" (prompts ar) = true))
    \/ exists u sid t gid, names K e (vi_cookies v) (ar_client_id ar) u sid t
        /\ (max_age ar (vi_verified v) <> 0 -> now <= t + max_age ar (vi_verified v))%Z
        /\ smem "login" (prompts ar) = false
        /\ (forall x, ru = Some x -> x = u)
        /\ ((r = RLogin /\ log_in_expired e now h u (ar_client_id ar) gid)
            \/ ((exists o, r = ROut o) /\ logged_in e now h u (ar_client_id ar) gid
                /\ authorize e now deny iframe ar ru acr exp_in (AUser u (Some sid)) uri (h_st h) = (Ok r, s')
                /\ proper e (OAuthorize now deny iframe ar ru acr exp_in (AUser u (Some sid)) uri)))).
  Proof.
    intros Hh Gc Us H. destruct (process_inv _ _ _ _ _ _ _ _ _ _ _ _ _ _ _ H)
      as (cs & ru & ans & x & s1 & Ec & Er & Ew & E & Ea & R).
    exists ru. split; auto.
    destruct ans as [|u osid].
    { unfold setup_auth in E. unfold bind at 1, ret at 1 in E. apply ret_ok in E as [<- _].
      destruct (smem "none" (prompts ar)); auto. }
    destruct (page_user K e now (vi_cookies v) cs (vi_hdr v) ar (vi_verified v) u osid) as (sid & t & -> & N & Ma); auto.
    { intros. eapply Us; eauto. }
    destruct (Us _ _ _ _ N) as (Gu & _ & Ns). pose proof N as (cs0 & x0 & d0 & rest & _ & _ & _ & _ & _ & D).
    destruct (setup_session e now W _ _ _ _ _ _ _ _ _ _ (hi_inv _ _ Hh) Gu Gc Ns D E)
      as [(-> & P)|[(-> & P)|[(-> & P)|(gid & ae & -> & (l & g & Hg & Id & B & A & Ge) & P & Hr & X)]]]; auto.
    right. right. exists u, sid, t, gid. do 4 (split; [auto|]).
    assert (grant_of h gid g) as G by (exists l; auto). apply grant_active_live in A.
    destruct X as [(-> & V)|((sid' & ->) & V)]; unfold event_valid in V.
    - left. split; auto. exists g, ae. do 4 (split; [assumption|]). lia.
    - right. split; auto. split; [exists g, ae; do 4 (split; [assumption|]); lia|]. split; auto. split; auto. split; auto.
      intros s0 u' c' g' X D'. injection X as <-. unfold dec_sid3 in D'. rewrite D in D'. cbn in D'. congruence.
  Qed.

  Lemma search_found users attr x : forall u, search users attr x = Ok u -> has_value users attr x u.
  Proof.
    induction users as [|[w args] r IH]; intros u H; cbn [search] in H; [discriminate|].
    destruct (match dget args attr with
              | Some (JList l) => existsb (jval_eqb (JStr x)) l
              | Some y => jval_eqb (JStr x) y
              | None => false end) eqn:E.
    - injection H as <-. exists args. split; [now left|].
      destruct (dget args attr) as [y|]; [|discriminate]. destruct y as [| | | |l|]; try (apply jval_eqb_eq in E); try discriminate.
      + left. congruence.
      + right. exists l. split; auto. apply existsb_exists in E as (y & I & Y). apply jval_eqb_eq in Y. now subst y.
    - destruct (IH _ H) as (a & I & X). exists a. split; auto. now right.
  Qed.
  Lemma lookup_hint users hint u : login_hint_lookup users hint = Ok (Some u) -> hint_for users hint u.
  Proof.
    unfold login_hint_lookup. intros H. destruct (starts_with "tel:" hint) eqn:T.
    - apply starts_with_spec in T as (t & ->). cbn [drop append] in H. destruct t as [|c t]; [discriminate|].
      apply rbind_ok in H as (w & S & H). injection H as <-. apply search_found in S.
      destruct (Ascii.eqb c "+") eqn:Ec.
      + apply Ascii.eqb_eq in Ec. subst c. right. left. exists t. auto.
      + right. right. exists c, t. split; auto. split; auto. intros ->. discriminate.
    - destruct (starts_with "mail:" hint) eqn:Ml; [|discriminate].
      apply starts_with_spec in Ml as (t & ->). cbn [drop append] in H.
      apply rbind_ok in H as (w & S & H). injection H as <-. apply search_found in S. left. exists t. auto.
  Qed.
  Lemma hinted_user ru hint users :
    request_user K ar (vi_verified v) = Ok ru -> dget (vi_verified v) "__verified_it_token_hint" = None ->
    dget (ar_other ar) "login_hint" = Some hint -> hint <> "" -> ac_users K = Some users ->
    exists o, login_hint_lookup users hint = Ok o /\ ru = Some (match o with Some u => u | None => "" end).
  Proof.
    unfold request_user. change (verified_claim_name "it_token_hint") with "__verified_it_token_hint".
    intros H V O N U. rewrite V, O, U in H.
    assert (str_true hint = true) as T by (destruct hint; [congruence|reflexivity]).
    change (str_true "") with false in H. cbv iota in H. rewrite T in H.
    apply rbind_ok in H as (o & L & H). injection H as <-. eauto.
  Qed.

  Definition h_after (h : hst) (s' : st) : hst := mk_hst s' (h_parsed h).

  Lemma none_page ops evs h c s' : history e ops evs h -> good_id (ar_client_id ar) -> usual K e v ->
    prompts_for v "none" -> ~ prompts_for v "login" ->
    run MPage (h_st h) = (Ok (RLogin, c), s') ->
    exists u sid t gid, names K e (vi_cookies v) (ar_client_id ar) u sid t
      /\ log_in_expired e now h u (ar_client_id ar) gid.
  Proof.
    intros Hh Gc Us Pn Pl H. destruct (page_cases _ _ _ _ (history_hi e W _ _ _ Hh) Gc Us H)
      as (ru & Er & [(b & X)|[(_ & [X|X])|(u & sid & t & gid & N & _ & _ & _ & [(_ & L)|((o & X) & _)])]]).
    - discriminate.
    - apply prompts_in in Pn. congruence.
    - exfalso. apply Pl. unfold prompts in X. destruct (ar_prompt ar) as [l|] eqn:E; [|discriminate].
      exists l. split; auto. now apply smem_In.
    - eauto 6.
    - discriminate.
  Qed.

  (** A response without a log-in page. *)
  Lemma page_continues ops evs h o c s' : history e ops evs h -> good_id (ar_client_id ar) -> usual K e v ->
    run MPage (h_st h) = (Ok (ROut o, c), s') ->
    exists u sid t gid, names K e (vi_cookies v) (ar_client_id ar) u sid t
      /\ logged_in e now h u (ar_client_id ar) gid
      /\ (forall a, asks_max_age v a -> (now <= t + a)%Z)
      /\ (forall users hint, dget (vi_verified v) "__verified_it_token_hint" = None ->
            dget (ar_other ar) "login_hint" = Some hint -> hint <> "" -> ac_users K = Some users ->
            hint_for users hint u)
      /\ (forall a, ao_args o = Good a -> answers e now h (h_after h s') u ar a).
  Proof.
    intros Hh Gc Us H. destruct (page_cases _ _ _ _ (history_hi e W _ _ _ Hh) Gc Us H)
      as (ru & Er & [(b & X)|[(X & _)|(u & sid & t & gid & N & Ma & _ & Hr & [(X & _)|(_ & L & A & P)])]]);
      try discriminate.
    exists u, sid, t, gid. split; auto. split; auto. split; [|split].
    - intros a As. pose proof (max_age_asked _ _ As) as X. rewrite X in Ma. apply Ma. apply As.
    - intros users hint V O Nh U. destruct (hinted_user _ _ _ Er V O Nh U) as (x & Lk & ->).
      specialize (Hr _ eq_refl). destruct x as [x|].
      + subst x. now apply lookup_hint.
      + exfalso. destruct (Us _ _ _ _ N) as ((Nu & _) & _). congruence.
    - intros a Ga.
      assert (step e h (OAuthorize now deny iframe ar ru acr exp_in (AUser u (Some sid)) uri)
              = (EvAuthorize (Ok (ROut o)), h_after h s')) as St.
      { unfold step, on_st. rewrite A. reflexivity. }
      destruct (authorize_answers e W _ _ _ _ _ _ _ _ _ _ _ _ _ _ _ Hh P St Ga) as (u' & sid' & X & R).
      injection X as <- <-. exact R.
  Qed.
End Claims.

(** ** Checks for concrete states *)

Definition code_check (e : env) (s : st) (u c : string) (a : aresp) : bool :=
  match ap_code a with
  | None => false
  | Some v =>
      existsb (fun o => match o with
        | OGrant g =>
            match g_areq g, g_aevent g with
            | Some ar, Some ae =>
                String.eqb (ar_client_id ar) c && String.eqb (ae_uid ae) u
                && String.eqb (g_sub g) (e_sub e u (ar_sector ar))
                && existsb (fun t => String.eqb (t_value t) v) (g_tokens g)
            | _, _ => false
            end
        | _ => false
        end) (s_heap s)
  end.
Lemma code_check_ok e s u c a : code_check e s u c a = true -> code_for e s u c a.
Proof.
  unfold code_check. destruct (ap_code a) as [v|] eqn:V; [|discriminate]. intros H.
  apply existsb_exists in H as (o & Io & H). destruct o as [x|g|]; try discriminate.
  destruct (g_areq g) as [ar|] eqn:Ar; [|discriminate]. destruct (g_aevent g) as [ae|] eqn:Ae; [|discriminate].
  apply andb_true_iff in H as [H T]. apply andb_true_iff in H as [H S']. apply andb_true_iff in H as [C U].
  apply String.eqb_eq in C, U, S'. apply existsb_exists in T as (t & It & T). apply String.eqb_eq in T.
  apply In_nth_error in Io as [l Hl].
  exists v, (g_id g), g, t. split; auto. split; [exists l; auto|]. split; auto. exists ar, ae. auto.
Qed.

Definition until_check (s : st) (u c : string) (t : Z) : bool :=
  forallb (fun o => match o with
    | OGrant g =>
        match g_areq g, g_aevent g with
        | Some ar, Some ae =>
            if String.eqb (ar_client_id ar) c && String.eqb (ae_uid ae) u then (ae_authn_time ae <=? t)%Z else true
        | _, _ => true
        end
    | _ => true
    end) (s_heap s).
Lemma until_check_ok s u c t : until_check s u c t = true -> log_ins_until s u c t.
Proof.
  unfold until_check. intros H gid g ar ae (l & Hl & _) Ar C Ae U. cbn [h_st] in Hl.
  rewrite forallb_forall in H. specialize (H _ (nth_error_In _ _ Hl)). cbn in H. rewrite Ar, Ae, C, U in H.
  rewrite !String.eqb_refl in H. cbn in H. now apply Z.leb_le.
Qed.

(** ** HTTP Basic *)
Lemma basic_shows K pw hdr u : basic_user K pw hdr = Ok u -> shows_password K pw hdr u.
Proof.
  unfold basic_user. intros H.
  destruct (ac_b64 K (if starts_with "Basic" hdr then drop 6 hdr else hdr)) as [text|x] eqn:E; [|discriminate]. cbn [rbind] in H.
  destruct (py_split ":" text) as [|n [|p [|? ?]]] eqn:Es; try discriminate.
  apply (splitc_two ":") in Es as (-> & Nn & Np).
  destruct (dget pw (unquote n)) as [q|] eqn:Ed; [|discriminate].
  destruct (String.eqb p q) eqn:Eq; [|discriminate]. apply String.eqb_eq in Eq. subst q. injection H as <-.
  exists (if starts_with "Basic" hdr then drop 6 hdr else hdr), n, p. split; [|auto].
  destruct (starts_with "Basic" hdr) eqn:Eb.
  - apply starts_with_spec in Eb as (r & ->). destruct r as [|c r]; [right; left|left; exists c]; auto.
  - right. right. split; [reflexivity|]. intros Er. apply starts_with_spec in Er. congruence.
Qed.

Section Basic.
  Variables (K : aconf) (e : env) (now : Z) (deny iframe : bool) (acr : string) (exp_in : option Z)
    (iv : string) (uri : option string) (v : visit) (pw : dict string).
  Notation ar := (vi_req v).
  Notation run := (process_request K e now deny iframe (MHttpBasic pw) acr exp_in iv uri v).

  Lemma basic_answer s o c s' : run s = (Ok (ROut o, c), s') -> exists u, shows_password K pw (vi_hdr v) u.
  Proof.
    intros H. destruct (process_inv _ _ _ _ _ _ _ _ _ _ _ _ _ _ _ H) as (cs & ru & ans & x & s1 & _ & _ & Ew & E & _ & R).
    unfold who_is in Ew. cbn [authenticated_as] in Ew.
    destruct (basic_user K pw (vi_hdr v)) as [u|ex] eqn:Eb; [exists u; exact (basic_shows _ _ _ _ Eb)|].
    exfalso. cbn [rbind] in Ew. assert (ans = ANobody) as -> by (destruct ex; congruence).
    unfold setup_auth in E. unfold bind at 1, ret at 1 in E. apply ret_ok in E as [<- _].
    destruct (smem "none" (prompts ar)); [destruct R; discriminate|discriminate].
  Qed.

  Lemma basic_answers ops evs h o c s' a : laws e -> history e ops evs h -> good_id (ar_client_id ar) ->
    vi_cookies v = [] -> (forall u, shows_password K pw (vi_hdr v) u -> good_id u /\ no_disguise K u) ->
    run (h_st h) = (Ok (ROut o, c), s') -> ao_args o = Good a ->
    exists u, shows_password K pw (vi_hdr v) u /\ answers e now h (mk_hst s' (h_parsed h)) u ar a.
  Proof.
    intros W Hi Gc Nc Us H Ga. destruct (process_inv _ _ _ _ _ _ _ _ _ _ _ _ _ _ _ H)
      as (cs & ru & ans & x & s1 & Ec & _ & Ew & E & Ea & R).
    rewrite Nc in Ec. cbn in Ec. injection Ec as <-. unfold who_is in Ew. cbn [authenticated_as] in Ew.
    destruct (basic_user K pw (vi_hdr v)) as [u|ex] eqn:Eb.
    - pose proof (basic_shows _ _ _ _ Eb) as Sh. destruct (Us u Sh) as (Gu & Nd).
      cbn [rbind update_as] in Ew.
      destruct (unwrap_identity K (mkIdent u None now)) as [i|] eqn:Eu; [|discriminate].
      apply unwrap_plain in Eu; [|exact Nd]. subst i. cbn in Ew. injection Ew as <-.
      exists u. split; [exact Sh|].
      assert (step e h (OAuthorize now deny iframe ar ru acr exp_in (AUser u None) uri)
            = (EvAuthorize (Ok (ROut o)), mk_hst s' (h_parsed h))) as St.
      { unfold step, on_st. rewrite Ea. reflexivity. }
      assert (proper e (OAuthorize now deny iframe ar ru acr exp_in (AUser u None) uri)) as Pr.
      { split; [exact Gc|]. split; [exact Gu|]. discriminate. }
      destruct (authorize_answers e W _ _ _ _ _ _ _ _ _ _ _ _ _ _ _ Hi Pr St Ga) as (u' & sid' & X & Y).
      injection X as <- <-. exact Y.
    - exfalso. cbn [rbind] in Ew. assert (ans = ANobody) as -> by (destruct ex; congruence).
      unfold setup_auth in E. unfold bind at 1, ret at 1 in E. apply ret_ok in E as [<- _].
      destruct (smem "none" (prompts ar)); [destruct R; discriminate|discriminate].
  Qed.
End Basic.
