(** Lemmas for browsers. *)
From Verif Require Import M_Base M_Types M_Codec M_Grant M_Env M_Session M_Claims M_Handler
  M_Authz M_TokenEP M_PKCE M_AuthzEP M_Info M_Logout M_Uri M_Cookie M_Authn M_History M_Browser
  S_Codec S_Grant S_Store S_History S_AuthzResp S_Cookie S_Authn S_Logout S_Browser
  L_Base L_Codec L_Split L_Split2 L_Cookie L_Monad L_Grant L_Claims L_Store L_Handler
  L_Hist1 L_Hist2 L_Hist3 L_Hist4 L_Hist5 L_Hist6 L_Hist8 L_Hist9 L_Origin L_Hist10 L_AuthzResp L_Authn L_Logout2.

(** ** Reading one's own cookies *)
Lemma own_subset K given sent : incl sent given -> its_own K given sent.
Proof.
  intros I x (cs & y & P & Iy & V). unfold parse_cookie in P. destruct sent as [|c0 sent]; [discriminate|].
  apply rbind_okc in P as (l & P & E). injection E as ->.
  destruct (parse_loop_in _ _ _ _ _ _ P Iy) as (c & l & Ic & Pc & Il).
  exists c. split; [now apply I|]. exists (l ++ []), y. split; [|split; [apply in_app_iff; auto|exact V]].
  unfold parse_cookie. cbn [parse_loop]. rewrite Pc. reflexivity.
Qed.

Lemma show_Z_bar z : ~ occurs_in "|" (show_Z z).
Proof.
  rewrite occurs_char. unfold show_Z.
  assert (forall n, has_char "|" (show_N n) = false) as D
    by (intros n; apply all_digits_has_char; [apply show_N_digits|reflexivity]).
  destruct (z <? 0)%Z; cbn; rewrite D; discriminate.
Qed.
Lemma show_Z_white z : ~ ends_in_white_space (show_Z z).
Proof. apply rstrip_eq_iff. apply show_Z_no_space. Qed.

(** What is made for a payload is vouched for. *)
Lemma payload_vouched L h payload ts iv : cookie_laws L -> usable h ->
  str_true ts = true -> ~ occurs_in "|" ts -> ~ ends_in_white_space ts ->
  (ch_enc h = None -> ~ occurs_in "|" payload) ->
  exists v, sign_enc_payload L h iv payload ts ts = Ok v /\ vouched L h v payload ts.
Proof.
  intros [Lm Ln Lt L6 Lb Lw] U Ft1 Ft2 Fw Fp.
  assert (T1 : time_or_now ts ts = ts) by (unfold time_or_now; rewrite Ft1; reflexivity).
  unfold sign_enc_payload. rewrite T1. unfold usable in U.
  destruct (ch_enc h) as [k|] eqn:Ek.
  - assert (Sz : enc_key_size k = true).
    { unfold enc_key_size. rewrite !orb_true_iff, !Nat.eqb_eq. destruct U as [U|[U|[U|[]]]]; auto. }
    rewrite Sz.
    assert (X : forall msg rest, lv_unpack msg = Ok (payload :: ts :: rest) ->
      (forall m, rest = [m] -> exists sk mac, ch_sign h = Some sk /\ cl_b64d L m = Ok mac /\
         cl_verify L sk (append payload ts) mac = Ok true) ->
      exists v, (let (ctx, tag) := cl_enc L k iv msg in
          Ok (py_join "|" [ts; cl_b64e L iv; cl_b64e L ctx; cl_b64e L tag])) = Ok v /\ vouched L h v payload ts).
    { intros msg rest Hu Hr. specialize (Lt k iv msg). destruct (cl_enc L k iv msg) as [ctx tag]. cbn [fst snd] in Lt.
      eexists. split; [reflexivity|]. cbn [py_join]. eapply by_tag; eauto. }
    unfold mac_of. destruct (ch_sign h) as [sk|] eqn:Es.
    + rewrite (proj2 (str_true_iff _) (Ln sk (append payload ts))). apply (X _ [cl_b64e L (cl_sign L sk (append payload ts))]).
      * apply lv_roundtrip_iff. intros pre x E.
        assert (x = cl_b64e L (cl_sign L sk (append payload ts))) as ->.
        { destruct pre as [|p1 [|p2 [|p3 pre]]]; cbn in E; try congruence. injection E as _ _ _ E. destruct pre; discriminate. }
        apply Lw.
      * intros m [= <-]. eauto.
    + cbn [str_true]. apply (X _ []).
      * apply lv_roundtrip_iff. intros pre x E.
        assert (x = ts) as ->.
        { destruct pre as [|p1 [|p2 pre]]; cbn in E; try congruence. injection E as _ _ E. destruct pre; discriminate. }
        exact Fw.
      * discriminate.
  - destruct (ch_sign h) as [sk|] eqn:Es; [|congruence]. eexists. split; [reflexivity|]. cbn [py_join].
    unfold mac_of. rewrite Es. eapply by_mac; eauto.
Qed.

Lemma vouched_fun L h v p t p' t' : vouched L h v p t -> vouched L h v p' t' -> p = p' /\ t = t'.
Proof. intros A B. apply ver_dec_vouched in A, B. rewrite A in B. now injection B. Qed.

Lemma bars_app a b : bars (append a b) = bars a + bars b.
Proof. induction a as [|x a IH]; cbn; [reflexivity|]. rewrite IH. lia. Qed.
Lemma bars_none a : ~ occurs_in "|" a -> bars a = 0.
Proof.
  rewrite occurs_char. induction a as [|x a IH]; cbn [bars has_char]; [reflexivity|]. intros N.
  destruct (Ascii.eqb x "|") eqn:E; cbn in N.
  - congruence.
  - apply IH, N.
Qed.
Lemma bars_some a : occurs_in "|" a -> 0 < bars a.
Proof. intros (x & y & ->). rewrite !bars_app. cbn. lia. Qed.

(** With bars in the payload, a signed cookie cannot be read. *)
Lemma signed_bar L h payload ts iv v p t : cookie_laws L -> ch_enc h = None -> str_true ts = true ->
  occurs_in "|" payload -> sign_enc_payload L h iv payload ts ts = Ok v -> ~ vouched L h v p t.
Proof.
  intros W En T O E V. unfold sign_enc_payload in E. rewrite En in E.
  unfold time_or_now in E. rewrite T in E. injection E as <-. cbn [py_join] in V.
  inversion V as [k time payload' b mac N1 N2 N3 Ek Eb Ev Eq_|k ? i c g iv' ctx tag msg payload' time rest N1 N2 N3 N4 Ek].
  - apply (f_equal bars) in Eq_. rewrite !bars_app in Eq_. cbn in Eq_.
    apply bars_none in N1, N2, N3. apply bars_some in O.
    repeat (rewrite bars_app in Eq_; cbn [bars] in Eq_). cbn in Eq_. subst. lia.
  - congruence.
Qed.

Lemma payload_value value cv ct : ~ ends_in ":" value -> payload_of cv ct (append value (append "::" "")) -> cv = value.
Proof.
  intros N (E & N1 & N2 & N3). change (append "::" "") with "::" in E.
  rewrite sapp_assoc in E.
  assert (ct = "" \/ (exists a, ct = String a "") \/ exists p a b, ct = append p (String a (String b ""))) as S.
  { clear. induction ct as [|x ct IH]; [auto|]. right. destruct IH as [->|[(a & ->)|(p & a & b & ->)]].
    - left. eauto.
    - right. exists "", x, a. reflexivity.
    - right. exists (String x p), a, b. reflexivity. }
  destruct S as [->|[(a & ->)|(p & a & b & ->)]].
  - rewrite sapp_nil_r in E. apply app_same_len in E as [E _]; auto.
  - exfalso. apply N. exists cv. rewrite <- sapp_assoc in E.
    change (append "::" (String a "")) with (append ":" (String ":" (String a ""))) in E.
    rewrite sapp_assoc in E. apply app_same_len in E as [E _]; auto.
  - exfalso. apply N3. exists p, "". rewrite sapp_nil_r. rewrite sapp_assoc in E.
    apply app_same_len in E as [_ E]; auto. congruence.
Qed.

Definition cookie_value (K : aconf) (ar : areq) (sid : string) : string :=
  ac_dumps K [("sid", JStr sid); ("state", match ar_state ar with Some s => JStr s | None => JNull end)].

Lemma made_value K now iv ar sid ck x : cookie_laws (ac_lib K) -> usable (ac_handler K) -> json_laws K ->
  response_cookie K now iv ar sid = Ok ck -> reads_value K [ck] x -> x = cookie_value K ar sid.
Proof.
  intros W U J R (cs & y & P & I & <-). unfold response_cookie in R. fold (cookie_value K ar sid) in R.
  set (value := cookie_value K ar sid) in *.
  assert (~ ends_in ":" value) as Nc by apply (law_json_end _ J). clearbody value.
  unfold make_cookie_content in R.
  unfold parse_cookie in P. apply rbind_okc in P as (l & P & E). injection E as ->.
  destruct (parse_loop_in _ _ _ _ _ _ P I) as (c & l & [<-|[]] & Pc & Il).
  destruct (parse_one_some _ _ _ _ _ _ Pc Il) as (v & payload & Nn & Vv & V & Po & _).
  destruct (negb (str_true value) && negb (str_true "")).
  - injection R as <-. cbn in Vv. injection Vv as <-. exfalso. apply ver_dec_vouched in V. discriminate V.
  - apply rbind_okc in R as (w & R & E). injection E as <-. cbn in Vv. injection Vv as <-.
    change (time_or_now "" (show_Z now)) with (show_Z now) in R.
    change (py_join "::" [value; ""]) with (append value (append "::" "")) in R.
    assert (str_true (show_Z now) = true) as T.
    { unfold show_Z. destruct (now <? 0)%Z; [reflexivity|]. apply str_true_iff, show_N_ne. }
    assert (ch_enc (ac_handler K) = None -> ~ occurs_in "|" (append value (append "::" ""))) as Nb.
    { intros En O. exact (signed_bar _ _ _ _ _ _ _ _ W En T O R V). }
    destruct (payload_vouched (ac_lib K) (ac_handler K) _ _ iv W U T (show_Z_bar now) (show_Z_white now) Nb) as (w' & R' & V').
    rewrite R in R'. injection R' as <-. destruct (vouched_fun _ _ _ _ _ _ _ V V') as [-> _].
    eapply payload_value; eauto.
Qed.

(** ** The calls of browsers as calls of the histories *)
Section B.
  Variables (K : aconf) (e : env) (B : browser_laws K e).
  Let W : laws e := bl_laws _ _ B.

  Section V.
    Variables (now : Z) (deny iframe : bool) (acr : string) (exp_in : option Z) (iv : string) (uri : option string) (v : visit).
    Notation ar := (vi_req v).
    Notation run := (process_request K e now deny iframe MPage acr exp_in iv uri v).

    Ltac fin := eexists; split; [reflexivity|split; [eassumption|reflexivity]].
    (** The state after a visit. *)
    Lemma visit_state s r s' : run s = (r, s') ->
      s' = s \/ exists cs ru ans r', session_cookies K (vi_cookies v) = Ok cs
        /\ who_is K e now MPage (vi_hdr v) ar (vi_verified v) cs = Ok ans
        /\ authorize e now deny iframe ar ru acr exp_in ans uri s = (r', s').
    Proof.
      unfold process_request, authorize. intros H.
      destruct (dget (e_clients e) (ar_client_id ar)) as [ci|]; [|injection H as _ <-; now left].
      destruct (check_unknown_scopes e deny (ar_scope ar) (ar_client_id ar)) as [[]|x] eqn:E0;
        unfold bind at 1, lift at 1 in H; [|injection H as _ <-; now left].
      destruct (session_cookies K (vi_cookies v)) as [cs|x] eqn:E1; unfold bind at 1, lift at 1 in H; [|injection H as _ <-; now left].
      destruct (request_user K ar (vi_verified v)) as [ru|x] eqn:E2; unfold bind at 1, lift at 1 in H; [|injection H as _ <-; now left].
      destruct (who_is K e now MPage (vi_hdr v) ar (vi_verified v) cs) as [ans|x] eqn:E3; unfold bind at 1, lift at 1 in H;
        [|injection H as _ <-; now left].
      right. exists cs, ru, ans. unfold bind at 1 in H. unfold bind at 1, lift at 1, bind at 1.
      destruct (setup_auth e now ar ru acr exp_in ans s) as [[x|x] s1]; [|injection H as _ <-; fin].
      destruct x as [| |sid u].
      - injection H as _ <-. fin.
      - destruct (ar_response_mode ar) as [rm|]; [|injection H as _ <-; fin].
        unfold bind, lift in H |- *. destruct (response_mode rm None); injection H as _ <-; fin.
      - unfold bind at 1 in H. unfold bind at 1. destruct (authz_part2 e now iframe ar sid uri s1) as [[o|x] s2]; [|injection H as _ <-; fin].
        destruct (ao_args o); [injection H as _ <-; fin|].
        unfold bind, lift in H. destruct (response_cookie K now iv ar sid); injection H as _ <-; fin.
    Qed.

    (** The cookie of a response is for its session. *)
    Lemma visit_cookie s r ck s' : run s = (Ok (r, Some ck), s') ->
      exists cs ru ans sid u s1 o, session_cookies K (vi_cookies v) = Ok cs
        /\ who_is K e now MPage (vi_hdr v) ar (vi_verified v) cs = Ok ans
        /\ setup_auth e now ar ru acr exp_in ans s = (Ok (SGo sid u), s1)
        /\ authz_part2 e now iframe ar sid uri s1 = (Ok o, s')
        /\ r = ROut o /\ response_cookie K now iv ar sid = Ok ck.
    Proof.
      unfold process_request. intros H.
      destruct (dget (e_clients e) (ar_client_id ar)) as [ci|]; [|discriminate].
      apply bind_ok in H as ([] & s0 & E0 & H). apply lift_ok in E0 as [E0 ->].
      apply bind_ok in H as (cs & s0' & E1 & H). apply lift_ok in E1 as [E1 ->].
      apply bind_ok in H as (ru & s0 & E2 & H). apply lift_ok in E2 as [E2 ->].
      apply bind_ok in H as (ans & s0' & E3 & H). apply lift_ok in E3 as [E3 ->].
      apply bind_ok in H as (x & s1 & E4 & H).
      destruct x as [| |sid u].
      - apply ret_ok in H as [E5 _]. discriminate.
      - destruct (ar_response_mode ar) as [rm|].
        + apply bind_ok in H as (y & s2 & E5 & H). apply ret_ok in H as [E6 _]. discriminate.
        + apply ret_ok in H as [E6 _]. discriminate.
      - apply bind_ok in H as (o & s2 & E5 & H).
        destruct (ao_args o).
        + apply ret_ok in H as [E6 _]. discriminate.
        + apply bind_ok in H as (y & s3 & E6 & H). apply lift_ok in E6 as [E6 ->].
          apply ret_ok in H as [E7 ->]. injection E7 as <- <-. exists cs, ru, ans, sid, u, s1, o. auto 8.
    Qed.
  End V.

  (** Session ids are not empty. *)
  Lemma enc_sid_ne p s sid s' : enc_sid e p s = (Ok sid, s') -> sid <> "".
  Proof.
    unfold enc_sid, bind, tick, ret. intros H. injection H as <- _.
    refine (proj1 (law_text _ W (s_ctr s) _ _)). left. eexists _, _. reflexivity.
  Qed.
  Lemma create_grant_ne now ae ar u c rules sc s sid s' : create_grant e now ae ar u c rules sc s = (Ok sid, s') -> sid <> "".
  Proof.
    unfold create_grant. intros H. apply bind_ok in H as (n & s1 & _ & H). apply bind_ok in H as (l & s2 & _ & H).
    apply bind_ok in H as (x & s3 & _ & H). eapply enc_sid_ne; eauto.
  Qed.
  Lemma create_session_ne now ar u acr x s sid s' : ep_create_session e now ar u acr x s = (Ok sid, s') -> sid <> "".
  Proof.
    unfold ep_create_session, create_session. intros H. apply bind_ok in H as (? & s1 & _ & H).
    apply bind_ok in H as (? & s2 & _ & H). eapply create_grant_ne; eauto.
  Qed.
  Lemma setup_ne now ar ru acr x ans s sid u s' : setup_auth e now ar ru acr x ans s = (Ok (SGo sid u), s') -> sid <> "".
  Proof.
    unfold setup_auth. intros H. apply bind_ok in H as (id & s1 & _ & H). destruct id as [[u0 sid0]|].
    2:{ apply ret_ok in H as [E _]. destruct (smem "none" (prompts ar)); discriminate. }
    destruct (smem "login" (prompts ar)); [apply ret_ok in H as [E _]; discriminate|].
    destruct (match ru with Some r => negb (String.eqb u0 r) | None => false end).
    { apply ret_ok in H as [E _]. destruct (smem "none" (prompts ar)); discriminate. }
    apply bind_ok in H as (o & s2 & _ & H). destruct o as [s0|]; [|apply ret_ok in H as [E _]; discriminate].
    destruct (str_true s0) eqn:T.
    - apply bind_ok in H as (ev & s3 & _ & H). apply bind_ok in H as (a & s4 & _ & H).
      destruct (negb (event_valid now a)); apply ret_ok in H as [E _]; [discriminate|]. injection E as -> _.
      now apply str_true_iff.
    - apply bind_ok in H as (y & s3 & E & H). apply ret_ok in H as [X _]. injection X as -> _.
      eapply create_session_ne; eauto.
  Qed.

  (** ** The invariant *)

  (** The cookie was made for the session [sid] of [u] with [c], whose grant is
      [gid]. *)
  Definition cookie_for (h : hst) (ck : cookie) (u c gid : string) : Prop :=
    exists now iv ar sid, response_cookie K now iv ar sid = Ok ck
      /\ dec_sid3 e sid = Ok (u, c, gid) /\ sid <> "" /\ good_id u /\ no_disguise K u
      /\ exists g, grant_of h gid g /\ belongs e g u c.

  (** Every cookie in a browser is for a session of which [P] holds. *)
  Definition jars (P : string -> string -> string -> string -> Prop) (w : bst) : Prop :=
    forall b ck, In ck (jar w b) -> exists u c gid, cookie_for (b_h w) ck u c gid /\ P b u c gid.

  Lemma cookie_reads h ck u c gid x : cookie_for h ck u c gid -> reads_value K [ck] x ->
    exists d sid, ac_loads K x = Ok d /\ dget d "sid" = Some (JStr sid) /\ dec_sid e sid = Ok [u; c; gid] /\ sid <> "".
  Proof.
    intros (now & iv & ar & sid & R & D & Ns & _) V.
    rewrite (made_value _ _ _ _ _ _ _ (bl_cookies _ _ B) (bl_usable _ _ B) (bl_json _ _ B) R V). unfold cookie_value.
    eexists _, sid. split; [apply (law_json _ (bl_json _ _ B))|]. split; [reflexivity|]. split; [|exact Ns].
    now apply dec_sid3_ok.
  Qed.

  (** What the cookies that a browser sends can name. *)
  Lemma own_names P w b v c u sid t : jars P w -> its_own K (jar w b) (vi_cookies v) ->
    names K e (vi_cookies v) c u sid t ->
    exists ck gid, In ck (jar w b) /\ cookie_for (b_h w) ck u c gid /\ P b u c gid
      /\ dec_sid e sid = Ok [u; c; gid] /\ sid <> "".
  Proof.
    intros J O (cs & x & d & rest & Pc & I & L & D & _ & S).
    destruct (O (ct_value x)) as (ck & Ic & V); [exists cs, x; auto|].
    destruct (J _ _ Ic) as (u0 & c0 & gid & F & Q). destruct (cookie_reads _ _ _ _ _ _ F V) as (d0 & sid0 & L0 & D0 & S0 & N0).
    rewrite L in L0. injection L0 as <-. rewrite D in D0. injection D0 as <-. rewrite S in S0. injection S0 as -> -> ->.
    exists ck, gid. auto 6.
  Qed.
  Lemma own_usual P w b v : jars P w -> its_own K (jar w b) (vi_cookies v) -> usual K e v.
  Proof.
    intros J O c u sid t N. destruct (own_names _ _ _ _ _ _ _ _ J O N) as (ck & gid & _ & F & _ & _ & Ns).
    destruct F as (? & ? & ? & ? & _ & _ & _ & Gu & Nd & _). auto.
  Qed.

  (** The answer of the log-in page method, for a browser. *)
  Lemma own_answer P w b now ar v cs ans : jars P w -> its_own K (jar w b) (vi_cookies v) -> ar = vi_req v ->
    good_id (ar_client_id ar) -> session_cookies K (vi_cookies v) = Ok cs ->
    who_is K e now MPage (vi_hdr v) ar (vi_verified v) cs = Ok ans ->
    match ans with
    | ANobody => True
    | AUser u osid => exists sid gid, osid = Some sid /\ good_id u /\ no_disguise K u /\ sid <> ""
        /\ P b u (ar_client_id ar) gid /\ dec_sid e sid = Ok [u; ar_client_id ar; gid]
    end.
  Proof.
    intros J O -> Gc Ec Ew. destruct ans as [|u osid]; [exact Logic.I|].
    destruct (page_user K e now (vi_cookies v) cs (vi_hdr v) (vi_req v) (vi_verified v) u osid) as (sid & t & -> & N & _); auto.
    { intros c0 u0 sid0 t0 N. apply (own_usual _ _ _ _ J O _ _ _ _ N). }
    destruct (own_names _ _ _ _ _ _ _ _ J O N) as (ck & gid & _ & F & Q & D & Ns).
    destruct F as (? & ? & ? & ? & _ & _ & _ & Gu & Nd & _). exists sid, gid. auto 8.
  Qed.
  Lemma own_proper P w b now deny iframe v ru acr exp_in cs ans uri : jars P w -> its_own K (jar w b) (vi_cookies v) ->
    good_id (ar_client_id (vi_req v)) -> session_cookies K (vi_cookies v) = Ok cs ->
    who_is K e now MPage (vi_hdr v) (vi_req v) (vi_verified v) cs = Ok ans ->
    proper e (OAuthorize now deny iframe (vi_req v) ru acr exp_in ans uri).
  Proof.
    intros J O Gc Ec Ew. pose proof (own_answer _ _ _ _ _ _ _ _ J O eq_refl Gc Ec Ew) as A. split; [exact Gc|].
    destruct ans as [|u osid]; [exact Logic.I|]. destruct A as (sid & gid & -> & Gu & _ & _ & _ & D).
    split; [exact Gu|]. intros s u' c' g' X D'. injection X as <-. unfold dec_sid3 in D'. rewrite D in D'. cbn in D'. congruence.
  Qed.

  (** A response without a log-in page. *)
  Lemma own_visit P w b now deny iframe acr exp_in iv uri v o c s' : HI e (b_h w) -> jars P w ->
    its_own K (jar w b) (vi_cookies v) -> good_id (ar_client_id (vi_req v)) ->
    process_request K e now deny iframe MPage acr exp_in iv uri v (h_st (b_h w)) = (Ok (ROut o, c), s') ->
    exists u sid gid ru, P b u (ar_client_id (vi_req v)) gid /\ logged_in e now (b_h w) u (ar_client_id (vi_req v)) gid
      /\ authorize e now deny iframe (vi_req v) ru acr exp_in (AUser u (Some sid)) uri (h_st (b_h w)) = (Ok (ROut o), s')
      /\ proper e (OAuthorize now deny iframe (vi_req v) ru acr exp_in (AUser u (Some sid)) uri)
      /\ exists cs, session_cookies K (vi_cookies v) = Ok cs
         /\ who_is K e now MPage (vi_hdr v) (vi_req v) (vi_verified v) cs = Ok (AUser u (Some sid)).
  Proof.
    intros Hh J O Gc H. destruct (process_inv _ _ _ _ _ _ _ _ _ _ _ _ _ _ _ H) as (cs & ru & ans & x & s1 & Ec & Er & Ew & E & Ea & R).
    pose proof (own_answer _ _ _ _ _ _ _ _ J O eq_refl Gc Ec Ew) as A.
    pose proof (own_proper P w b now deny iframe v ru acr exp_in cs ans uri J O Gc Ec Ew) as Pr.
    destruct ans as [|u osid].
    { unfold setup_auth in E. unfold bind at 1, ret at 1 in E. apply ret_ok in E as [<- _].
      destruct (smem "none" (prompts (vi_req v))); [destruct R|]; discriminate. }
    destruct A as (sid & gid & -> & Gu & Nd & Ns & Q & D).
    destruct (setup_session e now W _ _ _ _ _ _ _ _ _ _ (hi_inv _ _ Hh) Gu Gc Ns D E)
      as [(-> & _)|[(-> & _)|[(-> & _)|(gid' & ae & X & (l & g & Hg & Id & Bg & A & Ge) & _ & _ & Y)]]].
    - destruct R. discriminate.
    - discriminate.
    - discriminate.
    - injection X as <-. destruct Y as [(-> & _)|((sid' & ->) & V)]; [discriminate|].
      exists u, sid, gid, ru. split; [exact Q|]. split; [|eauto 6].
      exists g, ae. split; [exists l; auto|]. split; [exact Bg|]. split; [now apply grant_active_live|].
      split; [exact Ge|]. unfold event_valid in V. lia.
  Qed.

  Lemma hst_eta h : mk_hst (h_st h) (h_parsed h) = h.
  Proof. now destruct h. Qed.
  Lemma login_state now iframe ar uid acr exp_in iv uri s r s' :
    login_page K e now iframe ar uid acr exp_in iv uri s = (r, s') ->
    exists r', login e now iframe ar uid acr exp_in uri s = (r', s').
  Proof.
    unfold login_page, login. unfold bind at 1. intros H. unfold bind at 1.
    destruct (ep_create_session e now ar uid acr exp_in s) as [[sid|x] s1]; [|injection H as _ <-; eauto].
    unfold bind at 1 in H. destruct (authz_part2 e now iframe ar sid uri s1) as [[o|x] s2]; [|injection H as _ <-; eauto].
    destruct (ao_args o); [injection H as _ <-; eauto|].
    unfold bind, lift in H. destruct (response_cookie K now iv ar sid); injection H as _ <-; eauto.
  Qed.

  (** Each call of a browser history is at most one call of a history. *)
  Lemma bstep_exec P w o ev w' : jars P w -> fair K e w o -> bstep K e w o = (ev, w') ->
    exists ops evs, Forall (proper e) ops /\ exec e (b_h w) ops = (evs, b_h w').
  Proof.
    intros J F E. destruct o as [b now deny iframe acr exp_in iv uri v|b now iframe ar uid acr exp_in iv uri|o]; cbn [bstep] in E.
    - destruct (process_request _ _ _ _ _ _ _ _ _ _ _ _) as [r s] eqn:R. injection E as _ <-. cbn [b_h]. destruct F as [Gc O].
      destruct (visit_state _ _ _ _ _ _ _ _ _ _ _ R) as [->|(cs & ru & ans & r' & Ec & Ew & A)].
      + exists [], []. split; [constructor|]. cbn [exec]. now rewrite hst_eta.
      + exists [OAuthorize now deny iframe (vi_req v) ru acr exp_in ans uri]. eexists.
        split; [constructor; [|constructor]; eapply own_proper; eauto|]. cbn [exec step]. unfold on_st. rewrite A. reflexivity.
    - destruct (login_page _ _ _ _ _ _ _ _ _ _ _) as [r s] eqn:R. injection E as _ <-. cbn [b_h]. destruct F as (Gc & Gu & _).
      destruct (login_state _ _ _ _ _ _ _ _ _ _ _ R) as (r' & L). exists [OLogin now iframe ar uid acr exp_in uri]. eexists.
      split; [constructor; [|constructor]; split; auto|]. cbn [exec step]. unfold on_st. rewrite L. reflexivity.
    - destruct (step e (b_h w) o) as [ev1 h1] eqn:S. injection E as _ <-. cbn [b_h]. exists [o]. eexists.
      split; [constructor; [|constructor]; destruct o; cbn in F; try contradiction; exact Logic.I|].
      cbn [exec]. rewrite S. reflexivity.
  Qed.

  Lemma cookie_later ops h evs h' ck u c gid : HI e h -> Forall (proper e) ops -> exec e h ops = (evs, h') ->
    cookie_for h ck u c gid -> cookie_for h' ck u c gid.
  Proof.
    intros Hh Po E (now & iv & ar & sid & R & D & Ns & Gu & Nd & g & G & Bg).
    exists now, iv, ar, sid. do 5 (split; [assumption|]).
    destruct (grant_of_later e W _ _ _ _ _ _ Hh Po E G) as (g' & G' & _ & _ & A1 & A2 & A3).
    exists g'. split; [exact G'|]. unfold belongs. rewrite A1, A2, A3. exact Bg.
  Qed.

  Lemma ready_cookie now u ar sid s1 s' iv ck ps : ready e now u ar sid s1 -> st_later now s1 s' ->
    response_cookie K now iv ar sid = Ok ck -> sid <> "" -> good_id u -> no_disguise K u ->
    exists gid, cookie_for (mk_hst s' ps) ck u (ar_client_id ar) gid.
  Proof.
    intros (gid & l & g & D & Hg & Id & Bg & _) L R Ns Gu Nd. exists gid. exists now, iv, ar, sid.
    do 5 (split; [assumption|]). destruct (st_later_grant _ _ _ _ _ L Hg) as (g' & Hg' & G).
    destruct G as (G1 & G2 & G3 & G4 & _). exists g'. split; [exists l; split; [exact Hg'|congruence]|].
    unfold belongs. rewrite G2, G3, G4. exact Bg.
  Qed.

  Lemma jar_keep w b c h b' ck : In ck (jar (mk_bst h (keep w b c)) b') -> In ck (jar w b') \/ (b' = b /\ c = Some ck).
  Proof.
    unfold jar at 1, keep. cbn [b_jars]. destruct c as [c|]; [|intros I; left; exact I].
    destruct (string_dec b' b) as [->|N].
    - rewrite dget_dset_same. rewrite in_app_iff. intros [I|[<-|[]]]; auto.
    - rewrite dget_dset_other by congruence. intros I. left. exact I.
  Qed.

  (** Where the cookies in a browser come from. *)
  Lemma jar_step P w o ev w' b ck : HI e (b_h w) -> jars P w -> fair K e w o -> bstep K e w o = (ev, w') ->
    In ck (jar w' b) ->
    In ck (jar w b)
    \/ exists u c gid, cookie_for (b_h w') ck u c gid
       /\ ((exists now iframe ar acr exp_in iv uri out, o = BLogin b now iframe ar u acr exp_in iv uri /\ ar_client_id ar = c
              /\ ev = BDone (Ok (out, Some ck)))
           \/ (exists now gid', P b u c gid' /\ logged_in e now (b_h w) u c gid')).
  Proof.
    intros Hh J F E I. destruct o as [b0 now deny iframe acr exp_in iv uri v|b0 now iframe ar uid acr exp_in iv uri|o]; cbn [bstep] in E.
    - destruct (process_request _ _ _ _ _ _ _ _ _ _ _ _) as [r s] eqn:R. injection E as <- <-.
      destruct (jar_keep _ _ _ _ _ _ I) as [I'|(-> & X)]; [auto|]. right. destruct F as [Gc O].
      destruct r as [[r c]|]; [|discriminate]. subst c.
      destruct (visit_cookie _ _ _ _ _ _ _ _ _ _ _ _ R) as (cs & ru & ans & sid & u & s1 & out & Ec & Ew & Es & E2 & -> & Rc).
      destruct (own_visit _ _ _ _ _ _ _ _ _ _ _ _ _ _ Hh J O Gc R) as (u' & sid' & gid' & ru' & Q & L & A & Pr & cs1 & Ec1 & Ew1).
      destruct (setup_auth_who _ _ _ _ _ _ _ _ _ _ _ Es) as (osid & ->).
      pose proof (own_answer _ _ _ _ _ _ _ _ J O eq_refl Gc Ec Ew) as (sid0 & gid0 & -> & Gu & Nd & _ & Q0 & D0).
      pose proof (own_proper P w b0 now deny iframe v ru acr exp_in cs _ uri J O Gc Ec Ew) as Pr0.
      destruct (setup_auth_spec e now W (vi_req v) ru acr exp_in (AUser u (Some sid0)) Gc (proj2 Pr0) _ _ _ (hi_inv _ _ Hh) Logic.I Es) as (Iv1 & _ & Rd).
      specialize (Rd _ eq_refl _ _ eq_refl).
      destruct (authz_part2_spec e now W u iframe (vi_req v) sid uri _ _ _ Iv1 Rd E2) as (_ & L2 & _).
      destruct (ready_cookie _ _ _ _ _ _ _ _ (h_parsed (b_h w)) Rd L2 Rc (setup_ne _ _ _ _ _ _ _ _ _ _ Es) Gu Nd) as (gid & Cf).
      exists u, (ar_client_id (vi_req v)), gid. split; [exact Cf|]. right. exists now.
      (* the user of the visit is that of the session *)
      exists gid'. assert (u' = u) as ->; [|auto].
      rewrite Ec in Ec1. injection Ec1 as <-. rewrite Ew in Ew1. now injection Ew1.
    - destruct (login_page _ _ _ _ _ _ _ _ _ _ _) as [r s] eqn:R. injection E as <- <-.
      destruct (jar_keep _ _ _ _ _ _ I) as [I'|(-> & X)]; [auto|]. right. destruct F as (Gc & Gu & Nd).
      destruct r as [[out c]|]; [|discriminate]. subst c. unfold login_page in R.
      apply bind_ok in R as (sid & s1 & E1 & R). apply bind_ok in R as (o & s2 & E2 & R).
      destruct (ao_args o); [apply ret_ok in R as [X _]; discriminate|].
      apply bind_ok in R as (c0 & s3 & Rc & R). apply lift_ok in Rc as [Rc ->]. apply ret_ok in R as [X ->]. injection X as -> ->.
      destruct (ep_create_session_spec e now W ar uid acr exp_in Gu Gc _ _ _ (hi_inv _ _ Hh) Logic.I E1) as (Iv1 & _ & Rd).
      specialize (Rd _ eq_refl).
      destruct (authz_part2_spec e now W uid iframe ar sid uri _ _ _ Iv1 Rd E2) as (_ & L2 & _).
      destruct (ready_cookie _ _ _ _ _ _ _ _ (h_parsed (b_h w)) Rd L2 Rc (create_session_ne _ _ _ _ _ _ _ _ E1) Gu Nd) as (gid & Cf).
      exists uid, (ar_client_id ar), gid. split; [exact Cf|]. left. exists now, iframe, ar, acr, exp_in, iv, uri, out. auto.
    - destruct (step e (b_h w) o) as [ev1 h1]. injection E as _ <-. left. exact I.
  Qed.

  (** ** Induction over browser histories *)
  Lemma future_induct (P : list bop -> list bevent -> bst -> string -> string -> string -> string -> Prop) w0 :
    HI e (b_h w0) -> jars (P [] [] w0) w0 ->
    (forall ops evs w o ev w' ops' evs' b u c gid, HI e (b_h w) -> Forall (proper e) ops' -> exec e (b_h w) ops' = (evs', b_h w') ->
       P ops evs w b u c gid -> P (ops ++ [o]) (evs ++ [ev]) w' b u c gid) ->
    (forall ops evs w' b now iframe ar u acr exp_in iv uri out ck gid, List.length evs = List.length ops ->
       P (ops ++ [BLogin b now iframe ar u acr exp_in iv uri]) (evs ++ [BDone (Ok (out, Some ck))]) w' b u (ar_client_id ar) gid) ->
    (forall ops evs w o ev w' ops' evs' b u c now gid gid', HI e (b_h w) -> Forall (proper e) ops' -> exec e (b_h w) ops' = (evs', b_h w') ->
       P ops evs w b u c gid' -> logged_in e now (b_h w) u c gid' ->
       P (ops ++ [o]) (evs ++ [ev]) w' b u c gid) ->
    forall ops evs w, bfuture K e w0 ops evs w ->
      HI e (b_h w) /\ jars (P ops evs w) w /\ List.length evs = List.length ops
      /\ exists ops' evs', Forall (proper e) ops' /\ exec e (b_h w0) ops' = (evs', b_h w).
  Proof.
    intros H0 J0 Keep Log Vis ops evs w F. induction F as [|ops evs w o ev w' F (Hh & J & Ln & ops' & evs' & Po & Ex) Fa E].
    - split; [exact H0|]. split; [exact J0|]. split; [reflexivity|]. exists [], []. split; [constructor|reflexivity].
    - destruct (bstep_exec _ _ _ _ _ J Fa E) as (o2 & e2 & Po2 & Ex2).
      assert (HI e (b_h w')) as Hh' by exact (exec_hi e W _ _ _ _ Hh Po2 Ex2).
      split; [exact Hh'|]. split; [|split].
      + intros b ck I. destruct (jar_step _ _ _ _ _ _ _ Hh J Fa E I) as [I'|(u & c & gid & Cf & [X|(now & gid' & Q & L)])].
        * destruct (J _ _ I') as (u & c & gid & Cf & Q). exists u, c, gid. split; [exact (cookie_later _ _ _ _ _ _ _ _ Hh Po2 Ex2 Cf)|].
          exact (Keep _ _ _ _ _ _ _ _ _ _ _ _ Hh Po2 Ex2 Q).
        * destruct X as (now & iframe & ar & acr & exp_in & iv & uri & out & -> & <- & ->). exists u, (ar_client_id ar), gid.
          split; [exact Cf|]. now apply Log.
        * exists u, c, gid. split; [exact Cf|]. exact (Vis _ _ _ _ _ _ _ _ _ _ _ _ _ _ Hh Po2 Ex2 Q L).
      + rewrite !app_length. cbn. lia.
      + exists (ops' ++ o2), (evs' ++ e2). split; [apply Forall_app; auto|]. rewrite (exec_app e). now rewrite Ex, Ex2.
  Qed.

  Lemma future_app w0 w1 w ops1 evs1 ops2 evs2 : bfuture K e w0 ops1 evs1 w1 -> bfuture K e w1 ops2 evs2 w ->
    bfuture K e w0 (ops1 ++ ops2) (evs1 ++ evs2) w.
  Proof.
    intros F1 F2. induction F2 as [|ops evs w o ev w' F2 IH Fa E]; [now rewrite !app_nil_r|].
    rewrite !app_assoc. eapply bf_more; eauto.
  Qed.

  Lemma logs_in_app ops evs ops' evs' j b u c : logs_in ops evs j b u c -> logs_in (ops ++ ops') (evs ++ evs') j b u c.
  Proof.
    intros (now & iframe & ar & acr & exp_in & iv & uri & o & ck & A & C & D).
    exists now, iframe, ar, acr, exp_in, iv, uri, o, ck.
    rewrite nth_error_app1 by (apply nth_error_Some; congruence). rewrite nth_error_app1 by (apply nth_error_Some; congruence). auto.
  Qed.
  Lemma logs_in_last ops evs b now iframe ar u acr exp_in iv uri out ck : List.length evs = List.length ops ->
    logs_in (ops ++ [BLogin b now iframe ar u acr exp_in iv uri]) (evs ++ [BDone (Ok (out, Some ck))]) (List.length ops)
      b u (ar_client_id ar).
  Proof.
    intros Ln. exists now, iframe, ar, acr, exp_in, iv, uri, out, ck.
    split; [rewrite nth_error_app2, Nat.sub_diag by lia; reflexivity|]. split; [reflexivity|].
    rewrite nth_error_app2 by lia. rewrite Ln, Nat.sub_diag. reflexivity.
  Qed.

  Definition has_logged_in (ops : list bop) (evs : list bevent) (_ : bst) (b u c _gid : string) : Prop :=
    exists j, logs_in ops evs j b u c.

  Lemma history_facts ops evs w : bhistory K e ops evs w ->
    HI e (b_h w) /\ jars (has_logged_in ops evs w) w /\ List.length evs = List.length ops
    /\ exists ops' evs', history e ops' evs' (b_h w).
  Proof.
    intros (al & F).
    assert (forall ops evs w o ev w' b u c gid gid', has_logged_in ops evs w b u c gid' ->
      has_logged_in (ops ++ [o]) (evs ++ [ev]) w' b u c gid) as X.
    { intros ops0 evs0 w0 o ev w' b u c gid gid' (j & L). exists j. now apply logs_in_app. }
    destruct (future_induct has_logged_in (b_init al)) with (ops := ops) (evs := evs) (w := w) as (Hh & J & Ln & ops' & evs' & Po & Ex).
    - apply hi_init.
    - intros b ck [].
    - intros. eapply X; eauto.
    - intros. exists (List.length ops0). now apply logs_in_last.
    - intros. eapply X; eauto.
    - exact F.
    - split; [exact Hh|]. split; [exact J|]. split; [exact Ln|]. exists ops', evs'. split; [exact Po|]. exists al. exact Ex.
  Qed.

  (** ** The claims *)
  Lemma visit_answered P w b now deny iframe acr exp_in iv uri v o c w' :
    (exists ops' evs', history e ops' evs' (b_h w)) -> jars P w -> fair K e w (BVisit b now deny iframe acr exp_in iv uri v) ->
    bstep K e w (BVisit b now deny iframe acr exp_in iv uri v) = (BAnswer (Ok (ROut o, c)), w') ->
    exists u gid, P b u (ar_client_id (vi_req v)) gid /\ logged_in e now (b_h w) u (ar_client_id (vi_req v)) gid
      /\ forall a, ao_args o = Good a -> answers e now (b_h w) (b_h w') u (vi_req v) a.
  Proof.
    intros (ops' & evs' & Hi) J (Gc & O) E. pose proof (history_hi e W _ _ _ Hi) as Hh. cbn [bstep] in E.
    destruct (process_request _ _ _ _ _ _ _ _ _ _ _ _) as [r s] eqn:R. injection E as -> <-. cbn [b_h].
    destruct (own_visit _ _ _ _ _ _ _ _ _ _ _ _ _ _ Hh J O Gc R) as (u & sid & gid & ru & Q & L & A & Pr & _).
    exists u, gid. split; [exact Q|]. split; [exact L|]. intros a Ga.
    assert (step e (b_h w) (OAuthorize now deny iframe (vi_req v) ru acr exp_in (AUser u (Some sid)) uri)
            = (EvAuthorize (Ok (ROut o)), mk_hst s (h_parsed (b_h w)))) as St.
    { unfold step, on_st. rewrite A. reflexivity. }
    destruct (authorize_answers e W _ _ _ _ _ _ _ _ _ _ _ _ _ _ _ Hi Pr St Ga) as (u' & sid' & X & Y).
    injection X as <- <-. exact Y.
  Qed.

  Lemma own_log_in ops evs w b now deny iframe acr exp_in iv uri v o c w' :
    bhistory K e ops evs w -> fair K e w (BVisit b now deny iframe acr exp_in iv uri v) ->
    bstep K e w (BVisit b now deny iframe acr exp_in iv uri v) = (BAnswer (Ok (ROut o, c)), w') ->
    exists u j, logs_in ops evs j b u (ar_client_id (vi_req v))
      /\ forall a, ao_args o = Good a -> answers e now (b_h w) (b_h w') u (vi_req v) a.
  Proof.
    intros Hb Fa E. destruct (history_facts _ _ _ Hb) as (Hh & J & _ & Hi).
    destruct (visit_answered _ _ _ _ _ _ _ _ _ _ _ _ _ _ Hi J Fa E) as (u & gid & (j & L) & _ & A). eauto.
  Qed.

  Lemma stranger ops evs w b now deny iframe acr exp_in iv uri v r c w' :
    bhistory K e ops evs w -> fair K e w (BVisit b now deny iframe acr exp_in iv uri v) ->
    (forall j u, ~ logs_in ops evs j b u (ar_client_id (vi_req v))) ->
    bstep K e w (BVisit b now deny iframe acr exp_in iv uri v) = (BAnswer (Ok (r, c)), w') ->
    r = RLogin \/ exists f, r = RLoginRequired f.
  Proof.
    intros Hb Fa N E. destruct r as [|f|o]; eauto. exfalso.
    destruct (own_log_in _ _ _ _ _ _ _ _ _ _ _ _ _ _ _ Hb Fa E) as (u & j & L & _). exact (N _ _ L).
  Qed.

  Definition revoked_or_new (u c : string) (ops : list bop) (evs : list bevent) (w : bst) (b u' c' gid : string) : Prop :=
    u' = u -> c' = c -> (exists j, logs_in ops evs j b u c)
      \/ exists g, grant_of (b_h w) gid g /\ g_revoked g = true.

  Lemma live_not_revoked h now u c gid g : HI e h -> logged_in e now h u c gid -> grant_of h gid g -> g_revoked g = true -> False.
  Proof.
    intros Hh (g' & ae & (l' & H' & E') & _ & Lv & _) (l & H & Eg) R.
    change (hp (h_st h) l' = Some (OGrant g')) in H'. change (hp (h_st h) l = Some (OGrant g)) in H.
    assert (l' = l) as -> by (eapply (inv_uniq _ _ (hi_inv _ _ Hh)); eauto; congruence). rewrite H in H'. injection H' as <-.
    destruct Lv as (Nr & _). congruence.
  Qed.

  Lemma after_revocation ops1 evs1 w1 ops2 evs2 w u c b now deny iframe acr exp_in iv uri v o ck w' :
    bhistory K e ops1 evs1 w1 -> all_revoked e (b_h w1) u c -> bfuture K e w1 ops2 evs2 w ->
    fair K e w (BVisit b now deny iframe acr exp_in iv uri v) -> ar_client_id (vi_req v) = c ->
    bstep K e w (BVisit b now deny iframe acr exp_in iv uri v) = (BAnswer (Ok (ROut o, ck)), w') ->
    exists u' j, logs_in (ops1 ++ ops2) (evs1 ++ evs2) j b u' c /\ (u' = u -> exists i, logs_in ops2 evs2 i b u c)
      /\ forall a, ao_args o = Good a -> answers e now (b_h w) (b_h w') u' (vi_req v) a.
  Proof.
    intros Hb Rv F Fa <- E. set (c := ar_client_id (vi_req v)) in *.
    destruct (history_facts _ _ _ Hb) as (Hh1 & J1 & Ln1 & _).
    assert (bhistory K e (ops1 ++ ops2) (evs1 ++ evs2) w) as Hb2.
    { destruct Hb as (al & X). exists al. eapply future_app; eauto. }
    destruct (history_facts _ _ _ Hb2) as (Hh & J & _ & Hi).
    set (P := fun os es w b u' c' gid => has_logged_in (ops1 ++ os) (evs1 ++ es) w b u' c' gid /\ revoked_or_new u c os es w b u' c' gid).
    assert (jars (P ops2 evs2 w) w) as J2.
    { refine (proj1 (proj2 (future_induct P w1 Hh1 _ _ _ _ _ _ _ F))).
      - intros b0 k I. destruct (J1 _ _ I) as (u0 & c0 & gid & Cf & Lg). exists u0, c0, gid. split; [exact Cf|].
        split; [now rewrite !app_nil_r|].
        intros -> ->. right. destruct Cf as (? & ? & ? & ? & _ & _ & _ & _ & _ & g & G & Bg). exists g. split; [exact G|]. eapply Rv; eauto.
      - intros os es w2 o2 ev2 w3 os' es' b0 u0 c0 gid H2 Po Ex ((j & L) & Q).
        split; [exists j; rewrite !app_assoc; now apply logs_in_app|]. clear j L. intros Eu Ec.
        destruct (Q Eu Ec) as [(j & L)|(g & G & R)].
        + left. exists j. now apply logs_in_app.
        + right. destruct (grant_of_later e W _ _ _ _ _ _ H2 Po Ex G) as (g' & G' & _ & Rr & _). exists g'. split; [exact G'|]. now apply Rr.
      - intros os es w3 b0 n0 i0 ar0 u0 a0 x0 v0 r0 out0 k0 gid Ln. split.
        + exists (List.length (ops1 ++ os)). rewrite !app_assoc. apply logs_in_last. rewrite !app_length. lia.
        + intros -> <-. left. exists (List.length os). now apply logs_in_last.
      - intros os es w2 o2 ev2 w3 os' es' b0 u0 c0 n0 gid gid' H2 Po Ex ((j & L1) & Q) L.
        split; [exists j; rewrite !app_assoc; now apply logs_in_app|]. clear j L1. intros Eu Ec.
        destruct (Q Eu Ec) as [(j & L')|(g & G & R)].
        + left. exists j. now apply logs_in_app.
        + exfalso. rewrite Eu, Ec in L. eapply live_not_revoked; eauto. }
    destruct (visit_answered _ _ _ _ _ _ _ _ _ _ _ _ _ _ Hi J2 Fa E) as (u' & gid & ((j & L) & Q) & Lg & A).
    exists u', j. split; [exact L|]. split; [|exact A]. intros Eu. destruct (Q Eu eq_refl) as [X|(g & G & R)]; [exact X|].
    exfalso. eapply live_not_revoked; eauto.
  Qed.

  (** A log-out of [u] at [c]. *)
  Lemma after_log_out ops1 evs1 w1 t sid u c g ms w2 ops2 evs2 w b now deny iframe acr exp_in iv uri v o ck w' :
    bhistory K e ops1 evs1 w1 -> dec_sid3 e sid = Ok (u, c, g) ->
    (forall gid g, grant_of (b_h w1) gid g -> belongs e g u c -> g_revoked g = true \/ session_grant (b_h w1) u c gid g) ->
    bstep K e w1 (BCall (OLogout t sid false)) = (BEv (EvLogout (Ok ms)), w2) ->
    bfuture K e w2 ops2 evs2 w ->
    fair K e w (BVisit b now deny iframe acr exp_in iv uri v) -> ar_client_id (vi_req v) = c ->
    bstep K e w (BVisit b now deny iframe acr exp_in iv uri v) = (BAnswer (Ok (ROut o, ck)), w') ->
    exists u', (u' = u -> exists i, logs_in ops2 evs2 i b u c)
      /\ forall a, ao_args o = Good a -> answers e now (b_h w) (b_h w') u' (vi_req v) a.
  Proof.
    intros Hb D Un E F Fa Ec Ev. destruct (history_facts _ _ _ Hb) as (Hh & _ & _ & os & es & Hi).
    assert (bhistory K e (ops1 ++ [BCall (OLogout t sid false)]) (evs1 ++ [BEv (EvLogout (Ok ms))]) w2) as Hb2.
    { destruct Hb as (al & X). exists al. eapply bf_more; eauto. exact Logic.I. }
    assert (all_revoked e (b_h w2) u c) as Rv.
    { cbn [bstep] in E. destruct (step e (b_h w1) (OLogout t sid false)) as [ev h] eqn:St. injection E as -> <-. cbn [b_h].
      assert (exec e (b_h w1) [OLogout t sid false] = ([EvLogout (Ok ms)], h)) as Ex by (cbn [exec]; rewrite St; reflexivity).
      destruct (single_final e W _ _ _ _ _ _ _ _ _ [] [] h Hi D (Forall_nil _) Ex) as (En & _).
      pose proof (logout_step _ _ _ _ _ _ _ St) as (s' & Er & ->).
      destruct (single_rvk _ _ _ _ _ _ _ _ _ D Er) as (_ & (_ & R1 & R2) & _).
      assert (HI e (mk_hst s' (h_parsed (b_h w1)))) as Hh' by (refine (exec_hi e W _ _ _ _ Hh _ Ex); repeat constructor).
      intros gid g2 (l & H2 & Id2) B2. change (hp s' l = Some (OGrant g2)) in H2.
      destruct (R2 l) as [Sm|Tl].
      - rewrite Sm in H2. assert (grant_of (b_h w1) gid g2) as G1 by (exists l; auto).
        destruct (Un _ _ G1 B2) as [X|X]; [exact X|]. destruct (En _ _ X) as (g3 & (l3 & H3 & Id3) & Rv & _).
        rewrite <- Sm in H2. change (hp s' l3 = Some (OGrant g3)) in H3.
        assert (l3 = l) as -> by (eapply (inv_uniq _ _ (hi_inv _ _ Hh')); [exact H3|exact H2|congruence]).
        rewrite H2 in H3. injection H3 as <-. exact Rv.
      - rewrite (R1 _ Tl) in H2. destruct (hp (h_st (b_h w1)) l) as [ob|]; [|discriminate].
        destruct ob; cbn in H2; try discriminate. injection H2 as <-. reflexivity. }
    destruct (after_revocation _ _ _ _ _ _ _ _ _ _ _ _ _ _ _ _ _ _ _ _ Hb2 Rv F Fa Ec Ev) as (u' & j & _ & X & Y). eauto.
  Qed.

  (** ** Where grants come from *)
  Lemma bstep_origin P w o ev w' l g' : HI e (b_h w) -> jars P w -> fair K e w o -> bstep K e w o = (ev, w') ->
    hp (h_st (b_h w')) l = Some (OGrant g') ->
    same_origin (h_st (b_h w)) l g'
    \/ exists ar ae, g_areq g' = Some ar /\ g_aevent g' = Some ae
       /\ ((exists b now iframe acr exp_in iv uri, o = BLogin b now iframe ar (ae_uid ae) acr exp_in iv uri)
           \/ exists b gid, P b (ae_uid ae) (ar_client_id ar) gid).
  Proof.
    intros Hh J F E X. destruct o as [b now deny iframe acr exp_in iv uri v|b now iframe ar uid acr exp_in iv uri|o]; cbn [bstep] in E.
    - destruct (process_request _ _ _ _ _ _ _ _ _ _ _ _) as [r s] eqn:R. injection E as _ <-. cbn [b_h h_st] in X. destruct F as [Gc O].
      destruct (visit_state _ _ _ _ _ _ _ _ _ _ _ R) as [->|(cs & ru & ans & r' & Ec & Ew & A)]; [left; exists g'; auto|].
      pose proof (own_proper P w b now deny iframe v ru acr exp_in cs ans uri J O Gc Ec Ew) as Pr.
      assert (step e (b_h w) (OAuthorize now deny iframe (vi_req v) ru acr exp_in ans uri)
              = (EvAuthorize r', mk_hst s (h_parsed (b_h w)))) as St by (cbn [step]; unfold on_st; rewrite A; reflexivity).
      destruct (step_origin e _ _ _ _ _ _ Hh Pr St X) as [Y|(ar & ae & A1 & A2 & A3 & A4)]; [left; exact Y|].
      right. exists ar, ae. split; [exact A1|]. split; [exact A2|]. right.
      pose proof (own_answer _ _ _ _ _ _ _ _ J O eq_refl Gc Ec Ew) as An. cbn in A3, A4. subst ar.
      destruct ans as [|u osid]; [contradiction|]. destruct An as (sid & gid & _ & _ & _ & _ & Q & _). subst u. eauto.
    - destruct (login_page _ _ _ _ _ _ _ _ _ _ _) as [r s] eqn:R. injection E as _ <-. cbn [b_h h_st] in X. destruct F as (Gc & Gu & _).
      destruct (login_state _ _ _ _ _ _ _ _ _ _ _ R) as (r' & L).
      assert (step e (b_h w) (OLogin now iframe ar uid acr exp_in uri)
              = (EvLogin r', mk_hst s (h_parsed (b_h w)))) as St by (cbn [step]; unfold on_st; rewrite L; reflexivity).
      destruct (step_origin e _ _ _ _ _ _ Hh (conj Gc Gu : proper e (OLogin now iframe ar uid acr exp_in uri)) St X) as [Y|(ar' & ae & A1 & A2 & A3 & A4)]; [left; exact Y|].
      right. exists ar', ae. split; [exact A1|]. split; [exact A2|]. left. cbn in A3, A4. subst ar' uid.
      exists b, now, iframe, acr, exp_in, iv, uri. reflexivity.
    - destruct (step e (b_h w) o) as [ev1 h1] eqn:S. injection E as _ <-. cbn [b_h] in X.
      assert (proper e o) as Pr by (destruct o; cbn in F; try contradiction; exact Logic.I).
      destruct (step_origin e _ _ _ _ _ _ Hh Pr S X) as [Y|(ar & ae & A1 & A2 & A3 & A4)]; [left; exact Y|].
      destruct o; cbn in F, A3; contradiction.
  Qed.

  Lemma grants_log_in ops evs w : bhistory K e ops evs w ->
    forall l g, hp (h_st (b_h w)) l = Some (OGrant g) ->
    exists ar0 ae, g_areq g = Some ar0 /\ g_aevent g = Some ae
      /\ exists j b ar, log_in_call ops j b (ae_uid ae) ar /\ ar_client_id ar = ar_client_id ar0.
  Proof.
    intros (al & F). induction F as [|ops evs w o ev w' F IH Fa E]; intros l g H.
    { unfold hp in H. cbn in H. destruct l; discriminate. }
    assert (forall j b u ar, log_in_call ops j b u ar -> log_in_call (ops ++ [o]) j b u ar) as App.
    { intros j b u ar (n & i & a & x & iv & uri & N). exists n, i, a, x, iv, uri.
      rewrite nth_error_app1 by (apply nth_error_Some; congruence). exact N. }
    destruct (history_facts _ _ _ (ex_intro _ al F)) as (Hh & J & Ln & _).
    destruct (bstep_origin _ _ _ _ _ _ _ Hh J Fa E H) as [(g0 & H0 & A1 & A2)|(ar & ae & A1 & A2 & [Q|Q])].
    - destruct (IH _ _ H0) as (ar0 & ae & B1 & B2 & j & b & ar & B3 & B4). exists ar0, ae.
      split; [congruence|]. split; [congruence|]. exists j, b, ar. auto.
    - exists ar, ae. split; [exact A1|]. split; [exact A2|]. destruct Q as (b & n & i & a & x & iv & uri & ->).
      exists (List.length ops), b, ar. split; [|reflexivity]. exists n, i, a, x, iv, uri. rewrite nth_error_app2, Nat.sub_diag by lia. reflexivity.
    - exists ar, ae. split; [exact A1|]. split; [exact A2|]. destruct Q as (b & gid & j & (n & i & ar1 & a & x & iv & uri & out & ck & N & Ec & _)).
      exists j, b, ar1. split; [|exact Ec]. apply App. exists n, i, a, x, iv, uri. exact N.
  Qed.

  Lemma every_grant ops evs w gid g u c : bhistory K e ops evs w -> grant_of (b_h w) gid g -> belongs e g u c ->
    exists j b ar, log_in_call ops j b u ar /\ ar_client_id ar = c.
  Proof.
    intros H (l & Hl & _) (ar & ae & B1 & B2 & B3 & B4 & _). change (hp (h_st (b_h w)) l = Some (OGrant g)) in Hl.
    destruct (grants_log_in _ _ _ H _ _ Hl) as (ar0 & ae0 & A1 & A2 & j & b & ar1 & A3 & A4).
    assert (ar0 = ar) as -> by congruence. assert (ae0 = ae) as -> by congruence. subst u c. exists j, b, ar1. auto.
  Qed.

End B.
