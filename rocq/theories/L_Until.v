(** What can be used until it is ended: proofs. *)
From Verif Require Import M_Base M_Types M_Codec M_Grant M_Env M_Session M_Claims M_Handler
  M_Authz M_TokenEP M_PKCE M_AuthzEP M_Info M_Logout M_History S_Codec S_Grant S_Claims S_History S_PKCE S_Answer
  S_Logout S_Revoke S_Cause S_Last S_Login L_Base L_Codec L_Monad L_Store L_Hist1 L_Hist2 L_Hist8 L_Answer L_Records L_Login L_Flow
  L_Cause L_Cause2 L_Honour2 L_Found.

Section U.
  Variable e : env.
  Hypothesis W : laws e.
  Hypothesis Gc : forall c ci, dget (e_clients e) c = Some ci -> good_id c.

  Lemma history_further ops evs h ops2 evs2 h2 : history e ops evs h -> Forall (proper e) ops2 ->
    exec e h ops2 = (evs2, h2) -> history e (ops ++ ops2) (evs ++ evs2) h2.
  Proof.
    intros (Pr & al & Ex) Po Es. split; [apply Forall_app; auto|].
    exists al. rewrite exec_app, Ex, Es. reflexivity.
  Qed.

  Lemma code_stays_live ops evs h gid g u c t now : history e ops evs h -> Forall (sensible e) ops -> grant_of h gid g ->
    belongs e g u c -> In t (g_tokens g) ->
    (forall j, ~ spent_at evs j (t_value t) (t_class t)) ->
    (forall m, r_max (t_rules t) = Some m -> (0 < m)%Z) ->
    (t_exp t <> 0 -> now <= t_exp t)%Z ->
    (forall j, ~ meant_to_end_token e ops evs j g t) -> token_live t now.
  Proof.
    intros Hi So G B It Ns Mx Xt Nt.
    pose proof (history_hi e W _ _ _ Hi) as Hh. pose proof G as (l & H & Id).
    pose proof (inv_grants _ _ (hi_inv _ _ Hh) _ _ H) as Gi. pose proof (gi_tok _ _ Gi _ It) as To.
    split.
    - eapply not_revoked; [intros R; eapply (tokens_ended e W Gc); eauto|]. intros (j & Y). eapply Nt; eauto.
    - assert (t_used t = 0%Z) as ->.
      { destruct (Z.eq_dec (t_used t) 0) as [Y|N]; auto. exfalso.
        destruct (tokens_spent e W Gc _ _ _ _ _ _ Hi So G It N) as (j & Y). eapply Ns; eauto. }
      split; [exact Mx|]. split; [rewrite (to_nbf _ _ To); congruence|exact Xt].
  Qed.
  Lemma grant_stays_live ops evs h gid g u c now : history e ops evs h -> Forall (sensible e) ops -> grant_of h gid g ->
    belongs e g u c -> (g_exp g <> 0 -> now <= g_exp g)%Z ->
    (forall j o, nth_error ops j = Some o -> ~ meant_to_end e o u c gid) -> grant_live g now.
  Proof.
    intros Hi So G B Xg Ng.
    pose proof (history_hi e W _ _ _ Hi) as Hh. pose proof G as (l & H & Id).
    pose proof (inv_grants _ _ (hi_inv _ _ Hh) _ _ H) as Gi. split.
    - eapply not_revoked; [intros R; eapply (grants_ended e W Gc); eauto|]. intros (j & o & Nj & Y). eapply Ng; eauto.
    - split; [rewrite (gi_max _ _ Gi); discriminate|]. split; [rewrite (gi_nbf _ _ Gi); congruence|exact Xg].
  Qed.

  Lemma code_until_ended ops1 evs1 h1 ops2 evs2 h now now1 now2 gid g u c gts ar t v q issue :
    history e ops1 evs1 h1 -> leads_to e now h1 v gid ->
    Forall (proper e) ops2 -> exec e h1 ops2 = (evs2, h) ->
    Forall (sensible e) (ops1 ++ ops2) -> (forall o, In o ops2 -> ~ deletes o) ->
    (forall j o, nth_error (ops1 ++ ops2) j = Some o -> ~ meant_to_end e o u c gid) ->
    (forall j, ~ meant_to_end_token e (ops1 ++ ops2) (evs1 ++ evs2) j g t) ->
    (forall j, ~ spent_at (evs1 ++ evs2) j v "authorization_code") ->
    read_alike e v now now1 -> read_alike e v now now2 ->
    grant_of h gid g -> belongs e g u c -> g_areq g = Some ar ->
    In t (g_tokens g) -> t_value t = v -> t_class t = "authorization_code" ->
    (forall m, r_max (t_rules t) = Some m -> (0 < m)%Z) ->
    (t_exp t <> 0 -> now1 <= t_exp t /\ now2 <= t_exp t)%Z -> (g_exp g <> 0 -> now2 <= g_exp g)%Z ->
    lets_mint t "access_token" -> may_use e c "authorization_code" ->
    sent_request q v ar -> keeps_challenge e q ar ->
    in_order e now2 u c gts -> (forall p, dec_sid e u <> Ok p) ->
    legible (g_claims g) -> (forall m, ar_claims ar = Some m -> legible m) ->
    (e_oidc e = true -> exists sc, ar_scope ar = Some sc) ->
    List.length (g_tokens g) < e_limit e ->
    exists q' a h',
      exec e h [OParse now1 c q; OProcess now2 (List.length (h_parsed h)) issue]
        = ([EvParse (Ok (Good q')); EvToken q' (Ok (Good a))], h')
      /\ full_answer e g ar t gts issue a.
  Proof.
    intros Hi Le Po Ex Se Nd Ng Nt Ns R1 R2 Go Bg Ar It Vt Ct Mx Xt Xg Lm Mu Sq Kq Io Nu Lc Lm2 Os Ll.
    pose proof (history_further _ _ _ _ _ _ Hi Po Ex) as Hi2. rewrite <- Vt, <- Ct in Ns.
    apply (code_request_succeeds e W _ _ h now1 now2 gid g u c gts ar t v q issue Hi2 Go Bg Ar It Vt Ct); auto.
    - eapply code_stays_live; eauto. intros X. apply (Xt X).
    - eapply code_stays_live; eauto. intros X. apply (Xt X).
    - eapply grant_stays_live; eauto.
    - eapply (leads_lasts e W ops1 evs1 h1 ops2 evs2 h now v gid g u c); eauto.
    - eapply (leads_lasts e W ops1 evs1 h1 ops2 evs2 h now v gid g u c); eauto.
  Qed.

  Lemma access_until_ended ops1 evs1 h1 ops2 evs2 h now now1 release gid g u c t tok ae users :
    history e ops1 evs1 h1 -> leads_to e now h1 tok gid ->
    Forall (proper e) ops2 -> exec e h1 ops2 = (evs2, h) ->
    Forall (sensible e) (ops1 ++ ops2) -> (forall o, In o ops2 -> ~ deletes o) ->
    (forall j o, nth_error (ops1 ++ ops2) j = Some o -> ~ meant_to_end e o u c gid) ->
    (forall j, ~ meant_to_end_token e (ops1 ++ ops2) (evs1 ++ evs2) j g t) ->
    read_alike e tok now now1 -> (forall p, dec_sid e u <> Ok p) ->
    grant_of h gid g -> belongs e g u c -> In t (g_tokens g) -> t_value t = tok -> t_class t = "access_token" ->
    (forall m, r_max (t_rules t) = Some m -> (0 < m)%Z) ->
    (t_exp t <> 0 -> now1 <= t_exp t)%Z -> (g_exp g <> 0 -> now1 <= g_exp g)%Z ->
    g_aevent g = Some ae -> (now1 <= ae_valid_until ae)%Z ->
    e_users e = Some users -> legible (g_claims g) -> List.length (g_tokens g) < e_limit e ->
    (exists info h', step e h (OUserinfo now1 tok) = (EvUserinfo (Ok (Good (info, c))), h'))
    /\ exists r h', step e h (OIntrospect now1 release tok) = (EvIntrospect (Ok (Some r)), h').
  Proof.
    intros Hi Le Po Ex Se Nd Ng Nt R1 Nu Go Bg It Vt Ct Mx Xt Xg Ae Av Us Lc Ll.
    pose proof (history_further _ _ _ _ _ _ Hi Po Ex) as Hi2.
    apply (honoured_until_ended e W (ops1 ++ ops2) (evs1 ++ evs2) h now1 release gid g u c t tok ae users); auto.
    eapply (leads_lasts e W ops1 evs1 h1 ops2 evs2 h now tok gid g u c); eauto.
  Qed.

  Lemma used_stays_live ops evs h gid g u c t now : history e ops evs h -> Forall (sensible e) ops -> grant_of h gid g ->
    belongs e g u c -> In t (g_tokens g) ->
    (forall m, r_max (t_rules t) = Some m -> (0 < m)%Z /\ forall j, ~ spent_at evs j (t_value t) (t_class t)) ->
    (t_exp t <> 0 -> now <= t_exp t)%Z ->
    (forall j, ~ meant_to_end_token e ops evs j g t) -> token_live t now.
  Proof.
    intros Hi So G B It Mx Xt Nt.
    pose proof (history_hi e W _ _ _ Hi) as Hh. pose proof G as (l & H & Id).
    pose proof (inv_grants _ _ (hi_inv _ _ Hh) _ _ H) as Gi. pose proof (gi_tok _ _ Gi _ It) as To.
    split.
    - eapply not_revoked; [intros R; eapply (tokens_ended e W Gc); eauto|]. intros (j & Y). eapply Nt; eauto.
    - split; [|split; [rewrite (to_nbf _ _ To); congruence|exact Xt]].
      intros m Em. destruct (Mx m Em) as [Pm Ns].
      assert (t_used t = 0%Z) as ->; [|exact Pm].
      destruct (Z.eq_dec (t_used t) 0) as [Y|N]; auto. exfalso.
      destruct (tokens_spent e W Gc _ _ _ _ _ _ Hi So G It N) as (j & Y). eapply Ns; eauto.
  Qed.

  Lemma refresh_until_ended ops1 evs1 h1 ops2 evs2 h now now1 now2 gid g u c gts ar t v q issue :
    history e ops1 evs1 h1 -> leads_to e now h1 v gid ->
    Forall (proper e) ops2 -> exec e h1 ops2 = (evs2, h) ->
    Forall (sensible e) (ops1 ++ ops2) -> (forall o, In o ops2 -> ~ deletes o) ->
    (forall j o, nth_error (ops1 ++ ops2) j = Some o -> ~ meant_to_end e o u c gid) ->
    (forall j, ~ meant_to_end_token e (ops1 ++ ops2) (evs1 ++ evs2) j g t) ->
    (forall m, r_max (t_rules t) = Some m ->
       (0 < m)%Z /\ forall j, ~ spent_at (evs1 ++ evs2) j v "refresh_token") ->
    read_alike e v now now1 -> read_alike e v now now2 ->
    grant_of h gid g -> belongs e g u c -> g_areq g = Some ar ->
    In t (g_tokens g) -> t_value t = v -> t_class t = "refresh_token" ->
    (t_exp t <> 0 -> now1 <= t_exp t /\ now2 <= t_exp t)%Z -> (g_exp g <> 0 -> now2 <= g_exp g)%Z ->
    lets_mint t "access_token" -> may_use e c "refresh_token" ->
    presents q v "refresh_token" -> tr_client q = Some c -> asks_within g t q ->
    in_order e now2 u c gts -> (forall p, dec_sid e u <> Ok p) ->
    legible (g_claims g) -> (forall m, ar_claims ar = Some m -> legible m) ->
    List.length (g_tokens g) < e_limit e ->
    exists a h',
      exec e h [OParse now1 c q; OProcess now2 (List.length (h_parsed h)) issue]
        = ([EvParse (Ok (Good q)); EvToken q (Ok (Good a))], h')
      /\ full_refresh e g t q issue a.
  Proof.
    intros Hi Le Po Ex Se Nd Ng Nt Ns R1 R2 Go Bg Ar It Vt Ct Xt Xg Lm Mu Pq Cq Aw Io Nu Lc Lm2 Ll.
    pose proof (history_further _ _ _ _ _ _ Hi Po Ex) as Hi2. rewrite <- Vt, <- Ct in Ns.
    apply (refresh_request_succeeds e W _ _ h now1 now2 gid g u c gts ar t v q issue Hi2 Go Bg Ar It Vt Ct); auto.
    - eapply used_stays_live; eauto. intros X. apply (Xt X).
    - eapply used_stays_live; eauto. intros X. apply (Xt X).
    - eapply grant_stays_live; eauto.
    - eapply (leads_lasts e W ops1 evs1 h1 ops2 evs2 h now v gid g u c); eauto.
    - eapply (leads_lasts e W ops1 evs1 h1 ops2 evs2 h now v gid g u c); eauto.
  Qed.

  (** A session with which a user is signed on, some calls later. *)
  Lemma signed_on_lasts ops1 evs1 h1 ops2 evs2 h now now' u c sid g1 :
    history e ops1 evs1 h1 -> signed_on e now h1 u c sid g1 ->
    Forall (proper e) ops2 -> exec e h1 ops2 = (evs2, h) ->
    Forall (sensible e) (ops1 ++ ops2) -> (forall o, In o ops2 -> ~ deletes o) ->
    (forall j o, nth_error (ops1 ++ ops2) j = Some o -> ~ meant_to_end e o u c (g_id g1)) ->
    (forall p, dec_sid e u <> Ok p) ->
    (forall g, grant_of h (g_id g1) g -> g_exp g <> 0 -> now' <= g_exp g)%Z ->
    (forall ae, g_aevent g1 = Some ae -> (now' < ae_valid_until ae)%Z) ->
    exists g, grant_of h (g_id g1) g /\ g_areq g = g_areq g1 /\ signed_on e now' h u c sid g.
  Proof.
    intros Hi (Ns & gid & l & ae & Hd & Eg & Hl & _ & Ea & Eu & _) Po Ex Se Nd Ng Nu Xg Va.
    pose proof (history_further _ _ _ _ _ _ Hi Po Ex) as Hi2.
    pose proof (history_hi e W _ _ _ Hi) as Hh1. pose proof (history_hi e W _ _ _ Hi2) as Hh2.
    apply get_found in Eg.
    assert (separable [u; c; gid]) as Sp by (eapply dec_sid3_separable; eauto).
    pose proof (exec_found e W _ _ _ _ _ _ _ _ Hh1 Po Nd Ex Sp Nu Eg) as F.
    assert (belongs e g1 u c /\ g_id g1 = gid) as (Bg1 & Eid).
    { destruct Eg as (ul & iu & cl & ic & A1 & A2 & A3 & A4 & A5 & A6 & A7).
      destruct (inv_keys _ _ (hi_inv _ _ Hh1) _ _ _ _ Sp A7) as (g2 & Hg2 & Ig2 & Bg2).
      unfold hp in Hg2. rewrite Hl in Hg2. injection Hg2 as <-. auto. }
    destruct (exec_stable e W (grown l g1) ops2 h1 evs2 h) as (g & Hg & (I1 & I2 & I3 & I4) & _); auto.
    { intros n. apply grown_later. }
    { exists g1. split; [exact Hl|]. split; [apply ident_refl|]. intros i t' N. exists t'. split; auto. apply token_later_refl. }
    assert (grant_of h (g_id g1) g) as Go by (exists l; split; auto).
    assert (belongs e g u c) as Bg.
    { destruct Bg1 as (a1 & b1 & B). exists a1, b1. rewrite I2, I3, I4. exact B. }
    exists g. split; [exact Go|]. split; [exact I2|]. split; [exact Ns|]. exists gid, l, ae.
    split; [exact Hd|]. split; [now apply found_get|]. split; [exact Hg|].
    split; [eapply grant_stays_live; eauto|]. split; [congruence|]. split; [exact Eu|]. now apply Va.
  Qed.

  (** The code of a log-in, some calls later. *)
  Lemma login_code_survives ops evs h now iframe ar u acr exp_in uri gts :
    history e ops evs h -> proper e (OLogin now iframe ar u acr exp_in (Some uri)) ->
    in_order e now u (ar_client_id ar) gts -> gives_codes e -> asks_for_code ar ->
    (forall m, ar_claims ar = Some m -> legible m) -> (forall x, exp_in = Some x -> (0 <= x)%Z) ->
    (forall p, dec_sid e u <> Ok p) ->
    code_mints e (ar_client_id ar) -> may_use e (ar_client_id ar) "authorization_code" ->
    (e_oidc e = true -> exists sc, ar_scope ar = Some sc) ->
    exists o v h1 gid, step e h (OLogin now iframe ar u acr exp_in (Some uri)) = (EvLogin (Ok o), h1)
      /\ answers_with_code ar uri v o
      /\ forall ops2 evs2 h2 now1 now2 g t q issue,
         let all_ops := (ops ++ [OLogin now iframe ar u acr exp_in (Some uri)]) ++ ops2 in
         let all_evs := (evs ++ [EvLogin (Ok o)]) ++ evs2 in
         Forall (proper e) ops2 -> exec e h1 ops2 = (evs2, h2) ->
         Forall (sensible e) all_ops -> (forall o, In o ops2 -> ~ deletes o) ->
         grant_of h2 gid g -> In t (g_tokens g) -> t_value t = v ->
         (forall j o, nth_error all_ops j = Some o -> ~ meant_to_end e o u (ar_client_id ar) gid) ->
         (forall j, ~ meant_to_end_token e all_ops all_evs j g t) ->
         (forall j, ~ spent_at all_evs j v "authorization_code") ->
         reads_codes e now now1 -> reads_codes e now now2 ->
         code_lasts e (ar_client_id ar) now now1 -> code_lasts e (ar_client_id ar) now now2 ->
         (g_exp g <> 0 -> now2 <= g_exp g)%Z ->
         in_order e now2 u (ar_client_id ar) gts ->
         legible (g_claims g) -> List.length (g_tokens g) < e_limit e ->
         sent_request q v ar -> keeps_challenge e q ar ->
         exists q' a h3,
           exec e h2 [OParse now1 (ar_client_id ar) q; OProcess now2 (List.length (h_parsed h2)) issue]
             = ([EvParse (Ok (Good q')); EvToken q' (Ok (Good a))], h3)
           /\ full_answer e g ar t gts issue a.
  Proof.
    intros Hi Pr O V A Hr Hx Nu Mi Mu Ls. pose proof Pr as [Gc' Gu]. set (c := ar_client_id ar) in *.
    pose proof (history_kept e W _ _ _ u c Gu Gc' Nu Hi) as K.
    destruct (sc_login e W now iframe ar u acr exp_in uri gts O V A Hr Hx Gu Gc' Nu (h_st h) K)
      as (o & s' & E & v & gid & l & sid & X & Hd & Hne & G). fold c in Hd, G.
    set (h1 := mk_hst s' (h_parsed h)).
    assert (step e h (OLogin now iframe ar u acr exp_in (Some uri)) = (EvLogin (Ok o), h1)) as Es
      by (unfold step, on_st; rewrite E; reflexivity).
    pose proof (history_snoc e _ _ _ _ _ _ Hi Pr Es) as Hi1.
    pose proof (fun n R => given_leads e W now n u c gid l sid ar _ _ v s' (h_parsed h) Hd Hne R G) as Lds.
    destruct G as (g1 & t1 & [_ Hl] & Ga & Ge & Lc & Gm & (S1 & S2 & S3 & S4 & S5 & S6) & It & (C1 & C2 & C3 & C4 & C5 & C6) & Vt & _).
    assert (g_rules g1 = env_rules e c) as Gr by (rewrite S1; destruct (gc_rules _); reflexivity).
    assert (grant_rule g1 = code_rule e c) as Er by (unfold grant_rule; rewrite Gr; reflexivity).
    rewrite Er in *.
    unfold gained in It. cbn [g_tokens new_grant app] in It.
    assert (belongs e g1 u c) as Bg1.
    { exists ar, (new_event now u acr exp_in). split; [exact Ga|]. split; [reflexivity|]. split; [exact Ge|].
      split; [reflexivity|]. rewrite S6. reflexivity. }
    exists o, v, h1, gid. split; [exact Es|]. split; [exact X|].
    intros ops2 evs2 h2 now1 now2 g t q issue all_ops all_evs Po Ex Se Nd Go It2 Vt2 Ng Nt Ns R1 R2 T1 T2 Xg Io Lg Ll Sq Kq.
    pose proof (history_further _ _ _ _ _ _ Hi1 Po Ex) as Hi2.
    assert (ident g1 g /\ token_later t1 t) as ((_ & I2 & I3 & I4) & Tl).
    { pose proof (history_hi e W _ _ _ Hi1) as Hh1. pose proof (history_hi e W _ _ _ Hi2) as Hh2.
      destruct (exec_stable e W (grown l g1) ops2 h1 evs2 h2) as (g' & Hg' & Ig' & Tg'); auto.
      { intros n. apply grown_later. }
      { exists g1. split; [exact Hl|]. split; [apply ident_refl|]. intros i t' N. exists t'. split; auto. apply token_later_refl. }
      destruct Go as (l2 & Hg & Eg).
      assert (l = l2) as -> by (eapply (inv_uniq _ _ (hi_inv _ _ Hh2)); eauto; destruct Ig' as (-> & _); rewrite S5; auto).
      unfold hp in Hg'. rewrite Hg in Hg'. injection Hg' as <-. split; [exact Ig'|].
      destruct (Tg' 0 t1) as (t' & N' & L'); [rewrite It; reflexivity|].
      destruct (In_nth_error _ _ It2) as (j & Nj).
      destruct (inv_vals _ _ (hi_inv _ _ Hh2) l2 l2 g g j 0 t t' Hg Hg Nj N') as [_ ->].
      { destruct L' as (_ & L' & _). congruence. }
      congruence. }
    destruct Tl as (K1 & K2 & K3 & K4 & K5 & K6 & _).
    assert (belongs e g u c) as Bg.
    { destruct Bg1 as (a1 & b1 & B). exists a1, b1. rewrite I2, I3, I4. exact B. }
    assert (forall n, code_lasts e c now n -> t_exp t <> 0 -> n <= t_exp t)%Z as Xt.
    { intros n [Tx _]. rewrite K6, C6. unfold rule_exp. destruct (r_exp (code_rule e c)) as [x|]; [|lia].
      destruct (Z.eqb_spec x 0); [lia|]. intros _. now apply Tx. }
    assert (forall m, r_max (t_rules t) = Some m -> (0 < m)%Z) as Mx.
    { rewrite K4, C2. cbn. intros m Y. injection Y as <-. lia. }
    assert (t_class t = "authorization_code") as Ct by (rewrite K1; exact C1).
    assert (lets_mint t "access_token") as La.
    { unfold lets_mint. rewrite K4, C2. cbn. destruct (r_minting (code_rule e c)) as [m|] eqn:Em; eexists; (split; [reflexivity|]).
      - now apply Mi.
      - now left. }
    assert (forall n, read_alike e v n n) as Ra by (intros n i; auto).
    rewrite <- Vt2, <- Ct in Ns.
    apply (code_request_succeeds e W _ _ h2 now1 now2 gid g u c gts ar t v q issue Hi2 Go Bg); auto.
    - congruence.
    - eapply code_stays_live; eauto.
    - eapply code_stays_live; eauto.
    - eapply grant_stays_live; eauto.
    - eapply (leads_lasts e W _ _ h1 ops2 evs2 h2 now1 v gid g u c Hi1); eauto.
    - eapply (leads_lasts e W _ _ h1 ops2 evs2 h2 now2 v gid g u c Hi1); eauto.
  Qed.
End U.

Lemma single_sign_on_lasts : forall e ops1 evs1 h1 ops2 evs2 h now now' u sid g1 iframe ar ru acr exp_in uri gts,
  laws e -> (forall c ci, dget (e_clients e) c = Some ci -> good_id c) ->
  history e ops1 evs1 h1 -> signed_on e now h1 u (ar_client_id ar) sid g1 ->
  Forall (proper e) ops2 -> exec e h1 ops2 = (evs2, h) ->
  Forall (sensible e) (ops1 ++ ops2) -> (forall o, In o ops2 -> ~ deletes o) ->
  (forall j o, nth_error (ops1 ++ ops2) j = Some o -> ~ meant_to_end e o u (ar_client_id ar) (g_id g1)) ->
  (forall p, dec_sid e u <> Ok p) ->
  (forall g, grant_of h (g_id g1) g ->
     (g_exp g <> 0 -> now' <= g_exp g)%Z /\ List.length (g_tokens g) < e_limit e) ->
  (forall ae, g_aevent g1 = Some ae -> (now' < ae_valid_until ae)%Z) ->
  proper e (OLogin now' iframe ar u acr exp_in (Some uri)) ->
  in_order e now' u (ar_client_id ar) gts -> gives_codes e -> asks_for_code ar -> no_new_login ar ->
  (ru = None \/ ru = Some u) -> (forall m, ar_claims ar = Some m -> legible m) ->
  exists o v h', step e h (OAuthorize now' false iframe ar ru acr exp_in (AUser u (Some sid)) (Some uri))
      = (EvAuthorize (Ok (ROut o)), h')
    /\ answers_with_code ar uri v o /\ code_recorded h' ar u v.
Proof.
  intros e ops1 evs1 h1 ops2 evs2 h now now' u sid g1 iframe ar ru acr exp_in uri gts W Gc Hi So Po Ex Se Nd Ng Nu Xg Va Pr O V A N R Hr.
  destruct (signed_on_lasts e W Gc ops1 evs1 h1 ops2 evs2 h now now' u (ar_client_id ar) sid g1) as (g & Go & _ & Sg); auto.
  { intros g Go. apply Xg, Go. }
  apply (authorize_signed_on e W (ops1 ++ ops2) (evs1 ++ evs2) h now' iframe ar ru u acr exp_in uri gts sid g); auto.
  - eapply history_further; eauto.
  - intros _. apply Xg, Go.
Qed.
