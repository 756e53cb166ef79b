(** From the log-in to the tokens: proofs. *)
From Verif Require Import M_Base M_Types M_Codec M_Grant M_Env M_Session M_Claims M_Handler
  M_Authz M_TokenEP M_PKCE M_AuthzEP M_Info M_Logout M_History S_Codec S_Grant S_Claims S_History S_Handler S_Answer S_Login
  L_Base L_Codec L_Monad L_Grant L_Claims L_Handler L_Store L_Hist1 L_Hist2 L_Hist3 L_Hist4 L_Hist5 L_Hist6
  L_Hist7 L_Hist8 L_Emit L_Answer L_Records L_Login.

Section F.
  Variables (e : env).
  Hypothesis W : laws e.

  Lemma given_leads now now' u c gid l sid ar ae g0 v s ps : dec_sid3 e sid = Ok (u, c, gid) -> sid <> "" ->
    reads_codes e now now' -> given e now u c gid l sid ar ae g0 v s -> leads_to e now' (mk_hst s ps) v gid.
  Proof.
    intros Hd Hne R (g & t & K & _ & _ & _ & _ & _ & _ & _ & _ & h & rules & p & s0 & s1 & Eh & Cp & Em).
    destruct (R h sid rules p s0 v s1 Eh Hne Cp Em) as (i & Ei & Es).
    exists (mk_sess sid u c gid l), s. split; [|reflexivity]. cbn [h_st]. unfold get_session_info_by_token. rewrite Ei.
    unfold bind at 1, lift at 1. rewrite Es. assert (str_true sid = true) as -> by now apply str_true_iff.
    cbn [negb]. unfold compatible_sid. rewrite (dec_sid_plain e sid _ W (dec_sid3_ok _ _ _ _ _ Hd)). cbn [List.length Nat.eqb].
    unfold bind at 1, ret at 1. unfold get_session_info. rewrite Hd. unfold bind, lift.
    rewrite (found_get u c gid l) by apply K. reflexivity.
  Qed.

  Lemma history_snoc ops evs h o ev h' : history e ops evs h -> proper e o -> step e h o = (ev, h') ->
    history e (ops ++ [o]) (evs ++ [ev]) h'.
  Proof.
    intros (Pr & al & Ex) Po Es. split.
    - apply Forall_app. split; [exact Pr|]. constructor; [exact Po|constructor].
    - exists al. rewrite exec_app, Ex. cbn [exec]. now rewrite Es.
  Qed.

  Lemma login_to_tokens ops evs h now now1 now2 iframe ar u acr exp_in uri gts :
    history e ops evs h -> proper e (OLogin now iframe ar u acr exp_in (Some uri)) ->
    in_order e now u (ar_client_id ar) gts -> in_order e now2 u (ar_client_id ar) gts ->
    gives_codes e -> asks_for_code ar ->
    (forall m, ar_claims ar = Some m -> legible m) -> (forall x, exp_in = Some x -> (0 <= x)%Z) ->
    (forall p, dec_sid e u <> Ok p) ->
    reads_codes e now now1 -> reads_codes e now now2 ->
    code_lasts e (ar_client_id ar) now now1 -> code_lasts e (ar_client_id ar) now now2 ->
    code_mints e (ar_client_id ar) -> may_use e (ar_client_id ar) "authorization_code" ->
    (e_oidc e = true -> exists sc, ar_scope ar = Some sc) -> 1 < e_limit e ->
    exists o v h1 gid g t, step e h (OLogin now iframe ar u acr exp_in (Some uri)) = (EvLogin (Ok o), h1)
      /\ answers_with_code ar uri v o
      /\ grant_of h1 gid g /\ belongs e g u (ar_client_id ar) /\ g_areq g = Some ar /\ In t (g_tokens g) /\ t_value t = v
      /\ forall q issue, sent_request q v ar -> keeps_challenge e q ar ->
         exists q' a h2,
           exec e h1 [OParse now1 (ar_client_id ar) q; OProcess now2 (List.length (h_parsed h1)) issue]
             = ([EvParse (Ok (Good q')); EvToken q' (Ok (Good a))], h2)
           /\ full_answer e g ar t gts issue a.
  Proof.
    intros Hi Pr O O2 V A Hr Hx Nu R1 R2 T1 T2 Mi Mu Ls Ll. pose proof Pr as [Gc Gu]. set (c := ar_client_id ar) in *.
    pose proof (history_kept e W _ _ _ u c Gu Gc Nu Hi) as K.
    destruct (sc_login e W now iframe ar u acr exp_in uri gts O V A Hr Hx Gu Gc Nu (h_st h) K)
      as (o & s' & E & v & gid & l & sid & X & Hd & Hne & G). fold c in Hd, G.
    set (h1 := mk_hst s' (h_parsed h)).
    assert (step e h (OLogin now iframe ar u acr exp_in (Some uri)) = (EvLogin (Ok o), h1)) as Es
      by (unfold step, on_st; rewrite E; reflexivity).
    pose proof (history_snoc _ _ _ _ _ _ Hi Pr Es) as Hi1.
    pose proof (given_leads now now1 u c gid l sid ar _ _ v s' (h_parsed h) Hd Hne R1 G) as L1.
    pose proof (given_leads now now2 u c gid l sid ar _ _ v s' (h_parsed h) Hd Hne R2 G) as L2.
    destruct G as (g & t & [_ Hl] & Ga & Ge & Lc & Gm & (S1 & S2 & S3 & S4 & S5 & S6) & It & (C1 & C2 & C3 & C4 & C5 & C6) & Vt & _).
    assert (g_rules g = env_rules e c) as Gr by (rewrite S1; destruct (gc_rules _); reflexivity).
    assert (grant_rule g = code_rule e c) as Er by (unfold grant_rule; rewrite Gr; reflexivity).
    rewrite Er in *.
    unfold gained in It. cbn [g_tokens new_grant app] in It.
    assert (grant_of h1 gid g) as Go by (exists l; split; [exact Hl|rewrite S5; reflexivity]).
    assert (belongs e g u c) as Bg.
    { exists ar, (new_event now u acr exp_in). split; [exact Ga|]. split; [reflexivity|]. split; [exact Ge|].
      split; [reflexivity|]. rewrite S6. reflexivity. }
    assert (forall n, code_lasts e c now n -> token_live t n) as Lt.
    { intros n [Tx _]. unfold token_live, live. rewrite C2, C3, C4, C5, C6.
      split; [reflexivity|]. split; [cbn; intros m Y; injection Y as <-; lia|]. split; [lia|].
      unfold rule_exp. destruct (r_exp (code_rule e c)) as [x|]; [|lia]. destruct (Z.eqb_spec x 0); [lia|].
      intros _. now apply Tx. }
    assert (grant_live g now2) as Lg.
    { unfold grant_live, live. rewrite S2, S3, S4, Gm. cbn. split; [reflexivity|]. split; [discriminate|]. split; [lia|].
      destruct T2 as [_ Tg]. destruct (gc_exp _) as [x|]; [|lia]. intros _. now apply Tg. }
    assert (lets_mint t "access_token") as La.
    { unfold lets_mint. rewrite C2. cbn. destruct (r_minting (code_rule e c)) as [m|] eqn:Em; eexists; (split; [reflexivity|]).
      - now apply Mi.
      - now left. }
    exists o, v, h1, gid, g, t. split; [exact Es|]. split; [exact X|]. split; [exact Go|]. split; [exact Bg|].
    split; [exact Ga|]. split; [rewrite It; now left|]. split; [exact Vt|].
    intros q issue Sq Kq.
    apply (code_request_succeeds e W _ _ h1 now1 now2 gid g u c gts ar t v q issue Hi1 Go Bg Ga); auto.
    - rewrite It. now left.
    - rewrite It. exact Ll.
  Qed.
End F.

(** Opaque codes are recognised at any time. *)
Lemma opaque_codes_read e now now' post pw lt : laws e ->
  e_handlers e = ("authorization_code", HDefault pw "authorization_code" lt) :: post -> reads_codes e now now'.
Proof.
  intros W Eh h sid rules p s v s' Hh Ns Cp Em. rewrite Eh in Hh. cbn in Hh. injection Hh as <-.
  unfold handler_mint in Em. destruct (clash p); [discriminate|]. apply bind_ok in Em as (n & s1 & _ & Em).
  rewrite Cp in Em by (cbn; auto). apply ret_ok in Em as [<- _].
  destruct (default_info_reports (e_crypto e) pw "authorization_code" lt (e_rnd e n) n now sid) as (i & Ei & Es & _);
    [exact (law_fernet _ W)|exact (law_base64 _ W)|discriminate|].
  exists i. split; [|exact Es]. apply token_info_ok.
  exists [], (HDefault pw "authorization_code" lt), (map snd post). split; [rewrite Eh; reflexivity|].
  split; [exact Ei|]. intros h' [].
Qed.
