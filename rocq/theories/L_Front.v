(** Lemmas for the front channel over the wire. *)
From Verif Require Import M_Base M_Uri M_Redirect S_Redirect L_Redirect M_Types M_Codec M_Grant M_Env M_Session M_Claims M_Handler
  M_Authz M_TokenEP M_PKCE M_AuthzEP M_Info M_Logout M_History M_ClientAuthn M_Wire
  S_Codec S_Grant S_History S_AuthzResp S_ClientAuthn S_Wire L_Base L_Monad L_ClientAuthn L_Resp
  L_Hist8 L_Hist9 L_Hist10 L_Hist11 L_Info L_AuthzResp L_Wire.

Section F.
  Variables (sv : server) (e : env) (al : setting) (W : laws e).
  Let fr := sv_front sv.
  Let cdb := pc_cdb (fr_conf fr).

  Lemma wexec_is_exec ops : sound_front (sv_front sv) -> Forall (wproper sv e) ops -> forall w evs w',
    wexec sv e w ops = (evs, w') ->
    exists ops', Forall (proper e) ops' /\ exec e (w_h w) ops' = (done evs, w_h w').
  Proof.
    intros Sf. induction ops as [|o ops IH]; intros F w evs w' E.
    - cbn in E. injection E as <- <-. exists []. split; [constructor|reflexivity].
    - cbn [wexec] in E. destruct (wstep sv e w o) as [ev w1] eqn:S. destruct (wexec sv e w1 ops) as [evs1 w2] eqn:X.
      injection E as <- <-. inversion F as [|? ? P F1]; subst. destruct (IH F1 _ _ _ X) as (ops' & A & B).
      destruct (wstep_cases _ _ _ _ _ _ Sf S P) as [(N & H)|(o1 & ev1 & -> & S1 & P1 & _)].
      + exists ops'. split; [exact A|]. rewrite <- H. destruct ev; try exact B. elim (N ev). reflexivity.
      + exists (o1 :: ops'). split; [constructor; assumption|]. cbn [exec]. rewrite S1, B. reflexivity.
  Qed.

  (** The state after the [i]-th call leads to the final state. *)
  Lemma wevent_then ops evs w i ev : whistory sv e al ops evs w -> nth_error evs i = Some ev ->
    exists o w1 w2 ops' evs', nth_error ops i = Some o /\ whistory sv e al (firstn i ops) (firstn i evs) w1
      /\ wproper sv e o /\ wstep sv e w1 o = (ev, w2)
      /\ Forall (proper e) ops' /\ exec e (w_h w2) ops' = (evs', w_h w).
  Proof.
    intros (Sf & F & E) N.
    assert (forall i ops w0 evs w, Forall (wproper sv e) ops -> wexec sv e w0 ops = (evs, w) -> nth_error evs i = Some ev ->
      exists o w1 w2 ops2 evs2, nth_error ops i = Some o /\ wexec sv e w0 (firstn i ops) = (firstn i evs, w1)
        /\ wstep sv e w1 o = (ev, w2) /\ Forall (wproper sv e) ops2 /\ wexec sv e w2 ops2 = (evs2, w)) as K.
    { clear. induction i as [|i IH]; intros ops w0 evs w F E N.
      - destruct ops as [|o ops]; cbn [wexec] in E; [injection E as <- _; discriminate|].
        destruct (wstep sv e w0 o) as [ev1 w1] eqn:S. destruct (wexec sv e w1 ops) as [evs1 w2] eqn:X. injection E as <- <-.
        cbn in N. injection N as ->. inversion F; subst. exists o, w0, w1, ops, evs1. auto 6.
      - destruct ops as [|o ops]; cbn [wexec] in E; [injection E as <- _; discriminate|].
        destruct (wstep sv e w0 o) as [ev1 w1] eqn:S. destruct (wexec sv e w1 ops) as [evs1 w2] eqn:E1. injection E as <- <-.
        inversion F; subst. destruct (IH _ _ _ _ H2 E1 N) as (o' & w3 & w4 & o2 & e2 & A & B & C & D).
        exists o', w3, w4, o2, e2. cbn [firstn wexec nth_error]. rewrite S, B. auto. }
    destruct (K _ _ _ _ _ F E N) as (o & w1 & w2 & ops2 & evs2 & A & B & C & D & X). 
    destruct (wexec_is_exec _ Sf D _ _ _ X) as (ops' & Y & Z).
    exists o, w1, w2, ops', (done evs2). split; [exact A|].
    split; [split; [exact Sf|split; [now apply Forall_firstn'|exact B]]|]. split; [|auto].
    rewrite Forall_forall in F. apply F. eapply nth_error_In; eauto.
  Qed.

  Lemma answer_uri_ok rq uri : sound_front fr -> answer_uri fr rq = Some uri ->
    exists c, ar_client_id (fr_read fr rq) = c /\ redirect_ok cdb c uri
      /\ (forall u, dget rq "redirect_uri" = Some u -> ar_redirect_uri (fr_read fr rq) = Some uri).
  Proof.
    intros Sf. unfold answer_uri. destruct (get_uri _ _ _) as [u|] eqn:G; [|discriminate]. intros E. injection E as ->.
    destruct (get_uri_ok _ _ _ G) as (c & C & R); [apply Sf|]. exists c. split; [now apply sf_client|]. split; [exact R|].
    intros u U. apply sf_redirect; [exact Sf|]. unfold get_uri in G. rewrite U in G.
    destruct (verify_uri _ _ _ _); [|discriminate]. injection G as <-. exact U.
  Qed.

  Lemma authorize_uri now deny iframe ar ru acr exp_in ans uri s o s' a :
    authorize e now deny iframe ar ru acr exp_in ans uri s = (Ok (ROut o), s') -> ao_args o = Good a ->
    ao_uri o = uri /\ uri <> None.
  Proof.
    intros H A. unfold authorize in H. destruct (dget (e_clients e) (ar_client_id ar)); [|discriminate].
    apply bind_ok in H as (x & s1 & _ & H). apply bind_ok in H as (x1 & s2 & _ & H).
    destruct x1.
    - discriminate.
    - destruct (ar_response_mode ar); [|discriminate]. apply bind_ok in H as (y & s3 & _ & H). discriminate.
    - apply bind_ok in H as (y & s3 & H & R). apply ret_ok in R as [R _]. injection R as ->. eapply part2_uri; eauto.
  Qed.
  Lemma login_uri now iframe ar uid acr exp_in uri s o s' a :
    login e now iframe ar uid acr exp_in uri s = (Ok o, s') -> ao_args o = Good a -> ao_uri o = uri /\ uri <> None.
  Proof.
    intros H A. unfold login in H. apply bind_ok in H as (x & s1 & _ & H). eapply part2_uri; eauto.
  Qed.

  (** The request behind an authorization response. *)
  Lemma response_behind ops evs w i ev o a : whistory sv e al ops evs w -> nth_error evs i = Some ev -> delivers ev o a ->
    exists x ar uri u now w1 w2 ops' evs', nth_error ops i = Some x /\ ao_uri o = Some uri
      /\ redirect_ok cdb (ar_client_id ar) uri
      /\ (with_redirect x -> ar_redirect_uri ar = Some uri)
      /\ answers e now (w_h w1) (w_h w2) u ar a /\ HI e (w_h w2)
      /\ Forall (proper e) ops' /\ exec e (w_h w2) ops' = (evs', w_h w).
  Proof.
    intros Hw N (D & A). destruct (wevent_then _ _ _ _ _ Hw N) as (x & w1 & w2 & ops' & evs' & Nx & H1 & P & S & F & X).
    destruct (wire_is_history _ _ _ _ _ _ H1) as (ops1 & Hi). pose proof (proj1 H1) as Sf.
    destruct (wstep_cases _ _ _ _ _ _ Sf S P) as [(Z & _)|(o1 & ev1 & E1 & S1 & P1 & C)].
    { destruct D as [->| ->]; elim (Z _ eq_refl). }
    assert (HI e (w_h w2)) as H2.
    { destruct (exec_keeps e W (fun _ => True) [o1] (w_h w1) [ev1] (w_h w2)) as [G _]; auto.
      - eapply history_hi; eauto.
      - cbn [exec]. now rewrite S1. }
    destruct x as [now q hdr body|now q hdr rel t|now q hdr|now q hdr urn rq|now q hdr rq deny iframe ru acr exp_in ans|now iframe rq uid acr exp_in|o2].
    - destruct C as (? & ? & ? & _ & _ & -> & _). cbn [step] in S1. destruct (token_parse_all _ _ _ _ _). destruct D as [D|D]; congruence.
    - destruct C as (-> & _). cbn [step] in S1. unfold on_st in S1. destruct (introspect _ _ _ _ _). destruct D as [D|D]; congruence.
    - destruct C as (? & ? & ? & ? & -> & _). cbn [step] in S1. unfold on_st in S1. destruct (userinfo _ _ _ _). destruct D as [D|D]; congruence.
    - destruct C.
    - destruct C as (i1 & db & rq1 & r & par & _ & _ & Pa & ->).
      assert (ev1 = EvAuthorize (Ok (ROut o))) as ->.
      { destruct D as [D|D]; [congruence|]. cbn [step] in S1. unfold on_st in S1. destruct (authorize _ _ _ _ _ _ _ _ _ _ _). congruence. }
      pose proof S1 as S2. cbn [step] in S2. unfold on_st in S2. destruct (authorize _ _ _ _ _ _ _ _ _ _ _) as [r1 s1] eqn:Au.
      injection S2 as -> _. destruct (authorize_uri _ _ _ _ _ _ _ _ _ _ _ _ _ Au A) as [Uo Un].
      destruct (answer_uri (sv_front sv) r) as [uri|] eqn:U; [|congruence].
      destruct (answer_uri_ok _ _ Sf U) as (c & Cc & R & Ru). fold fr in Cc.
      destruct (authorize_answers e W _ _ _ _ _ _ _ _ _ _ _ _ _ _ _ Hi P1 S1 A) as (u & sid & _ & An).
      destruct (parse_redirect _ _ _ _ _ _ _ (sf_uris _ Sf) Pa) as (c2 & u2 & _ & U2 & _).
      exists (WAuthorize now q hdr rq deny iframe ru acr exp_in ans), (fr_read fr r), uri, u, now, w1, w2, ops', evs'.
      split; [exact Nx|]. split; [exact Uo|]. split; [now rewrite Cc|]. split; [intros _; eapply Ru; exact U2|]. auto.
    - subst o1. assert (ev1 = EvLogin (Ok o)) as ->.
      { destruct D as [D|D]; [|congruence]. cbn [step] in S1. unfold on_st in S1. destruct (login _ _ _ _ _ _ _ _ _). congruence. }
      pose proof S1 as S2. cbn [step] in S2. unfold on_st in S2. destruct (login _ _ _ _ _ _ _ _ _) as [r1 s1] eqn:Au.
      injection S2 as -> _. destruct (login_uri _ _ _ _ _ _ _ _ _ _ _ Au A) as [Uo Un].
      destruct (answer_uri (sv_front sv) rq) as [uri|] eqn:U; [|congruence].
      destruct (answer_uri_ok _ _ Sf U) as (c & Cc & R & Ru). fold fr in Cc. destruct P as [Pu Pc].
      pose proof (login_answers e W _ _ _ _ _ _ _ _ _ _ _ _ _ Hi Pc Pu S1 A) as An.
      exists (WLogin now iframe rq uid acr exp_in), (fr_read fr rq), uri, uid, now, w1, w2, ops', evs'.
      split; [exact Nx|]. split; [exact Uo|]. split; [now rewrite Cc|]. split; [intros (v & V); eapply Ru; exact V|]. auto.
    - destruct C as (-> & C). exfalso. assert (ev1 = EvAuthorize (Ok (ROut o)) \/ ev1 = EvLogin (Ok o)) as D'.
      { destruct D as [D|D]; [left|right]; congruence. } clear D.
      destruct o2; cbn in C; try contradiction; cbn [step] in S1; unfold on_st in S1;
        try (match type of S1 with (let (_, _) := ?m in _) = _ => destruct m end; destruct D'; congruence).
      destruct (nth_error (h_parsed (w_h w1)) i0); [|destruct D'; congruence].
      match type of S1 with (let (_, _) := ?m in _) = _ => destruct m end; destruct D'; congruence.
  Qed.

  Lemma tokens_later_in ts ts' t : tokens_later ts ts' -> In t ts -> exists t', In t' ts' /\ t_value t' = t_value t /\ t_class t' = t_class t.
  Proof.
    intros L I. apply In_nth_error in I as [n N]. destruct (L _ _ N) as (t' & N' & K & V & _).
    exists t'. split; [eapply nth_error_In; eauto|]. auto.
  Qed.

  (** An authorization response goes to a URI of the client of the grant. *)
  Lemma response_owner ops evs w i ev o a v tc : whistory sv e al ops evs w -> nth_error evs i = Some ev -> delivers ev o a ->
    carries a v tc ->
    exists x gid g u ar uri, nth_error ops i = Some x /\ ao_uri o = Some uri
      /\ grant_of (w_h w) gid g /\ belongs e g u (ar_client_id ar) /\ g_areq g = Some ar /\ in_grant g v tc
      /\ redirect_ok cdb (ar_client_id ar) uri /\ (with_redirect x -> ar_redirect_uri ar = Some uri).
  Proof.
    intros Hw N D Ca. destruct (response_behind _ _ _ _ _ _ _ Hw N D)
      as (x & ar & uri & u & now & w1 & w2 & ops' & evs' & Nx & Uo & R & Ru & An & H2 & F & X).
    destruct An as [_ [(_ & _ & _ & N1 & N2 & N3)|(_ & _ & _ & _ & _ & gid & g & G & B & Ga & T1 & T2 & _ & T3 & _)]].
    { exfalso. destruct Ca as [(_ & C)|[(_ & C)|(_ & C)]]; congruence. }
    assert (exists t, In t (g_tokens g) /\ t_value t = v /\ t_class t = tc) as (t & It & Vt & Kt).
    { destruct Ca as [(-> & C)|[(-> & C)|(-> & C)]];
        [destruct (T1 _ C) as (_ & t & A1 & A2 & A3 & _)|destruct (T2 _ C) as (_ & t & A1 & A2 & A3 & _)
        |destruct (T3 _ C) as (_ & t & A1 & A2 & A3 & _)]; exists t; auto. }
    destruct (grant_of_later e W _ _ _ _ _ _ H2 F X G) as (g' & G' & L & _ & Ea & Ee & Es).
    exists x, gid, g', u, ar, uri. split; [exact Nx|]. split; [exact Uo|]. split; [exact G'|]. split.
    { destruct B as (ar' & ae & B1 & B2 & B3 & B4 & B5). exists ar', ae. rewrite Ea, Ee, Es. auto. }
    split; [congruence|]. split; [|auto].
    destruct (tokens_later_in _ _ _ L It) as (t' & I' & V' & K'). exists t'. split; [exact I'|]. split; congruence.
  Qed.

  (** ** Tokens are confined to their client. *)
  Lemma confined ops evs w i ev gid g u c v tc tc' : whistory sv e al ops evs w ->
    grant_of (w_h w) gid g -> belongs e g u c -> in_grant g v tc ->
    nth_error evs i = Some ev -> sent ev v tc' ->
    (exists o a uri, delivers ev o a /\ ao_uri o = Some uri /\ redirect_ok cdb c uri)
    \/ (exists j now cq hdr body inf q a, j < i /\ ev = WDone (EvToken q (Ok (Good a)))
        /\ accepted sv e al ops j (WToken now cq hdr body) (sv_token sv) now cq hdr inf
        /\ attributed cq inf = Some c /\ q = with_client (Some c) body).
  Proof.
    intros Hw G B (t & It & Vt & Ct) N [(o & a & D & Ca)|(q & a & -> & Ho)];
      destruct (wire_is_history _ _ _ _ _ _ Hw) as (ops' & Hi).
    - left. destruct (response_owner _ _ _ _ _ _ _ _ _ Hw N D Ca) as (x & gid' & g' & u' & ar & uri & _ & Uo & G' & B' & Ga & (t' & It' & Vt' & _) & R & _).
      destruct (one_owner e W _ _ _ _ _ _ _ _ _ Hi G G' It It') as (_ & <- & _); [congruence|].
      exists o, a, uri. split; [exact D|]. split; [exact Uo|]. destruct B as (ar1 & ae1 & A1 & A2 & _).
      assert (ar1 = ar) by congruence. congruence.
    - right. destruct (answer_behind _ _ _ W _ _ _ _ _ _ Hw N)
        as (gid' & g' & u' & c' & j & now & cq & hdr & body & inf & G' & B' & L & Ac & At & Q & p & pc & P & D).
      destruct (D _ _ Ho) as (t' & It' & Vt' & _).
      destruct (one_owner e W _ _ _ _ _ _ _ _ _ Hi G G' It It') as (_ & <- & _); [congruence|].
      assert (c' = c) as ->.
      { destruct B as (ar1 & ae1 & A1 & A2 & _), B' as (ar2 & ae2 & A3 & A4 & _). congruence. }
      exists j, now, cq, hdr, body, inf, q, a. auto 6.
  Qed.

  Lemma only_registered ops evs w i ev gid g u c v tc tc' : ep_methods (sv_token sv) <> [] ->
    (forall m, In m (ep_methods (sv_token sv)) -> m = MBasic \/ m = MPost) ->
    whistory sv e al ops evs w ->
    (forall now cq hdr body, In (WToken now cq hdr body) ops -> ~ shows_secret sv cq hdr c) ->
    grant_of (w_h w) gid g -> belongs e g u c -> in_grant g v tc ->
    nth_error evs i = Some ev -> sent ev v tc' ->
    exists o a uri, delivers ev o a /\ ao_uri o = Some uri /\ redirect_ok cdb c uri.
  Proof.
    intros Ne Hm Hw No G B I N Sn. destruct (confined _ _ _ _ _ _ _ _ _ _ _ _ Hw G B I N Sn) as [X|X]; [exact X|].
    exfalso. destruct X as (j & now & cq & hdr & body & inf & q & a & _ & -> & _).
    destruct Sn as [(o & a' & ([D|D] & _) & _)|(q' & a' & X & Ho)]; try discriminate. injection X as <- <-.
    destruct I as (t & It & Vt & Ct).
    destruct (answer_shown sv e al W ops evs w i q a) as
      (gid' & g' & u' & c' & j' & now' & cq' & hdr' & body' & inf' & G' & B' & L & Ac & C & Q & F & S & p & pc & P & D); auto.
    { intros m I. destruct (Hm m I) as [->| ->]; [left; reflexivity|right; left; reflexivity]. }
    destruct (D _ _ Ho) as (t' & It' & Vt' & _). destruct (wire_is_history _ _ _ _ _ _ Hw) as (ops' & Hi).
    destruct (one_owner e W _ _ _ _ _ _ _ _ _ Hi G G' It It') as (_ & <- & _); [congruence|].
    assert (c' = c) as ->.
    { destruct B as (ar & ae & A1 & A2 & _), B' as (ar' & ae' & A3 & A4 & _). congruence. }
    destruct S as [S|([S|S] & _)].
    - apply (No now' cq' hdr' body'); [|exact S]. destruct Ac as (X & _). eapply nth_error_In; eauto.
    - destruct (Hm _ S); discriminate.
    - destruct (Hm _ S); discriminate.
  Qed.

  (** A code is redeemed with the URI it was sent to, by the client it is for. *)
  Lemma redeemed_where_sent ops evs w i ev o a x code k q b : whistory sv e al ops evs w ->
    nth_error evs i = Some ev -> delivers ev o a -> ap_code a = Some code ->
    nth_error ops i = Some x -> with_redirect x ->
    wanswer_at evs k q b -> presents q code "authorization_code" ->
    exists c uri, ao_uri o = Some uri /\ redirect_ok cdb c uri /\ tr_client q = Some c /\ tr_redirect q = Some uri.
  Proof.
    intros Hw N D Ca Nx Wr Ans Pr.
    destruct (response_owner _ _ _ _ _ _ _ code "authorization_code" Hw N D) as
      (x' & gid & g & u & ar & uri & Nx' & Uo & G & B & Ga & (t & It & Vt & _) & R & Ru); [left; auto|].
    assert (x' = x) as -> by congruence. specialize (Ru Wr).
    destruct (wire_is_history _ _ _ _ _ _ Hw) as (ops' & Hi). pose proof (done_at _ _ _ Ans) as An.
    destruct (answer_redirect e W _ _ _ _ _ _ _ Hi An Pr) as (gid' & g' & ar' & G' & (t' & It' & Vt' & _) & Ga' & Re).
    destruct (one_owner e W _ _ _ _ _ _ _ _ _ Hi G G' It It') as (_ & <- & _); [congruence|].
    assert (ar' = ar) as -> by congruence.
    destruct (answer_owner e W _ _ _ _ _ _ Hi An) as (gid2 & g2 & u2 & c2 & p & pc & G2 & B2 & C2 & P2 & Ip & _).
    exists c2, uri. split; [exact Uo|].
    assert (c2 = ar_client_id ar) as ->; [|split; [exact R|]; split; [exact C2|now apply Re]].
    assert (p = code) as ->.
    { destruct Pr as [(_ & ? & ?)|(? & _)], P2 as [(_ & ? & ?)|(_ & ? & ?)]; congruence. }
    destruct Ip as (t2 & It2 & Vt2 & _).
    destruct (one_owner e W _ _ _ _ _ _ _ _ _ Hi G G2 It It2) as (_ & <- & _); [congruence|].
    destruct B2 as (ar2 & ae2 & A1 & A2 & _). congruence.
  Qed.
End F.
