(** Lemmas for requests over the wire. *)
From Verif Require Import M_Base M_Uri M_Redirect S_Redirect L_Redirect M_Types M_Codec M_Grant M_Env M_Session M_Claims M_Handler
  M_Authz M_TokenEP M_PKCE M_AuthzEP M_Info M_Logout M_History M_ClientAuthn M_Wire
  S_Codec S_Grant S_History S_ClientAuthn S_Wire L_Base L_Monad L_ClientAuthn L_Hist8 L_Hist10 L_Hist11 L_Info.

Section W.
  Variables (sv : server) (e : env) (al : setting).

  Lemma wexec_app ops1 : forall ops2 w, wexec sv e w (ops1 ++ ops2) =
    let (evs1, w1) := wexec sv e w ops1 in let (evs2, w2) := wexec sv e w1 ops2 in (evs1 ++ evs2, w2).
  Proof.
    induction ops1 as [|o ops1 IH]; intros ops2 w; cbn [wexec app].
    - now destruct (wexec sv e w ops2).
    - destruct (wstep sv e w o) as [ev w1]. rewrite IH. destruct (wexec sv e w1 ops1) as [evs1 w2].
      now destruct (wexec sv e w2 ops2).
  Qed.
  Lemma wexec_length ops : forall w evs w', wexec sv e w ops = (evs, w') -> List.length evs = List.length ops.
  Proof.
    induction ops as [|o ops IH]; intros w evs w' E; cbn [wexec] in E; [injection E as <- _; reflexivity|].
    destruct (wstep sv e w o) as [ev w1]. destruct (wexec sv e w1 ops) as [evs1 w2] eqn:E1. injection E as <- _.
    cbn. f_equal. eauto.
  Qed.

  (** The last call of a history. *)
  Lemma whistory_snoc ops o evs w : whistory sv e al (ops ++ [o]) evs w ->
    exists evs1 w1 ev, whistory sv e al ops evs1 w1 /\ wproper sv e o /\ wstep sv e w1 o = (ev, w) /\ evs = evs1 ++ [ev]
      /\ List.length evs1 = List.length ops.
  Proof.
    intros (Sf & F & E). rewrite wexec_app in E. destruct (wexec sv e (w_init al) ops) as [evs1 w1] eqn:E1.
    cbn [wexec] in E. destruct (wstep sv e w1 o) as [ev w2] eqn:E2. injection E as <- <-.
    apply Forall_app in F as [F1 F2]. exists evs1, w1, ev. split; [split; [exact Sf|split; [exact F1|exact E1]]|]. split; [now inversion F2|].
    split; [exact E2|]. split; [reflexivity|]. eapply wexec_length; eauto.
  Qed.

  (** What a call does to the provider: nothing, or one step of M_History. *)
  Lemma parsed_good cid rq par r par' : sound_front (sv_front sv) ->
    authz_parse (fr_conf (sv_front sv)) (fr_oidc (sv_front sv)) cid rq par = (Ok (PGood r), par') ->
    exists c u, dget r "client_id" = Some c /\ dget r "redirect_uri" = Some u /\ good_id c
      /\ ar_client_id (fr_read (sv_front sv) r) = c.
  Proof.
    intros Sf E. apply (parse_redirect (fr_conf (sv_front sv))) in E as (c & u & C & U & (l & (info & I & _) & _)); [|apply Sf].
    exists c, u. split; [exact C|]. split; [exact U|]. split; [eapply sf_ids; eauto|now apply sf_client].
  Qed.

  Lemma wstep_cases w o ev w' : sound_front (sv_front sv) -> wstep sv e w o = (ev, w') -> wproper sv e o ->
    ((forall x, ev <> WDone x) /\ w_h w' = w_h w)
    \/ exists o1 ev1, ev = WDone ev1 /\ step e (w_h w) o1 = (ev1, w_h w') /\ proper e o1
         /\ match o with
            | WToken now q hdr body => exists i db c, client_authentication (sv_auth sv) now (sv_token sv) q hdr (w_jtis w) = (Ok i, db)
                 /\ attributed q i = Some c /\ o1 = OParse now c (with_client (Some c) body)
                 /\ sv_verify sv (with_client (Some c) body) = Ok true
            | WIntrospect now q hdr release tok => o1 = OIntrospect now release tok
                 /\ exists i db, client_authentication (sv_auth sv) now (sv_intro sv) q hdr (w_jtis w) = (Ok i, db)
            | WUserinfo now q hdr => exists i db t c, o1 = OUserinfo now t /\ ai_token i = Some t /\ ai_client i = Some c
                 /\ client_authentication (sv_auth sv) now (user_endpoint sv e now (w_h w)) q hdr (w_jtis w) = (Ok (Some i), db)
            | WPush _ _ _ _ _ => False
            | WAuthorize now q hdr rq deny iframe ru acr exp_in ans => exists i db rq1 r par,
                client_authentication (sv_auth sv) now (fr_authz (sv_front sv)) q hdr (w_jtis w) = (Ok i, db)
                /\ fr_object (sv_front sv) (attributed q i) (for_client (attributed q i) rq) = Ok (Some rq1)
                /\ authz_parse (fr_conf (sv_front sv)) (fr_oidc (sv_front sv)) (ostr (attributed q i)) rq1 (w_par w)
                   = (Ok (PGood r), par)
                /\ o1 = OAuthorize now deny iframe (fr_read (sv_front sv) r) ru acr exp_in ans (answer_uri (sv_front sv) r)
            | WLogin now iframe rq uid acr exp_in =>
                o1 = OLogin now iframe (fr_read (sv_front sv) rq) uid acr exp_in (answer_uri (sv_front sv) rq)
            | WCall o => o1 = o /\ internal o
            end.
  Proof.
    assert (forall db par o1, call e (w_h w) db par o1 = (ev, w') ->
      exists ev1, ev = WDone ev1 /\ step e (w_h w) o1 = (ev1, w_h w')) as K.
    { intros db par o1 E. unfold call in E. destruct (step e (w_h w) o1) as [ev1 h1]. injection E as <- <-. eauto. }
    intros Sf E P. destruct o as [now q hdr body|now q hdr release tok|now q hdr|now q hdr urn rq|now q hdr rq deny iframe ru acr exp_in ans|now iframe rq uid acr exp_in|o]; cbn [wstep] in E.
    - unfold wire_token in E. destruct (client_authentication _ _ _ _ _ _) as [[i|x] db] eqn:A.
      2: { left. injection E as <- <-. split; [discriminate|reflexivity]. }
      destruct (sv_verify sv _) as [[|]|x] eqn:V.
      2,3: left; injection E as <- <-; split; [discriminate|reflexivity].
      destruct (attributed q i) as [c|] eqn:C; [|left; injection E as <- <-; split; [discriminate|reflexivity]].
      right. destruct (K _ _ _ E) as (ev1 & -> & S). eexists _, ev1. split; [reflexivity|]. split; [exact S|].
      split; [exact Logic.I|]. exists i, db, c. auto.
    - unfold wire_introspect in E. destruct (client_authentication _ _ _ _ _ _) as [[i|x] db] eqn:A.
      2: { left. injection E as <- <-. split; [discriminate|reflexivity]. }
      right. destruct (K _ _ _ E) as (ev1 & -> & S). eexists _, ev1. split; [reflexivity|]. split; [exact S|].
      split; [exact Logic.I|]. split; [reflexivity|]. eauto.
    - unfold wire_userinfo in E. destruct (client_authentication _ _ _ _ _ _) as [[[i|]|x] db] eqn:A.
      + destruct (ai_client i) as [c|] eqn:C; [|left; injection E as <- <-; split; [discriminate|reflexivity]].
        destruct (ai_token i) as [t|] eqn:T; [|left; injection E as <- <-; split; [discriminate|reflexivity]].
        right. destruct (K _ _ _ E) as (ev1 & -> & S). eexists _, ev1. split; [reflexivity|]. split; [exact S|].
        split; [exact Logic.I|]. exists i, db, t, c. auto.
      + left. injection E as <- <-. split; [discriminate|reflexivity].
      + left. injection E as <- <-. split; [|reflexivity]. intros y. destruct x; discriminate.
    - left. unfold wire_push in E. destruct (client_authentication _ _ _ _ _ _) as [[i|x] db] eqn:A;
        [|injection E as <- <-; split; [discriminate|reflexivity]].
      destruct (fr_object _ _ _) as [[rq1|]|x]; try (injection E as <- <-; split; [discriminate|reflexivity]).
      destruct (par_push _ _ _ _ _) as [[u|x] par]; injection E as <- <-; (split; [discriminate|reflexivity]).
    - unfold wire_authorize in E. destruct (client_authentication _ _ _ _ _ _) as [[i|x] db] eqn:A;
        [|left; injection E as <- <-; split; [discriminate|reflexivity]].
      destruct (fr_object _ _ _) as [[rq1|]|x] eqn:V; try (left; injection E as <- <-; split; [discriminate|reflexivity]).
      destruct (authz_parse _ _ _ _ _) as [[[r|code]|x] par] eqn:Pa;
        try (left; injection E as <- <-; split; [discriminate|reflexivity]).
      right. destruct (K _ _ _ E) as (ev1 & -> & S). eexists _, ev1. split; [reflexivity|]. split; [exact S|].
      destruct (parsed_good _ _ _ _ _ Sf Pa) as (c & u & _ & _ & G & C).
      split; [|exists i, db, rq1, r, par; auto].
      cbn [proper]. rewrite C. split; [exact G|]. destruct ans; [exact Logic.I|exact P].
    - right. destruct (K _ _ _ E) as (ev1 & -> & S). eexists _, ev1. split; [reflexivity|]. split; [exact S|].
      split; [|reflexivity]. destruct P. split; assumption.
    - right. destruct (K _ _ _ E) as (ev1 & -> & S). destruct P as [P1 P2]. eexists _, ev1.
      split; [reflexivity|]. split; [exact S|]. auto.
  Qed.

  (** The calls that reached the provider. *)
  Definition done (evs : list wevent) : list event :=
    flat_map (fun ev => match ev with WDone x => [x] | _ => [] end) evs.
  Lemma done_app a b : done (a ++ b) = done a ++ done b.
  Proof. unfold done. now rewrite flat_map_app. Qed.

  Lemma wire_is_history ops evs w : whistory sv e al ops evs w ->
    exists ops', history e ops' (done evs) (w_h w).
  Proof.
    intros (Sf & F & E). assert (exists ops', Forall (proper e) ops' /\ exec e (h_init al) ops' = (done evs, w_h w)) as (ops' & A & B).
    { revert evs w E. induction ops as [|o ops IH] using rev_ind; intros evs w E.
      - cbn in E. injection E as <- <-. exists []. split; [constructor|reflexivity].
      - rewrite wexec_app in E. destruct (wexec sv e (w_init al) ops) as [evs1 w1] eqn:E1.
        cbn [wexec] in E. destruct (wstep sv e w1 o) as [ev w2] eqn:E2. injection E as <- <-.
        apply Forall_app in F as [F1 F2]. destruct (IH F1 _ _ eq_refl) as (ops' & A & B).
        inversion F2 as [|? ? P _]; subst.
        destruct (wstep_cases _ _ _ _ Sf E2 P) as [(N & H)|(o1 & ev1 & -> & S & P1 & _)].
        + exists ops'. split; [exact A|]. rewrite done_app.
          replace (done [ev]) with (@nil event); [rewrite app_nil_r; congruence|].
          destruct ev; try reflexivity. elim (N ev). reflexivity.
        + exists (ops' ++ [o1]). split; [apply Forall_app; auto|]. rewrite exec_app, B. cbn [exec]. rewrite S.
          rewrite done_app. reflexivity. }
    exists ops'. split; [exact A|]. eauto.
  Qed.

  Lemma done_at evs : forall i x, nth_error evs i = Some (WDone x) ->
    nth_error (done evs) (List.length (done (firstn i evs))) = Some x.
  Proof.
    induction evs as [|ev evs IH]; intros [|i] x N; cbn in N; try discriminate.
    - injection N as ->. reflexivity.
    - destruct ev; cbn; auto.
  Qed.

  (** Prefixes of a history. *)
  Lemma whistory_prefix ops evs w i : whistory sv e al ops evs w ->
    exists w1, whistory sv e al (firstn i ops) (firstn i evs) w1.
  Proof.
    intros (Sf & F & E). assert (forall ops w0 evs w, wexec sv e w0 ops = (evs, w) ->
      exists w1, wexec sv e w0 (firstn i ops) = (firstn i evs, w1)) as K.
    { clear. induction i as [|i IH]; intros ops w0 evs w E; [exists w0; reflexivity|].
      destruct ops as [|o ops]; cbn [wexec firstn] in *; [injection E as <- <-; eauto|].
      destruct (wstep sv e w0 o) as [ev w1]. destruct (wexec sv e w1 ops) as [evs1 w2] eqn:E1. injection E as <- <-.
      destruct (IH _ _ _ _ E1) as (w3 & X). rewrite X. cbn. eauto. }
    destruct (K _ _ _ _ E) as (w1 & X). exists w1. split; [exact Sf|]. split; [now apply Forall_firstn'|]. exact X.
  Qed.
  Lemma wevent_at ops evs w i ev : whistory sv e al ops evs w -> nth_error evs i = Some ev ->
    exists o w1 w2, nth_error ops i = Some o /\ whistory sv e al (firstn i ops) (firstn i evs) w1
      /\ wproper sv e o /\ wstep sv e w1 o = (ev, w2).
  Proof.
    intros Hw N. destruct Hw as (Sf & F & E).
    assert (forall i ops w0 evs w, wexec sv e w0 ops = (evs, w) -> nth_error evs i = Some ev ->
      exists o w1 w2, nth_error ops i = Some o /\ wexec sv e w0 (firstn i ops) = (firstn i evs, w1)
        /\ wstep sv e w1 o = (ev, w2)) as K.
    { clear. induction i as [|i IH]; intros ops w0 evs w E N.
      - destruct ops as [|o ops]; cbn [wexec] in E; [injection E as <- _; discriminate|].
        destruct (wstep sv e w0 o) as [ev1 w1] eqn:S. destruct (wexec sv e w1 ops). injection E as <- _.
        cbn in N. injection N as ->. exists o, w0, w1. auto.
      - destruct ops as [|o ops]; cbn [wexec] in E; [injection E as <- _; discriminate|].
        destruct (wstep sv e w0 o) as [ev1 w1] eqn:S. destruct (wexec sv e w1 ops) as [evs1 w2] eqn:E1. injection E as <- _.
        destruct (IH _ _ _ _ E1 N) as (o' & w3 & w4 & A & B & C). exists o', w3, w4. cbn [firstn wexec nth_error].
        rewrite S, B. auto. }
    destruct (K _ _ _ _ _ E N) as (o & w1 & w2 & A & B & C). exists o, w1, w2. split; [exact A|].
    split; [split; [exact Sf|split; [now apply Forall_firstn'|exact B]]|]. split; [|exact C].
    rewrite Forall_forall in F. apply F. eapply nth_error_In; eauto.
  Qed.

  (** ** Where parsed requests come from *)
  Definition comes_from (ops : list wop) (q : treq) : Prop :=
    exists j now cq hdr body i c, accepted sv e al ops j (WToken now cq hdr body) (sv_token sv) now cq hdr i
      /\ attributed cq i = Some c /\ q = with_client (Some c) body.

  Lemma accepted_app ops o j x ep now q hdr i : accepted sv e al ops j x ep now q hdr i ->
    accepted sv e al (ops ++ [o]) j x ep now q hdr i.
  Proof.
    intros (N & evs & w & db & H & R & A). assert (j < List.length ops) as L by (apply nth_error_Some; congruence).
    split; [rewrite nth_error_app1; auto|]. exists evs, w, db. split; [|auto].
    rewrite firstn_app. replace (j - List.length ops) with 0 by lia. cbn. now rewrite app_nil_r.
  Qed.

  Lemma parse_same now cid req s q s' : token_parse_all e now cid req s = (Ok (Good q), s') ->
    (exists c, tr_client req = Some c) -> q = req.
  Proof.
    intros E (c & C). unfold token_parse_all in E. apply bind_ok in E as (r & s1 & E1 & E).
    destruct r as [x|q1]; [now apply ret_ok in E as [X _]|].
    assert (q1 = q) as ->.
    { destruct (e_pkce e && _).
      - eapply pkce_check_same in E. congruence.
      - apply ret_ok in E as [X _]. congruence. }
    clear E. unfold token_parse in E1. destruct (dget (e_clients e) cid) as [cl|]; [|discriminate].
    destruct (match c_grant_types cl with Some l => _ | None => _ end); [now apply ret_ok in E1 as [X _]|].
    destruct (negb _); [now apply ret_ok in E1 as [X _]|].
    destruct (String.eqb _ CODE).
    - unfold code_parse in E1. apply bind_ok in E1 as (oi & s2 & _ & E1). destruct oi as [[v i]|]; [|now apply ret_ok in E1 as [X _]].
      apply bind_ok in E1 as (g & s3 & _ & E1). destruct (get_token g v) as [t|]; [|now apply ret_ok in E1 as [X _]].
      destruct (negb _); [now apply ret_ok in E1 as [X _]|].
      destruct (e_oidc e && _). { apply bind_ok in E1 as (? & ? & _ & E1). now apply ret_ok in E1 as [X _]. }
      destruct (negb _); [now apply ret_ok in E1 as [X _]|]. rewrite C in E1. apply ret_ok in E1 as [X _]. congruence.
    - destruct (String.eqb _ REFRESH); [|now apply ret_ok in E1 as [X _]].
      unfold refresh_parse in E1. apply bind_ok in E1 as (v & s2 & _ & E1). apply bind_ok in E1 as (oi & s3 & _ & E1).
      destruct oi as [i|]; [|now apply ret_ok in E1 as [X _]]. apply bind_ok in E1 as (g & s4 & _ & E1).
      destruct (get_token g v) as [t|]; [|now apply ret_ok in E1 as [X _]].
      destruct (negb _); [now apply ret_ok in E1 as [X _]|]. destruct (negb _); [now apply ret_ok in E1 as [X _]|].
      destruct (tr_scope req) as [sc|]; [|apply ret_ok in E1 as [X _]; congruence].
      apply bind_ok in E1 as (ps & s5 & _ & E1). destruct (subset_b sc ps); [|now apply ret_ok in E1 as [X _]].
      apply ret_ok in E1 as [X _]. congruence.
  Qed.

  Lemma on_st_parsed {A} h (f : res A -> event) m ev h' : on_st h f m = (ev, h') -> h_parsed h' = h_parsed h.
  Proof. unfold on_st. destruct (m (h_st h)). intros E. injection E as _ <-. reflexivity. Qed.
  Lemma internal_parsed h o ev h' : step e h o = (ev, h') -> (forall now c q, o <> OParse now c q) -> h_parsed h' = h_parsed h.
  Proof.
    intros E N. destruct o; cbn [step] in E; try (now apply on_st_parsed in E).
    - elim (N now cid req). reflexivity.
    - destruct (nth_error (h_parsed h) i); [now apply on_st_parsed in E|]. injection E as _ <-. reflexivity.
  Qed.

  Lemma parsed_from ops : forall evs w q, whistory sv e al ops evs w -> In q (h_parsed (w_h w)) -> comes_from ops q.
  Proof.
    induction ops as [|o ops IH] using rev_ind; intros evs w q Hw I.
    - destruct Hw as (_ & _ & E). cbn in E. injection E as _ <-. destruct I.
    - apply whistory_snoc in Hw as (evs1 & w1 & ev & H1 & P & S & _ & Ln).
      assert (In q (h_parsed (w_h w1)) -> comes_from (ops ++ [o]) q) as Old.
      { intros I1. destruct (IH _ _ _ H1 I1) as (j & now & cq & hdr & body & i & c & A & B & C).
        exists j, now, cq, hdr, body, i, c. split; [now apply accepted_app|auto]. }
      destruct (wstep_cases _ _ _ _ (proj1 H1) S P) as [(_ & Hh)|(o1 & ev1 & _ & S1 & _ & D)].
      { apply Old. congruence. }
      destruct o as [now cq hdr body|now cq hdr release tok|now cq hdr|now q1 hdr urn rq|now q1 hdr rq deny iframe ru acr exp_in ans|now iframe rq uid acr exp_in|o].
      + destruct D as (i & db & c & A & B & -> & _). cbn [step] in S1.
        destruct (token_parse_all e now c _ (h_st (w_h w1))) as [r s] eqn:T. injection S1 as <- X.
        rewrite <- X in I. cbn [h_parsed] in I. destruct r as [[x|q1]|x]; try (apply Old; exact I).
        apply in_app_or in I as [I|[<-|[]]]; [apply Old; exact I|].
        apply parse_same in T; [|cbn; eauto]. subst q1.
        exists (List.length ops), now, cq, hdr, body, i, c. split; [|auto].
        split; [rewrite nth_error_app2, Nat.sub_diag by lia; reflexivity|].
        exists evs1, w1, db. split; [|split; [cbn; auto|exact A]].
        rewrite firstn_app, Nat.sub_diag, firstn_all. cbn. now rewrite app_nil_r.
      + destruct D as (-> & _). apply Old. erewrite <- internal_parsed; [exact I|exact S1|discriminate].
      + destruct D as (i & db & t & c & -> & _). apply Old. erewrite <- internal_parsed; [exact I|exact S1|discriminate].
      + destruct D.
      + destruct D as (i & db & rq1 & r & par & _ & _ & _ & ->). apply Old. erewrite <- internal_parsed; [exact I|exact S1|discriminate].
      + subst o1. apply Old. erewrite <- internal_parsed; [exact I|exact S1|discriminate].
      + destruct D as (-> & N). apply Old. erewrite <- internal_parsed; [exact I|exact S1|]. intros n' c' q' X; subst o; exact N.
  Qed.

  Lemma accepted_firstn ops n j x ep now q hdr i : accepted sv e al (firstn n ops) j x ep now q hdr i ->
    accepted sv e al ops j x ep now q hdr i /\ j < n.
  Proof.
    intros (N & evs & w & db & H & R). assert (j < List.length (firstn n ops)) as L by (apply nth_error_Some; congruence).
    rewrite firstn_length in L. split; [|lia].
    rewrite firstn_firstn in H. replace (Nat.min j n) with j in H by lia.
    split; [|exists evs, w, db; auto]. rewrite <- N.
    clear - L. revert ops n L. induction j as [|j IH]; intros ops n L.
    - destruct ops, n; cbn in *; auto; lia.
    - destruct ops, n; cbn in *; auto; try lia. apply IH. lia.
  Qed.

  (** The request behind a token answer. *)
  Lemma answer_request ops evs w i q a : whistory sv e al ops evs w -> wanswer_at evs i q a ->
    exists j now cq hdr body inf c, j < i /\ accepted sv e al ops j (WToken now cq hdr body) (sv_token sv) now cq hdr inf
      /\ attributed cq inf = Some c /\ q = with_client (Some c) body.
  Proof.
    intros Hw N. destruct (wevent_at _ _ _ _ _ Hw N) as (o & w1 & w2 & No & H1 & P & S).
    destruct (wstep_cases _ _ _ _ (proj1 H1) S P) as [(D & _)|(o1 & ev1 & X & S1 & _ & D)].
    { elim (D (EvToken q (Ok (Good a)))). reflexivity. }
    injection X as <-. apply token_step in S1 as (now & k & issue & s' & E1 & Nq & _ & _).
    destruct (parsed_from _ _ _ q H1 (nth_error_In _ _ Nq)) as (j & n & cq & hdr & body & inf & c & A & B & C).
    apply accepted_firstn in A as [A L].
    exists j, n, cq, hdr, body, inf, c. auto.
  Qed.
End W.

(** ** What accepted credentials show *)
Section Cred.
  Variables (sv : server) (ep : cendpoint) (now : Z) (q : creq) (hdr : option string).
  Let A := sv_auth sv.

  Lemma auth_none s s' : client_authentication A now ep q hdr s = (Ok None, s') -> ep_methods ep = [].
  Proof.
    unfold client_authentication. intros E. apply bind_ok in E as (o & s1 & _ & E).
    destruct o as [i|]; [now apply ret_ok in E as [X _]|]. destruct (ep_methods ep); [reflexivity|discriminate].
  Qed.

  Lemma verify_jws_jwt private m s i s' : verify_jws A now ep private m q s = (Ok i, s') ->
    (exists a, ai_jwt i = Some a) /\ ai_token i = None.
  Proof.
    unfold verify_jws. intros E. destruct (cr_assertion q); [|discriminate].
    apply bind_ok in E as (a & ? & _ & E). apply bind_ok in E as (? & ? & _ & E).
    apply bind_ok in E as (? & ? & _ & E). apply bind_ok in E as (? & ? & _ & E).
    apply ret_ok in E as [<- _]. split; [eexists; reflexivity|reflexivity].
  Qed.

  Lemma shown s i s' : client_authentication A now ep q hdr s = (Ok (Some i), s') ->
    (forall m, In m (ep_methods ep) -> In m [MBasic; MPost; MSecretJWT; MPrivateJWT]) ->
    exists c, ai_client i = Some c /\ (c <> "" -> in_force A now c)
      /\ (shows_secret sv q hdr c
          \/ ((In MSecretJWT (ep_methods ep) \/ In MPrivateJWT (ep_methods ep)) /\ shows_assertion sv ep now q c)).
  Proof.
    intros E Hm. destruct (auth_from _ _ _ _ _ _ _ _ E) as (i0 & _ & _ & [(m & s1 & s2 & I & U & V)|(I & _)] & K).
    2: { apply Hm in I. destruct I as [X|[X|[X|[X|[]]]]]; discriminate. }
    assert (ai_token i0 = None -> i = i0 /\ forall c, ai_client i = Some c -> c <> "" -> in_force A now c) as K'.
    { intros N. destruct K as [K|(f & t & _ & T & _)]; [exact K|congruence]. }
    pose proof (Hm m I) as Hi. destruct Hi as [X|[X|[X|[X|[]]]]]; subst m.
    - apply meth_basic in V as (c & x & B & S & ->). destruct (K' eq_refl) as (-> & F). exists c.
      split; [reflexivity|]. split; [now apply F|]. left. exists x. auto.
    - apply meth_post in V as (c & x & B & S & ->). destruct (K' eq_refl) as (-> & F). exists c.
      split; [reflexivity|]. split; [now apply F|]. left. exists x. auto.
    - pose proof V as V'. cbn [verify_meth] in V'. apply verify_jws_jwt in V' as ((a & J) & T).
      destruct (verify_jwt _ _ _ _ _ _ _ _ _ _ V J) as (_ & C & D). destruct (K' T) as (-> & F). exists (as_iss a).
      split; [exact C|]. split; [now apply F|]. right. split; [now left|].
      destruct D as [(_ & D)|[(X & _)|(X & _)]]; try discriminate.
      destruct D as ((text & D1 & D2) & (x & D3 & D4) & _). exists text, a, x. auto 6.
    - pose proof V as V'. cbn [verify_meth] in V'. apply verify_jws_jwt in V' as ((a & J) & T).
      destruct (verify_jwt _ _ _ _ _ _ _ _ _ _ V J) as (_ & C & D). destruct (K' T) as (-> & F). exists (as_iss a).
      split; [exact C|]. split; [now apply F|]. right. split; [now right|].
      destruct D as [(X & _)|[(_ & D)|(X & _)]]; try discriminate.
      destruct D as ((text & D1 & D2) & (x & D3 & D4) & _). exists text, a, x. auto 6.
  Qed.

  Lemma token_borne s i s' t : client_authentication A now ep q hdr s = (Ok (Some i), s') -> ai_token i = Some t ->
    bears q hdr t.
  Proof.
    intros E T. destruct (auth_from _ _ _ _ _ _ _ _ E) as (i0 & _ & _ & Src & K).
    assert (ai_token i0 = Some t) as T0.
    { destruct K as [(-> & _)|(f & t' & _ & T0 & _ & c & _ & _ & T1)]; [exact T|congruence]. }
    destruct Src as [(m & s1 & s2 & _ & U & V)|(_ & ->)]; [|discriminate].
    destruct m; cbn [verify_meth] in V; try discriminate.
    - apply (meth_basic A now ep q hdr) in V as (c & x & _ & _ & ->). discriminate.
    - apply (meth_post A now ep q hdr) in V as (c & x & _ & _ & ->). discriminate.
    - destruct hdr as [h|]; [|discriminate]. cbn [is_usable] in U.
      apply starts_drop in U. remember (drop (String.length "Bearer ") h) as x eqn:Ex. clear Ex. subst h.
      change (split1 " " (append "Bearer " x)) with (Some ("Bearer", x)) in V. apply ret_ok in V as [<- _].
      cbn in T0. injection T0 as ->. left. reflexivity.
    - destruct (cr_access_token q) as [x|] eqn:X; [|discriminate]. apply ret_ok in V as [<- _].
      cbn in T0. injection T0 as ->. right. exact X.
    - apply verify_jws_jwt in V as (_ & V). congruence.
    - apply verify_jws_jwt in V as (_ & V). congruence.
    - destruct (cr_request q); [|discriminate]. apply bind_ok in V as (a & ? & _ & V).
      apply bind_ok in V as (? & ? & _ & V). apply ret_ok in V as [<- _]. discriminate.
  Qed.
End Cred.

(** ** Properties *)
Section P.
  Variables (sv : server) (e : env) (al : setting) (W : laws e).

  Lemma answer_behind ops evs w i q a : whistory sv e al ops evs w -> wanswer_at evs i q a ->
    exists gid g u c j now cq hdr body inf,
      grant_of (w_h w) gid g /\ belongs e g u c /\ j < i
      /\ accepted sv e al ops j (WToken now cq hdr body) (sv_token sv) now cq hdr inf
      /\ attributed cq inf = Some c /\ q = with_client (Some c) body
      /\ (exists p pc, presents q p pc /\ forall v tc, hands_out a v tc -> drawn_from g p v tc).
  Proof.
    intros Hw N. destruct (wire_is_history _ _ _ _ _ _ Hw) as (ops' & Hi). pose proof (done_at _ _ _ N) as N'.
    destruct (answer_owner e W _ _ _ _ _ _ Hi N') as (gid & g & u & c & p & pc & G & B & C & P & _ & D & _).
    destruct (answer_request _ _ _ _ _ _ _ _ _ Hw N) as (j & now & cq & hdr & body & inf & c' & L & Ac & At & Q).
    assert (c' = c) as ->. { rewrite Q in C. cbn in C. congruence. }
    exists gid, g, u, c, j, now, cq, hdr, body, inf. do 6 (split; [assumption|]). eauto.
  Qed.

  Lemma answer_shown ops evs w i q a :
    (forall m, In m (ep_methods (sv_token sv)) -> In m [MBasic; MPost; MSecretJWT; MPrivateJWT]) ->
    ep_methods (sv_token sv) <> [] -> whistory sv e al ops evs w -> wanswer_at evs i q a ->
    exists gid g u c j now cq hdr body inf,
      grant_of (w_h w) gid g /\ belongs e g u c /\ j < i
      /\ accepted sv e al ops j (WToken now cq hdr body) (sv_token sv) now cq hdr (Some inf)
      /\ ai_client inf = Some c /\ q = with_client (Some c) body
      /\ (c <> "" -> in_force (sv_auth sv) now c)
      /\ (shows_secret sv cq hdr c
          \/ ((In MSecretJWT (ep_methods (sv_token sv)) \/ In MPrivateJWT (ep_methods (sv_token sv)))
              /\ shows_assertion sv (sv_token sv) now cq c))
      /\ (exists p pc, presents q p pc /\ forall v tc, hands_out a v tc -> drawn_from g p v tc).
  Proof.
    intros Hm Ne Hw N.
    destruct (answer_behind _ _ _ _ _ _ Hw N) as (gid & g & u & c & j & now & cq & hdr & body & inf & G & B & L & Ac & At & Q & H).
    pose proof Ac as (_ & evs1 & w1 & db & _ & R & E). destruct inf as [inf|].
    2: { apply auth_none in E. contradiction. }
    destruct (shown _ _ _ _ _ _ _ _ E Hm) as (c' & C & F & S). cbn [attributed] in At. rewrite C in At.
    injection At as ->. exists gid, g, u, c, j, now, cq, hdr, body, inf. do 8 (split; [assumption|]). exact H.
  Qed.

  (** Used assertions. *)
  Lemma wstep_jtis w o ev w' : wstep sv e w o = (ev, w') -> incl (w_jtis w) (w_jtis w')
    /\ forall ep now q hdr r db, reached sv e (w_h w) o ep now q hdr ->
         client_authentication (sv_auth sv) now ep q hdr (w_jtis w) = (r, db) -> w_jtis w' = db.
  Proof.
    assert (forall db par o1, call e (w_h w) db par o1 = (ev, w') -> w_jtis w' = db) as K.
    { intros db par o1 E. unfold call in E. destruct (step e (w_h w) o1). injection E as _ <-. reflexivity. }
    assert (forall ep now q hdr db, snd (client_authentication (sv_auth sv) now ep q hdr (w_jtis w)) = db -> incl (w_jtis w) db) as G.
    { intros ep now q hdr db <-. destruct (client_authentication _ _ _ _ _ _) as [r db] eqn:X. apply (auth_state _ _ _ _ _ _ _ _ X). }
    intros E. assert (forall ep now q hdr, reached sv e (w_h w) o ep now q hdr ->
      w_jtis w' = snd (client_authentication (sv_auth sv) now ep q hdr (w_jtis w))) as S.
    { intros ep now q hdr R. destruct o; cbn [reached] in R; try contradiction; destruct R as (-> & <- & <- & <-); cbn [wstep] in E.
      - unfold wire_token in E. destruct (client_authentication _ _ _ _ _ _) as [[i|x] db]; cbn [snd];
          [|injection E as _ <-; reflexivity].
        destruct (sv_verify sv _) as [[|]|]; try (injection E as _ <-; reflexivity).
        destruct (attributed _ _); [eauto|injection E as _ <-; reflexivity].
      - unfold wire_introspect in E. destruct (client_authentication _ _ _ _ _ _) as [[i|x] db]; cbn [snd];
          [eauto|injection E as _ <-; reflexivity].
      - unfold wire_userinfo in E. destruct (client_authentication _ _ _ _ _ _) as [[[i|]|x] db]; cbn [snd];
          try (injection E as _ <-; reflexivity).
        destruct (ai_client i); [|injection E as _ <-; reflexivity].
        destruct (ai_token i); [eauto|injection E as _ <-; reflexivity].
      - unfold wire_push in E. destruct (client_authentication _ _ _ _ _ _) as [[i|x] db]; cbn [snd];
          [|injection E as _ <-; reflexivity].
        destruct (fr_object _ _ _) as [[rq1|]|x]; try (injection E as _ <-; reflexivity).
        destruct (par_push _ _ _ _ _) as [[u|x] par]; injection E as _ <-; reflexivity.
      - unfold wire_authorize in E. destruct (client_authentication _ _ _ _ _ _) as [[i|x] db]; cbn [snd];
          [|injection E as _ <-; reflexivity].
        destruct (fr_object _ _ _) as [[rq1|]|x]; try (injection E as _ <-; reflexivity).
        destruct (authz_parse _ _ _ _ _) as [[[r|code]|x] par]; [eauto| |]; injection E as _ <-; reflexivity. }
    split.
    - destruct o; [| | | | |cbn [wstep] in E; apply K in E; rewrite E; apply incl_refl
        |cbn [wstep] in E; apply K in E; rewrite E; apply incl_refl].
      + rewrite (S (sv_token sv) now q hdr) by (cbn; auto). eapply G; reflexivity.
      + rewrite (S (sv_intro sv) now q hdr) by (cbn; auto). eapply G; reflexivity.
      + rewrite (S (user_endpoint sv e now (w_h w)) now q hdr) by (cbn; auto). eapply G; reflexivity.
      + rewrite (S (fr_par (sv_front sv)) now q hdr) by (cbn; auto). eapply G; reflexivity.
      + rewrite (S (fr_authz (sv_front sv)) now q hdr) by (cbn; auto). eapply G; reflexivity.
    - intros ep now q hdr r db R X. rewrite (S _ _ _ _ R), X. reflexivity.
  Qed.
  Lemma wexec_jtis ops : forall w evs w', wexec sv e w ops = (evs, w') -> incl (w_jtis w) (w_jtis w').
  Proof.
    induction ops as [|o ops IH]; intros w evs w' E; cbn [wexec] in E; [injection E as _ <-; apply incl_refl|].
    destruct (wstep sv e w o) as [ev w1] eqn:S. destruct (wexec sv e w1 ops) as [evs1 w2] eqn:X. injection E as _ <-.
    eapply incl_tran; [apply (wstep_jtis _ _ _ _ S)|eauto].
  Qed.

  Lemma firstn_split {X} (xs : list X) j k x : nth_error xs j = Some x -> j < k ->
    firstn k xs = firstn j xs ++ x :: firstn (k - S j) (skipn (S j) xs).
  Proof.
    revert xs k. induction j as [|j IH]; intros xs k N L.
    - destruct xs as [|y xs]; [discriminate|]. injection N as ->. destruct k; [lia|]. cbn. now rewrite Nat.sub_0_r.
    - destruct xs as [|y xs]; [discriminate|]. destruct k; [lia|]. cbn [firstn app]. f_equal.
      apply (IH xs k); [exact N|lia].
  Qed.

  Lemma once_lt ops j k o o' ep ep' now now' q q' hdr hdr' i i' a b t :
    accepted sv e al ops j o ep now q hdr (Some i) -> accepted sv e al ops k o' ep' now' q' hdr' (Some i') ->
    ai_jwt i = Some a -> ai_jwt i' = Some b -> as_iss a = as_iss b -> as_jti a = Some t -> as_jti b = Some t ->
    t <> "" -> j < k -> False.
  Proof.
    intros (N & evs & w & db & (_ & _ & H) & R & E) (N' & evs' & w' & db' & (_ & _ & H') & R' & E') Ja Jb Is Ta Tb Nt L.
    destruct (auth_state _ _ _ _ _ _ _ _ E) as [_ U]. specialize (U i a eq_refl Ja). apply use_jti_ok in U.
    destruct (auth_state _ _ _ _ _ _ _ _ E') as [_ U']. specialize (U' i' b eq_refl Jb). apply use_jti_ok in U'.
    rewrite Ta in U. rewrite Tb in U'. assert (str_true t = true) as St by (destruct t; [congruence|reflexivity]).
    rewrite St in U, U'. destruct U as [_ Ed], U' as [Nd _]. apply Nd.
    rewrite (firstn_split _ _ _ _ N L), wexec_app, H in H'. cbn [wexec] in H'.
    destruct (wstep sv e w o) as [ev w1] eqn:S. destruct (wexec sv e w1 _) as [evs2 w2] eqn:X. injection H' as _ ->.
    apply (wexec_jtis _ _ _ _ X). destruct (wstep_jtis _ _ _ _ S) as [_ Y]. rewrite (Y _ _ _ _ _ _ R E), Ed, <- Is.
    apply in_or_app. right. left. reflexivity.
  Qed.
  Lemma once ops j k o o' ep ep' now now' q q' hdr hdr' i i' a b t :
    accepted sv e al ops j o ep now q hdr (Some i) -> accepted sv e al ops k o' ep' now' q' hdr' (Some i') ->
    ai_jwt i = Some a -> ai_jwt i' = Some b -> as_iss a = as_iss b -> as_jti a = Some t -> as_jti b = Some t ->
    t <> "" -> j = k.
  Proof.
    intros X Y Ja Jb Is Ta Tb Nt. destruct (Nat.lt_trichotomy j k) as [L|[L|L]]; [|exact L|]; exfalso.
    - eapply (once_lt ops j k); eauto.
    - eapply (once_lt ops k j); eauto.
  Qed.

  (** Userinfo and introspection. *)
  Lemma userinfo_behind ops evs w i info cl : whistory sv e al ops evs w ->
    nth_error evs i = Some (WDone (EvUserinfo (Ok (Good (info, cl))))) ->
    exists now q hdr t evs1 w1 gid g tok u ae,
      nth_error ops i = Some (WUserinfo now q hdr) /\ bears q hdr t
      /\ whistory sv e al (firstn i ops) evs1 w1
      /\ grant_of (w_h w1) gid g /\ belongs e g u cl /\ In tok (g_tokens g) /\ t_value tok = t
      /\ t_class tok = "access_token" /\ token_live tok now
      /\ g_aevent g = Some ae /\ (now <= ae_valid_until ae)%Z /\ dget info "sub" = Some (JStr (g_sub g)).
  Proof.
    intros Hw N. destruct (wevent_at _ _ _ _ _ _ _ _ Hw N) as (o & w1 & w2 & No & H1 & P & S).
    destruct (wstep_cases _ _ _ _ _ _ (proj1 H1) S P) as [(D & _)|(o1 & ev1 & X & S1 & _ & D)].
    { elim (D (EvUserinfo (Ok (Good (info, cl))))). reflexivity. }
    injection X as <-. destruct o as [now q hdr body|now q hdr rel t|now q hdr|now q1 hdr urn rq|now q1 hdr rq deny iframe ru acr exp_in ans|now iframe rq uid acr exp_in|o].
    - destruct D as (? & ? & ? & _ & _ & -> & _). cbn [step] in S1. destruct (token_parse_all _ _ _ _ _). discriminate.
    - destruct D as (-> & _). cbn [step] in S1. unfold on_st in S1. destruct (introspect _ _ _ _ _). discriminate.
    - destruct D as (inf & db & t & c & -> & T & C & A). destruct (wire_is_history _ _ _ _ _ _ H1) as (ops' & Hi).
      destruct (userinfo_live e W _ _ _ _ _ _ _ _ Hi S1) as (gid & g & tok & u & c' & ae & cls & G & B & _ & I & V & K & Lv & Ae & Vu & -> & Su & _).
      exists now, q, hdr, t, (firstn i evs), w1, gid, g, tok, u, ae. split; [exact No|].
      split; [eapply token_borne; eauto|]. auto 15.
    - destruct D.
    - destruct D as (? & ? & ? & ? & ? & _ & _ & _ & ->). cbn [step] in S1. unfold on_st in S1. destruct (authorize _ _ _ _ _ _ _ _ _ _ _). discriminate.
    - subst o1. cbn [step] in S1. unfold on_st in S1. destruct (login _ _ _ _ _ _ _ _ _). discriminate.
    - destruct D as (-> & D). exfalso. destruct o; cbn in D; try contradiction; cbn [step] in S1; unfold on_st in S1;
        try (match type of S1 with (let (_, _) := ?m in _) = _ => destruct m end; discriminate).
      destruct (nth_error (h_parsed (w_h w1)) i0); [|discriminate].
      match type of S1 with (let (_, _) := ?m in _) = _ => destruct m end; discriminate.
  Qed.

  Lemma introspect_behind ops evs w i r : whistory sv e al ops evs w ->
    nth_error evs i = Some (WDone (EvIntrospect (Ok (Some r)))) ->
    exists now q hdr rel tok inf, accepted sv e al ops i (WIntrospect now q hdr rel tok) (sv_intro sv) now q hdr inf
      /\ (ep_methods (sv_intro sv) <> [] -> inf <> None).
  Proof.
    intros Hw N. destruct (wevent_at _ _ _ _ _ _ _ _ Hw N) as (o & w1 & w2 & No & H1 & P & S).
    destruct (wstep_cases _ _ _ _ _ _ (proj1 H1) S P) as [(D & _)|(o1 & ev1 & X & S1 & _ & D)].
    { elim (D (EvIntrospect (Ok (Some r)))). reflexivity. }
    injection X as <-. destruct o as [now q hdr body|now q hdr rel t|now q hdr|now q1 hdr urn rq|now q1 hdr rq deny iframe ru acr exp_in ans|now iframe rq uid acr exp_in|o].
    - destruct D as (? & ? & ? & _ & _ & -> & _). cbn [step] in S1. destruct (token_parse_all _ _ _ _ _). discriminate.
    - destruct D as (-> & inf & db & A). exists now, q, hdr, rel, t, inf. split.
      + split; [exact No|]. exists (firstn i evs), w1, db. split; [exact H1|]. split; [cbn; auto|exact A].
      + intros Ne ->. apply auth_none in A. contradiction.
    - destruct D as (inf & db & t & c & -> & _). cbn [step] in S1. unfold on_st in S1. destruct (userinfo _ _ _ _). discriminate.
    - destruct D.
    - destruct D as (? & ? & ? & ? & ? & _ & _ & _ & ->). cbn [step] in S1. unfold on_st in S1. destruct (authorize _ _ _ _ _ _ _ _ _ _ _). discriminate.
    - subst o1. cbn [step] in S1. unfold on_st in S1. destruct (login _ _ _ _ _ _ _ _ _). discriminate.
    - destruct D as (-> & D). exfalso. destruct o; cbn in D; try contradiction; cbn [step] in S1; unfold on_st in S1;
        try (match type of S1 with (let (_, _) := ?m in _) = _ => destruct m end; discriminate).
      destruct (nth_error (h_parsed (w_h w1)) i0); [|discriminate].
      match type of S1 with (let (_, _) := ?m in _) = _ => destruct m end; discriminate.
  Qed.

  Lemma refused_nothing w o ev w' : wstep sv e w o = (ev, w') -> (forall x, ev <> WDone x) -> w_h w' = w_h w.
  Proof.
    intros E N. assert (forall db par o1, call e (w_h w) db par o1 = (ev, w') -> w_h w' = w_h w) as K.
    { intros db par o1 X. unfold call in X. destruct (step e (w_h w) o1). injection X as <- _. elim (N e0). reflexivity. }
    destruct o; cbn [wstep] in E.
    - unfold wire_token in E. destruct (client_authentication _ _ _ _ _ _) as [[i|x] db]; [|injection E as _ <-; reflexivity].
      destruct (sv_verify _ _) as [[|]|x]; try (injection E as _ <-; reflexivity).
      destruct (attributed q i); [eauto|injection E as _ <-; reflexivity].
    - unfold wire_introspect in E. destruct (client_authentication _ _ _ _ _ _) as [[i|x] db]; [eauto|injection E as _ <-; reflexivity].
    - unfold wire_userinfo in E. destruct (client_authentication _ _ _ _ _ _) as [[[i|]|x] db]; try (injection E as _ <-; reflexivity).
      destruct (ai_client i); [|injection E as _ <-; reflexivity].
      destruct (ai_token i); [eauto|injection E as _ <-; reflexivity].
    - unfold wire_push in E. destruct (client_authentication _ _ _ _ _ _) as [[i|x] db]; [|injection E as _ <-; reflexivity].
      destruct (fr_object _ _ _) as [[rq1|]|x]; try (injection E as _ <-; reflexivity).
      destruct (par_push _ _ _ _ _) as [[u|x] par]; injection E as _ <-; reflexivity.
    - unfold wire_authorize in E. destruct (client_authentication _ _ _ _ _ _) as [[i|x] db]; [|injection E as _ <-; reflexivity].
      destruct (fr_object _ _ _) as [[rq1|]|x]; try (injection E as _ <-; reflexivity).
      destruct (authz_parse _ _ _ _ _) as [[[r|code]|x] par]; [eauto| |]; injection E as _ <-; reflexivity.
    - eapply K. exact E.
    - eapply K. exact E.
  Qed.

  Lemma no_secret ops evs w i q a u c gid g v tc : ep_methods (sv_token sv) <> [] ->
    (forall m, In m (ep_methods (sv_token sv)) -> m = MBasic \/ m = MPost) ->
    whistory sv e al ops evs w ->
    (forall now cq hdr body, In (WToken now cq hdr body) ops -> ~ shows_secret sv cq hdr c) ->
    grant_of (w_h w) gid g -> belongs e g u c -> in_grant g v tc ->
    wanswer_at evs i q a -> ~ hands_out a v tc.
  Proof.
    intros Ne Hm Hw No G B (t & It & Vt & Ct) N Ho.
    destruct (answer_shown ops evs w i q a) as
      (gid' & g' & u' & c' & j & now & cq & hdr & body & inf & G' & B' & L & Ac & C & Q & F & S & p & pc & P & D); auto.
    { intros m I. destruct (Hm m I) as [->| ->]; [left; reflexivity|right; left; reflexivity]. }
    destruct (D _ _ Ho) as (t' & It' & Vt' & _). destruct (wire_is_history _ _ _ _ _ _ Hw) as (ops' & Hi).
    destruct (one_owner e W _ _ _ _ _ _ _ _ _ Hi G G' It It') as (_ & <- & _); [congruence|].
    assert (c' = c) as ->.
    { destruct B as (ar & ae & A1 & A2 & _), B' as (ar' & ae' & A3 & A4 & _). congruence. }
    destruct S as [S|([S|S] & _)].
    - apply (No now cq hdr body); [|exact S]. destruct Ac as (X & _). eapply nth_error_In; eauto.
    - destruct (Hm _ S); discriminate.
    - destruct (Hm _ S); discriminate.
  Qed.

  Lemma introspect_method ops evs w i r : whistory sv e al ops evs w ->
    nth_error evs i = Some (WDone (EvIntrospect (Ok (Some r)))) ->
    exists now q hdr rel tok inf, accepted sv e al ops i (WIntrospect now q hdr rel tok) (sv_intro sv) now q hdr inf
      /\ (ep_methods (sv_intro sv) <> [] -> exists x m, inf = Some x /\ In m (ep_methods (sv_intro sv)) /\ ai_method x = tag m).
  Proof.
    intros Hw N. destruct (introspect_behind _ _ _ _ _ Hw N) as (now & q & hdr & rel & tok & inf & A & B).
    exists now, q, hdr, rel, tok, inf. split; [exact A|]. intros Ne. destruct inf as [x|]; [|now destruct (B Ne)].
    destruct A as (_ & evs1 & w1 & db & _ & _ & E). destruct (method_allowed _ _ _ _ _ _ _ _ E) as (m & I & T & _).
    exists x, m. auto.
  Qed.
End P.
