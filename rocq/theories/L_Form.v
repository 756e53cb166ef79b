(** Lemmas on the log-in form. *)
From Verif Require Import M_Base M_Types M_Codec M_Grant M_Env M_Session M_Claims M_Handler
  M_Authz M_TokenEP M_PKCE M_AuthzEP M_Info M_Logout M_Uri M_Cookie M_Authn M_History M_Browser M_Form
  S_Grant S_History S_AuthzResp S_Authn S_TokenResp S_Browser S_Form L_Base L_Monad L_Cookie L_Claims L_AuthzResp L_TokenResp L_Info L_Browser L_Sman.

Section F.
  Variable L : lconf.
  Variable K : aconf.
  Variable e : env.
  Hypothesis B : browser_laws K e.
  Hypothesis FL : form_laws L.

  Lemma verify_ok form u : verify_user L form = Ok u -> right_password L form u.
  Proof.
    unfold verify_user. destruct (dget form "username") as [u0|] eqn:Eu; [|discriminate].
    destruct (dget (lc_db L) u0) as [p|] eqn:Ed; [|discriminate].
    destruct (dget form "password") as [p'|] eqn:Ep; [|discriminate].
    destruct (String.eqb p p') eqn:E; [|discriminate]. apply String.eqb_eq in E. subst p'.
    intros X. assert (u0 = u) by congruence. subst u0. exists p. auto.
  Qed.
  Lemma right_one form u u' : right_password L form u -> right_password L form u' -> u = u'.
  Proof. intros (p & U & _) (p' & U' & _). congruence. Qed.

  Lemma member_ok {A} (d : dict A) k v : member d k = Ok v -> dget d k = Some v.
  Proof. unfold member. destruct (dget d k); congruence. Qed.
  Lemma text_ok d k v : text_member d k = Ok v -> dget d k = Some (JStr v).
  Proof.
    unfold text_member. intros H. apply rbind_okc in H as (x & M1 & H). apply member_ok in M1.
    destruct x; congruence.
  Qed.

  Lemma read_form_ok form u ar acr : read_form L form = Ok (u, ar, acr) ->
    right_password L form u /\ u <> ""
    /\ exists tok d q, dget form "token" = Some tok /\ lc_unpack L tok = Ok d /\ dget d "query" = Some (JStr q)
       /\ lc_read L q = Ok ar /\ dget d "authn_class_ref" = Some (JStr acr).
  Proof.
    unfold read_form. intros H. apply rbind_okc in H as (u0 & V & H). apply verify_ok in V.
    destruct (str_true u0) eqn:T; cbn [negb] in H; [|discriminate].
    apply rbind_okc in H as (tok & M1 & H). apply rbind_okc in H as (d & M2 & H). apply rbind_okc in H as (q & M3 & H).
    apply rbind_okc in H as (ar0 & M4 & H). apply rbind_okc in H as (acr0 & M5 & H). apply rbind_okc in H as (i & M6 & H).
    injection H as E1 E2 E3. subst u0 ar0 acr0. split; [exact V|]. split; [intros ->; discriminate|].
    exists tok, d, q. apply member_ok in M1. apply text_ok in M3, M5. auto.
  Qed.

  Lemma page_query ar acr ru : dget (page_args L ar acr ru) "query" = Some (JStr (lc_write L ar)).
  Proof. reflexivity. Qed.
  Lemma page_class ar acr ru : dget (page_args L ar acr ru) "authn_class_ref" = Some (JStr acr).
  Proof. reflexivity. Qed.

  (** A token tells the request and the context class of its page. *)
  Lemma token_tells now ar acr ru d : lc_unpack L (page_token L now ar acr ru) = Ok d ->
    dget d "query" = Some (JStr (lc_write L ar)) /\ dget d "authn_class_ref" = Some (JStr acr).
  Proof.
    unfold page_token. intros U. destruct (fl_pack _ FL now (page_args L ar acr ru)) as (d' & U' & _ & P).
    rewrite U in U'. injection U' as <-. rewrite !P by discriminate. auto.
  Qed.

  (** ** The pages shown *)
  Definition page_of (ar : areq) (acr tok : string) : Prop :=
    good_id (ar_client_id ar) /\ lc_read L (lc_write L ar) = Ok ar /\ exists now ru, tok = page_token L now ar acr ru.

  Lemma shown_app ops evs o ev j b ar acr tok :
    shown_page ops evs j b ar acr tok -> shown_page (ops ++ [o]) (evs ++ [ev]) j b ar acr tok.
  Proof.
    intros (n & dn & i & x & iv & uri & v & N & E & V). exists n, dn, i, x, iv, uri, v.
    rewrite !nth_error_app1 by (apply nth_error_Some; congruence). auto.
  Qed.
  Lemma done_app ops evs o ev k b u tok out :
    form_done L ops evs k b u tok out -> form_done L (ops ++ [o]) (evs ++ [ev]) k b u tok out.
  Proof.
    intros (n & i & x & iv & uri & f & c & N & P & T & V). exists n, i, x, iv, uri, f, c.
    rewrite !nth_error_app1 by (apply nth_error_Some; congruence). auto.
  Qed.

  (** What a step of [lstep] is. *)
  Lemma lstep_inv w o ev w' : lstep L K e w o = (ev, w') ->
    (exists b now deny iframe acr exp_in iv uri v tok bev, o = LVisit b now deny iframe acr exp_in iv uri v
       /\ ev = LPage tok /\ (exists ru, tok = page_token L now (vi_req v) acr ru) /\ l_shown w' = l_shown w ++ [tok]
       /\ bstep K e (l_b w) (BVisit b now deny iframe acr exp_in iv uri v) = (bev, l_b w'))
    \/ (l_shown w' = l_shown w /\
        ((exists b now iframe exp_in iv uri form x, o = LForm b now iframe exp_in iv uri form /\ ev = LRefused x /\ w' = w)
         \/ (exists b now iframe exp_in iv uri form u ar acr r, o = LForm b now iframe exp_in iv uri form
              /\ ev = LDone r /\ read_form L form = Ok (u, ar, acr)
              /\ bstep K e (l_b w) (BLogin b now iframe ar u acr exp_in iv uri) = (BDone r, l_b w'))
         \/ (exists b now deny iframe acr exp_in iv uri v r bev, o = LVisit b now deny iframe acr exp_in iv uri v
              /\ ev = LAnswer r /\ (forall a c, r = Ok (a, c) -> bev = BAnswer r)
              /\ bstep K e (l_b w) (BVisit b now deny iframe acr exp_in iv uri v) = (bev, l_b w'))
         \/ (exists o' x, o = LCall o' /\ ev = LEv x /\ bstep K e (l_b w) (BCall o') = (BEv x, l_b w')))).
  Proof.
    intros H. destruct o as [b now deny iframe acr exp_in iv uri v|b now iframe exp_in iv uri form|o]; cbn [lstep] in H.
    - destruct (bstep K e (l_b w) _) as [bev w1] eqn:E.
      assert (exists r, bev = BAnswer r) as (r & ->).
      { cbn [bstep] in E. destruct (process_request _ _ _ _ _ _ _ _ _ _ _ _) as [r s]. injection E as <- _. eauto. }
      destruct r as [[[|f|o] c]|x].
      + destruct (request_user K (vi_req v) (vi_verified v)) as [ru|x].
        * left. injection H as E1 E2. subst ev w'. exists b, now, deny, iframe, acr, exp_in, iv, uri, v. eexists _, _.
          split; [reflexivity|]. split; [reflexivity|]. split; [eauto|]. split; [reflexivity|]. exact E.
        * right. injection H as E1 E2. subst ev w'. split; [reflexivity|]. right. right. left.
          exists b, now, deny, iframe, acr, exp_in, iv, uri, v. eexists _, _. split; [reflexivity|]. split; [reflexivity|].
          split; [|exact E]. intros; discriminate.
      + right. injection H as E1 E2. subst ev w'. split; [reflexivity|]. right. right. left.
        exists b, now, deny, iframe, acr, exp_in, iv, uri, v. eexists _, _. split; [reflexivity|]. split; [reflexivity|].
        split; [|exact E]. reflexivity.
      + right. injection H as E1 E2. subst ev w'. split; [reflexivity|]. right. right. left.
        exists b, now, deny, iframe, acr, exp_in, iv, uri, v. eexists _, _. split; [reflexivity|]. split; [reflexivity|].
        split; [|exact E]. reflexivity.
      + right. injection H as E1 E2. subst ev w'. split; [reflexivity|]. right. right. left.
        exists b, now, deny, iframe, acr, exp_in, iv, uri, v. eexists _, _. split; [reflexivity|]. split; [reflexivity|].
        split; [|exact E]. reflexivity.
    - right. destruct (read_form L form) as [[[u ar] acr]|x] eqn:R.
      + destruct (bstep K e (l_b w) _) as [bev w1] eqn:E.
        assert (exists r, bev = BDone r) as (r & ->).
        { cbn [bstep] in E. destruct (login_page _ _ _ _ _ _ _ _ _ _ _) as [r s]. injection E as <- _. eauto. }
        injection H as E1 E2. subst ev w'. split; [reflexivity|]. right. left.
        exists b, now, iframe, exp_in, iv, uri, form, u, ar, acr, r. auto.
      + injection H as E1 E2. subst ev w'. split; [reflexivity|]. left. exists b, now, iframe, exp_in, iv, uri, form, x. auto.
    - right. destruct (bstep K e (l_b w) (BCall o)) as [bev w1] eqn:E.
      assert (exists x, bev = BEv x) as (x & ->).
      { cbn [bstep] in E. destruct (step e (b_h (l_b w)) o). injection E as <- _. eauto. }
      injection H as E1 E2. subst ev w'. split; [reflexivity|]. right. right. right. exists o, x. auto.
  Qed.

  (** A form that was answered: the log-in is a fair one, for the request of a
      page that was shown. *)
  Lemma form_fair w b now iframe exp_in iv uri form u ar acr (P : areq -> string -> string -> Prop) :
    (forall tok, In tok (l_shown w) -> exists ar acr, P ar acr tok /\ page_of ar acr tok) ->
    fair_l L K e w (LForm b now iframe exp_in iv uri form) -> read_form L form = Ok (u, ar, acr) ->
    right_password L form u /\ fair K e (l_b w) (BLogin b now iframe ar u acr exp_in iv uri)
    /\ exists tok, dget form "token" = Some tok /\ P ar acr tok
       /\ forall ar' acr', page_of ar' acr' tok -> ar' = ar /\ acr' = acr.
  Proof.
    intros Sh [Un Nd] R. destruct (read_form_ok _ _ _ _ R) as (Pw & Ne & tok & d & q & T & U & Q & Rd & Ac).
    destruct (Sh tok (Un _ _ _ T U Q)) as (ar1 & acr1 & P1 & Pg).
    assert (forall ar' acr', page_of ar' acr' tok -> ar' = ar /\ acr' = acr) as Un1.
    { intros ar' acr' (_ & Rw & n & ru & ->). destruct (token_tells _ _ _ _ _ U) as [Q' A'].
      rewrite Q in Q'. injection Q' as ->. rewrite Rd in Rw. injection Rw as ->. rewrite Ac in A'. injection A' as ->. auto. }
    destruct (Un1 _ _ Pg) as [-> ->]. split; [exact Pw|]. split.
    - split; [exact (proj1 Pg)|]. split; [|exact (Nd _ Pw)]. destruct Pw as (p & _ & _ & D). exact (fl_users _ FL _ _ D Ne).
    - exists tok. auto.
  Qed.

  (** ** Histories *)
  Lemma logged_app ops evs o ev b u c : gave_password L ops evs b u c -> gave_password L (ops ++ [o]) (evs ++ [ev]) b u c.
  Proof.
    intros (k & j & b' & ar & acr & tok & out & F & S & Lt & E). exists k, j, b', ar, acr, tok, out.
    split; [now apply done_app|]. split; [now apply shown_app|]. auto.
  Qed.
  Lemma sent_app ops evs o ev b u c : sent_password L ops evs b u c -> sent_password L (ops ++ [o]) (evs ++ [ev]) b u c.
  Proof.
    intros (k & n & i & x & iv & uri & f & tok & j & b' & ar & acr & N & P & T & S & Lt & E).
    exists k, n, i, x, iv, uri, f, tok, j, b', ar, acr.
    rewrite nth_error_app1 by (apply nth_error_Some; congruence). split; [exact N|]. split; [exact P|]. split; [exact T|].
    split; [now apply shown_app|]. auto.
  Qed.
  Lemma logs_in_snoc ops evs o ev j b u c : List.length evs = List.length ops ->
    logs_in (ops ++ [o]) (evs ++ [ev]) j b u c ->
    logs_in ops evs j b u c \/ (j = List.length ops /\ exists now iframe ar acr exp_in iv uri out ck,
      o = BLogin b now iframe ar u acr exp_in iv uri /\ ar_client_id ar = c /\ ev = BDone (Ok (out, Some ck))).
  Proof.
    intros Ln (n & i & ar & acr & x & iv & uri & out & ck & N & E & V).
    destruct (Nat.lt_ge_cases j (List.length ops)) as [Lt|Ge].
    - left. exists n, i, ar, acr, x, iv, uri, out, ck. rewrite !nth_error_app1 in * by lia. auto.
    - right. assert (j = List.length ops) as ->.
      { assert (j < List.length (ops ++ [o])) by (apply nth_error_Some; congruence). rewrite app_length in *. cbn in *. lia. }
      split; [reflexivity|]. rewrite nth_error_app2 in N by lia. rewrite nth_error_app2 in V by lia.
      rewrite Nat.sub_diag in N. rewrite Ln, Nat.sub_diag in V. cbn in N, V. injection N as ->. injection V as ->.
      exists n, i, ar, acr, x, iv, uri, out, ck. auto.
  Qed.

  Lemma lfuture_facts always ops evs w : lfuture L K e (l_init always) ops evs w ->
    List.length evs = List.length ops
    /\ (forall tok, In tok (l_shown w) -> exists ar acr, (exists j b, shown_page ops evs j b ar acr tok) /\ page_of ar acr tok)
    /\ (forall j b ar acr tok, shown_page ops evs j b ar acr tok -> page_of ar acr tok)
    /\ exists ops' evs', bfuture K e (b_init always) ops' evs' (l_b w) /\ List.length evs' = List.length ops'
       /\ (forall j b u c, logs_in ops' evs' j b u c -> gave_password L ops evs b u c)
       /\ (forall j b u ar, log_in_call ops' j b u ar -> sent_password L ops evs b u (ar_client_id ar)).
  Proof.
    intros F. induction F as [|ops evs w o ev w' F (Ln & Sh & Pg & ops' & evs' & Fb & Lb & Lg & Lc) Fa E].
    { split; [reflexivity|]. split; [intros tok []|]. split.
      - intros j b ar acr tok (? & ? & ? & ? & ? & ? & ? & N & _). destruct j; discriminate.
      - exists [], []. split; [constructor|]. split; [reflexivity|]. split.
        + intros j b u c (? & ? & ? & ? & ? & ? & ? & ? & ? & N & _). destruct j; discriminate.
        + intros j b u ar (? & ? & ? & ? & ? & ? & N). destruct j; discriminate. }
    assert (nth_error (ops ++ [o]) (List.length ops) = Some o) as No
      by (rewrite nth_error_app2, Nat.sub_diag by lia; reflexivity).
    assert (nth_error (evs ++ [ev]) (List.length ops) = Some ev) as Nv
      by (rewrite nth_error_app2 by lia; rewrite Ln, Nat.sub_diag; reflexivity).
    split; [rewrite !app_length; cbn; lia|].
    assert (forall j b ar acr tok, shown_page (ops ++ [o]) (evs ++ [ev]) j b ar acr tok ->
      shown_page ops evs j b ar acr tok \/ (exists now deny iframe exp_in iv uri v, o = LVisit b now deny iframe acr exp_in iv uri v
        /\ vi_req v = ar /\ ev = LPage tok)) as Last.
    { intros j b ar acr tok (n & dn & i & x & iv & uri & v & N & Er & V).
      destruct (Nat.lt_ge_cases j (List.length ops)) as [Lt|Ge].
      - left. exists n, dn, i, x, iv, uri, v. rewrite !nth_error_app1 in * by lia. auto.
      - assert (j = List.length ops) as ->.
        { assert (j < List.length (ops ++ [o])) by (apply nth_error_Some; congruence). rewrite app_length in *. cbn in *. lia. }
        rewrite No in N. rewrite Nv in V. injection N as ->. injection V as ->. right. exists n, dn, i, x, iv, uri, v. auto. }
    assert (forall tok, In tok (l_shown w) -> exists ar acr,
      (exists j b, shown_page (ops ++ [o]) (evs ++ [ev]) j b ar acr tok) /\ page_of ar acr tok) as Sh'.
    { intros tok I. destruct (Sh tok I) as (ar & acr & (j & b & S) & P). exists ar, acr. split; [|exact P].
      exists j, b. now apply shown_app. }
    assert (forall bo bev, fair K e (l_b w) bo -> bstep K e (l_b w) bo = (bev, l_b w') ->
      (forall b u c now iframe ar acr exp_in iv uri out ck, bo = BLogin b now iframe ar u acr exp_in iv uri -> ar_client_id ar = c ->
         bev = BDone (Ok (out, Some ck)) -> gave_password L (ops ++ [o]) (evs ++ [ev]) b u c) ->
      (forall b u now iframe ar acr exp_in iv uri, bo = BLogin b now iframe ar u acr exp_in iv uri ->
         sent_password L (ops ++ [o]) (evs ++ [ev]) b u (ar_client_id ar)) ->
      exists ops' evs', bfuture K e (b_init always) ops' evs' (l_b w') /\ List.length evs' = List.length ops'
       /\ (forall j b u c, logs_in ops' evs' j b u c -> gave_password L (ops ++ [o]) (evs ++ [ev]) b u c)
       /\ (forall j b u ar, log_in_call ops' j b u ar -> sent_password L (ops ++ [o]) (evs ++ [ev]) b u (ar_client_id ar))) as Go.
    { intros bo bev Fo Eo Lo Ls. exists (ops' ++ [bo]), (evs' ++ [bev]). split; [econstructor; eauto|].
      split; [rewrite !app_length; cbn; lia|]. split.
      - intros j b u c X. apply logs_in_snoc in X; [|exact Lb].
        destruct X as [X|(_ & n & i & ar & acr & x & iv & uri & out & ck & E1 & E2 & E3)].
        + apply logged_app. eauto.
        + eauto.
      - intros j b u ar (n & i & acr & x & iv & uri & N). destruct (Nat.lt_ge_cases j (List.length ops')) as [Lt|Ge].
        + apply sent_app. rewrite nth_error_app1 in N by lia. apply (Lc j). exists n, i, acr, x, iv, uri. exact N.
        + rewrite nth_error_app2 in N by lia. destruct (j - List.length ops') as [|[|m]]; try discriminate.
          injection N as N. exact (Ls _ _ _ _ _ _ _ _ _ N). }
    destruct (lstep_inv _ _ _ _ E) as
      [(b & now & deny & iframe & acr & exp_in & iv & uri & v & tok & bev & -> & -> & (ru & Et) & Es & Eb)
      |(Es & [(b & now & iframe & exp_in & iv & uri & form & x & -> & -> & ->)
             |[(b & now & iframe & exp_in & iv & uri & form & u & ar & acr & r & -> & -> & R & Eb)
             |[(b & now & deny & iframe & acr & exp_in & iv & uri & v & r & bev & -> & -> & Eq_ & Eb)
             |(o' & x & -> & -> & Eb)]]])].
    - destruct Fa as [[Gc O] Rw].
      assert (page_of (vi_req v) acr tok) as P by (split; [exact Gc|]; split; [exact Rw|eauto]).
      split; [|split].
      + intros t I. rewrite Es in I. apply in_app_iff in I as [I|[<-|[]]]; [now apply Sh'|].
        exists (vi_req v), acr. split; [|exact P]. exists (List.length ops), b.
        exists now, deny, iframe, exp_in, iv, uri, v. auto.
      + intros j b0 ar0 acr0 t S. apply Last in S as [S|(n & dn & i & x & iv0 & uri0 & v0 & E1 & E2 & E3)]; [eauto|].
        assert (acr0 = acr /\ v0 = v /\ t = tok) as (A1 & A2 & A3) by (clear - E1 E3; split; [|split]; congruence).
        subst acr0 v0 t ar0. exact P.
      + apply (Go (BVisit b now deny iframe acr exp_in iv uri v) _ (conj Gc O) Eb); intros; discriminate.
    - split; [exact Sh'|]. split.
      + intros j b0 ar0 acr0 t S. apply Last in S as [S|(n & dn & i & y & iv0 & uri0 & v0 & E1 & _)]; [eauto|discriminate].
      + exists ops', evs'. split; [exact Fb|]. split; [exact Lb|]. split.
        * intros j b0 u c X. apply logged_app. eauto.
        * intros j b0 u ar X. apply sent_app. eauto.
    - split; [rewrite Es; exact Sh'|]. split.
      + intros j b0 ar0 acr0 t S. apply Last in S as [S|(n & dn & i & y & iv0 & uri0 & v0 & E1 & _)]; [eauto|discriminate].
      + destruct (form_fair w b now iframe exp_in iv uri form u ar acr (fun ar acr tok => exists j b, shown_page ops evs j b ar acr tok) Sh Fa R)
          as (Pw & Fo & tok & T & (j & b1 & S) & _).
        assert (j < List.length ops) as Lj.
        { destruct S as (? & ? & ? & ? & ? & ? & ? & N & _). apply nth_error_Some. congruence. }
        apply (Go _ _ Fo Eb).
        * intros b0 u0 c n i ar0 acr0 x iv0 uri0 out ck E1 E2 E3.
          injection E1 as <- <- <- <- <- <- <- <- <-. injection E3 as ->.
          exists (List.length ops), j, b1, ar, acr, tok, out. split.
          -- exists now, iframe, exp_in, iv, uri, form, (Some ck). auto.
          -- split; [now apply shown_app|]. auto.
        * intros b0 u0 n i ar0 acr0 x iv0 uri0 E1. injection E1 as <- <- <- <- <- <- <- <- <-.
          exists (List.length ops), now, iframe, exp_in, iv, uri, form, tok, j, b1, ar, acr.
          split; [exact No|]. split; [exact Pw|]. split; [exact T|]. split; [now apply shown_app|]. auto.
    - split; [rewrite Es; exact Sh'|]. split.
      + intros j b0 ar0 acr0 t S. apply Last in S as [S|(n & dn & i & y & iv0 & uri0 & v0 & _ & _ & E3)]; [eauto|discriminate].
      + apply (Go _ _ (proj1 Fa) Eb); intros; discriminate.
    - split; [rewrite Es; exact Sh'|]. split.
      + intros j b0 ar0 acr0 t S. apply Last in S as [S|(n & dn & i & y & iv0 & uri0 & v0 & E1 & _)]; [eauto|discriminate].
      + apply (Go _ _ Fa Eb); intros; discriminate.
  Qed.

  Lemma form_response ops evs w b now iframe exp_in iv uri form out c w' : lhistory L K e ops evs w ->
    fair_l L K e w (LForm b now iframe exp_in iv uri form) ->
    lstep L K e w (LForm b now iframe exp_in iv uri form) = (LDone (Ok (out, c)), w') ->
    exists u tok, right_password L form u /\ dget form "token" = Some tok
      /\ (exists j b' ar acr, shown_page ops evs j b' ar acr tok)
      /\ forall j b' ar acr a, shown_page ops evs j b' ar acr tok -> ao_args out = Good a ->
           answers e now (b_h (l_b w)) (b_h (l_b w')) u ar a.
  Proof.
    intros (al & F) Fa E. destruct (lfuture_facts _ _ _ _ F) as (_ & Sh & Pg & ops' & evs' & Fb & _).
    destruct (lstep_inv _ _ _ _ E) as
      [(? & ? & ? & ? & ? & ? & ? & ? & ? & ? & ? & X & _)
      |(Es & [(? & ? & ? & ? & ? & ? & ? & ? & _ & X & _)
             |[(b0 & now0 & i0 & x0 & iv0 & uri0 & form0 & u & ar & acr & r & Eo & Er & R & Eb)
             |[(? & ? & ? & ? & ? & ? & ? & ? & ? & ? & ? & X & _)|(? & ? & X & _)]]])]; try discriminate.
    injection Eo as <- <- <- <- <- <- <-. injection Er as <-.
    destruct (form_fair w b now iframe exp_in iv uri form u ar acr (fun ar acr tok => exists j b, shown_page ops evs j b ar acr tok) Sh Fa R)
      as (Pw & Fo & tok & T & (j & b1 & S) & Un).
    exists u, tok. split; [exact Pw|]. split; [exact T|]. split; [eauto|].
    intros j2 b2 ar2 acr2 a S2 A. destruct (Un _ _ (Pg _ _ _ _ _ S2)) as [-> ->].
    destruct (history_facts K e B _ _ _ (ex_intro _ al Fb)) as (_ & _ & _ & os & es & Hi).
    cbn [bstep] in Eb. destruct (login_page K e now iframe ar u acr exp_in iv uri (h_st (b_h (l_b w)))) as [r s] eqn:Lp.
    injection Eb as E1 E2. subst r. rewrite <- E2. cbn [b_h].
    assert (login e now iframe ar u acr exp_in uri (h_st (b_h (l_b w))) = (Ok out, s)) as Lg.
    { clear - Lp. unfold login_page, login in *. unfold bind at 1 in Lp. unfold bind at 1.
      destruct (ep_create_session e now ar u acr exp_in (h_st (b_h (l_b w)))) as [[sid|x] s1]; [|discriminate].
      unfold bind at 1 in Lp. destruct (authz_part2 e now iframe ar sid uri s1) as [[o|x] s2]; [|discriminate].
      destruct (ao_args o); [injection Lp as -> _ ->; reflexivity|].
      unfold bind, lift in Lp. destruct (response_cookie K now iv ar sid); [|discriminate]. injection Lp as -> _ ->. reflexivity. }
    destruct Fo as (Gc & Gu & _).
    refine (login_answers e (bl_laws _ _ B) os es (b_h (l_b w)) now iframe ar u acr exp_in uri out _ a Hi Gc Gu _ A).
    cbn [step]. unfold on_st. rewrite Lg. reflexivity.
  Qed.

  Lemma form_refused ops evs w b now iframe exp_in iv uri form ev w' :
    lhistory L K e ops evs w -> lstep L K e w (LForm b now iframe exp_in iv uri form) = (ev, w') ->
    (forall u tok j b' ar acr, right_password L form u -> dget form "token" = Some tok -> ~ shown_page ops evs j b' ar acr tok) ->
    fair_l L K e w (LForm b now iframe exp_in iv uri form) -> exists x, ev = LRefused x /\ w' = w.
  Proof.
    intros (al & F) E N Fa. destruct (lfuture_facts _ _ _ _ F) as (_ & Sh & Pg & _).
    destruct (lstep_inv _ _ _ _ E) as
      [(? & ? & ? & ? & ? & ? & ? & ? & ? & ? & ? & X & _)
      |(Es & [(? & ? & ? & ? & ? & ? & ? & x & _ & X & Y)
             |[(b0 & now0 & i0 & x0 & iv0 & uri0 & form0 & u & ar & acr & r & Eo & Er & R & Eb)
             |[(? & ? & ? & ? & ? & ? & ? & ? & ? & ? & ? & X & _)|(? & ? & X & _)]]])]; try discriminate; [eauto|].
    injection Eo as <- <- <- <- <- <- <-. exfalso.
    destruct (form_fair w b now iframe exp_in iv uri form u ar acr (fun ar acr tok => exists j b, shown_page ops evs j b ar acr tok) Sh Fa R)
      as (Pw & _ & tok & T & (j & b1 & S) & _). exact (N _ _ _ _ _ _ Pw T S).
  Qed.

  Lemma form_no_password w b now iframe exp_in iv uri form ev w' :
    lstep L K e w (LForm b now iframe exp_in iv uri form) = (ev, w') ->
    (forall u, ~ right_password L form u) -> exists x, ev = LRefused x /\ w' = w.
  Proof.
    intros E N. cbn [lstep] in E. destruct (read_form L form) as [[[u ar] acr]|x] eqn:R.
    - destruct (read_form_ok _ _ _ _ R) as (P & _). destruct (N _ P).
    - injection E as <- <-. eauto.
  Qed.

  Lemma own_form ops evs w b now deny iframe acr exp_in iv uri v o c w' : lhistory L K e ops evs w ->
    fair_l L K e w (LVisit b now deny iframe acr exp_in iv uri v) ->
    lstep L K e w (LVisit b now deny iframe acr exp_in iv uri v) = (LAnswer (Ok (ROut o, c)), w') ->
    exists u, gave_password L ops evs b u (ar_client_id (vi_req v))
      /\ forall a, ao_args o = Good a -> answers e now (b_h (l_b w)) (b_h (l_b w')) u (vi_req v) a.
  Proof.
    intros (al & F) [Fa _] E. destruct (lfuture_facts _ _ _ _ F) as (_ & Sh & Pg & ops' & evs' & Fb & _ & Lg & _).
    destruct (lstep_inv _ _ _ _ E) as
      [(? & ? & ? & ? & ? & ? & ? & ? & ? & ? & ? & _ & X & _)
      |(Es & [(? & ? & ? & ? & ? & ? & ? & x & _ & X & Y)
             |[(b0 & now0 & i0 & x0 & iv0 & uri0 & form0 & u & ar & acr0 & r & Eo & _)
             |[(b0 & n0 & d0 & i0 & a0 & x0 & iv0 & u0 & v0 & r & bev & Eo & Er & Eq_ & Eb)|(? & ? & X & _)]]])]; try discriminate.
    injection Eo as <- <- <- <- <- <- <- <- <-. injection Er as <-. specialize (Eq_ _ _ eq_refl). subst bev.
    destruct (own_log_in K e B ops' evs' (l_b w) b now deny iframe acr exp_in iv uri v o c (l_b w') (ex_intro _ al Fb) Fa Eb)
      as (u & j & Lj & A). exists u. split; [eauto|exact A].
  Qed.

  (** ** Where grants come from *)
  Lemma grants_need_forms ops evs w gid g u c : lhistory L K e ops evs w -> grant_of (b_h (l_b w)) gid g -> belongs e g u c ->
    exists b, sent_password L ops evs b u c.
  Proof.
    intros (al & F) G Bl. destruct (lfuture_facts _ _ _ _ F) as (_ & _ & _ & ops' & evs' & Fb & _ & _ & Lc).
    destruct (every_grant K e B _ _ _ _ _ _ _ (ex_intro _ al Fb) G Bl) as (j & b & ar & C & <-). exists b. eauto.
  Qed.
  Lemma sent_before ops evs o ev b u c : List.length evs = List.length ops ->
    sent_password L (ops ++ [LCall o]) (evs ++ [ev]) b u c -> sent_password L ops evs b u c.
  Proof.
    intros Ln (k & n & i & x & iv & uri & f & tok & j & b' & ar & acr & N & P & T & S & Lt & E).
    assert (k < List.length ops) as Lk.
    { destruct (Nat.lt_ge_cases k (List.length ops)) as [X|X]; [exact X|]. rewrite nth_error_app2 in N by lia.
      destruct (k - List.length ops) as [|[|m]]; discriminate. }
    exists k, n, i, x, iv, uri, f, tok, j, b', ar, acr. rewrite nth_error_app1 in N by lia. split; [exact N|].
    split; [exact P|]. split; [exact T|]. split; [|auto].
    destruct S as (n1 & dn & i1 & x1 & iv1 & uri1 & v & N1 & E1 & V). exists n1, dn, i1, x1, iv1, uri1, v.
    rewrite !nth_error_app1 in * by lia. auto.
  Qed.
  Lemma history_of ops evs w : lhistory L K e ops evs w -> exists os es, history e os es (b_h (l_b w)).
  Proof.
    intros (al & F). destruct (lfuture_facts _ _ _ _ F) as (_ & _ & _ & ops' & evs' & Fb & _).
    exact (proj2 (proj2 (proj2 (history_facts K e B _ _ _ (ex_intro _ al Fb))))).
  Qed.
  Lemma call_inv w o ev w' : lstep L K e w (LCall o) = (LEv ev, w') -> step e (b_h (l_b w)) o = (ev, b_h (l_b w')).
  Proof.
    cbn [lstep bstep]. destruct (step e (b_h (l_b w)) o) as [x h]. intros E. injection E as E1 E2. subst x w'. reflexivity.
  Qed.

  Lemma tokens_need_forms ops evs w now i issue q a w' : lhistory L K e ops evs w ->
    lstep L K e w (LCall (OProcess now i issue)) = (LEv (EvToken q (Ok (Good a))), w') ->
    exists gid g u ar p b, grant_of (b_h (l_b w')) gid g /\ token_answer e now q g u ar p a
      /\ sent_password L ops evs b u (ar_client_id ar).
  Proof.
    intros H E. pose proof (call_inv _ _ _ _ E) as St. destruct (history_of _ _ _ H) as (os & es & Hi).
    destruct (token_response e (bl_laws _ _ B) _ _ _ _ _ _ _ _ _ Hi St) as (gid & g & u & ar & p & G & A & _).
    destruct H as (al & F). destruct (lfuture_facts _ _ _ _ F) as (Ln & _).
    assert (fair_l L K e w (LCall (OProcess now i issue))) as Fa by exact Logic.I.
    destruct (grants_need_forms _ _ _ _ _ _ _ (ex_intro _ al (lf_more _ _ _ _ _ _ _ _ _ _ F Fa E)) G (proj1 A)) as (b & S).
    exists gid, g, u, ar, p, b. split; [exact G|]. split; [exact A|]. exact (sent_before _ _ _ _ _ _ _ Ln S).
  Qed.

  Lemma claims_need_forms ops evs w now tok info c w' : lhistory L K e ops evs w ->
    lstep L K e w (LCall (OUserinfo now tok)) = (LEv (EvUserinfo (Ok (Good (info, c)))), w') ->
    exists gid g u b, grant_of (b_h (l_b w)) gid g /\ belongs e g u c /\ in_grant g tok "access_token"
      /\ dget info "sub" = Some (JStr (g_sub g))
      /\ (forall k v, dget info k = Some v -> k <> "sub" -> k <> "acr" ->
            exists users, e_users e = Some users /\ dget (users u) k = Some v)
      /\ sent_password L ops evs b u c.
  Proof.
    intros H E. pose proof (call_inv _ _ _ _ E) as St. destruct (history_of _ _ _ H) as (os & es & Hi).
    destruct (userinfo_live e (bl_laws _ _ B) _ _ _ _ _ _ _ _ Hi St)
      as (gid & g & t & u & c' & ae & claims & G & Bl & _ & It & V & C & _ & _ & _ & -> & Sb & Uc & X & _).
    destruct (grants_need_forms _ _ _ _ _ _ _ H G Bl) as (b & S). exists gid, g, u, b.
    split; [exact G|]. split; [exact Bl|]. split; [exists t; auto|]. split; [exact Sb|]. split; [|exact S].
    intros k v D N1 N2. destruct (X _ _ D) as [Y|[[Y _]|Y]]; [congruence..|].
    destruct (e_users e) as [users|] eqn:U; [|unfold get_user_claims in Uc; rewrite U in Uc; discriminate].
    exists users. split; [reflexivity|]. destruct (dget (g_claims g) "userinfo") as [d|].
    - destruct (user_claims_In _ _ _ _ _ _ _ U Uc (dget_In _ _ _ Y)) as (sp & _ & Z & _). exact Z.
    - unfold get_user_claims in Uc. rewrite U in Uc. injection Uc as <-. discriminate Y.
  Qed.
End F.
