(** Lemmas for pushed requests over the wire. *)
From Verif Require Import M_Base M_Uri M_Redirect S_Redirect L_Redirect L_Par M_Types M_Codec M_Grant M_Env M_Session M_Claims M_Handler
  M_Authz M_TokenEP M_PKCE M_AuthzEP M_Info M_Logout M_History M_ClientAuthn M_Wire
  S_Codec S_Grant S_History S_AuthzResp S_ClientAuthn S_Wire L_Base L_Monad L_ClientAuthn L_Resp
  L_Hist8 L_Hist9 L_Hist10 L_Hist11 L_Info L_AuthzResp L_Wire L_Front.

Section F.
  Variables (sv : server) (e : env) (al : setting) (W : laws e).
  Let fr := sv_front sv.

  Definition own_push (q : creq) (inf : option ainfo) (rq r : request) : Prop :=
    (exists c, r = [("error", c)])
    \/ (dget r "request_uri" = None /\ dget r "client_id" = dget (for_client (attributed q inf) rq) "client_id").
  Definition pushed_by (ops : list wop) (urn : string) (r : request) : Prop :=
    exists j now q hdr rq inf, j < List.length ops
      /\ accepted sv e al ops j (WPush now q hdr urn rq) (fr_par fr) now q hdr inf
      /\ (keeps_members fr -> dget rq "request_uri" = None -> own_push q inf rq r).
  Definition par_inv (ops : list wop) (par : par_db) : Prop :=
    NoDup (dkeys par) /\ forall urn r, dget par urn = Some r -> pushed_by ops urn r.

  Lemma pushed_app ops o urn r : pushed_by ops urn r -> pushed_by (ops ++ [o]) urn r.
  Proof.
    intros (j & now & q & hdr & rq & inf & L & A & K). exists j, now, q, hdr, rq, inf.
    split; [rewrite app_length; lia|]. split; [now apply accepted_app|exact K].
  Qed.
  Lemma inv_shrinks ops o par par' : par_inv ops par -> shrinks par par' -> par_inv (ops ++ [o]) par'.
  Proof.
    intros (N & K) (S1 & S2 & _). split; [now apply S1|]. intros urn r D. apply pushed_app, K, S2, D.
  Qed.

  Lemma for_client_ref c rq : dget (for_client c rq) "request_uri" = dget rq "request_uri".
  Proof. destruct c; [cbn; apply dget_dset_other; discriminate|reflexivity]. Qed.

  Lemma chain_err c cid ms : forall rq db x db', dget rq "request_uri" = None ->
    run_chain c cid ms (PGood rq) db = (Ok (PErr x), db') -> db' = db.
  Proof.
    induction ms as [|m ms IH]; intros rq db x db' N H; cbn [run_chain] in H; [discriminate|].
    unfold bind at 1 in H. destruct m.
    - unfold bind at 1 in H. rewrite dru_none in H by exact N. unfold ret in H at 1. eapply IH in H; eauto.
    - unfold lift in H. destruct (post_parse_request (pc_cdb c) cid rq) as [[q|y]|y] eqn:E; [| |discriminate].
      + apply post_parse_good in E as (info & rt & u & _ & _ & _ & _ & ->).
        eapply IH in H; [exact H|]. rewrite dget_dset_other by discriminate. exact N.
      + destruct ms; unfold run_chain, ret in H; congruence.
  Qed.

  Lemma par_traced ops : forall evs w, whistory sv e al ops evs w -> par_inv ops (w_par w).
  Proof.
    induction ops as [|o ops IH] using rev_ind; intros evs w Hw.
    - destruct Hw as (_ & _ & E). cbn in E. injection E as _ <-. split; [constructor|discriminate].
    - destruct (whistory_snoc _ _ _ _ _ _ _ Hw) as (evs1 & w1 & ev & H1 & P & S & _ & Ll). specialize (IH _ _ H1).
      assert (forall db par o1, shrinks (w_par w1) par -> call e (w_h w1) db par o1 = (ev, w) -> par_inv (ops ++ [o]) (w_par w)) as K.
      { intros db par o1 Sh X. unfold call in X. destruct (step e (w_h w1) o1). injection X as _ <-. now apply (inv_shrinks _ _ (w_par w1)). }
      assert (par_inv (ops ++ [o]) (w_par w1)) as Same by (apply (inv_shrinks _ _ (w_par w1)); [exact IH|apply shrinks_refl]).
      pose proof (shrinks_refl (w_par w1)) as Rf.
      destruct o as [now q hdr body|now q hdr rel t|now q hdr|now q hdr urn rq|now q hdr rq deny iframe ru acr exp_in ans|now iframe rq uid acr exp_in|o]; cbn [wstep] in S.
      + unfold wire_token in S. destruct (client_authentication _ _ _ _ _ _) as [[i|x] db]; [|injection S as _ <-; exact Same].
        destruct (sv_verify _ _) as [[|]|x]; try (injection S as _ <-; exact Same).
        destruct (attributed q i); [|injection S as _ <-; exact Same]. eapply K; eauto.
      + unfold wire_introspect in S. destruct (client_authentication _ _ _ _ _ _) as [[i|x] db]; [|injection S as _ <-; exact Same].
        eapply K; eauto.
      + unfold wire_userinfo in S. destruct (client_authentication _ _ _ _ _ _) as [[[i|]|x] db]; try (injection S as _ <-; exact Same).
        destruct (ai_client i); [|injection S as _ <-; exact Same].
        destruct (ai_token i); [|injection S as _ <-; exact Same]. eapply K; eauto.
      + unfold wire_push in S. destruct (client_authentication _ _ _ _ _ _) as [[i|x] db] eqn:A; [|injection S as _ <-; exact Same].
        destruct (fr_object _ _ _) as [[rq1|]|x] eqn:V; try (injection S as _ <-; exact Same).
        destruct (par_push _ _ _ _ _) as [r par] eqn:Pu.
        assert (par_inv (ops ++ [WPush now q hdr urn rq]) par) as Q; [|destruct r; injection S as _ <-; exact Q].
        clear S K. unfold par_push, bind in Pu. destruct (run_chain _ _ _ _ _) as [[p|x] par1] eqn:C.
        2:{ injection Pu as _ <-. apply (inv_shrinks _ _ (w_par w1)); [exact IH|]. eapply chain_shrinks; [apply IH|exact C]. }
        pose proof (chain_shrinks _ _ _ _ _ _ _ (proj1 IH) C) as Sh.
        assert (exists r0, par = dset par1 urn r0 /\ (p = PGood r0 \/ exists c, r0 = [("error", c)])) as (r0 & -> & Kr).
        { unfold par_process, bind, get_st, put_st in Pu. destruct p as [r1|c].
          - exists r1. split; [|now left]. destruct (dget r1 "redirect_uri"); cbv beta iota in Pu; unfold ret, raise in Pu; congruence.
          - exists [("error", c)]. split; [|right; now exists c]. cbv beta iota in Pu. unfold raise in Pu. congruence. }
        split; [apply dset_keys_nodup; apply Sh, IH|]. intros k v D. destruct (String.eqb k urn) eqn:E.
        * apply seqb_eq in E as ->. rewrite dget_dset_same in D. injection D as <-.
          exists (List.length ops), now, q, hdr, rq, i. split; [rewrite app_length; cbn; lia|]. split.
          { split; [rewrite nth_error_app2, Nat.sub_diag by lia; reflexivity|]. exists evs1, w1, db.
            rewrite firstn_app, Nat.sub_diag, firstn_all, app_nil_r. split; [exact H1|]. split; [cbn; auto|exact A]. }
          intros Km Nr. destruct Kr as [->|Er]; [right|left; exact Er].
          assert (dget rq1 "request_uri" = None) as N1.
          { rewrite (Km _ _ _ "request_uri" V) by auto. now rewrite for_client_ref. }
          destruct (chain_own _ _ _ _ _ _ _ N1 C) as [_ O]. split; [rewrite O by discriminate; exact N1|].
          rewrite O by discriminate. apply (Km _ _ _ "client_id" V). auto.
        * apply seqb_neq in E. rewrite dget_dset_other in D by exact E. apply pushed_app, IH. destruct Sh as (_ & Sh & _). now apply Sh.
      + unfold wire_authorize in S. destruct (client_authentication _ _ _ _ _ _) as [[i|x] db]; [|injection S as _ <-; exact Same].
        destruct (fr_object _ _ _) as [[rq1|]|x]; try (injection S as _ <-; exact Same).
        destruct (authz_parse _ _ _ _ _) as [r par] eqn:Pa. pose proof (chain_shrinks _ _ _ _ _ _ _ (proj1 IH) Pa) as Sh.
        destruct r as [[r|code]|x].
        * eapply K; eauto.
        * injection S as _ <-. now apply (inv_shrinks _ _ (w_par w1)).
        * injection S as _ <-. now apply (inv_shrinks _ _ (w_par w1)).
      + eapply K; eauto.
      + eapply K; eauto.
  Qed.

  (** An authorization by URN stands on a push that was authenticated. *)
  Lemma pushed_before ops evs w i now q hdr rq deny iframe ru acr exp_in ans urn ev :
    keeps_members fr -> pc_par (fr_conf fr) = true -> starts_with "urn:uuid:" urn = true ->
    whistory sv e al ops evs w ->
    nth_error ops i = Some (WAuthorize now q hdr rq deny iframe ru acr exp_in ans) ->
    dget rq "request_uri" = Some urn -> nth_error evs i = Some (WDone ev) ->
    exists j now' q' hdr' rq' inf, j < i
      /\ accepted sv e al ops j (WPush now' q' hdr' urn rq') (fr_par fr) now' q' hdr' inf
      /\ (dget rq' "request_uri" = None ->
          forall c o a v tc, attributed q' inf = Some c -> delivers (WDone ev) o a -> carries a v tc ->
          exists gid g u, grant_of (w_h w) gid g /\ belongs e g u c /\ in_grant g v tc).
  Proof.
    intros Km Pp Su Hw No Ru Ne.
    destruct (wevent_then sv e al _ _ _ _ _ Hw Ne) as (x & w1 & w2 & ops' & evs' & Nx & H1 & P & S & F & X).
    assert (x = WAuthorize now q hdr rq deny iframe ru acr exp_in ans) as -> by congruence.
    destruct (par_traced _ _ _ H1) as [Nd Tr]. pose proof (proj1 H1) as Sf.
    destruct (wstep_cases _ _ _ _ _ _ Sf S P) as [(Z & _)|(o1 & ev1 & E1 & S1 & P1 & C)]; [elim (Z _ eq_refl)|].
    injection E1 as <-. destruct C as (i1 & db & rq1 & r & par & _ & V & Pa & ->).
    assert (dget rq1 "request_uri" = Some urn) as R1.
    { rewrite (Km _ _ _ "request_uri" V) by auto. now rewrite for_client_ref. }
    assert (exists ms, authz_parse (fr_conf fr) (fr_oidc fr) (ostr (attributed q i1)) rq1
      = run_chain (fr_conf fr) (ostr (attributed q i1)) (MRequestUri :: MPostParse :: ms) (PGood rq1)) as (ms & Eq1).
    { unfold authz_parse. destruct (fr_oidc fr); [exists [MRequestUri; MPostParse]|exists []]; reflexivity. }
    fold fr in Pa. rewrite Eq1 in Pa.
    destruct (first_names _ _ _ _ _ _ _ _ Pp Su Nd R1 Pa) as (_ & Gr & Gs).
    destruct (dget (w_par w1) urn) as [v|] eqn:Dv; [|destruct Gr as [Gr _]; [now left|discriminate]].
    assert (v <> []) as Nv by (intros ->; destruct Gr as [Gr _]; [now right|discriminate]).
    specialize (Gs v eq_refl Nv). destruct (Tr _ _ Dv) as (j & now' & q' & hdr' & rq' & inf & L & Ac & Kv).
    assert (i < List.length ops) as Li by (apply nth_error_Some; congruence).
    assert (j < i) as Lj by (rewrite firstn_length in L; lia).
    exists j, now', q', hdr', rq', inf. split; [exact Lj|]. split.
    { destruct Ac as (A1 & evs0 & w0 & db0 & A2 & A3). split; [|exists evs0, w0, db0; split; [|exact A3]].
      - rewrite <- A1. clear - Lj. revert ops i Lj. induction j as [|j IH]; intros ops i L; destruct i; try lia; destruct ops; cbn; auto.
        apply IH. lia.
      - rewrite firstn_firstn in A2. replace (Nat.min j i) with j in A2 by lia. exact A2. }
    intros Nr c o a t tc At D Ca. specialize (Kv Km Nr).
    assert (dget r "client_id" = Some c) as Cc.
    { destruct Kv as [(x & ->)|(Nv1 & Cv)].
      - exfalso. destruct (chain_own _ _ _ _ _ _ _ (eq_refl : dget [("error", x)] "request_uri" = None) Gs) as [_ O].
        destruct (parse_redirect (fr_conf fr) (fr_oidc fr) (ostr (attributed q i1)) rq1 (w_par w1) r par) as (c1 & u1 & C1 & _); [apply Sf|now rewrite Eq1|].
        rewrite O in C1 by discriminate. discriminate.
      - destruct (chain_own _ _ _ _ _ _ _ Nv1 Gs) as [_ O]. rewrite O by discriminate. rewrite Cv, At. cbn. apply dget_dset_same. }
    assert (ar_client_id (fr_read fr r) = c) as Ec by (apply sf_client; [exact Sf|exact Cc]).
    destruct D as ([D|D] & Ao); [|injection D as ->; cbn [step] in S1; unfold on_st in S1; destruct (authorize _ _ _ _ _ _ _ _ _ _ _); discriminate].
    injection D as ->. destruct (wire_is_history _ _ _ _ _ _ H1) as (ops1 & Hi).
    destruct (authorize_answers e W _ _ _ _ _ _ _ _ _ _ _ _ _ _ _ Hi P1 S1 Ao) as (u & sid & _ & An).
    assert (HI e (w_h w2)) as H2.
    { destruct (exec_keeps e W (fun _ => True) [OAuthorize now deny iframe (fr_read fr r) ru acr exp_in ans (answer_uri fr r)] (w_h w1) [EvAuthorize (Ok (ROut o))] (w_h w2)) as [G _]; auto.
      - eapply history_hi; eauto.
      - cbn [exec]. fold fr in S1. now rewrite S1. }
    destruct An as [_ [(_ & _ & _ & N1 & N2 & N3)|(_ & _ & _ & _ & _ & gid & g & G & B & Ga & T1 & T2 & _ & T3 & _)]].
    { exfalso. destruct Ca as [(_ & K)|[(_ & K)|(_ & K)]]; congruence. }
    assert (exists x, In x (g_tokens g) /\ t_value x = t /\ t_class x = tc) as (x & It & Vt & Kt).
    { destruct Ca as [(-> & K)|[(-> & K)|(-> & K)]];
        [destruct (T1 _ K) as (_ & x & A1 & A2 & A3 & _)|destruct (T2 _ K) as (_ & x & A1 & A2 & A3 & _)
        |destruct (T3 _ K) as (_ & x & A1 & A2 & A3 & _)]; exists x; auto. }
    destruct (grant_of_later e W _ _ _ _ _ _ H2 F X G) as (g' & G' & Lt & _ & Ea & Ee & Es).
    exists gid, g', u. split; [exact G'|]. split.
    { destruct B as (ar' & ae & B1 & B2 & B3 & B4 & B5). exists ar', ae. rewrite Ea, Ee, Es.
      fold fr in B2. rewrite Ec in B2. auto. }
    destruct (tokens_later_in _ _ _ Lt It) as (t' & I' & V' & K'). exists t'. split; [exact I'|]. split; congruence.
  Qed.

  Lemma pushed_shown ops evs w i now q hdr rq deny iframe ru acr exp_in ans urn ev o a v tc :
    keeps_members fr -> pc_par (fr_conf fr) = true -> starts_with "urn:uuid:" urn = true ->
    ep_methods (fr_par fr) <> [] -> (forall m, In m (ep_methods (fr_par fr)) -> m = MBasic \/ m = MPost) ->
    whistory sv e al ops evs w ->
    (forall now' q' hdr' rq', In (WPush now' q' hdr' urn rq') ops -> dget rq' "request_uri" = None) ->
    nth_error ops i = Some (WAuthorize now q hdr rq deny iframe ru acr exp_in ans) ->
    dget rq "request_uri" = Some urn -> nth_error evs i = Some (WDone ev) ->
    delivers (WDone ev) o a -> carries a v tc ->
    exists j now' q' hdr' rq' c gid g u, j < i /\ nth_error ops j = Some (WPush now' q' hdr' urn rq')
      /\ shows_secret sv q' hdr' c /\ (c <> "" -> in_force (sv_auth sv) now' c)
      /\ grant_of (w_h w) gid g /\ belongs e g u c /\ in_grant g v tc.
  Proof.
    intros Km Pp Su Ne Hm Hw Nr No Ru Nv D Ca.
    destruct (pushed_before _ _ _ _ _ _ _ _ _ _ _ _ _ _ _ _ Km Pp Su Hw No Ru Nv) as (j & now' & q' & hdr' & rq' & inf & L & Ac & K).
    pose proof Ac as (Nj & evs1 & w1 & db & _ & R & E). destruct inf as [inf|].
    2: { apply auth_none in E. contradiction. }
    destruct (shown _ _ _ _ _ _ _ _ E) as (c & C & F & S).
    { intros m I. destruct (Hm m I) as [->| ->]; [left; reflexivity|right; left; reflexivity]. }
    destruct (K (Nr _ _ _ _ (nth_error_In _ _ Nj)) c o a v tc) as (gid & g & u & G & B & I); [cbn; now rewrite C|exact D|exact Ca|].
    exists j, now', q', hdr', rq', c, gid, g, u. split; [exact L|]. split; [exact Nj|]. split; [|auto].
    destruct S as [S|([S|S] & _)]; [exact S| |]; destruct (Hm _ S); discriminate.
  Qed.
End F.
