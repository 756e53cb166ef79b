(** What a token response says about the tokens in it. *)
From Verif Require Import M_Base M_Types M_Codec M_Grant M_Env M_Session M_Claims M_Handler
  M_Authz M_TokenEP M_PKCE M_AuthzEP M_Info M_Logout M_History S_Codec S_Grant S_Store S_Claims S_History S_AuthzResp S_IdToken S_TokenResp
  L_Base L_Codec L_Monad L_Grant L_Claims L_Store L_Hist1 L_Hist2 L_Hist3 L_Hist4 L_Hist5 L_Hist6 L_Hist7 L_Hist8
  L_Hist9 L_Hist10 L_Info L_Pass L_Spec2 L_IdToken L_AuthzResp.

Definition type_of (tc ttype : string) : option string :=
  if String.eqb tc ACCESS then Some (if str_true ttype then ttype else "bearer") else None.

Section Specs.
  Variables (e : env) (now : Z) (a0 : dict (dict (list string))) (c0 : nat).
  Hypothesis W : laws e.

  (** What is known of a token made here. *)
  Definition written (u : string) (ar : areq) (ae : aevent) (tc ttype : string) (t : token) : Prop :=
    text_ok e now a0 c0 u ar ae tc no_args (t_value t) /\ t_type t = type_of tc ttype.

  Lemma mint_value_written l sid tc b scope ttype u ar ae gid :
    (forall sc, scope = Some sc -> forall x, In x sc -> may_have e ar x) ->
    dec_sid3 e sid = Ok (u, ar_client_id ar, gid) -> ar_client_id ar <> "" ->
    spec2 e now (kept_ids a0) (fun s => mint_pre e l sid tc (Some b) scope s /\ for_req ar ae gid s /\ since c0 s)
      (mint_value e now l sid tc (Some b) scope ttype) (fun t _ => written u ar ae tc ttype t).
  Proof.
    intros Hs D Nc s r s' Iv Ki (Mp & F & Sn) E.
    destruct (mint_value_spec e now W l sid tc (Some b) scope ttype s r s' Iv Mp E) as (I' & L & _). split; auto. split.
    { refine (holds_mint_value e now (kept_ids a0) (ids_always a0) l (mint_pre e l sid tc (Some b) scope) sid tc b scope ttype _ s r s' Iv Ki Mp E).
      intros s0 ((g0 & H0 & _) & _). eauto. }
    split; auto.
    intros t ->. unfold mint_value, ep_mint in E.
    apply bind_ok in E as (r & s1 & E1 & E). apply bind_ok in E as (i & s2 & En & E).
    assert (s2 = s1 /\ r = Some i) as [-> ->].
    { destruct r as [j|]; [|discriminate]. apply ret_ok in En as [<- <-]. auto. }
    apply tok_at_ok in E as (-> & g1 & H1 & N1).
    apply bind_ok in E1 as (g & s2 & Eg & E1). apply grant_at_ok in Eg as [-> Hl].
    apply bind_ok in E1 as (w & s2 & Ew & E1).
    assert (s2 = s) as -> by (destruct (dmem (e_handlers e) tc); [apply ret_ok in Ew; intuition congruence|discriminate]).
    apply bind_ok in E1 as (r & s2 & Em & E1). apply bind_ok in E1 as ([] & s3 & Ex & E1).
    apply bind_ok in E1 as ([] & s4 & Ed & E1). apply ret_ok in E1 as [-> <-].
    destruct (mint_text e now a0 W c0 l sid tc (Some b) (dget (g_rules g) tc) scope ttype no_args u ar ae gid s i s2)
      as (g2 & t2 & H2 & N2 & T2 & Ty); auto; try discriminate; [left; reflexivity|].
    assert (exists g3 t3, hp s3 l = Some (OGrant g3) /\ nth_error (g_tokens g3) i = Some t3 /\ t_value t3 = t_value t2
              /\ t_type t3 = t_type t2)
      as (g3 & t3 & H3 & N3 & V3 & Y3).
    { destruct (ep_lifetime _) as [x|].
      2: { apply ret_ok in Ex as [_ <-]. exists g2, t2. auto. }
      apply bind_ok in Ex as (j & s5 & Ej & Ex). apply ret_ok in Ej as [<- <-].
      unfold upd_tok, upd_obj in Ex. inversion Ex; subst s3; clear Ex.
      eexists _, (tok_set_exp (now + x) t2).
      split; [unfold hp; cbn [s_heap]; rewrite nth_upd_nth_same; fold (hp s2 l); rewrite H2; reflexivity|].
      split; [cbn; rewrite nth_upd_nth_same, N2; reflexivity|split; reflexivity]. }
    pose proof (gsame_db_set _ _ _ _ _ Ed _ _ H3) as H4. rewrite H1 in H4. injection H4 as ->.
    assert (t = t3) as -> by congruence. split; [now rewrite V3|]. now rewrite Y3.
  Qed.

  (** A token made from the token [t0] at [(l, i)]. *)
  Definition kid (l i : nat) (t0 : token) (tc : string) (scope : option (list string)) (ttype u : string) (ar : areq) (ae : aevent)
      (t : token) (s : st) : Prop :=
    written u ar ae tc ttype t
    /\ exists b, token_later t0 b /\ has l i b s /\ fresh_tok e now l tc (Some b) scope t s.
  Lemma st_kid l i t0 tc scope ttype u ar ae t : Stable now (kid l i t0 tc scope ttype u ar ae t).
  Proof.
    intros s s' L (A & b & B & C & D). split; auto. exists b. split; auto. split; [eapply (st_has now); eauto|].
    eapply st_fresh; eauto.
  Qed.
  Lemma mint_kid l sid i t0 b tc scope ttype u ar ae gid :
    token_later t0 b -> (t_class t0 = CODE \/ t_class t0 = REFRESH) -> tc <> CODE ->
    dec_sid3 e sid = Ok (u, ar_client_id ar, gid) -> ar_client_id ar <> "" ->
    spec2 e now (kept_ids a0) (fun s => (has l i b s /\ fits e sid l s /\ (forall sc, scope = Some sc -> within e l sc s))
                         /\ for_req ar ae gid s /\ since c0 s)
      (mint_value e now l sid tc (Some b) scope ttype) (kid l i t0 tc scope ttype u ar ae).
  Proof.
    intros L C Ncd D Nc.
    eapply spec2_pure with (phi := forall sc, scope = Some sc -> forall x, In x sc -> may_have e ar x).
    { intros s I ((_ & (u1 & c1 & g1 & D1 & gr & H1 & I1 & _) & S) & (l2 & g2 & H2 & I2 & Ga & _) & _) sc Es x Ix.
      rewrite D in D1. injection D1 as <- <- <-.
      assert (l2 = l) as -> by (eapply (inv_uniq _ _ I); eauto; congruence). rewrite H1 in H2. injection H2 as <-.
      destruct (S sc Es) as (g3 & H3 & Inc). rewrite H1 in H3. injection H3 as <-. eapply scope_may_have; eauto. }
    intros Hs.
    eapply spec2_post with (Q' := fun t s => written u ar ae tc ttype t /\ fresh_tok e now l tc (Some b) scope t s /\ has l i b s).
    { intros t s _ (A & F & H). split; auto. exists b. auto. }
    eapply spec2_pre with (P' := fun s => (mint_pre e l sid tc (Some b) scope s /\ for_req ar ae gid s /\ since c0 s) /\ has l i b s).
    { intros s I ((H & Fs & S) & Fr). split; auto. split; auto. apply (place_pre e) with i; auto. destruct L as (-> & _). exact C. }
    apply spec2_with.
    - eapply spec2_pre; [|apply mint_value_written; eauto]. intros s _ [H _]. exact H.
    - apply spec_frame; [apply st_has|].
      eapply spec_pre; [|apply mint_value_spec; auto]. intros s _ [H _]. exact H.
  Qed.

  (** A refresh token that takes the place of another is a new text. *)
  Lemma rotated_new l sid b sc :
    spec2 e now (kept_ids a0) (fun s => mint_pre e l sid REFRESH (Some b) (Some sc) s /\ since c0 s)
      (mint_rotated e now l sid b sc) (fun t _ => newv e c0 (t_value t)).
  Proof.
    intros s r s' Iv Ki (Mp & Sn) E.
    destruct (mint_rotated_spec e now W l sid b sc s r s' Iv Mp E) as (I' & L & _). split; auto. split.
    { refine (holds_rotated e now (kept_ids a0) (ids_always a0) l (mint_pre e l sid REFRESH (Some b) (Some sc)) sid b sc _ s r s' Iv Ki Mp E).
      intros s0 ((g0 & H0 & _) & _). eauto. }
    split; auto.
    intros t ->. unfold mint_rotated, ep_mint in E.
    apply bind_ok in E as (r & s1 & E1 & E). apply bind_ok in E as (i & s2 & En & E).
    assert (s2 = s1 /\ r = Some i) as [-> ->].
    { destruct r as [j|]; [|discriminate]. apply ret_ok in En as [<- <-]. auto. }
    apply bind_ok in E as ([] & s2 & Eu & E).
    apply tok_at_ok in E as (-> & g1 & H1 & N1).
    apply bind_ok in E1 as (g & s5 & Eg & E1). apply grant_at_ok in Eg as [-> Hl].
    apply bind_ok in E1 as (w & s5 & Ew & E1).
    assert (s5 = s) as -> by (destruct (dmem (e_handlers e) REFRESH); [apply ret_ok in Ew; intuition congruence|discriminate]).
    apply bind_ok in E1 as (r & s5 & Em & E1). apply bind_ok in E1 as ([] & s3 & Ex & E1).
    apply bind_ok in E1 as ([] & s4 & Ed & E1). apply ret_ok in E1 as [-> <-].
    destruct (mint_run _ _ _ _ _ _ _ _ _ _ _ _ _ Em) as [(_ & X)|(g2 & t2 & n & H2 & Ei & Hh & _ & Ln & _ & Md & _)]; [now destruct (X i)|].
    rewrite Hl in H2. injection H2 as <-. injection Ei as ->.
    assert (newv e c0 (t_value t2)) as Nv by (exists n; unfold since in Sn; split; [lia|exact Md]).
    set (i := List.length (g_tokens g)) in *.
    assert (exists g2, hp s5 l = Some (OGrant g2) /\ nth_error (g_tokens g2) i = Some t2) as (g2 & H2 & N2).
    { eexists. split; [unfold hp; rewrite Hh, nth_upd_nth_same; fold (hp s l); rewrite Hl; reflexivity|].
      cbn. unfold i. rewrite nth_error_app2, Nat.sub_diag by lia. reflexivity. }
    assert (exists g3 t3, hp s3 l = Some (OGrant g3) /\ nth_error (g_tokens g3) i = Some t3 /\ t_value t3 = t_value t2)
      as (g3 & t3 & H3 & N3 & V3).
    { destruct (ep_lifetime _) as [x|].
      2: { apply ret_ok in Ex as [_ <-]. exists g2, t2. auto. }
      apply bind_ok in Ex as (j & s6 & Ej & Ex). apply ret_ok in Ej as [<- <-].
      unfold upd_tok, upd_obj in Ex. inversion Ex; subst s3; clear Ex.
      eexists _, (tok_set_exp (now + x) t2).
      split; [unfold hp; cbn [s_heap]; rewrite nth_upd_nth_same; fold (hp s5 l); rewrite H2; reflexivity|].
      split; [cbn; rewrite nth_upd_nth_same, N2; reflexivity|reflexivity]. }
    pose proof (gsame_db_set _ _ _ _ _ Ed _ _ H3) as H4.
    unfold upd_tok, upd_obj in Eu. inversion Eu; subst s2; clear Eu.
    unfold hp in H1. cbn [s_heap] in H1. rewrite nth_upd_nth_same in H1. fold (hp s4 l) in H1. rewrite H4 in H1.
    cbn in H1. injection H1 as <-. cbn in N1. rewrite nth_upd_nth_same, N3 in N1. cbn in N1. injection N1 as <-.
    cbn. now rewrite V3.
  Qed.

  (** The texts of an answer. *)
  Definition carries (l i : nat) (t0 : token) (sc : option (list string)) (u : string) (ar : areq) (ae : aevent)
      (a : tresp) (s : st) : Prop :=
    (forall v, rs_access a = Some v -> exists ttype t, kid l i t0 ACCESS sc ttype u ar ae t s /\ v = t_value t
       /\ rs_expires a = expires_in now t /\ same_type (rs_type a) (type_of ACCESS ttype))
    /\ (forall v, rs_id a = Some v -> exists t, kid l i t0 IDTOKEN sc "" u ar ae t s /\ v = t_value t)
    /\ (forall v, rs_refresh a = Some v -> newv e c0 v).
  Lemma st_carries l i t0 sc u ar ae a : Stable now (carries l i t0 sc u ar ae a).
  Proof.
    intros s s' L (A & B & R). split; [|split; [|exact R]].
    - intros v V. destruct (A v V) as (ty & t & K & X). exists ty, t. split; auto. eapply st_kid; eauto.
    - intros v V. destruct (B v V) as (t & K & X). exists t. split; auto. eapply st_kid; eauto.
  Qed.
  (** The grant at [l] is one for the request [ar] of a client with a name. *)
  Definition asked (l : nat) (u : string) (ar : areq) (ae : aevent) (s : st) : Prop :=
    ar_client_id ar <> "" /\ since c0 s /\ (exists gid, owns e s l u (ar_client_id ar) gid)
    /\ exists g, hp s l = Some (OGrant g) /\ g_areq g = Some ar /\ g_aevent g = Some ae.
  Lemma st_asked l u ar ae : Stable now (asked l u ar ae).
  Proof.
    intros s s' L (A & Sn & (gid & B) & g & H & C & Ca). split; auto.
    split; [unfold since in *; destruct L; lia|]. split; [exists gid; eapply owns_later; eauto|].
    destruct (st_later_grant _ _ _ _ _ L H) as (g' & H' & K). exists g'. split; auto. destruct K as (_ & K & Ka & _). split; congruence.
  Qed.
  (** Which session it is. *)
  Lemma asked_sid l u ar ae s u' c gid : asked l u ar ae s -> owns e s l u' c gid ->
    u' = u /\ c = ar_client_id ar /\ for_req ar ae gid s /\ since c0 s.
  Proof.
    intros (_ & Sn & (gid1 & g1 & H1 & I1 & B1) & g & H & C & Ca) (g2 & H2 & I2 & B2).
    rewrite H in H1, H2. injection H1 as <-. injection H2 as <-.
    destruct B1 as (a1 & e1 & A1 & A2 & A3 & A4 & _), B2 as (a2 & e2 & D1 & D2 & D3 & D4 & _).
    split; [congruence|]. split; [congruence|]. split; [exists l, g; auto|exact Sn].
  Qed.

  Lemma catch_kid l i t0 tc scope ttype u ar ae (m : M st token) h (P : st -> Prop) :
    spec2 e now (kept_ids a0) P m (kid l i t0 tc scope ttype u ar ae) ->
    (forall x k, h x = Some k -> k = ret None) ->
    spec2 e now (kept_ids a0) P (catch (a <- m ;; ret (Some a)) h)
      (fun o s => forall t, o = Some t -> kid l i t0 tc scope ttype u ar ae t s).
  Proof.
    intros H K. apply spec2_catch'.
    - eapply spec2_seq; [exact H|]. intros t. apply spec2_ret. intros s C t' X. injection X as <-. exact C.
    - intros x k X. rewrite (K _ _ X). apply spec2_ret. discriminate.
  Qed.
  Lemma st_opt_kid l i t0 tc scope ttype u ar ae o : Stable now (fun s => forall t, o = Some t -> kid l i t0 tc scope ttype u ar ae t s).
  Proof. intros s s' L H t X. eapply st_kid; eauto. Qed.

  Lemma code_process_carries q issue v l0 i0 t0 u ar0 ae :
    tr_code q = Some v -> t_value t0 = v -> t_class t0 = CODE ->
    spec2 e now (kept_ids a0) (fun s => has l0 i0 t0 s /\ asked l0 u ar0 ae s) (code_process e now q issue)
      (fun r s => forall a, r = Good a -> carries l0 i0 t0 None u ar0 ae a s
         /\ exists g, sees now l0 g s /\ rs_scope a = authz_scope e g).
  Proof.
    intros Ev Vv Cv. unfold code_process. rewrite Ev.
    destruct (negb (String.eqb (tr_grant_type q) CODE)); [apply spec2_ret; discriminate|].
    eapply spec2_pure with (phi := replace_char " " "+" v = v).
    { intros s I (H & _). destruct (has_made e _ _ _ _ I H) as (n & M). rewrite <- Vv.
      apply replace_char_id. apply (law_text _ W _ _ M). }
    intros Rc. rewrite Rc. cbv zeta.
    set (P := fun s => has l0 i0 t0 s /\ asked l0 u ar0 ae s).
    assert (Stable now P) as StP by (apply st_and; [apply st_has|apply st_asked]).
    eapply spec2_bind; [exact StP|apply spec2_of; [apply by_token_spec; auto|apply holds_by_token]|]. intros i.
    eapply spec2_pure; [intros s _ (_ & X & _); exact X|]. intros D.
    eapply spec2_rbind with (Q := fun rc _ => True); [destruct (tr_client q); auto using reader_ret, reader_raise|auto|].
    intros rc. destruct (negb (String.eqb (ss_client i) rc)); [apply spec2_ret; discriminate|].
    eapply spec2_rbind with (Q := fun gts _ => True); [apply reader_lift|auto|].
    intros gts.
    set (l := ss_grant i) in *. set (sid := ss_sid i) in *.
    set (P0 := fun s => P s /\ owns e s l (ss_user i) (ss_client i) (ss_gid i)).
    eapply spec2_pre with (P' := P0). { intros s _ (((H & _ & K) & _) & _). split; assumption. }
    assert (Stable now P0) as St0 by (unfold P0; apply st_and; [exact StP|apply st_owns]).
    eapply spec2_rbind with (Q := fun g s => hp s l = Some (OGrant g) /\ (g_tokens g <> [] -> g_scope g = authz_scope e g));
      [apply reader_grant_at| |].
    { intros s g I _ H. apply grant_at_ok in H as [_ H]. split; auto. apply (gi_final _ _ (inv_grants _ _ I _ _ H)). }
    intros g. eapply spec2_pure; [intros s _ (_ & _ & X); exact X|]. intros Fg.
    set (P1 := fun s => P0 s /\ sees now l g s).
    eapply spec2_pre with (P' := P1). { intros s _ (H & K & _). split; auto. now apply sees_here. }
    assert (Stable now P1) as St1 by (unfold P1; apply st_and; [exact St0|apply st_sees]).
    set (dp := if e_oidc e && e_dpop e then _ else _).
    eapply spec2_bind with (Q := fun _ _ => True); [exact St1| |].
    { destruct dp; [|apply spec2_ret; auto].
      apply spec2_of; [apply keeps_spec, keeps_set_extra|apply holds_upd_obj]. }
    intros []. eapply spec2_pre with (P' := P1); [tauto|].
    eapply spec2_rbind with (Q := fun pos _ => find_pos v (g_tokens g) 0 = Some pos); [apply reader_need| |].
    { intros s pos _ _ H. destruct (find_pos v (g_tokens g) 0); [|discriminate]. apply ret_ok in H as [<- _]. auto. }
    intros pos. eapply spec2_pure; [intros s _ (_ & X); exact X|]. intros Fp.
    apply find_pos_ok in Fp as (tv & Np & Vp).
    assert (g_scope g = authz_scope e g) as Sg. { apply Fg. intros Z. rewrite Z in Np. now destruct pos. }
    eapply spec2_pure with (phi := l = l0 /\ pos = i0).
    { intros s I ((((H0 & _) & _) & (g' & Hg & Lg)) & _).
      assert (tokens_later (g_tokens g) (g_tokens g')) as Tl by apply Lg.
      destruct (Tl _ _ Np) as (tv' & Np' & Lt). apply (has_place e s l pos l0 i0 tv' t0 I).
      - eapply has_here; eauto.
      - exact H0.
      - destruct Lt as (_ & Vt & _). congruence. }
    intros (El & Epos). subst pos. clearbody l. subst l.
    eapply spec2_pre with (P' := P1); [tauto|].
    eapply spec2_pure with (phi := ss_user i = u /\ ss_client i = ar_client_id ar0 /\ ar_client_id ar0 <> "").
    { intros s _ (((_ & A) & O) & _). destruct (asked_sid _ _ _ _ _ _ _ _ A O) as (X & Y & _). split; auto. split; auto. apply A. }
    intros (Eu & Ec & Nc). rewrite Eu, Ec in D.
    assert (forall s, P1 s -> for_req ar0 ae (ss_gid i) s /\ since c0 s) as Fr.
    { intros s (((_ & A) & O) & _). destruct (asked_sid _ _ _ _ _ _ _ _ A O) as (_ & _ & X). exact X. }
    eapply spec2_rbind with (Q := fun b s => token_later t0 b /\ has l0 i0 b s); [apply reader_tok_at| |].
    { intros s b _ (((H0 & _) & _) & _) H. eapply has_tok_at; eauto. }
    intros b. eapply spec2_pure; [intros s _ (_ & X & _); exact X|]. intros Lb. cbv zeta.
    set (mints := match r_minting (t_rules b) with Some m => m | None => [] end).
    set (P2 := fun s => P1 s /\ has l0 i0 b s).
    eapply spec2_pre with (P' := P2). { intros s _ (H & _ & K). split; auto. }
    assert (Stable now P2) as St2 by (unfold P2; apply st_and; [exact St1|apply st_has]).
    eapply spec2_rbind with (Q := fun ar _ => True); [destruct (g_areq g); auto using reader_ret, reader_raise|auto|].
    intros ar.
    eapply spec2_rbind with (Q := fun same _ => True); [|auto|].
    { destruct (ar_redirect_uri ar); [|apply reader_ret].
      destruct (tr_redirect q); auto using reader_ret, reader_raise. }
    intros same. destruct same; cbn [negb]; [|apply spec2_ret; discriminate].
    eapply spec2_pre with (P' := P2); [intros s _ ((H & _) & _); exact H|].
    assert (forall s, P2 s -> fits e sid l0 s) as Fs2.
    { intros s (((_ & O) & _) & _). eexists _, _, _. split; [|exact O]. rewrite Eu, Ec. exact D. }
    assert (t_class t0 = CODE \/ t_class t0 = REFRESH) as Cl by auto.
    set (ttype := match dp with Some _ => "DPoP" | None => "Bearer" end).
    (* access token *)
    eapply spec2_bind with (Q := fun o s => forall t, o = Some t ->
       kid l0 i0 t0 ACCESS None (if e_oidc e then ttype else "") u ar0 ae t s); [exact St2| |].
    { destruct (smem ACCESS mints); [|apply spec2_ret; discriminate]. apply catch_kid.
      - eapply spec2_pre; [|eapply mint_kid; eauto; discriminate]. intros s _ H.
        split; [|apply Fr, H]. split; [apply H|]. split; [|discriminate]. apply Fs2. exact H.
      - intros x k X. destruct x; try discriminate X. congruence. }
    intros access.
    set (P3 := fun s => P2 s /\ forall t, access = Some t -> kid l0 i0 t0 ACCESS None (if e_oidc e then ttype else "") u ar0 ae t s).
    assert (Stable now P3) as St3 by (unfold P3; apply st_and; [exact St2|apply st_opt_kid]).
    eapply spec2_pre with (P' := P3); [intros ? _ HH; exact HH|].
    (* refresh token *)
    eapply spec2_bind with (Q := fun o s => forall t, o = Some t -> newv e c0 (t_value t)); [exact St3| |].
    { match goal with |- context[if ?c then _ else _] => destruct c end; [|apply spec2_ret; discriminate].
      eapply spec2_rbind with (Q := fun b' s => token_later t0 b' /\ has l0 i0 b' s); [apply reader_tok_at| |].
      { intros s b' _ (((((H0 & _) & _) & _) & _) & _) H. eapply has_tok_at; eauto. }
      intros b'. eapply spec2_pure; [intros s _ (_ & X & _); exact X|]. intros Lb'.
      apply spec2_catch'.
      - eapply spec2_seq with (Q := fun t _ => newv e c0 (t_value t));
          [|intros ?; apply spec2_ret; intros s H t X; injection X as <-; exact H].
        eapply spec2_post with (Q' := kid l0 i0 t0 REFRESH None "" u ar0 ae); [intros t s _ (((X & _) & _) & _); exact X|].
        eapply spec2_pre; [|eapply mint_kid; eauto; discriminate]. intros s _ (((H2 & K2) & _) & _ & H).
        split; [|apply Fr, H2]. split; [exact H|].
        split; [|discriminate]. apply Fs2. split; [exact H2|exact K2].
      - intros x k X. destruct x; try discriminate X. injection X as <-. apply spec2_ret. discriminate. }
    intros refresh. eapply spec2_pure; [intros s _ (_ & X); exact X|]. intros Nr.
    eapply spec2_pre with (P' := P3); [intros s _ [H _]; exact H|].
    (* storing *)
    eapply spec2_bind with (Q := fun _ _ => True); [exact St3| |].
    { unfold mgr_put. eapply spec2_rbind with (Q := fun p _ => dec_sid e sid = Ok p); [apply reader_lift| |].
      { intros s p _ _ H. apply lift_ok in H. apply H. }
      intros p. eapply spec2_pure; [intros s _ (_ & X); exact X|]. intros Ep.
      pose proof (dec_sid3_ok _ _ _ _ _ D) as Ep'. rewrite Ep in Ep'. injection Ep' as ->.
      eapply spec2_pre; [|apply spec2_of; [apply db_set_spec; [exact W|eapply dec_sid3_separable; eauto]|apply holds_db_set]].
      intros s _ (((((_ & O) & _) & _) & _) & _). split; [|cbn; split; discriminate]. intros u1 c1 g1 r X. injection X; intros; subst; auto. rewrite <- Ec. auto. }
    intros []. eapply spec2_pre with (P' := P3); [intros s _ [H _]; exact H|].
    (* ID token *)
    eapply spec2_bind with (Q := fun o s => forall w, o = Good (Some w) ->
       exists t, kid l0 i0 t0 IDTOKEN None "" u ar0 ae t s /\ w = t_value t); [exact St3| |].
    { destruct (e_oidc e); [|apply spec2_ret; discriminate].
      eapply spec2_rbind with (Q := fun _ _ => True); [|auto|].
      { destruct (ar_scope ar); auto using reader_ret, reader_raise. }
      intros sc. destruct (smem "openid" sc && smem IDTOKEN mints); [|apply spec2_ret; discriminate].
      eapply spec2_rbind with (Q := fun b' s => token_later t0 b' /\ has l0 i0 b' s); [apply reader_tok_at| |].
      { intros s b' _ ((((((H0 & _) & _) & _) & _) & _) & _) H. eapply has_tok_at; eauto. }
      intros b'. eapply spec2_pure; [intros s _ (_ & X & _); exact X|]. intros Lb'.
      eapply spec2_seq with (Q := fun o s => forall t, o = Some t -> kid l0 i0 t0 IDTOKEN None "" u ar0 ae t s).
      { apply catch_kid.
        - eapply spec2_pre; [|eapply mint_kid; eauto; discriminate]. intros s _ (((H2 & _) & _) & _ & H).
          split; [|apply Fr, H2]. split; auto. split; [|discriminate]. apply Fs2. apply H2.
        - intros x k X. destruct x; try discriminate X; congruence. }
      intros [t|]; apply spec2_ret; [|discriminate]. intros s H w X. injection X as <-. eauto. }
    intros [x|idv]; [apply spec2_ret; discriminate|].
    set (P5 := fun s => P3 s /\ forall w, Good idv = Good (Some w) -> exists t, kid l0 i0 t0 IDTOKEN None "" u ar0 ae t s /\ w = t_value t).
    assert (Stable now P5) as St5.
    { unfold P5. apply st_and; [exact St3|]. intros s s' L H w X. destruct (H w X) as (t & K & E).
      exists t. split; auto. eapply st_kid; eauto. }
    eapply spec2_pre with (P' := P5); [intros ? _ HH; exact HH|].
    eapply spec2_bind with (Q := fun _ s => exists t1, token_later t0 t1 /\ has l0 i0 (tok_register t1) s); [exact St5| |].
    { eapply spec2_pre; [|apply spec2_of; [apply upd_tok_at; apply token_later_register|apply holds_upd_tok]]. intros s _ H. apply H. }
    intros []. apply spec2_ret. intros s (((H2 & Hac) & Hid) & _) a X. injection X as <-.
    split; [|exists g; split; [apply H2|exact Sg]]. split; [|split]; cbn.
    - intros w X. destruct access as [t|]; [|discriminate]. cbn in X. injection X as <-. eexists _, t.
      split; [apply Hac; reflexivity|]. split; auto. split; auto.
      unfold same_type, type_of. cbn. destruct (e_oidc e); [left|].
      + unfold ttype. now destruct dp.
      + right. unfold ttype, dp. auto.
    - intros w X. subst idv. auto.
    - intros w X. destruct refresh as [t|]; [|discriminate]. injection X as <-. auto.
  Qed.

  Lemma refresh_process_carries q issue v l0 i0 t0 u ar0 ae :
    tr_refresh q = Some v -> t_value t0 = v -> t_class t0 = REFRESH ->
    spec2 e now (kept_ids a0) (fun s => (has l0 i0 t0 s /\ forall sc, tr_scope q = Some sc -> within e l0 sc s) /\ asked l0 u ar0 ae s)
      (refresh_process e now q issue)
      (fun r s => forall a, r = Good a -> carries l0 i0 t0 (Some (rs_scope a)) u ar0 ae a s).
  Proof.
    intros Ev Vv Cv. unfold refresh_process. rewrite Ev.
    destruct (negb (String.eqb (tr_grant_type q) REFRESH)); [apply spec2_ret; discriminate|].
    set (P := fun s => (has l0 i0 t0 s /\ forall sc, tr_scope q = Some sc -> within e l0 sc s) /\ asked l0 u ar0 ae s).
    assert (Stable now P) as StP.
    { apply st_and; [|apply st_asked].
      intros s s' L (H & K). split; [eapply (st_has now); eauto|]. intros sc E. eapply st_within; eauto. }
    eapply spec2_rbind with (Q := fun w _ => w = v); [apply reader_ret| |].
    { intros s w _ _ H. apply ret_ok in H as [<- _]. auto. }
    intros w. eapply spec2_pure; [intros s _ (_ & X); exact X|]. intros ->.
    eapply spec2_pre with (P' := P); [tauto|].
    eapply spec2_bind; [exact StP|apply spec2_of; [apply by_token_spec; auto|apply holds_by_token]|]. intros i.
    eapply spec2_pure; [intros s _ (_ & X & _); exact X|]. intros D.
    eapply spec2_rbind with (Q := fun rc _ => True); [destruct (tr_client q); auto using reader_ret, reader_raise|auto|].
    intros rc. destruct (negb (String.eqb (ss_client i) rc)); [apply spec2_ret; discriminate|]. cbv zeta.
    set (l := ss_grant i) in *. set (sid := ss_sid i) in *.
    set (P0 := fun s => P s /\ owns e s l (ss_user i) (ss_client i) (ss_gid i)).
    eapply spec2_pre with (P' := P0). { intros s _ ((H & _ & K) & _). split; assumption. }
    assert (Stable now P0) as St0 by (unfold P0; apply st_and; [exact StP|apply st_owns]).
    eapply spec2_rbind with (Q := fun g s => hp s l = Some (OGrant g) /\
       forall t sc, In t (g_tokens g) -> parent_scope e g t = Ok sc -> within e l sc s); [apply reader_grant_at| |].
    { intros s g I _ H. apply grant_at_ok in H as [_ H]. split; auto. intros t sc It Ps.
      eapply within_scope; eauto; [eapply parent_scope_incl; eauto|]. intros Z. rewrite Z in It. destruct It. }
    intros g.
    set (P1 := fun s => P0 s /\ sees now l g s
                 /\ forall t sc, In t (g_tokens g) -> parent_scope e g t = Ok sc -> within e l sc s).
    eapply spec2_pre with (P' := P1). { intros s _ (H & K & K2). split; auto. split; auto. now apply sees_here. }
    assert (Stable now P1) as St1.
    { unfold P1. apply st_and; [exact St0|]. apply st_and; [apply st_sees|].
      intros s s' L H t sc A B. eapply st_within; eauto. }
    set (dp := if e_dpop_info e then _ else _).
    eapply spec2_bind with (Q := fun _ _ => True); [exact St1| |].
    { destruct dp; [|apply spec2_ret; auto].
      apply spec2_of; [apply keeps_spec, keeps_set_extra|apply holds_upd_obj]. }
    intros []. eapply spec2_pre with (P' := P1); [tauto|].
    eapply spec2_rbind with (Q := fun pos _ => find_pos v (g_tokens g) 0 = Some pos); [apply reader_need| |].
    { intros s pos _ _ H. destruct (find_pos v (g_tokens g) 0); [|discriminate]. apply ret_ok in H as [<- _]. auto. }
    intros pos. eapply spec2_pure; [intros s _ (_ & X); exact X|]. intros Fp.
    apply find_pos_ok in Fp as (tv & Np & Vp).
    eapply spec2_pure with (phi := l = l0 /\ pos = i0).
    { intros s I (((((H0 & _) & _) & _) & (g' & Hg & Lg) & _) & _).
      assert (tokens_later (g_tokens g) (g_tokens g')) as Tl by apply Lg.
      destruct (Tl _ _ Np) as (tv' & Np' & Lt). apply (has_place e s l pos l0 i0 tv' t0 I).
      - eapply has_here; eauto.
      - exact H0.
      - destruct Lt as (_ & Vt & _). congruence. }
    intros (El & Epos). subst pos. clearbody l. subst l.
    eapply spec2_pre with (P' := P1); [tauto|].
    eapply spec2_pure with (phi := ss_user i = u /\ ss_client i = ar_client_id ar0 /\ ar_client_id ar0 <> "").
    { intros s _ (((_ & A) & O) & _). destruct (asked_sid _ _ _ _ _ _ _ _ A O) as (X & Y & _). split; auto. split; auto. apply A. }
    intros (Eu & Ec & Nc). rewrite Eu, Ec in D.
    assert (forall s, P1 s -> for_req ar0 ae (ss_gid i) s /\ since c0 s) as Fr.
    { intros s (((_ & A) & O) & _). destruct (asked_sid _ _ _ _ _ _ _ _ A O) as (_ & _ & X). exact X. }
    eapply spec2_rbind with (Q := fun b s => (token_later t0 b /\ has l0 i0 b s)
       /\ forall sc, parent_scope e g b = Ok sc -> within e l0 sc s); [apply reader_tok_at| |].
    { intros s b I ((((H0 & _) & _) & _) & (g' & Hg & Lg) & Wi) H. split; [eapply has_tok_at; eauto|].
      intros sc Ps. apply tok_at_ok in H as (_ & g2 & Hg2 & Nb). rewrite Hg in Hg2. injection Hg2 as <-.
      assert (tokens_later (g_tokens g) (g_tokens g')) as Tl by apply Lg.
      destruct (Tl _ _ Np) as (tb & Nb' & Lt). rewrite Nb in Nb'. injection Nb' as <-.
      apply Wi with tv; [eapply nth_error_In; eauto|]. unfold parent_scope in *.
      destruct Lt as (_ & _ & Ba & _). now rewrite Ba in Ps. }
    intros b. eapply spec2_pure; [intros s _ (_ & (X & _) & _); exact X|]. intros Lb.
    set (P2 := fun s => P1 s /\ has l0 i0 b s).
    assert (Stable now P2) as St2 by (unfold P2; apply st_and; [exact St1|apply st_has]).
    eapply spec2_rbind with (Q := fun psc s => within e l0 psc s); [apply reader_lift| |].
    { intros s psc _ (_ & _ & K) H. apply lift_ok in H as [H _]. auto. }
    intros psc. set (scope := match tr_scope q with Some s => s | None => psc end).
    set (P3 := fun s => P2 s /\ within e l0 scope s).
    assert (Stable now P3) as St3 by (unfold P3; apply st_and; [exact St2|apply st_within]).
    eapply spec2_pre with (P' := P3).
    { intros s _ ((H & (_ & Hb) & _) & Wp). split; [split; auto|]. unfold scope.
      destruct (tr_scope q) as [sc|] eqn:Es; auto. destruct H as ((((_ & K) & _) & _) & _). auto. }
    assert (forall s, P3 s -> fits e sid l0 s) as Fs3.
    { intros s ((((_ & O) & _) & _) & _). eexists _, _, _. split; [|exact O]. rewrite Eu, Ec. exact D. }
    assert (t_class t0 = CODE \/ t_class t0 = REFRESH) as Cl by auto.
    set (ttype := match dp with Some _ => "DPoP" | None => "Bearer" end).
    eapply spec2_bind with (Q := kid l0 i0 t0 ACCESS (Some scope) ttype u ar0 ae); [exact St3| |].
    { eapply spec2_pre; [|eapply mint_kid; eauto; discriminate]. intros s _ H3. split; [|apply Fr, H3]. split; [apply H3|].
      split; [apply Fs3; exact H3|]. intros sc X. injection X as <-. apply H3. }
    intros access. set (P4 := fun s => P3 s /\ kid l0 i0 t0 ACCESS (Some scope) ttype u ar0 ae access s).
    assert (Stable now P4) as St4 by (unfold P4; apply st_and; [exact St3|apply st_kid]).
    eapply spec2_pre with (P' := P4); [intros ? _ HH; exact HH|].
    eapply spec2_rbind with (Q := fun _ _ => True); [|auto|].
    { destruct (r_minting (t_rules b)); auto using reader_ret, reader_raise. }
    intros mints. eapply spec2_pre with (P' := P4); [tauto|].
    assert (forall s, P4 s -> has l0 i0 t0 s) as Hb4.
    { intros s H. destruct H as (((((((H & _) & _) & _) & _) & _) & _) & _). exact H. }
    assert (forall s, P4 s -> within e l0 scope s) as Hw4.
    { intros s H. destruct H as ((_ & H) & _). exact H. }
    eapply spec2_bind with (Q := fun o s => forall w, o = Some w -> newv e c0 w); [exact St4| |].
    { match goal with |- context[if ?c then _ else _] => destruct c end; [|apply spec2_ret; discriminate].
      eapply spec2_rbind with (Q := fun b' s => token_later t0 b' /\ has l0 i0 b' s); [apply reader_tok_at| |].
      { intros s b' _ H4 H. eapply has_tok_at; eauto. }
      intros b'. eapply spec2_pure; [intros s _ (_ & X & _); exact X|]. intros Lb'.
      eapply spec2_seq; [eapply spec2_pre; [|apply rotated_new]|].
      - intros s I (H4 & _ & H). split; [|apply Fr, H4]. apply (place_pre e) with i0; [exact I|exact H|apply Fs3, H4| | |].
        + destruct Lb' as (-> & _). exact Cl.
        + discriminate.
        + intros sc X _. injection X as <-. apply Hw4, H4.
      - intros t. apply spec2_ret. intros s H w X. injection X as <-. exact H. }
    intros refresh. eapply spec2_pure; [intros s _ (_ & X); exact X|]. intros Nr. eapply spec2_pre with (P' := P4); [intros s _ [H _]; exact H|].
    eapply spec2_bind with (Q := fun o s => forall w, o = Good (Some w) ->
       exists t, kid l0 i0 t0 IDTOKEN (Some scope) "" u ar0 ae t s /\ w = t_value t); [exact St4| |].
    { destruct (e_oidc e && smem IDTOKEN mints && smem "openid" scope); [|apply spec2_ret; discriminate].
      eapply spec2_rbind with (Q := fun b' s => token_later t0 b' /\ has l0 i0 b' s); [apply reader_tok_at| |].
      { intros s b' _ H4 H. eapply has_tok_at; eauto. }
      intros b'. eapply spec2_pure; [intros s _ (_ & X & _); exact X|]. intros Lb'.
      eapply spec2_seq with (Q := fun o s => forall t, o = Some t -> kid l0 i0 t0 IDTOKEN (Some scope) "" u ar0 ae t s).
      { apply catch_kid.
        - eapply spec2_pre; [|eapply mint_kid; eauto; discriminate]. intros s _ (H5 & _ & H). split; [|apply Fr, H5]. split; auto.
          split; [apply Fs3; apply H5|]. intros sc X. injection X as <-. apply Hw4, H5.
        - intros x k X. destruct x; try discriminate X; congruence. }
      intros [t|]; apply spec2_ret; [|discriminate]. intros s H w X. injection X as <-. eauto. }
    intros [x|idv]; [apply spec2_ret; discriminate|].
    set (P6 := fun s => P4 s /\ forall w, Good idv = Good (Some w) ->
                 exists t, kid l0 i0 t0 IDTOKEN (Some scope) "" u ar0 ae t s /\ w = t_value t).
    assert (Stable now P6) as St6.
    { unfold P6. apply st_and; [exact St4|]. intros s s' L H w X. destruct (H w X) as (t & K & E).
      exists t. split; auto. eapply st_kid; eauto. }
    eapply spec2_pre with (P' := P6); [intros ? _ HH; exact HH|].
    eapply spec2_bind with (Q := fun _ s => exists t1, token_later t0 t1 /\ has l0 i0 (tok_register t1) s); [exact St6| |].
    { eapply spec2_pre; [|apply spec2_of; [apply upd_tok_at; apply token_later_register|apply holds_upd_tok]]. intros s _ (H & _). auto. }
    intros []. eapply spec2_pre with (P' := P6); [intros s _ [H _]; exact H|].
    eapply spec2_bind with (Q := fun _ s => True); [exact St6| |].
    { destruct (revoke_refresh e rc); [|apply spec2_ret; auto].
      eapply spec2_post; [|eapply spec2_pre; [|apply spec2_of; [apply upd_tok_at with (t := t0); apply token_later_revoke|apply holds_upd_tok]]].
      - auto.
      - intros s _ (H & _). auto. }
    intros []. apply spec2_ret. intros s (((H3 & Hac) & Hid) & _) a X. injection X as <-. cbn [rs_scope].
    split; [|split]; cbn.
    - intros w X. injection X as <-. exists ttype, access. split; auto. split; auto. split; auto.
      left. destruct (e_oidc e); [|apply Hac]. unfold type_of. cbn. unfold ttype. now destruct dp.
    - intros w X. subst idv. auto.
    - exact Nr.
  Qed.

  (** ** The endpoint *)
  Lemma token_process_carries q issue l i t u ar ae :
    (tr_grant_type q = CODE /\ tr_code q = Some (t_value t) /\ t_class t = CODE)
    \/ (tr_grant_type q = REFRESH /\ tr_refresh q = Some (t_value t) /\ t_class t = REFRESH) ->
    spec2 e now (kept_ids a0) (fun s => (has l i t s /\ (tr_grant_type q = REFRESH -> forall sc, tr_scope q = Some sc -> within e l sc s)) /\ asked l u ar ae s)
      (token_process e now q issue)
      (fun r s => forall a, r = Good a -> exists sc, carries l i t sc u ar ae a s
         /\ (tr_grant_type q = REFRESH -> sc = Some (rs_scope a))
         /\ (tr_grant_type q = CODE -> sc = None /\ exists g, sees now l g s /\ rs_scope a = authz_scope e g)).
  Proof.
    intros Hq. unfold token_process.
    eapply spec2_seq with (Q := fun r s => forall a, r = Good a -> exists sc, carries l i t sc u ar ae a s
         /\ (tr_grant_type q = REFRESH -> sc = Some (rs_scope a))
         /\ (tr_grant_type q = CODE -> sc = None /\ exists g, sees now l g s /\ rs_scope a = authz_scope e g)).
    { destruct (negb _); [apply spec2_ret; discriminate|]. apply spec2_catch'.
      - destruct Hq as [(Eg & Ev & Cv)|(Eg & Ev & Cv)]; rewrite Eg.
        + rewrite String.eqb_refl. eapply spec2_post; [|eapply spec2_pre; [|eapply (code_process_carries q issue _ l i t u ar ae); eauto]].
          * intros r s _ H a X. destruct (H a X). exists None. split; auto. split; [intros Z; exfalso; revert Z; rewrite ?Eg; discriminate|auto].
          * intros s _ ((H & _) & A). split; [exact H|exact A].
        + change (String.eqb REFRESH CODE) with false. rewrite String.eqb_refl.
          eapply spec2_post; [|eapply spec2_pre; [|eapply (refresh_process_carries q issue _ l i t u ar ae); eauto]].
          * intros r s _ H a X. exists (Some (rs_scope a)). split; [eapply H; eauto|]. split; [auto|intros Z; exfalso; revert Z; rewrite ?Eg; discriminate].
          * intros s _ ((H & Wi) & A). split; [split; [exact H|apply Wi; exact eq_refl]|exact A].
      - intros x k X. assert (k = ret (Err "invalid_request")) as -> by (destruct x; congruence).
        apply spec2_ret. discriminate. }
    intros [x|a]; [apply spec2_ret; discriminate|].
    set (P := fun s => exists sc, carries l i t sc u ar ae a s /\ (tr_grant_type q = REFRESH -> sc = Some (rs_scope a))
         /\ (tr_grant_type q = CODE -> sc = None /\ exists g, sees now l g s /\ rs_scope a = authz_scope e g)).
    assert (Stable now P) as St.
    { intros s s' L (sc & C & X & Y). exists sc. split; [eapply st_carries; eauto|]. split; auto.
      intros G. destruct (Y G) as (En & g & Sg & E). split; auto. exists g. split; auto. eapply st_sees; eauto. }
    eapply spec2_pre with (P' := P); [intros s _ H; exact (H a eq_refl)|].
    eapply spec2_rbind with (Q := fun _ _ => True); [|auto|].
    { destruct (rs_access a); auto using reader_ret, reader_raise. }
    intros w. eapply spec2_pre with (P' := P); [tauto|].
    eapply spec2_bind with (Q := fun _ _ => True); [exact St|apply spec2_of; [apply spec_quiet, quiet_by_token|apply holds_by_token]|]. intros j.
    eapply spec2_rbind with (Q := fun _ _ => True); [apply reader_grant_at|auto|]. intros ?.
    apply spec2_ret. intros s ((H & _) & _) a' X. injection X as <-. exact H.
  Qed.
End Specs.

(** ** In a history *)
Section Steps.
  Variable e : env.
  Hypothesis W : laws e.

  Lemma kid_token now a0 c0 l i t0 tc sc ty u ar ae t s g : Inv e s -> hp s l = Some (OGrant g) ->
    kid e now a0 c0 l i t0 tc sc ty u ar ae t s ->
    exists t', In t' (g_tokens g) /\ token_later t t' /\ t_class t' = tc /\ t_based t' = Some (t_value t0)
      /\ t_issued t' = now /\ (forall x, sc = Some x -> t_scope t' = x)
      /\ (sc = None -> t_class t0 = CODE -> tc <> IDTOKEN -> t_scope t' = g_scope g).
  Proof.
    intros I Hg (_ & b & Lb & (g3 & u3 & H3 & N3 & L3) & j & g0 & t1 & (g1 & u1 & H1 & N1 & L1) & (g2 & u2 & H2 & N2 & L2) & Tl & _ & _ & Mf).
    rewrite Hg in H1, H2, H3. injection H1 as <-. injection H2 as <-. injection H3 as <-.
    rewrite N1 in N2. injection N2 as <-.
    exists u1. split; [eapply nth_error_In; eauto|]. split; [exact L2|].
    destruct Mf as (_ & Mc & _ & Mb & _ & _ & _ & _ & Mi & _ & _ & _ & Ms).
    destruct L1 as (C1 & _ & B1 & _ & I1 & _ & _ & _ & S1 & _), Lb as (Cb & Vb & _).
    split; [congruence|]. split; [rewrite B1, Mb; cbn; congruence|]. split; [congruence|].
    split; [intros x ->; congruence|]. intros -> Ct0 Nid.
    pose proof (gi_tok _ _ (inv_grants _ _ I _ _ Hg)) as Gt.
    destruct L3 as (C3 & _ & _ & _ & _ & _ & _ & _ & S3 & _).
    assert (t_scope b = g_scope g) as Sb.
    { rewrite <- S3. apply (to_full _ _ (Gt u3 (nth_error_In _ _ N3))). congruence. }
    assert (incl (t_scope u1) (g_scope g)) as Si.
    { apply (to_scope _ _ (Gt u1 (nth_error_In _ _ N1))). congruence. }
    destruct (e_limit e) as [|lim]; [discriminate|]. cbn [find_scope] in Ms. rewrite Sb in Ms.
    destruct (g_scope g) as [|x y]; cbn [list_true] in Ms.
    - destruct (t_scope u1) as [|z r]; auto. destruct (Si z). left. reflexivity.
    - injection Ms as Ms. congruence.
  Qed.

  Lemma token_says a0 ops evs h now k issue q a h' :
    history e ops evs h -> kept_ids a0 (s_always (h_st h)) -> step e h (OProcess now k issue) = (EvToken q (Ok (Good a)), h') ->
    exists gid g u ar p ae, grant_of h' gid g /\ token_answer e now q g u ar p a /\ g_aevent g = Some ae
      /\ signed_as_due e a0 now u ar ae "" (rs_id a) (rs_access a)
      /\ (exists g0, grant_of h gid g0 /\ grant_live g0 now)
      /\ (forall v, rs_access a = Some v \/ rs_refresh a = Some v \/ rs_id a = Some v -> ~ known h v).
  Proof.
    intros Hh Ki Es.
    assert (history e (ops ++ [OProcess now k issue]) (evs ++ [EvToken q (Ok (Good a))]) h') as Hh'.
    { destruct Hh as (Po & al & E). split; [apply Forall_app; split; auto; constructor; [exact Logic.I|constructor]|].
      exists al. rewrite exec_app, E. cbn [exec]. now rewrite Es. }
    pose proof (history_hi e W _ _ _ Hh) as Hi. pose proof (history_hi e W _ _ _ Hh') as Hi'.
    assert (nth_error (evs ++ [EvToken q (Ok (Good a))]) (List.length evs) = Some (EvToken q (Ok (Good a)))) as Na.
    { rewrite nth_error_app2, Nat.sub_diag by lia. reflexivity. }
    destruct (answer_owner e W _ _ _ _ _ _ Hh' Na) as (gid0 & g0 & u0 & c0 & p0 & pc0 & G0 & B0 & C0 & Pr0 & In0 & Dr0 & (va & Ha)).
    pose proof Es as Es2. apply token_step in Es2 as (now' & k' & issue' & s' & Eo & Nq & Ep & ->).
    injection Eo as <- <- <-.
    pose proof (proj1 (Forall_forall _ _) (hi_parsed _ _ Hi) q (nth_error_In _ _ Nq)) as (Pc & Pr).
    assert (exists l i t, has l i t (h_st h)
       /\ (tr_grant_type q = REFRESH -> forall sc, tr_scope q = Some sc -> within e l sc (h_st h))
       /\ ((tr_grant_type q = CODE /\ tr_code q = Some (t_value t) /\ t_class t = CODE)
           \/ (tr_grant_type q = REFRESH /\ tr_refresh q = Some (t_value t) /\ t_class t = REFRESH)))
      as (l & i & t & Ht & Wi & Hq).
    { destruct (token_process_type e now q issue _ _ _ Ep) as [G|G].
      - destruct (Pc G) as (v & l & m & t & Ev & Ht & Vt & Ct). subst v. exists l, m, t. split; auto.
        split; [rewrite G; discriminate|]. left. auto.
      - destruct (Pr G) as (v & l & m & t & Ev & Ht & Vt & Ct & Wi). subst v. exists l, m, t. split; auto. }
    pose proof (hi_inv _ _ Hi) as I. pose proof (hi_inv _ _ Hi') as I'. cbn [h_st] in *.
    assert (st_later now (h_st h) s') as L.
    { assert (proper e (OProcess now k issue)) as Pp by exact Logic.I.
      destruct (step_keeps e W _ _ _ _ Hi Pp Es) as (_ & Lt & _). exact Lt. }
    (* the grant *)
    assert (presents q (t_value t) (t_class t)) as Prt by (destruct Hq as [(A & B & ->)|(A & B & ->)]; [left|right]; auto).
    destruct (presents_fun _ _ _ _ _ Prt Pr0) as [Ep0 Ec0]. subst p0 pc0.
    destruct G0 as (l0 & Hg0 & Id0). cbn [h_st] in Hg0. change (hp s' l0 = Some (OGrant g0)) in Hg0.
    assert (l0 = l) as ->.
    { destruct In0 as (t1 & T1 & V1 & _). apply In_nth_error in T1 as (j & N1).
      assert (has l i t s') as (g1 & u1 & H1 & N2 & L2) by (eapply (st_has now); eauto).
      assert (t_value t1 = t_value u1) as Et by (destruct L2 as (_ & X & _); congruence).
      destruct (inv_vals _ _ I' l0 l _ _ _ _ _ _ Hg0 H1 N1 N2 Et) as [X _]. exact X. }
    destruct B0 as (ar & ae & Ga & Ec & Gu & Eu & Sb). subst c0 u0.
    set (u := ae_uid ae) in *.
    assert (belongs e g0 u (ar_client_id ar)) as B0 by (exists ar, ae; auto).
    assert (ar_client_id ar <> "") as Nc.
    { destruct Hh' as (Po & al & E). destruct (grant_from e W _ _ _ _ _ _ (hi_init e al) Po E Hg0) as [(g1 & H1 & _)|(j & o & No & ar' & Ea & Au)].
      - cbn in H1. exfalso. unfold hp in H1. cbn in H1. now destruct l.
      - assert (ar' = ar) as -> by congruence.
        pose proof (proj1 (Forall_forall _ _) Po o (nth_error_In _ _ No)) as Pp.
        destruct o; cbn in Au; try contradiction; subst; apply Pp. }
    (* before the call *)
    destruct Ht as (gh & th & Hgh & Nh & Lh).
    assert (asked e (s_ctr (h_st h)) l u ar ae (h_st h)) as As.
    { destruct (st_later_grant _ _ _ _ _ L Hgh) as (g1 & H1 & K). rewrite Hg0 in H1. injection H1 as <-.
      destruct K as (K1 & K2 & K3 & K4 & _). split; auto. split; [unfold since; lia|]. split.
      - exists (g_id gh), gh. split; auto. split; auto. exists ar, ae. rewrite <- K2, <- K3, <- K4. auto.
      - exists gh. split; auto. split; congruence. }
    assert (has l i t (h_st h)) as Ht by (exists gh, th; auto).
    destruct (token_process_carries e now a0 (s_ctr (h_st h)) W q issue l i t u ar ae Hq _ _ _ I Ki (conj (conj Ht Wi) As) Ep) as (_ & _ & _ & K).
    destruct (K _ eq_refl a eq_refl) as (sc & (Ca & Ci & Cr) & Sr & Cs).
    assert (rs_access a = Some va) as Va by (destruct Ha as [(_ & V)|[(X & _)|(X & _)]]; [exact V|discriminate|discriminate]).
    destruct (Ca va Va) as (ty & ta & Ka & Ev & Ex & Ety).
    assert (forall v, newv e (s_ctr (h_st h)) v -> ~ known h v) as Nk.
    { intros v (n & Ln & Md) (tc & gid1 & g1 & t1 & (l1 & H1 & _) & It1 & V1 & _).
      destruct (inv_made _ _ I _ _ _ H1 It1) as (m & Mm & Lm). rewrite V1 in Mm.
      pose proof (law_made _ W _ _ _ Md Mm). lia. }
    destruct (kid_token _ _ _ _ _ _ _ _ _ _ _ _ _ _ _ I' Hg0 Ka) as (t' & T' & Tl & C' & Bs' & Is' & Sc' & Sn').
    exists gid0, g0, u, ar, (t_value t), ae. split; [exists l; auto|].
    split; [|split; [exact Gu|split; [split|split]]].
    4:{ destruct (st_later_grant _ _ _ _ _ L Hgh) as (g1 & H1 & K1). rewrite Hg0 in H1. injection H1 as <-.
        exists gh. split; [exists l; split; [exact Hgh|]; destruct K1 as (K1 & _); congruence|].
        apply grant_active_live. destruct (grant_active now gh) eqn:Act; auto. exfalso.
        destruct K1 as (Ki1 & _ & _ & _ & _ & _ & _ & _ & _ & K10 & K11 & _). destruct (K11 Act) as (_ & Len).
        apply In_nth_error in T' as (j & Nj).
        destruct (nth_error (g_tokens gh) j) as [tj|] eqn:Ej.
        2:{ apply nth_error_None in Ej. assert (nth_error (g_tokens g0) j <> None) as X by congruence.
            apply nth_error_Some in X. lia. }
        destruct (K10 _ _ Ej) as (tj' & Nj' & Lj). rewrite Nj in Nj'. injection Nj' as <-.
        apply (Nk (t_value ta)); [exact (proj1 (proj1 (proj1 Ka)))|].
        exists (t_class tj), (g_id gh), gh, tj. split; [exists l; auto|]. split; [eapply nth_error_In; eauto|].
        split; auto. destruct Lj as (_ & V1 & _), Tl as (_ & V2 & _). congruence. }
    4:{ intros v [V|[V|V]]; apply Nk; auto.
        - assert (v = t_value ta) as -> by congruence. exact (proj1 (proj1 (proj1 Ka))).
        - destruct (Ci v V) as (tv & Kv & ->). exact (proj1 (proj1 (proj1 Kv))). }
    2:{ intros v lt V Dl. destruct (Ci v V) as (tv & (((_ & _ & Kv & _) & _) & _) & ->). exact (Kv lt eq_refl Dl). }
    2:{ intros v cls alg iss lt V Dl. assert (v = t_value ta) as -> by congruence.
        destruct Ka as (((_ & _ & _ & Kv) & _) & _). exact (Kv _ _ _ _ eq_refl Dl). }
    split; [exact B0|]. split; [exact Ga|]. split; [exact C0|]. split; [exists (t_class t); auto|].
    split; [|split].
    - exists t'. split; [exact T'|].
      destruct Tl as (_ & Tv & _ & _ & _ & Te & _ & _ & _ & _ & Tt & _).
      split; [congruence|]. split; [exact C'|]. split; [exact Bs'|]. split; [exact Is'|].
      split; [|split].
      + rewrite Ex. unfold expires_in, lasts. rewrite <- Te. destruct (Z.eqb_spec (t_exp t') 0); auto. split; auto. lia.
      + destruct Ka as ((_ & Ty) & _). rewrite Tt, Ty. exact Ety.
      + destruct Hq as [(G & Qv & Cv)|(G & Qv & Cv)]; [|exact (Sc' _ (Sr G))].
        destruct (Cs G) as (-> & g1 & (g2 & H2 & L2) & Rs). rewrite Hg0 in H2. injection H2 as <-. rewrite Rs.
        assert (authz_scope e g1 = authz_scope e g0) as ->.
        { unfold authz_scope. destruct L2 as (_ & -> & _). reflexivity. }
        rewrite (Sn' eq_refl Cv) by discriminate.
        apply (gi_final _ _ (inv_grants _ _ I' _ _ Hg0)). intros Z. rewrite Z in T'. destruct T'.
    - intros v V. apply Dr0. right. right. auto.
    - intros v lt V Dl. destruct (Ci v V) as (tv & (((_ & Kv & _) & _) & _) & ->).
      exact (Kv lt eq_refl Dl).
  Qed.
  Lemma token_response ops evs h now k issue q a h' :
    history e ops evs h -> step e h (OProcess now k issue) = (EvToken q (Ok (Good a)), h') ->
    exists gid g u ar p, grant_of h' gid g /\ token_answer e now q g u ar p a
      /\ (exists g0, grant_of h gid g0 /\ grant_live g0 now)
      /\ (forall v, rs_access a = Some v \/ rs_refresh a = Some v \/ rs_id a = Some v -> ~ known h v).
  Proof.
    intros Hh Es. destruct (token_says _ _ _ _ _ _ _ _ _ _ Hh (kept_ids_refl _) Es) as (gid & g & u & ar & p & ae & A & B & _ & _ & C & D).
    exists gid, g, u, ar, p. auto.
  Qed.

  (** *** Allowed scopes *)
  Lemma screened_step h o ev h' : (forall l g ar, hp (h_st h) l = Some (OGrant g) -> g_areq g = Some ar -> asks_allowed e ar) ->
    HI e h -> screened e o -> step e h o = (ev, h') ->
    forall l g ar, hp (h_st h') l = Some (OGrant g) -> g_areq g = Some ar -> asks_allowed e ar.
  Proof.
    intros P Hh Sc Es l g ar H Ga.
    assert (op_G o (g_areq g) -> asks_allowed e ar \/ h_st h' = h_st h) as K.
    { intros (ar' & Ea & Au). assert (ar' = ar) as -> by congruence.
      destruct o; cbn in Au; try contradiction; subst; cbn in Sc; [|auto].
      destruct Sc as [-> | Sc]; [|auto]. cbn [step] in Es. unfold on_st in Es.
      destruct (authorize e now true iframe ar req_user acr exp_in ans uri (h_st h)) as [r s] eqn:E.
      injection Es as _ <-. cbn [h_st]. unfold authorize in E.
      destruct (dget (e_clients e) (ar_client_id ar)); [|apply raise_inv in E as [_ ->]; auto].
      apply bind_inv in E as [([] & s1 & E1 & _)|(x & E1 & _)].
      - left. apply lift_ok in E1 as [E1 _]. intros sc x Es Ix. rewrite Es in E1.
        apply (proj1 (check_unknown_ok e sc (ar_client_id ar)) E1 x Ix).
      - right. apply lift_inv in E1 as [_ ->]. reflexivity. }
    destruct (step_emits _ _ _ _ _ _ _ Hh Es H) as [(g0 & H0 & A0 & _)|(A0 & _)].
    - eapply P; eauto. congruence.
    - destruct (K A0) as [X|X]; auto. rewrite X in H. eapply P; eauto.
  Qed.
  Lemma screened_exec ops : forall h evs h', HI e h -> Forall (proper e) ops -> exec e h ops = (evs, h') -> Forall (screened e) ops ->
    (forall l g ar, hp (h_st h) l = Some (OGrant g) -> g_areq g = Some ar -> asks_allowed e ar) ->
    forall l g ar, hp (h_st h') l = Some (OGrant g) -> g_areq g = Some ar -> asks_allowed e ar.
  Proof.
    induction ops as [|o ops IH]; intros h evs h' Hh Po E F P; cbn [exec] in E.
    - injection E as _ <-. exact P.
    - destruct (step e h o) as [ev h1] eqn:Es. destruct (exec e h1 ops) as [evs' h2] eqn:Ee. injection E as _ <-.
      inversion F; subst. inversion Po as [|? ? P0 P1]; subst.
      destruct (step_keeps e W _ _ _ _ Hh P0 Es) as (Hh1 & _).
      eapply IH; [exact Hh1|exact P1|exact Ee|auto|]. eapply screened_step; eauto.
  Qed.
  Lemma allowed_grant ops evs h gid g u c t x :
    history e ops evs h -> Forall (screened e) ops -> modest e ->
    grant_of h gid g -> belongs e g u c -> In t (g_tokens g) -> In x (g_scope g) ->
    scope_allowed e c x.
  Proof.
    intros Hh Sc Mo (l & Hg & _) (ar & ae & Ga & Ec & _) It Ix. subst c.
    pose proof (hi_inv _ _ (history_hi e W _ _ _ Hh)) as I.
    pose proof (inv_grants _ _ I _ _ Hg) as G.
    rewrite (gi_final _ _ G) in Ix by (intros Z; rewrite Z in It; destruct It).
    destruct Hh as (Po & al & E).
    assert (asks_allowed e ar) as A.
    { eapply screened_exec; [exact (hi_init e al)|exact Po|exact E|exact Sc| |exact Hg|exact Ga].
      intros l0 g0 ar0 H0. unfold hp in H0. cbn in H0. now destruct l0. }
    unfold authz_scope in Ix. rewrite Ga in Ix. destruct (e_implicit e); [destruct Ix|].
    assert (In x (match ar_scope ar with Some s => s | None => [] end) -> scope_allowed e (ar_client_id ar) x) as B.
    { intros X. destruct (ar_scope ar) as [sc|] eqn:Es; [|destruct X]. eapply A; eauto. }
    destruct (gc_scope (e_authz e)) as [[|y z]|] eqn:Eg; auto. eapply Mo; eauto.
  Qed.
  Lemma allowed_scopes ops evs h gid g u c t x :
    history e ops evs h -> Forall (screened e) ops -> modest e ->
    grant_of h gid g -> belongs e g u c -> In t (g_tokens g) -> t_class t <> "id_token" -> In x (t_scope t) ->
    scope_allowed e c x.
  Proof.
    intros Hh Sc Mo Hg B It Nid Ix. eapply allowed_grant; eauto.
    destruct Hg as (l & Hg & _). pose proof (hi_inv _ _ (history_hi e W _ _ _ Hh)) as I.
    now apply (to_scope _ _ (gi_tok _ _ (inv_grants _ _ I _ _ Hg) t It) Nid).
  Qed.
  Lemma allowed_report ops evs h now release tok r h' x :
    history e ops evs h -> Forall (screened e) ops -> modest e ->
    step e h (OIntrospect now release tok) = (EvIntrospect (Ok (Some r)), h') ->
    In x (ir_scope r) -> scope_allowed e (ir_client r) x.
  Proof.
    intros Hh Sc Mo Es Ix.
    destruct (introspect_active e W _ _ _ _ _ _ _ _ Hh Es) as
      (gid & g & t & u & c & G & B & _ & It & _ & _ & _ & Ec & _ & _ & _ & _ & _ & _ & Inc & _).
    rewrite Ec. eapply allowed_grant; eauto.
  Qed.
  Lemma allowed_response ops evs h now k issue q a h' c x :
    history e ops evs h -> Forall (screened e) ops -> modest e ->
    step e h (OProcess now k issue) = (EvToken q (Ok (Good a)), h') ->
    tr_client q = Some c -> In x (rs_scope a) -> scope_allowed e c x.
  Proof.
    intros Hh Sc Mo Es Ec Ix.
    destruct (token_response ops evs h now k issue q a h' Hh Es) as (gid & g & u & ar & p & G & (B & _ & Eq & _ & (t & It & D) & _) & _).
    assert (ar_client_id ar = c) as Ea by congruence. rewrite Ea in B.
    destruct D as (_ & Dc & _ & _ & _ & _ & Ds). rewrite <- Ds in Ix.
    destruct Hh as (Po & al & E).
    assert (history e (ops ++ [OProcess now k issue]) (evs ++ [EvToken q (Ok (Good a))]) h') as Hh'.
    { split; [apply Forall_app; split; [exact Po|constructor; [exact Logic.I|constructor]]|].
      exists al. rewrite exec_app, E. cbn [exec]. now rewrite Es. }
    eapply (allowed_scopes _ _ _ gid g u c t x Hh'); eauto; [|rewrite Dc; discriminate].
    apply Forall_app. split; [exact Sc|]. constructor; [exact Logic.I|constructor].
  Qed.
End Steps.
