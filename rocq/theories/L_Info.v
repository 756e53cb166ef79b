(** Introspection and userinfo in reachable states. *)
From Verif Require Import M_Base M_Types M_Codec M_Grant M_Env M_Session M_Claims M_Handler
  M_Authz M_TokenEP M_PKCE M_AuthzEP M_Info M_Logout M_History S_Codec S_Grant S_History
  L_Base L_Monad L_Grant L_Store L_Hist1 L_Hist2 L_Hist3 L_Hist4 L_Hist5 L_Hist6 L_Hist7 L_Hist8 L_Hist9
  L_Hist10 L_Hist11.

Section Info.
  Context (e : env) (W : laws e).

  Lemma catch_some {A} (m : M st A) hd s i s1 :
    catch (i <- m ;; ret (Some i)) hd s = (Ok (Some i), s1) ->
    (forall y k j s2, hd y = Some k -> snd (k s2) = s1 -> fst (k s2) <> Ok (Some j)) ->
    m s = (Ok i, s1).
  Proof.
    intros E N. apply catch_inv in E as [(a & E & Ea)|[(y & s2 & k & E & Ek & E2)|(y & E & Ek & E2)]].
    - apply bind_ok in E as (i' & s2 & E1 & E2). apply ret_ok in E2 as [E2 <-]. congruence.
    - exfalso. apply (N y k i s2 Ek); rewrite E2; reflexivity.
    - discriminate.
  Qed.

  (** The look-up of a token, seen from the history. *)
  Lemma token_lookup h now tok i s1 : HI e h ->
    get_session_info_by_token e now tok (h_st h) = (Ok i, s1) ->
    s_heap s1 = s_heap (h_st h) /\ s_db s1 = s_db (h_st h)
    /\ exists g, hp (h_st h) (ss_grant i) = Some (OGrant g) /\ grant_of h (ss_gid i) g
         /\ belongs e g (ss_user i) (ss_client i).
  Proof.
    intros Hh E. destruct (by_token_read e _ _ _ _ _ (hi_inv _ _ Hh) E) as (Q & _ & g & H & Og & B).
    destruct Q as (Q1 & Q2 & _). split; auto. split; auto. exists g. split; auto. split; auto.
    exists (ss_grant i). auto.
  Qed.

  Lemma introspect_active ops evs h now release tok r h' : history e ops evs h ->
    step e h (OIntrospect now release tok) = (EvIntrospect (Ok (Some r)), h') ->
    exists gid g t u c,
      grant_of h gid g /\ belongs e g u c /\ leads_to e now h tok gid
      /\ In t (g_tokens g) /\ t_value t = tok
      /\ (t_class t = "access_token" \/ t_class t = "refresh_token") /\ token_live t now
      /\ ir_client r = c /\ ir_sub r = g_sub g /\ ir_class r = t_class t
      /\ ir_exp r = t_exp t /\ ir_iat r = t_issued t /\ ir_iss r = e_issuer e
      /\ reported_scope g t (ir_scope r) /\ incl (ir_scope r) (g_scope g)
      /\ reported_aud g t (ir_aud r) /\ reported_type t (ir_type r)
      /\ (ir_username r = if release then Some u else None)
      /\ ((ir_claims r = [] /\ (dget (g_claims g) "introspection" = None \/ dget (g_claims g) "introspection" = Some []))
         \/ exists restr, dget (g_claims g) "introspection" = Some restr
            /\ get_user_claims e u (Some restr) = Ok (ir_claims r)).
  Proof.
    intros Hi E. pose proof (history_hi e W _ _ _ Hi) as Hh. cbn [step] in E. unfold on_st in E.
    destruct (introspect e now release tok (h_st h)) as [x s'] eqn:Ep. injection E as -> <-.
    unfold introspect in Ep. apply bind_ok in Ep as (oi & s1 & E1 & Ep).
    destruct oi as [i|]; [|apply ret_ok in Ep as [Ep _]; discriminate].
    assert (get_session_info_by_token e now tok (h_st h) = (Ok i, s1)) as El.
    { eapply catch_some; [exact E1|]. intros y k j s2 Ek _. destruct y; try discriminate; injection Ek as <-; discriminate. }
    destruct (token_lookup _ _ _ _ _ Hh El) as (Q & _ & g & Hg & G & B).
    apply bind_ok in Ep as (g' & s2 & Eg & Ep). apply grant_at_ok in Eg as [-> Hg'].
    assert (g' = g) as -> by (unfold hp in *; rewrite Q in Hg'; congruence).
    destruct (get_token g tok) as [t|] eqn:Gt; [|discriminate]. apply get_token_In in Gt as [It Vt].
    apply bind_ok in Ep as (ri & s3 & Er & Ep). apply lift_ok in Er as [Er <-].
    destruct ri as [ri|]; [|apply ret_ok in Ep as [Ep _]; discriminate].
    unfold introspect_token in Er.
    destruct (smem (t_class t) [ACCESS; REFRESH]) eqn:Cl; [|discriminate]. cbn [negb] in Er.
    destruct (tok_active now t) eqn:Ac; [|discriminate]. cbn [negb] in Er.
    apply rbind_ok in Er as (scope & Es & Er). injection Er as <-.
    apply tok_active_live in Ac.
    assert (t_class t = "access_token" \/ t_class t = "refresh_token") as Cl'.
    { apply smem_In in Cl. destruct Cl as [Cl|[Cl|[]]]; auto. }
    pose proof (history_forest e W _ _ _ _ _ Hi G) as Fo.
    assert (reported_scope g t scope /\ incl scope (g_scope g)) as [Rs Rg].
    { destruct (t_scope t) as [|y ys] eqn:St; cbn [list_true] in Es.
      - destruct (t_based t) as [b|] eqn:Bt; cbn [ostr_true] in Es.
        2:{ injection Es as <-. split; [|apply incl_refl]. right. split; auto. rewrite Bt. constructor. }
        destruct (str_true b) eqn:Tb.
        + split; [|eapply (parent_scope_incl e); [apply (hi_inv _ _ Hh)|exact Hg|exact It|exact Es]].
          right. split; auto. unfold parent_scope in Es. rewrite Bt in *.
          destruct (In_nth_error _ _ It) as (j & Nj). destruct Fo as (F1 & F2 & F3).
          destruct (F3 j t b Nj Bt) as (k & p & _ & Np & Vp).
          assert (get_token g b = Some p) as Gp.
          { rewrite <- Vp. apply get_token_forest; [exact (conj F1 (conj F2 F3))|eapply nth_error_In; eauto]. }
          rewrite Gp in Es. apply find_scope_inherited in Es; [|exact (conj F1 (conj F2 F3))|eapply nth_error_In; eauto].
          cbn in Es. congruence.
        + exfalso. destruct (In_nth_error _ _ It) as (j & Nj). destruct Fo as (F1 & F2 & F3).
          destruct (F3 j t b Nj Bt) as (k & p & _ & Np & Vp). apply F2. destruct b; [|discriminate].
          rewrite <- Vp. apply in_map. eapply nth_error_In; eauto.
      - injection Es as <-. split; [left; rewrite St; split; [discriminate|reflexivity]|].
        rewrite <- St. apply (to_scope _ _ (gi_tok _ _ (inv_grants _ _ (hi_inv _ _ Hh) _ _ Hg) t It)).
        destruct Cl' as [X|X]; rewrite X; discriminate. }
    assert (reported_aud g t (match t_resources t with [] => g_resources g | r => r end)) as Ra.
    { unfold reported_aud. destruct (t_resources t); [right; auto|left; split; [discriminate|reflexivity]]. }
    assert (reported_type t (match t_type t with Some s => if str_true s then Some s else None | None => None end)) as Rt.
    { intros x. destruct (t_type t) as [[|c0 x0]|]; cbn; split; intros X; try discriminate.
      - destruct X as [X Y]. injection X as <-. now destruct Y.
      - injection X as <-. split; [reflexivity|discriminate].
      - apply X.
      - destruct X; discriminate. }
    exists (ss_gid i), g, t, (ss_user i), (ss_client i).
    do 2 (split; auto). split; [exists i, s1; auto|]. do 4 (split; auto).
    destruct (dget (g_claims g) "introspection") as [[|p ps]|] eqn:Dc.
    - apply ret_ok in Ep as [Ep _]. injection Ep as <-. destruct release; cbn; auto 20.
    - apply bind_ok in Ep as (info & s4 & Eu & Ep). apply lift_ok in Eu as [Eu <-].
      apply ret_ok in Ep as [Ep _]. injection Ep as <-. destruct release; cbn; do 11 (split; auto); right; eauto.
    - apply ret_ok in Ep as [Ep _]. injection Ep as <-. destruct release; cbn; auto 20.
  Qed.

  Lemma introspect_live ops evs h now release tok gid g t : history e ops evs h ->
    grant_of h gid g -> In t (g_tokens g) -> t_value t = tok -> leads_to e now h tok gid ->
    (t_class t = "access_token" \/ t_class t = "refresh_token") -> token_live t now ->
    forall o h', step e h (OIntrospect now release tok) = (EvIntrospect (Ok o), h') -> o <> None.
  Proof.
    intros Hi G It Vt (i & s1 & El & Eg) Cl Li o h' E ->. pose proof (history_hi e W _ _ _ Hi) as Hh.
    cbn [step] in E. unfold on_st in E.
    destruct (introspect e now release tok (h_st h)) as [x s'] eqn:Ep. injection E as -> _.
    unfold introspect in Ep. apply bind_ok in Ep as (oi & s2 & E1 & Ep).
    assert (oi = Some i /\ s2 = s1) as [-> ->].
    { unfold catch in E1. unfold bind at 1 in E1. rewrite El in E1. cbn in E1. injection E1 as <- <-. auto. }
    destruct (token_lookup _ _ _ _ _ Hh El) as (Q & _ & g' & Hg & G' & B).
    rewrite Eg in G'. assert (g' = g) as -> by (eapply grant_of_unique; eauto).
    apply bind_ok in Ep as (g' & s2 & Eg' & Ep). apply grant_at_ok in Eg' as [-> Hg'].
    assert (g' = g) as -> by (unfold hp in *; rewrite Q in Hg'; congruence).
    destruct (get_token g tok) as [t'|] eqn:Gt; [|discriminate]. apply get_token_In in Gt as [It' Vt'].
    destruct (one_owner e W _ _ _ _ _ _ _ _ _ Hi G G It It') as (_ & _ & <-); [congruence|].
    apply bind_ok in Ep as (ri & s3 & Er & Ep). apply lift_ok in Er as [Er <-].
    unfold introspect_token in Er.
    assert (smem (t_class t) [ACCESS; REFRESH] = true) as Sm by (destruct Cl as [-> | ->]; reflexivity).
    rewrite Sm in Er. cbn [negb] in Er. apply tok_active_live in Li. rewrite Li in Er. cbn [negb] in Er.
    apply rbind_ok in Er as (scope & Es & Er). injection Er as <-.
    destruct (dget (g_claims g) "introspection") as [[|p ps]|].
    - apply ret_ok in Ep as [Ep _]. discriminate.
    - apply bind_ok in Ep as (info & s4 & Eu & Ep). apply ret_ok in Ep as [Ep _]. discriminate.
    - apply ret_ok in Ep as [Ep _]. discriminate.
  Qed.

  Lemma userinfo_live ops evs h now tok info cl h' : history e ops evs h ->
    step e h (OUserinfo now tok) = (EvUserinfo (Ok (Good (info, cl))), h') ->
    exists gid g t u c ae claims,
      grant_of h gid g /\ belongs e g u c /\ leads_to e now h tok gid
      /\ In t (g_tokens g) /\ t_value t = tok /\ t_class t = "access_token" /\ token_live t now
      /\ g_aevent g = Some ae /\ (now <= ae_valid_until ae)%Z
      /\ cl = c /\ dget info "sub" = Some (JStr (g_sub g))
      /\ get_user_claims e u (dget (g_claims g) "userinfo") = Ok claims
      /\ (forall k v, dget info k = Some v ->
           k = "sub" \/ (k = "acr" /\ v = JStr (ae_authn_info ae)) \/ dget claims k = Some v)
      /\ (forall k v, dget claims k = Some v -> k <> "sub" -> k <> "acr" -> dget info k = Some v).
  Proof.
    intros Hi E. pose proof (history_hi e W _ _ _ Hi) as Hh. cbn [step] in E. unfold on_st in E.
    destruct (userinfo e now tok (h_st h)) as [x s'] eqn:Ep. injection E as -> <-.
    unfold userinfo in Ep. apply bind_ok in Ep as (oi & s1 & E1 & Ep).
    destruct oi as [i|]; [|apply ret_ok in Ep as [Ep _]; discriminate].
    assert (get_session_info_by_token e now tok (h_st h) = (Ok i, s1)) as El.
    { eapply catch_some; [exact E1|]. intros y k j s2 Ek _. cbn beta in Ek. destruct (is_lookup_error y); [|discriminate].
      injection Ek as <-. discriminate. }
    destruct (token_lookup _ _ _ _ _ Hh El) as (Q & _ & g & Hg & G & B).
    apply bind_ok in Ep as (g' & s2 & Eg & Ep). apply grant_at_ok in Eg as [-> Hg'].
    assert (g' = g) as -> by (unfold hp in *; rewrite Q in Hg'; congruence).
    destruct (get_token g tok) as [t|] eqn:Gt; [|discriminate]. apply get_token_In in Gt as [It Vt].
    destruct (String.eqb (t_class t) ACCESS) eqn:Cl; [|apply ret_ok in Ep as [Ep _]; discriminate]. cbn [negb] in Ep.
    apply String.eqb_eq in Cl.
    destruct (tok_active now t) eqn:Ac; [|apply ret_ok in Ep as [Ep _]; discriminate]. cbn [negb] in Ep.
    apply tok_active_live in Ac.
    destruct (g_aevent g) as [ae|] eqn:Ae; [|discriminate].
    destruct (Z.ltb_spec (ae_valid_until ae) now); [apply ret_ok in Ep as [Ep _]; discriminate|].
    apply bind_ok in Ep as (claims & s3 & Eu & Ep). apply lift_ok in Eu as [Eu <-].
    apply bind_ok in Ep as (a & s4 & Ea & Ep). apply lift_ok in Ea as [Ea <-].
    apply ret_ok in Ep as [Ep _].
    assert (info = (if a then dset (dset claims "sub" (JStr (g_sub g))) "acr" (JStr (ae_authn_info ae))
                    else dset claims "sub" (JStr (g_sub g)))) as -> by congruence.
    assert (cl = ss_client i) as -> by congruence.
    exists (ss_gid i), g, t, (ss_user i), (ss_client i), ae, claims.
    do 2 (split; auto). split; [exists i, s1; auto|]. do 7 (split; auto).
    split; [|split; [auto|split]].
    - destruct a; [rewrite dget_dset_other by discriminate|]; apply dget_dset_same.
    - intros k v D. destruct (String.eqb_spec k "sub") as [->|Ns]; auto. right.
      destruct a; [|right; rewrite dget_dset_other in D by auto; exact D].
      destruct (String.eqb_spec k "acr") as [->|Na].
      + left. rewrite dget_dset_same in D. split; congruence.
      + right. rewrite !dget_dset_other in D by auto. exact D.
    - intros k v D Ns Na. destruct a; rewrite !dget_dset_other by auto; exact D.
  Qed.
End Info.
