(** Which call made a grant: one authorization, by the grant's user and for the
    grant's request. *)
From Verif Require Import M_Base M_Types M_Codec M_Grant M_Env M_Session M_Claims M_Handler
  M_Authz M_TokenEP M_PKCE M_AuthzEP M_Info M_Logout M_History S_Codec S_Grant S_Store S_History
  L_Base L_Codec L_Monad L_Grant L_Claims L_Store L_Hist1 L_Hist2 L_Hist3 L_Hist4 L_Hist5 L_Hist6
  L_Hist7 L_Hist8 L_Emit L_Hist9.

Section Own.
  Variables (ar : areq) (u : string).

  (** A grant was there, with the same request and log-in; or it is one of [u] for
      [ar]. *)
  Definition same_origin (s : st) (l : nat) (g' : grant) : Prop :=
    exists g, hp s l = Some (OGrant g) /\ g_areq g' = g_areq g /\ g_aevent g' = g_aevent g.
  Definition made_here (g' : grant) : Prop :=
    g_areq g' = Some ar /\ exists ae, g_aevent g' = Some ae /\ ae_uid ae = u.
  Definition own {A} (m : M st A) : Prop :=
    forall s r s', m s = (r, s') -> forall l g', hp s' l = Some (OGrant g') -> same_origin s l g' \/ made_here g'.

  Lemma own_old {A} (m : M st A) : emits (fun _ => True) (fun _ => False) (fun _ => False) m -> own m.
  Proof.
    intros H s r s' E l g' X. destruct (H _ _ _ E _ _ X) as [(g & Hg & A1 & A2 & _)|([] & _)]. left. exists g. auto.
  Qed.
  Lemma own_bind {A B} (m : M st A) (f : A -> M st B) : own m -> (forall a, own (f a)) -> own (bind m f).
  Proof.
    intros H K s r s' E l g' X. apply bind_inv in E as [(a & s1 & E1 & E2)|(x & E1 & _)].
    - destruct (K _ _ _ _ E2 _ _ X) as [(g & Hg & A1 & A2)|Y]; [|auto].
      destruct (H _ _ _ E1 _ _ Hg) as [(g0 & H0 & B1 & B2)|(B1 & ae & B2 & B3)].
      + left. exists g0. split; auto. split; congruence.
      + right. split; [congruence|]. exists ae. split; [congruence|auto].
    - eapply H; eauto.
  Qed.
  Lemma own_new now ae sub gid rules sc : ae_uid ae = u -> own (new_obj (OGrant (new_grant now ar ae sub gid rules sc))).
  Proof.
    intros Ua s r s' E l g' X. unfold new_obj in E. injection E as _ <-. unfold hp in X. cbn [s_heap] in X.
    destruct (Nat.lt_ge_cases l (List.length (s_heap s))) as [Lt|Ge].
    - rewrite nth_error_app1 in X by auto. left. exists g'. auto.
    - rewrite nth_error_app2 in X by auto. destruct (l - List.length (s_heap s)) as [|[|k]]; try discriminate.
      cbn in X. injection X as <-. right. split; [reflexivity|]. exists ae. auto.
  Qed.
  Lemma own_create_grant e now ae u' c rules sc : ae_uid ae = u -> own (create_grant e now ae ar u' c rules sc).
  Proof.
    intros Ua. unfold create_grant. apply own_bind; [apply own_old; em|]. intros n. apply own_bind; [now apply own_new|].
    intros gl. apply own_bind; [apply own_old; em|]. intros x. apply own_old. em.
  Qed.
  Lemma own_create_session e now acr x : own (ep_create_session e now ar u acr x).
  Proof.
    unfold ep_create_session, create_session. apply own_bind; [apply own_old; em|]. intros a.
    apply own_bind; [apply own_old; em|]. intros b. now apply own_create_grant.
  Qed.
  Lemma own_part2 e now ifr ar' sid uri : own (authz_part2 e now ifr ar' sid uri).
  Proof. apply own_old. apply em_part2; exact Logic.I. Qed.
  Lemma own_login e now ifr acr x uri : own (login e now ifr ar u acr x uri).
  Proof. unfold login. apply own_bind; [apply own_create_session|]. intros sid. apply own_part2. Qed.
End Own.

Section Setup.
  Variables (e : env) (W : laws e) (now : Z).

  Lemma setup_own ar ru acr x u osid s r s' : Inv e s ->
    (forall sid u' c g, osid = Some sid -> dec_sid3 e sid = Ok (u', c, g) -> u' = u) ->
    setup_auth e now ar ru acr x (AUser u osid) s = (r, s') ->
    forall l g', hp s' l = Some (OGrant g') -> same_origin s l g' \/ made_here ar u g'.
  Proof.
    intros I P H.
    assert (forall (s' : st), s = s' -> forall l g', hp s' l = Some (OGrant g') -> same_origin s l g' \/ made_here ar u g') as Same.
    { intros ? <- l g' X. left. exists g'. auto. }
    unfold setup_auth in H. apply bind_inv in H as [(id & s1 & E1 & H)|(y & E1 & _)].
    2:{ apply Same. destruct (ostr_true osid); [|apply ret_inv in E1 as [_ E1]; auto].
        apply bind_inv in E1 as [(l & s2 & E2 & E1)|(z & E2 & _)]; [|symmetry; exact (reader_mgr_get _ _ _ _ _ E2)].
        rewrite (reader_mgr_get _ _ _ _ _ E2) in E1. apply bind_inv in E1 as [(g & s3 & E3 & E1)|(z & E3 & _)]; [|symmetry; exact (reader_grant_at _ _ _ _ E3)].
        apply ret_inv in E1 as [E1 _]. discriminate. }
    assert (s1 = s /\ (forall u0 s0, id = Some (u0, s0) -> u0 = u /\ s0 = osid)) as [-> Id].
    { destruct (ostr_true osid).
      - apply bind_ok in E1 as (l & s2 & E2 & E1). rewrite (reader_mgr_get _ _ _ _ _ E2) in E1.
        apply bind_ok in E1 as (g & s3 & E3 & E1). apply grant_at_ok in E3 as [-> _]. apply ret_ok in E1 as [<- <-].
        split; [reflexivity|]. intros u0 s0 X. destruct (grant_active now g); [injection X; auto|discriminate].
      - apply ret_ok in E1 as [<- <-]. split; [reflexivity|]. intros u0 s0 X. injection X; auto. }
    destruct id as [[u0 s0]|]; [|apply ret_inv in H as [_ H]; exact (Same _ H)].
    destruct (Id _ _ eq_refl) as [-> ->].
    destruct (smem "login" (prompts ar)); [apply ret_inv in H as [_ H]; exact (Same _ H)|].
    destruct (match ru with Some r => negb (String.eqb u r) | None => false end); [apply ret_inv in H as [_ H]; exact (Same _ H)|].
    assert (forall o s1, (match o with
        | None => ret SLogin
        | Some s =>
            if str_true s then
              ev <- get_authentication_event e s ;;
              ev <- need ev ;;
              if negb (event_valid now ev) then ret SLogin else ret (SGo s u)
            else
              s <- ep_create_session e now ar u acr x ;;
              ret (SGo s u)
        end) s1 = (r, s') ->
      (forall l g', hp s1 l = Some (OGrant g') -> same_origin s l g' \/ made_here ar u g') ->
      forall l g', hp s' l = Some (OGrant g') -> same_origin s l g' \/ made_here ar u g') as Rest.
    { intros o s1 Eo K l g' X.
      assert (own ar u (match o with
        | None => ret SLogin
        | Some s =>
            if str_true s then
              ev <- get_authentication_event e s ;;
              ev <- need ev ;;
              if negb (event_valid now ev) then ret SLogin else ret (SGo s u)
            else
              s <- ep_create_session e now ar u acr x ;;
              ret (SGo s u)
        end)) as Ow.
      { destruct o as [y|]; [|apply own_old; em]. destruct (str_true y); [apply own_old; em|].
        apply own_bind; [apply own_create_session|]. intros a. apply own_old. em. }
      destruct (Ow _ _ _ Eo _ _ X) as [(g & Hg & A1 & A2)|Y]; [|auto].
      destruct (K _ _ Hg) as [(g0 & H0 & B1 & B2)|(B1 & ae & B2 & B3)].
      - left. exists g0. split; auto. split; congruence.
      - right. split; [congruence|]. exists ae. split; [congruence|auto]. }
    assert (forall (m : M st (option string)) (k : option string -> M st setup), bind m k s = (r, s') ->
      (forall r1 s1, m s = (r1, s1) -> forall l g', hp s1 l = Some (OGrant g') -> same_origin s l g' \/ made_here ar u g') ->
      (forall o s1, k o s1 = (r, s') -> (forall l g', hp s1 l = Some (OGrant g') -> same_origin s l g' \/ made_here ar u g') ->
         forall l g', hp s' l = Some (OGrant g') -> same_origin s l g' \/ made_here ar u g') ->
      forall l g', hp s' l = Some (OGrant g') -> same_origin s l g' \/ made_here ar u g') as Two.
    { intros m k E Km Kk. apply bind_inv in E as [(o & s1 & Eo & E)|(y & Eo & _)]; [|eapply Km; eauto].
      eapply Kk; [exact E|]. eapply Km; eauto. }
    refine (Two _ _ H _ Rest). clear H Two Rest. intros r1 s1 Eo.
    destruct osid as [sid|]; [|apply ret_inv in Eo as [_ Eo]; exact (Same _ Eo)].
    apply bind_inv in Eo as [(y & s2 & E2 & Eo)|(z & E2 & _)].
    2:{ apply lift_inv in E2 as [_ E2]. exact (Same _ E2). }
    apply lift_ok in E2 as [D E2]. subst s2. destruct y as [[u1 c1] gid]. pose proof (P _ _ _ _ eq_refl D) as ->.
    destruct (negb (String.eqb (ar_client_id ar) c1)); [apply ret_inv in Eo as [_ Eo]; exact (Same _ Eo)|].
    apply bind_inv in Eo as [(l1 & s2 & E3 & Eo)|(z & E3 & _)]; [|apply Same; symmetry; exact (reader_mgr_get _ _ _ _ _ E3)].
    rewrite (reader_mgr_get _ _ _ _ _ E3) in Eo.
    apply bind_inv in Eo as [(g1 & s3 & E4 & Eo)|(z & E4 & _)]; [|apply Same; symmetry; exact (reader_grant_at _ _ _ _ E4)].
    apply grant_at_ok in E4 as [-> _].
    destruct (negb (grant_active now g1)); [apply ret_inv in Eo as [_ Eo]; exact (Same _ Eo)|].
    destruct (match g_areq g1 with Some a => areq_eqb ar a | None => false end); [apply ret_inv in Eo as [_ Eo]; exact (Same _ Eo)|].
    apply bind_inv in Eo as [(ev & s3 & E5 & Eo)|(z & E5 & _)]; [|apply Same; symmetry; exact (reader_get_event _ _ _ _ _ E5)].
    pose proof (reader_get_event _ _ _ _ _ E5). subst s3.
    apply bind_inv in Eo as [(a & s3 & E6 & Eo)|(z & E6 & _)]; [|apply Same; symmetry; exact (reader_need _ _ _ _ E6)].
    pose proof (reader_need _ _ _ _ E6). subst s3. destruct ev as [a0|]; [|discriminate]. apply ret_ok in E6 as [-> _].
    destruct (negb (event_valid now a)); [apply ret_inv in Eo as [_ Eo]; exact (Same _ Eo)|].
    assert (ae_uid a = u) as Ua.
    { unfold get_authentication_event in E5. apply bind_ok in E5 as (i & s3 & E7 & E5).
      pose proof (reader_get_session_info _ _ _ _ _ E7). subst s3.
      destruct (get_session_info_read _ _ _ _ I E7) as (_ & D' & _ & O). apply bind_ok in E5 as (g2 & s3 & E8 & E5).
      apply grant_at_ok in E8 as [-> Hg2]. apply ret_ok in E5 as [E5 _].
      rewrite D in D'. injection D' as X1 X2 X3. destruct O as (g3 & H3 & _ & ar1 & ae1 & _ & _ & X5 & X6 & _).
      rewrite Hg2 in H3. injection H3 as <-. congruence. }
    assert (own ar u (s <- create_grant e now a ar u (ar_client_id ar) None None ;; ret (Some s))) as Ow.
    { apply own_bind; [now apply own_create_grant|]. intros y. apply own_old. em. }
    exact (Ow _ _ _ Eo).
  Qed.

  Lemma authorize_own deny ifr ar ru acr x u osid uri s r s' : Inv e s ->
    (forall sid u' c g, osid = Some sid -> dec_sid3 e sid = Ok (u', c, g) -> u' = u) ->
    authorize e now deny ifr ar ru acr x (AUser u osid) uri s = (r, s') ->
    forall l g', hp s' l = Some (OGrant g') -> same_origin s l g' \/ made_here ar u g'.
  Proof.
    intros I P H l g' X. unfold authorize in H. destruct (dget (e_clients e) (ar_client_id ar)).
    2:{ injection H as _ <-. left. exists g'. auto. }
    apply bind_inv in H as [(y & s1 & E1 & H)|(y & E1 & _)]; [|apply lift_inv in E1 as [_ E1]; subst s'; left; exists g'; auto].
    apply lift_ok in E1 as [_ E1]. subst s1.
    apply bind_inv in H as [(y2 & s1 & E1 & H)|(y2 & E1 & _)]; [|eapply setup_own; eauto].
    match type of H with ?m _ = _ => assert (own ar u m) as Ow by (apply own_old; em; apply em_part2; exact Logic.I) end.
    destruct (Ow _ _ _ H _ _ X) as [(g & Hg & A1 & A2)|Y]; [|auto].
    destruct (setup_own _ _ _ _ _ _ _ _ _ I P E1 _ _ Hg) as [(g0 & H0 & B1 & B2)|(B1 & ae & B2 & B3)].
    - left. exists g0. split; auto. split; congruence.
    - right. split; [congruence|]. exists ae. split; [congruence|auto].
  Qed.
End Setup.

Section Step.
  Variables (e : env) (W : laws e).

  Definition origin_by (o : op) (g' : grant) : Prop :=
    exists ar ae, g_areq g' = Some ar /\ g_aevent g' = Some ae /\ authorizes o ar /\ by_user o (ae_uid ae).

  Lemma step_origin h o ev h' l g' : HI e h -> proper e o -> step e h o = (ev, h') -> hp (h_st h') l = Some (OGrant g') ->
    same_origin (h_st h) l g' \/ origin_by o g'.
  Proof.
    intros Hh Po E X.
    destruct (step_emits _ _ _ _ _ _ _ Hh E X) as [(g & Hg & A1 & A2 & _)|((ar1 & G1 & G2) & _ & _)]; [left; exists g; auto|].
    destruct o; cbn in G2; try contradiction; subst ar1.
    - destruct ans as [|u osid].
      + left. cbn [step] in E. unfold on_st in E. destruct (authorize _ _ _ _ _ _ _ _ _ _ _) as [r s'] eqn:Ea. injection E as _ <-.
        cbn [h_st] in X. revert X. unfold authorize in Ea. destruct (dget (e_clients e) (ar_client_id ar)).
        2:{ injection Ea as _ <-. intros X. exists g'. auto. }
        match type of Ea with ?m _ = _ => assert (emits (fun _ => True) (fun _ => False) (fun _ => False) m) as Ow end.
        { em; [|apply em_part2; exact Logic.I]. unfold setup_auth. apply em_bind'. { apply em_ret. }
          intros id (s0 & s1 & Eid). apply ret_ok in Eid as [<- _]. apply em_ret. }
        intros X. destruct (Ow _ _ _ Ea _ _ X) as [(g & Hg & A1 & A2 & _)|([] & _)]. exists g. auto.
      + cbn [step] in E. unfold on_st in E. destruct (authorize _ _ _ _ _ _ _ _ _ _ _) as [r s'] eqn:Ea. injection E as _ <-.
        destruct Po as [_ [_ Po]].
        destruct (authorize_own e now deny iframe ar req_user acr exp_in u osid uri _ _ _ (hi_inv _ _ Hh) Po Ea _ _ X) as [Y|(Y & ae & Z1 & Z2)]; [auto|].
        right. exists ar, ae. cbn. auto.
    - cbn [step] in E. unfold on_st in E. destruct (login _ _ _ _ _ _ _ _ _) as [r s'] eqn:Ea. injection E as _ <-.
      destruct (own_login ar uid e now iframe acr exp_in uri _ _ _ Ea _ _ X) as [Y|(Y & ae & Z1 & Z2)]; [auto|].
      right. exists ar, ae. cbn. auto.
  Qed.

  (** The call that made a grant. *)
  Lemma grant_origin ops : forall h evs h' l g', HI e h -> Forall (proper e) ops -> exec e h ops = (evs, h') ->
    hp (h_st h') l = Some (OGrant g') ->
    same_origin (h_st h) l g' \/ exists j o, nth_error ops j = Some o /\ origin_by o g'.
  Proof.
    induction ops as [|o ops IH]; intros h evs h' l g' Hh Po E H; cbn in E.
    - injection E as _ <-. left. exists g'. auto.
    - destruct (step e h o) as [ev h1] eqn:Es. destruct (exec e h1 ops) as [evs' h2] eqn:Ee. injection E as _ <-.
      inversion Po as [|? ? P0 P1]; subst. destruct (step_keeps e W _ _ _ _ Hh P0 Es) as (Hh1 & _).
      destruct (IH _ _ _ _ _ Hh1 P1 Ee H) as [(g & Hg & A1 & A2)|(j & o' & A & B)].
      + destruct (step_origin _ _ _ _ _ _ Hh P0 Es Hg) as [(g0 & H0 & B1 & B2)|(ar & ae & B1 & B2 & B3 & B4)].
        * left. exists g0. split; auto. split; congruence.
        * right. exists 0, o. split; auto. exists ar, ae. split; [congruence|]. split; [congruence|]. auto.
      + right. exists (S j), o'. auto.
  Qed.
End Step.
