(** Histories, part 6: the authorization endpoint. *)
From Verif Require Import M_Base M_Types M_Codec M_Grant M_Env M_Session M_Claims M_Handler
  M_Authz M_TokenEP M_PKCE M_AuthzEP M_Info M_Logout M_History S_Codec S_Grant S_Store S_History
  L_Base L_Codec L_Monad L_Grant L_Claims L_Store L_Hist1 L_Hist2 L_Hist3 L_Hist4 L_Hist5.

Section Specs.
  Variables (e : env) (now : Z).
  Hypothesis W : laws e.

  Lemma owns_unique s l l' u c g u' c' : Inv e s -> owns e s l u c g -> owns e s l' u' c' g -> l = l'.
  Proof.
    intros I (g1 & H1 & Id1 & _) (g2 & H2 & Id2 & _). eapply (inv_uniq _ _ I l l'); eauto. congruence.
  Qed.

  (** ** Who goes on *)
  Lemma mgr_get_3 s sid u c g l : Inv e s -> dec_sid3 e sid = Ok (u, c, g) ->
    mgr_get e sid s = (Ok l, s) -> owns e s l u c g.
  Proof.
    intros I D H. unfold mgr_get in H. rewrite (dec_sid3_ok _ _ _ _ _ D) in H.
    unfold lift, bind at 1 in H. eapply db_get_owns; eauto. eapply dec_sid3_separable; eauto.
  Qed.

  Lemma setup_auth_spec ar ru acr exp_in ans :
    good_id (ar_client_id ar) ->
    match ans with
    | ANobody => True
    | AUser u sid => good_id u /\ forall s u' c g, sid = Some s -> dec_sid3 e s = Ok (u', c, g) -> u' = u
    end ->
    spec e now (fun _ => True) (setup_auth e now ar ru acr exp_in ans)
      (fun r s => forall sid u, r = SGo sid u -> ready e now u ar sid s).
  Proof.
    intros Gc Pa. unfold setup_auth.
    eapply spec_rbind with
      (Q := fun id _ => forall u sid, id = Some (u, sid) -> ans = AUser u sid).
    { destruct ans as [|u sid]; [apply reader_ret|]. destruct (ostr_true sid); [|apply reader_ret].
      apply reader_bind; [apply reader_mgr_get|]. intros l.
      apply reader_bind; [apply reader_grant_at|]. intros g. apply reader_ret. }
    { intros s id I _ H u sid ->. destruct ans as [|u0 sid0]; [discriminate|].
      destruct (ostr_true sid0).
      - minv1 H. minv1 H. apply ret_ok in H as [H _]. destruct (grant_active now a0); congruence.
      - apply ret_ok in H as [H _]. congruence. }
    intros [[u sid]|].
    2:{ apply spec_ret. intros s _ sid u X. destruct (smem "none" (prompts ar)); discriminate. }
    eapply spec_pure; [intros s _ [_ X]; exact (X u sid eq_refl)|]. intros ->. destruct Pa as [Gu Pa].
    eapply spec_pre with (P' := fun _ => True); [auto|].
    destruct (smem "login" (prompts ar)).
    { apply spec_ret. discriminate. }
    destruct (match ru with Some r => negb (String.eqb u r) | None => false end).
    { apply spec_ret. intros s _ sid' u' X. destruct (smem "none" (prompts ar)); discriminate. }
    eapply spec_seq with (Q := fun o s => forall x, o = Some x -> x <> "" -> ready e now u ar x s).
    { destruct sid as [sid|]; [|apply spec_ret; intros s _ x X; injection X as <-; congruence].
      eapply spec_rbind with (Q := fun x _ => dec_sid3 e sid = Ok x); [apply reader_lift| |].
      { intros s x _ _ H. apply lift_ok in H. apply H. }
      intros [[u' c] gid]. eapply spec_pure; [intros s _ [_ X]; exact X|]. intros D.
      pose proof (Pa _ _ _ _ eq_refl D) as ->.
      destruct (negb (String.eqb (ar_client_id ar) c)) eqn:Ec; [apply spec_ret; discriminate|].
      apply negb_false_iff, seqb_eq in Ec. subst c.
      eapply spec_rbind with (Q := fun l s => owns e s l u (ar_client_id ar) gid); [apply reader_mgr_get| |].
      { intros s l I _ H. eapply mgr_get_3; eauto. }
      intros l. eapply spec_rbind with (Q := fun g s => hp s l = Some (OGrant g)); [apply reader_grant_at| |].
      { intros s g I _ H. apply grant_at_ok in H. apply H. }
      intros g. destruct (grant_active now g) eqn:A; cbn [negb]; [|apply spec_ret; discriminate].
      destruct (match g_areq g with Some a => areq_eqb ar a | None => false end) eqn:Eq.
      { destruct (g_areq g) as [a|] eqn:Ga; [|discriminate]. apply areq_eqb_eq in Eq. subst a.
        apply spec_ret. intros s ((_ & O) & H) x X _. injection X as <-.
        destruct O as (g1 & H1 & Id & B). rewrite H in H1. injection H1 as <-.
        exists gid, l, g. auto 10. }
      eapply spec_rbind with (Q := fun ev _ => forall a, ev = Some a -> ae_uid a = u); [apply reader_get_event| |].
      { intros s ev I _ H a ->. unfold get_authentication_event in H. minv1 H.
        pose proof (reader_get_session_info _ _ _ _ _ H0). subst s0.
        destruct (get_session_info_read _ _ _ _ I H0) as (_ & D' & _ & O). minv1 H.
        apply grant_at_ok in H1 as [-> H1]. apply ret_ok in H as [H _].
        rewrite D in D'. injection D' as E1 E2 E3. destruct O as (g1 & H2 & _ & ar1 & ae1 & _ & _ & X3 & X4 & _).
        rewrite H1 in H2. injection H2 as <-. congruence. }
      intros ev. eapply spec_rbind with (Q := fun a _ => ae_uid a = u); [apply reader_need| |].
      { intros s a _ [_ X] H. destruct ev; [|discriminate]. apply ret_ok in H as [<- _]. auto. }
      intros a. eapply spec_pure; [intros s _ [_ X]; exact X|]. intros Ea.
      destruct (negb (event_valid now a)); [apply spec_ret; discriminate|].
      eapply spec_seq with (Q := ready e now u ar).
      { eapply spec_pre with (P' := fun _ => True); [auto|]. apply create_grant_spec; auto. }
      intros x. apply spec_ret. intros s R y Y _. injection Y as <-. exact R. }
    intros [x|]; [|apply spec_ret; discriminate].
    destruct (str_true x) eqn:Tx.
    - assert (x <> "") by (destruct x; discriminate).
      eapply spec_rbind with (Q := fun _ _ => True); [apply reader_get_event|auto|]. intros ev.
      eapply spec_rbind with (Q := fun _ _ => True); [apply reader_need|auto|]. intros a.
      destruct (negb (event_valid now a)); [apply spec_ret; discriminate|].
      apply spec_ret. intros s ((R & _) & _) sid' u' X. injection X as <- <-. auto.
    - eapply spec_seq with (Q := ready e now u ar).
      { eapply spec_pre with (P' := fun _ => True); [auto|]. apply ep_create_session_spec; auto. }
      intros y. apply spec_ret. intros s R sid' u' X. injection X as <- <-. exact R.
  Qed.

  (** ** The response *)

  (** The member [o] of a response: present if asked for, and then a new token. *)
  Definition told (l : nat) (tc : string) (scope : option (list string)) (asked : bool)
      (o : option string) (s : st) : Prop :=
    if asked then exists t, o = Some (t_value t) /\ fresh_tok e now l tc None scope t s
    else o = None.
  Lemma st_told l tc scope b o : Stable now (told l tc scope b o).
  Proof.
    destruct b; unfold told; [|apply st_pure]. intros s s' L (t & E & F). exists t. split; auto.
    eapply st_fresh; eauto.
  Qed.

  Lemma final_pre l sid tc scope s : final e l s -> fits e sid l s -> (scope = None \/ tc = IDTOKEN) ->
    mint_pre e l sid tc None scope s.
  Proof.
    intros F Fs [-> | ->]; (split; [exact F|split; [exact Fs|split; [|split]]]); try discriminate; auto. congruence.
  Qed.

  Definition timed (l : nat) (asked : bool) (o : option string) (x : option Z) (s : st) : Prop :=
    if asked then exists t, o = Some (t_value t) /\ fresh_tok e now l ACCESS None None t s /\ x = expires_in now t
    else x = None.
  Lemma st_timed l b o x : Stable now (timed l b o x).
  Proof.
    destruct b; unfold timed; [|apply st_pure]. intros s s' L (t & E & F & G). exists t. split; auto. split; auto.
    eapply st_fresh; eauto.
  Qed.
  Definition parts (l : nat) (ar : areq) (a : aresp) (s : st) : Prop :=
    let rt := ar_response_type ar in
    told l CODE None (smem "code" rt) (ap_code a) s
    /\ told l ACCESS None (smem "token" rt) (ap_access a) s
    /\ told l IDTOKEN (ar_scope ar) (smem "id_token" rt) (ap_id a) s
    /\ forallb (fun x => smem x ["code"; "token"; "id_token"]) rt = true
    /\ ap_state a = nonempty (ar_state ar)
    /\ timed l (smem "token" rt) (ap_access a) (ap_expires a) s.
  Lemma st_parts l ar a : Stable now (parts l ar a).
  Proof. unfold parts. repeat apply st_and; try apply st_told; try apply st_timed; apply st_pure. Qed.

  Lemma authn_tokens_spec ar sid l scope :
    spec e now (fun s => final e l s /\ fits e sid l s) (authn_tokens e now ar sid l scope)
      (fun r s => forall a, r = Good a -> parts l ar a s /\ ap_scope a = scope).
  Proof.
    unfold authn_tokens. set (rt := ar_response_type ar).
    assert (Stable now (fun s => final e l s /\ fits e sid l s)) as Sf.
    { apply st_and; [apply st_final|apply st_fits]. }
    eapply spec_bind with (Q := fun code => told l CODE None (smem "code" rt) code); [exact Sf| |].
    { destruct (smem "code" rt); [|apply spec_ret; reflexivity].
      eapply spec_seq; [eapply spec_pre; [|apply az_value_spec; auto]; intros s _ [F Fs]; apply final_pre; auto|].
      intros t. apply spec_ret. intros s F. exists t. auto. }
    intros code. eapply spec_bind with (Q := fun acc s => told l ACCESS None (smem "token" rt) (option_map fst acc) s
       /\ timed l (smem "token" rt) (option_map fst acc) (match acc with Some (_, x) => x | None => None end) s).
    { apply st_and; [exact Sf|apply st_told]. }
    { destruct (smem "token" rt); [|apply spec_ret; split; reflexivity].
      eapply spec_seq; [eapply spec_pre; [|apply az_value_spec; auto]; intros s I [[F Fs] _]; apply final_pre; auto|].
      intros t. apply spec_ret. intros s F. split; exists t; auto. }
    intros acc. eapply spec_bind with
      (Q := fun idt s => forall v, idt = Good v -> told l IDTOKEN (ar_scope ar) (smem "id_token" rt) v s).
    { repeat apply st_and; auto using st_final, st_fits, st_told, st_timed. }
    { destruct (smem "id_token" rt).
      2:{ apply spec_ret. intros s _ v X. injection X as <-. reflexivity. }
      eapply spec_rbind with (Q := fun sc _ => ar_scope ar = Some sc).
      { destruct (ar_scope ar); auto using reader_ret, reader_raise. }
      { intros s sc _ _ H. destruct (ar_scope ar); [|discriminate]. apply ret_ok in H as [<- _]. auto. }
      intros sc. eapply spec_pure; [intros s _ [_ X]; exact X|]. intros Es. rewrite Es.
      eapply spec_seq with (Q := fun t s => forall t0, t = Some t0 -> fresh_tok e now l IDTOKEN None (Some sc) t0 s).
      { unfold except_jwe. apply spec_catch'.
        - eapply spec_seq.
          { eapply spec_pre; [|apply az_value_spec; auto]. intros s I X. apply final_pre; auto; apply X. }
          intros t. apply spec_ret. intros s F t0 X. injection X as <-. exact F.
        - intros x k X. destruct x; try discriminate X; injection X as <-; apply spec_ret; discriminate. }
      intros [t|]; apply spec_ret; [|discriminate]. intros s F v X. injection X as <-. exists t. auto. }
    intros [x|idv]; [apply spec_ret; discriminate|].
    destruct (forallb _ rt) eqn:Fa; [|apply spec_ret; discriminate].
    apply spec_ret. intros s (((F & Tc) & Ta & Tt) & Ti) a X. injection X as <-. split; [|reflexivity].
    unfold parts. cbn [ap_code ap_access ap_id ap_state ap_expires]. fold rt. auto 12.
  Qed.

  (** The response is for a session of user [u]. *)
  Definition answered (u : string) (ar : areq) (sid : string) (a : aresp) (s : st) : Prop :=
    (ar_response_type ar = ["none"] /\ ap_code a = None /\ ap_access a = None /\ ap_id a = None
      /\ ap_state a = nonempty (ar_state ar) /\ ap_scope a = None /\ ap_expires a = None)
    \/ (exists l gid, dec_sid3 e sid = Ok (u, ar_client_id ar, gid)
        /\ owns e s l u (ar_client_id ar) gid /\ parts l ar a s
        /\ ap_scope a = match ar_scope ar with
                        | Some (x :: r) => Some (filter_scopes e (x :: r) (ar_client_id ar))
                        | _ => None end).
  Lemma st_answered u ar sid a : Stable now (answered u ar sid a).
  Proof.
    intros s s' L [H|(l & gid & D & O & P & Sc)]; [now left|right]. exists l, gid. split; auto.
    split; [eapply owns_later; eauto|]. split; [eapply st_parts; eauto|exact Sc].
  Qed.

  Definition settled (u : string) (ar : areq) (sid : string) (s : st) : Prop :=
    exists l gid, dec_sid3 e sid = Ok (u, ar_client_id ar, gid)
        /\ owns e s l u (ar_client_id ar) gid /\ final e l s.
  Lemma st_settled u ar sid : Stable now (settled u ar sid).
  Proof. unfold settled. stab. Qed.

  Lemma create_authn_response_spec u ar sid :
    spec e now (settled u ar sid) (create_authn_response e now ar sid)
      (fun r s => forall a, fst r = Good a -> answered u ar sid a s).
  Proof.
    unfold create_authn_response.
    assert (spec e now (settled u ar sid)
       (i <- get_session_info e sid ;;
        let scope := match ar_scope ar with
                   | Some (x :: r) => Some (filter_scopes e (x :: r) (ss_client i))
                   | _ => None end in
        r <- authn_tokens e now ar (ss_sid i) (ss_grant i) scope ;;
        ret (r, negb (smem "code" (ar_response_type ar) && forallb (String.eqb "code") (ar_response_type ar))))
       (fun r s => forall a, fst r = Good a -> answered u ar sid a s)) as G.
    { eapply spec_rbind with
        (Q := fun i s => (ss_sid i = sid /\ ss_client i = ar_client_id ar) /\ dec_sid3 e sid = Ok (u, ar_client_id ar, ss_gid i)
                         /\ owns e s (ss_grant i) u (ar_client_id ar) (ss_gid i) /\ final e (ss_grant i) s);
        [apply reader_get_session_info| |].
      { intros s i I (l & gid & D & O & F) H.
        destruct (get_session_info_read _ _ _ _ I H) as (Es & D' & _ & O'). rewrite D in D'.
        injection D' as E1 E2 E3. rewrite <- E1, <- E2, <- E3 in *.
        split; auto. split; auto. split; auto.
        assert (l = ss_grant i) as <-; auto. eapply owns_unique; eauto. }
      intros i. eapply spec_pure; [intros s _ [_ (E & D & _)]; exact (conj E D)|]. intros ((Es & Ec) & D).
      cbv zeta. rewrite Es, Ec. set (scope := match ar_scope ar with Some _ => _ | None => _ end).
      eapply spec_bind with (Q := fun r s => forall a, r = Good a -> parts (ss_grant i) ar a s /\ ap_scope a = scope).
      { apply st_and; [apply st_settled|]. stab. }
      { eapply spec_pre; [|apply authn_tokens_spec].
        intros s _ (_ & _ & _ & O & F). split; auto. eexists _, _, _. eauto. }
      intros r. apply spec_ret. intros s ((_ & _ & _ & O & _) & P) a X. cbn in X. subst r.
      right. exists (ss_grant i), (ss_gid i). destruct (P a eq_refl) as [P1 P2]. auto. }
    destruct (ar_response_type ar) as [|x [|y z]] eqn:Rt.
    - exact G.
    - destruct (string_dec x "none") as [->|N].
      + apply spec_ret. intros s _ a X. cbn in X. injection X as <-. left. cbn. auto 10.
      + repeat (match goal with
                | |- spec _ _ _ (match ?a with _ => _ end) _ => is_var a; destruct a; try exact G
                end).
        exfalso; apply N; reflexivity.
    - repeat (match goal with
              | |- spec _ _ _ (match ?a with _ => _ end) _ => is_var a; destruct a; try exact G
              end).
  Qed.

  Lemma post_authentication_spec u ar sid uri :
    spec e now (ready e now u ar sid) (post_authentication e now ar sid uri)
      (fun o s => settled u ar sid s /\ forall a, ao_args o = Good a -> answered u ar sid a s).
  Proof.
    unfold post_authentication.
    eapply spec_seq; [apply authz_spec; auto|]. intros l.
    set (P := fun s => final e l s /\ exists gid, dec_sid3 e sid = Ok (u, ar_client_id ar, gid)
                                          /\ owns e s l u (ar_client_id ar) gid).
    assert (forall s, P s -> settled u ar sid s) as PS.
    { intros s (F & gid & D & O). exists l, gid. auto. }
    eapply spec_rbind with (Q := fun _ _ => True); [apply reader_grant_at|auto|]. intros g.
    eapply spec_pre with (P' := P); [tauto|].
    destruct (negb (grant_active now g)).
    { apply spec_ret. intros s H. split; auto. discriminate. }
    eapply spec_rbind with (Q := fun x _ => dec_sid3 e sid = Ok x); [apply reader_lift| |].
    { intros s x _ _ H. apply lift_ok in H. apply H. }
    intros [[u0 c0] gid]. eapply spec_pure; [intros s _ [_ X]; exact X|]. intros D.
    eapply spec_pre with (P' := P); [tauto|].
    assert (Stable now P) as StP by (unfold P; stab).
    eapply spec_bind with (Q := fun _ _ => True); [exact StP| |].
    { apply spec_catch'.
      - eapply spec_seq with (Q := fun _ _ => True).
        + eapply spec_pre; [|apply db_set_spec; [exact W|eapply dec_sid3_separable; eauto]].
          intros s _ (_ & gid' & D' & O). split; [|cbn; split; discriminate]. intros u1 c1 g1 r X. rewrite D in D'. injection D' as -> -> ->.
          injection X; intros; subst; auto.
        + intros ?. apply spec_ret. auto.
      - intros x k X. injection X as <-. apply spec_ret. auto. }
    intros ok. eapply spec_pre with (P' := P); [tauto|].
    destruct (negb ok). { apply spec_ret. intros s H. split; auto. discriminate. }
    eapply spec_bind with (Q := fun r s => forall a, fst r = Good a -> answered u ar sid a s); [exact StP| |].
    { eapply spec_pre; [|apply create_authn_response_spec]. auto. }
    intros [args frag]. cbn [fst].
    assert (forall o, (forall a, ao_args o = Good a -> args = Good a) ->
      spec e now (fun s => P s /\ forall a, args = Good a -> answered u ar sid a s) (ret o)
        (fun o s => settled u ar sid s /\ forall a, ao_args o = Good a -> answered u ar sid a s)) as Fin.
    { intros o H. apply spec_ret. intros s (Ps & An). split; auto. }
    destruct uri as [v|]; [|apply Fin; discriminate].
    destruct (ar_response_mode ar) as [m|]; [|apply Fin; auto].
    destruct (response_mode m (Some frag)) as [[form fr]|x]; apply Fin; auto; discriminate.
  Qed.

  Lemma ebrm_err ar x o : error_by_response_mode ar x = Ok o -> ao_args o = Err x.
  Proof.
    unfold error_by_response_mode. destruct (ar_redirect_uri ar), (ar_response_mode ar); try discriminate.
    destruct (response_mode s0 None) as [[f fr]|y]; cbn; [|discriminate]. intros H. injection H as <-. reflexivity.
  Qed.

  Lemma authz_part2_spec u iframe ar sid uri :
    spec e now (ready e now u ar sid) (authz_part2 e now iframe ar sid uri)
      (fun o s => forall a, ao_args o = Good a -> answered u ar sid a s).
  Proof.
    unfold authz_part2.
    eapply spec_seq with (Q := fun r s => forall o a, r = Some o -> ao_args o = Good a -> answered u ar sid a s).
    { apply spec_catch'.
      - eapply spec_seq; [apply post_authentication_spec|]. intros o. apply spec_ret.
        intros s (_ & H) o' a X. injection X as <-. auto.
      - intros x k X. injection X as <-. apply spec_ret. discriminate. }
    assert (forall P, spec e now P (lift (error_by_response_mode ar "server_error"))
               (fun o s => forall a, ao_args o = Good a -> answered u ar sid a s)) as Er.
    { intros P. apply spec_lift. intros s o _ H a X. apply ebrm_err in H. congruence. }
    intros [o|]; [|apply Er]. cbv zeta.
    destruct iframe.
    2:{ apply spec_ret. intros s H a X. cbn in X. eauto. }
    eapply spec_bind with (Q := fun _ _ => True).
    { intros s s' L H o' a X Y. eapply st_answered; eauto. }
    { apply keeps_spec. apply keeps_catch.
      - apply keeps_bind; [apply keeps_reader, reader_get_event|]. intros; apply keeps_reader, reader_ret.
      - intros x k X. destruct (is_KeyError x); [|discriminate]. injection X as <-. apply keeps_reader, reader_ret. }
    intros [ev|]; [|apply Er].
    eapply spec_rbind with (Q := fun _ _ => True); [apply reader_need|auto|]. intros a.
    destruct (negb (event_valid now a)); [apply Er|].
    apply spec_ret. intros s ((H & _) & _) b X. cbn in X. eauto.
  Qed.

  Lemma login_spec iframe ar uid acr exp_in uri :
    good_id (ar_client_id ar) -> good_id uid ->
    spec e now (fun _ => True) (login e now iframe ar uid acr exp_in uri)
      (fun o s => forall a, ao_args o = Good a -> exists sid, answered uid ar sid a s).
  Proof.
    intros Gc Gu. unfold login. eapply spec_seq; [apply ep_create_session_spec; auto|].
    intros sid. eapply spec_post; [|apply authz_part2_spec]. intros o s _ H a X. eauto.
  Qed.

  Lemma authorize_spec deny iframe ar ru acr exp_in ans uri :
    good_id (ar_client_id ar) ->
    match ans with
    | ANobody => True
    | AUser u sid => good_id u /\ forall s u' c g, sid = Some s -> dec_sid3 e s = Ok (u', c, g) -> u' = u
    end ->
    spec e now (fun _ => True) (authorize e now deny iframe ar ru acr exp_in ans uri)
      (fun r s => forall o a, r = ROut o -> ao_args o = Good a -> exists u sid, answered u ar sid a s).
  Proof.
    intros Gc Pa. unfold authorize. destruct (dget (e_clients e) (ar_client_id ar)); [|apply spec_raise].
    eapply spec_rbind with (Q := fun _ _ => True); [apply reader_lift|auto|]. intros ?.
    eapply spec_seq with (Q := fun r s => forall sid u, r = SGo sid u -> ready e now u ar sid s).
    { eapply spec_pre with (P' := fun _ => True); [auto|]. apply setup_auth_spec; auto. }
    intros [| |sid u].
    - apply spec_ret. discriminate.
    - destruct (ar_response_mode ar); [|apply spec_ret; discriminate].
      eapply spec_rbind with (Q := fun _ _ => True); [apply reader_lift|auto|]. intros r. apply spec_ret. discriminate.
    - eapply spec_seq with (Q := fun o s => forall a, ao_args o = Good a -> answered u ar sid a s).
      { eapply spec_pre; [|apply authz_part2_spec]. intros s _ H. apply H. reflexivity. }
      intros o. apply spec_ret. intros s H o1 a1 X Y. injection X as <-. eauto.
  Qed.
End Specs.
