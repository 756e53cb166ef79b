(** Histories, part 8: token requests in two phases, and induction over the
    calls of a history. *)
From Verif Require Import M_Base M_Types M_Codec M_Grant M_Env M_Session M_Claims M_Handler
  M_Authz M_TokenEP M_PKCE M_AuthzEP M_Info M_Logout M_History S_Codec S_Grant S_Store S_History
  L_Base L_Codec L_Monad L_Grant L_Claims L_Store L_Hist1 L_Hist2 L_Hist3 L_Hist4 L_Hist5 L_Hist6 L_Hist7
  M_Dump L_Dump.

(** A parsed token request rests on a token of the store. *)
Definition pending (e : env) (q : treq) (s : st) : Prop :=
  (tr_grant_type q = CODE ->
     exists v l i t, tr_code q = Some v /\ has l i t s /\ t_value t = v /\ t_class t = CODE)
  /\ (tr_grant_type q = REFRESH ->
     exists v l i t, tr_refresh q = Some v /\ has l i t s /\ t_value t = v /\ t_class t = REFRESH
       /\ forall sc, tr_scope q = Some sc -> within e l sc s).

Lemma code_not_refresh : CODE <> REFRESH.
Proof. discriminate. Qed.

Section Specs.
  Variables (e : env) (now : Z).
  Hypothesis W : laws e.

  Lemma st_pending q : Stable now (pending e q).
  Proof.
    intros s s' L (A & B). split.
    - intros G. destruct (A G) as (v & l & i & t & X & H & Y). exists v, l, i, t. split; auto. split; auto.
      eapply (st_has now); eauto.
    - intros G. destruct (B G) as (v & l & i & t & X & H & Y & Z & U). exists v, l, i, t. split; auto.
      split; [eapply (st_has now); eauto|]. split; auto. split; auto. intros sc Es. eapply st_within; eauto.
  Qed.

  Lemma get_token_has s l g v t : hp s l = Some (OGrant g) -> get_token g v = Some t ->
    t_value t = v /\ exists i, has l i t s.
  Proof.
    intros H G. apply get_token_In in G as [I V]. apply In_nth_error in I as [i I].
    split; [exact V|]. exists i. eapply has_here; eauto.
  Qed.

  Lemma code_parse_spec q : tr_grant_type q = CODE ->
    spec e now (fun _ => True) (code_parse e now q) (fun r s => forall q', r = Good q' ->
      pending e q' s /\ tr_grant_type q' = CODE /\ tr_code q' = tr_code q /\ tr_redirect q' = tr_redirect q
      /\ (tr_client q <> None -> tr_client q' = tr_client q)).
  Proof.
    intros Eg. unfold code_parse.
    eapply spec_seq with (Q := fun o _ => forall c i, o = Some (c, i) -> tr_code q = Some c).
    { apply spec_catch'.
      - eapply spec_rbind with (Q := fun c _ => tr_code q = Some c).
        + destruct (tr_code q); auto using reader_ret, reader_raise.
        + intros s c _ _ H. destruct (tr_code q); [|discriminate]. apply ret_ok in H as [<- _]. auto.
        + intros c. eapply spec_pure; [intros s _ (_ & X); exact X|]. intros Ec.
          eapply spec_seq with (Q := fun _ _ => True); [apply spec_quiet, quiet_by_token|]. intros i.
          apply spec_ret. intros s _ c' i' X. congruence.
      - intros x k X. assert (k = ret None) as ->; [|apply spec_ret; discriminate].
        destruct (is_KeyError x); [congruence|]. destruct x; congruence. }
    intros [[c i]|]; [|apply spec_ret; discriminate].
    eapply spec_pure; [intros s _ H; exact (H c i eq_refl)|]. intros Ec.
    eapply spec_rbind with (Q := fun g s => hp s (ss_grant i) = Some (OGrant g)); [apply reader_grant_at| |].
    { intros s g _ _ H. apply grant_at_ok in H. apply H. }
    intros g. destruct (get_token g c) as [t|] eqn:Gt; [|apply spec_ret; discriminate].
    destruct (negb (String.eqb (t_class t) CODE)) eqn:Cl; [apply spec_ret; discriminate|].
    apply negb_false_iff, seqb_eq in Cl.
    destruct (e_oidc e && negb (Z.eqb (t_used t) 0)).
    { eapply spec_seq with (Q := fun _ _ => True); [apply keeps_spec, keeps_on_tokens, flags_revoke_token|].
      intros ?. apply spec_ret. discriminate. }
    destruct (negb (tok_active now t)); [apply spec_ret; discriminate|].
    assert (forall q', tr_grant_type q' = CODE -> tr_code q' = Some c -> forall s,
              hp s (ss_grant i) = Some (OGrant g) -> pending e q' s) as K.
    { intros q' G' C' s H. destruct (get_token_has _ _ _ _ _ H Gt) as (V & j & Hj). split.
      - intros _. exists c, (ss_grant i), j, t. auto.
      - intros X. rewrite G' in X. now apply code_not_refresh in X. }
    destruct (tr_client q) as [cl|] eqn:Ecl.
    - apply spec_ret. intros s (_ & H) q' X. injection X as <-. rewrite Eg, Ec. auto.
    - destruct (g_areq g); [|apply spec_raise]. apply spec_ret. intros s (_ & H) q' X. injection X as <-.
      cbn. rewrite Ec. split; [apply K; auto|]. split; auto. split; auto. split; auto. congruence.
  Qed.

  Lemma refresh_parse_spec q : tr_grant_type q = REFRESH ->
    spec e now (fun _ => True) (refresh_parse e now q) (fun r s => forall q', r = Good q' ->
      q' = q /\ pending e q s).
  Proof.
    intros Eg. unfold refresh_parse.
    eapply spec_rbind with (Q := fun v _ => tr_refresh q = Some v).
    { destruct (tr_refresh q); auto using reader_ret, reader_raise. }
    { intros s v _ _ H. destruct (tr_refresh q); [|discriminate]. apply ret_ok in H as [<- _]. auto. }
    intros v. eapply spec_pure; [intros s _ (_ & X); exact X|]. intros Ev.
    eapply spec_seq with (Q := fun _ _ => True).
    { eapply keeps_spec. apply keeps_catch.
      - apply keeps_bind; [apply keeps_quiet, quiet_by_token|]. intros ?. apply keeps_reader, reader_ret.
      - intros x k X. destruct (is_KeyError x); [|discriminate]. injection X as <-. apply keeps_reader, reader_ret. }
    intros [i|]; [|apply spec_ret; discriminate].
    eapply spec_rbind with (Q := fun g s => Inv e s /\ hp s (ss_grant i) = Some (OGrant g)); [apply reader_grant_at| |].
    { intros s g I _ H. apply grant_at_ok in H. split; auto. apply H. }
    intros g. destruct (get_token g v) as [t|] eqn:Gt; [|apply spec_ret; discriminate].
    destruct (negb (String.eqb (t_class t) REFRESH)) eqn:Cl; [apply spec_ret; discriminate|].
    apply negb_false_iff, seqb_eq in Cl.
    destruct (negb (tok_active now t)); [apply spec_ret; discriminate|].
    assert (forall s, hp s (ss_grant i) = Some (OGrant g) ->
              (forall sc, tr_scope q = Some sc -> within e (ss_grant i) sc s) -> pending e q s) as K.
    { intros s H Wi. destruct (get_token_has _ _ _ _ _ H Gt) as (V & j & Hj). split.
      - intros X. rewrite Eg in X. symmetry in X. now apply code_not_refresh in X.
      - intros _. exists v, (ss_grant i), j, t. auto. }
    destruct (tr_scope q) as [sc|] eqn:Es.
    - eapply spec_rbind with (Q := fun psc _ => parent_scope e g t = Ok psc); [apply reader_lift| |].
      { intros s psc _ _ H. apply lift_ok in H. apply H. }
      intros psc. destruct (subset_b sc psc) eqn:Sb; [|apply spec_ret; discriminate].
      apply spec_ret. intros s ((_ & I & H) & Ps) q' X. injection X as <-. split; auto. apply K; auto.
      intros sc' X. injection X as <-.
      eapply within_scope; eauto.
      + intros x Hx. eapply parent_scope_incl; eauto; [eapply get_token_In; eauto|].
        exact (proj1 (subset_b_incl _ _) Sb x Hx).
      + intros Z. apply get_token_In in Gt as [Gt _]. rewrite Z in Gt. destruct Gt.
    - apply spec_ret. intros s (_ & I & H) q' X. injection X as <-. split; auto. apply K; auto. discriminate.
  Qed.

  Lemma token_parse_spec cid q :
    spec e now (fun _ => True) (token_parse e now cid q) (fun r s => forall q', r = Good q' ->
      pending e q' s /\ tr_grant_type q' = tr_grant_type q /\ tr_code q' = tr_code q
      /\ tr_refresh q' = tr_refresh q /\ tr_redirect q' = tr_redirect q /\ tr_scope q' = tr_scope q
      /\ (tr_client q <> None -> tr_client q' = tr_client q)).
  Proof.
    unfold token_parse. destruct (dget (e_clients e) cid); [|apply spec_raise].
    destruct (match c_grant_types c with Some l => _ | None => _ end); [apply spec_ret; discriminate|].
    destruct (negb _); [apply spec_ret; discriminate|].
    destruct (String.eqb (tr_grant_type q) CODE) eqn:Gc; [apply seqb_eq in Gc|].
    - intros s r s' I p E. destruct (code_parse_spec q Gc _ _ _ I Logic.I E) as (I' & L & Q).
      split; auto. split; auto. intros o -> q' ->. destruct (Q _ eq_refl _ eq_refl) as (A & B & C & D & F).
      split; auto. split; [congruence|]. split; auto.
      assert (tr_refresh q' = tr_refresh q /\ tr_scope q' = tr_scope q) as [X Y].
      { clear - E. unfold code_parse in E. apply bind_inv in E as [(oi & s1 & _ & E)|(x & _ & X)]; [|discriminate].
        destruct oi as [[c i]|]; [|discriminate]. apply bind_inv in E as [(g & s2 & _ & E)|(x & _ & X)]; [|discriminate].
        destruct (get_token g c); [|discriminate]. destruct (negb _); [discriminate|].
        destruct (e_oidc e && _); [apply bind_inv in E as [(? & ? & _ & E)|(x & _ & X)]; discriminate|].
        destruct (negb _); [discriminate|]. destruct (tr_client q); [injection E as <- _; auto|].
        destruct (g_areq g); [|discriminate]. injection E as <- _. auto. }
      auto.
    - destruct (String.eqb (tr_grant_type q) REFRESH) eqn:Gr; [apply seqb_eq in Gr|apply spec_ret; discriminate].
      eapply spec_post; [|apply refresh_parse_spec; auto]. intros r s _ H q' ->.
      destruct (H _ eq_refl) as (-> & K). auto 10.
  Qed.

  (** The add-on only reads. *)
  Lemma pkce_check_spec q :
    spec e now (pending e q) (pkce_check e now q) (fun r s => forall q', r = Good q' -> q' = q /\ pending e q s).
  Proof.
    assert (keeps e now (pkce_check e now q)) as K.
    { unfold pkce_check. apply keeps_bind.
      - apply keeps_catch.
        + apply keeps_bind; [destruct (tr_code q); apply keeps_reader; auto using reader_ret, reader_raise|].
          intros c. apply keeps_bind; [apply keeps_quiet, quiet_by_token|]. intros ?. apply keeps_reader, reader_ret.
        + intros x k X. destruct (is_KeyError x); [|discriminate]. injection X as <-. apply keeps_reader, reader_ret.
      - intros [i|]; [|apply keeps_reader, reader_ret].
        apply keeps_bind; [apply keeps_reader, reader_grant_at|]. intros g.
        apply keeps_bind; [destruct (g_areq g); apply keeps_reader; auto using reader_ret, reader_raise|]. intros ar.
        destruct (ar_code_challenge ar); [|apply keeps_reader, reader_ret].
        destruct (tr_verifier q); [|apply keeps_reader, reader_ret].
        apply keeps_bind; [destruct (ar_code_challenge_method ar); apply keeps_reader; auto using reader_ret, reader_raise|].
        intros m. apply keeps_bind; [apply keeps_reader, reader_lift|]. intros b.
        destruct b; apply keeps_reader, reader_ret. }
    intros s r s' I P E. destruct (K _ _ _ I Logic.I E) as (I' & L & _). split; auto. split; auto.
    intros o -> q' ->. split; [|eapply st_pending; eauto]. clear - E. unfold pkce_check in E.
    apply bind_ok in E as (oi & s1 & _ & E). destruct oi as [i|]; [|discriminate].
    apply bind_ok in E as (g & s2 & _ & E). apply bind_ok in E as (ar & s3 & _ & E).
    destruct (ar_code_challenge ar) as [ch|]; [|injection E as <- _; auto].
    destruct (tr_verifier q) as [vf|]; [|discriminate].
    apply bind_ok in E as (m & s4 & _ & E). apply bind_ok in E as (b & s5 & _ & E).
    destruct b; [injection E as <- _; auto|discriminate].
  Qed.

  Lemma token_parse_all_spec cid q :
    spec e now (fun _ => True) (token_parse_all e now cid q) (fun r s => forall q', r = Good q' ->
      pending e q' s /\ tr_grant_type q' = tr_grant_type q /\ tr_code q' = tr_code q
      /\ tr_refresh q' = tr_refresh q /\ tr_redirect q' = tr_redirect q /\ tr_scope q' = tr_scope q
      /\ (tr_client q <> None -> tr_client q' = tr_client q)).
  Proof.
    unfold token_parse_all. eapply spec_seq; [apply token_parse_spec|]. intros [x|q1]; [apply spec_ret; discriminate|].
    destruct (e_pkce e && String.eqb (tr_grant_type q1) CODE).
    - intros s r s' I P E. pose proof (P _ eq_refl) as (A & B).
      destruct (pkce_check_spec q1 _ _ _ I A E) as (I' & L & Q). split; auto. split; auto.
      intros o Eo q' ->. destruct (Q _ Eo _ eq_refl) as (-> & Pq). auto.
    - apply spec_ret. intros s P q' X. injection X as <-. apply (P _ eq_refl).
  Qed.

  (** ** The processing phase *)
  Lemma token_process_code q issue v l i t :
    tr_grant_type q = CODE -> tr_code q = Some v -> t_value t = v -> t_class t = CODE ->
    spec e now (has l i t) (token_process e now q issue)
      (fun r s => forall a, r = Good a ->
         rs_access a <> None /\ served e now q l i t None a s /\ code_extra e now q l a s).
  Proof.
    intros Eg Ev Vv Cv. unfold token_process.
    eapply spec_seq with (Q := fun r s => forall a, r = Good a ->
       served e now q l i t None a s /\ code_extra e now q l a s).
    { destruct (negb _); [apply spec_ret; discriminate|]. apply spec_catch'.
      - rewrite Eg, String.eqb_refl. eapply code_process_spec; eauto.
      - intros x k X. assert (k = ret (Err "invalid_request")) as -> by (destruct x; congruence).
        apply spec_ret. discriminate. }
    intros [x|a]; [apply spec_ret; discriminate|].
    set (P := fun s => served e now q l i t None a s /\ code_extra e now q l a s).
    assert (Stable now P) as St by (apply st_and; [apply st_served|apply st_code_extra]).
    eapply spec_pre with (P' := P); [intros s _ H; exact (H a eq_refl)|].
    eapply spec_rbind with (Q := fun v _ => rs_access a = Some v).
    { destruct (rs_access a); auto using reader_ret, reader_raise. }
    { intros s w _ _ H. destruct (rs_access a); [|discriminate]. apply ret_ok in H as [<- _]. auto. }
    intros w. eapply spec_pure; [intros s _ (_ & X); exact X|]. intros Ea.
    eapply spec_pre with (P' := P); [tauto|].
    eapply spec_bind with (Q := fun _ _ => True); [exact St|apply spec_quiet, quiet_by_token|]. intros j.
    eapply spec_rbind with (Q := fun _ _ => True); [apply reader_grant_at|auto|]. intros ?.
    apply spec_ret. intros s ((H & _) & _) a' X. injection X as <-. split; [congruence|exact H].
  Qed.

  Lemma token_process_refresh q issue v l i t :
    tr_grant_type q = REFRESH -> tr_refresh q = Some v -> t_value t = v -> t_class t = REFRESH ->
    spec e now (fun s => has l i t s /\ forall sc, tr_scope q = Some sc -> within e l sc s)
      (token_process e now q issue)
      (fun r s => forall a, r = Good a ->
         served e now q l i t (Some (rs_scope a)) a s /\ refresh_extra e q l i t a s).
  Proof.
    intros Eg Ev Vv Cv. unfold token_process.
    eapply spec_seq with (Q := fun r s => forall a, r = Good a ->
       served e now q l i t (Some (rs_scope a)) a s /\ refresh_extra e q l i t a s).
    { destruct (negb _); [apply spec_ret; discriminate|]. apply spec_catch'.
      - rewrite Eg. change (String.eqb REFRESH CODE) with false. rewrite String.eqb_refl.
        eapply refresh_process_spec; eauto.
      - intros x k X. assert (k = ret (Err "invalid_request")) as -> by (destruct x; congruence).
        apply spec_ret. discriminate. }
    intros [x|a]; [apply spec_ret; discriminate|].
    set (P := fun s => served e now q l i t (Some (rs_scope a)) a s /\ refresh_extra e q l i t a s).
    assert (Stable now P) as St by (apply st_and; [apply st_served|apply st_refresh_extra]).
    eapply spec_pre with (P' := P); [intros s _ H; exact (H a eq_refl)|].
    eapply spec_rbind with (Q := fun _ _ => True); [|auto|].
    { destruct (rs_access a); auto using reader_ret, reader_raise. }
    intros w. eapply spec_pre with (P' := P); [tauto|].
    eapply spec_bind with (Q := fun _ _ => True); [exact St|apply spec_quiet, quiet_by_token|]. intros j.
    eapply spec_rbind with (Q := fun _ _ => True); [apply reader_grant_at|auto|]. intros ?.
    apply spec_ret. intros s ((H & _) & _) a' X. injection X as <-. exact H.
  Qed.

  (** Only the two modelled grant types give an answer. *)
  Lemma token_process_type q issue s s' a :
    token_process e now q issue s = (Ok (Good a), s') ->
    tr_grant_type q = CODE \/ tr_grant_type q = REFRESH.
  Proof.
    unfold token_process. intros E. apply bind_inv in E as [(r & s1 & E & E2)|(x & _ & X)]; [|discriminate].
    destruct (negb _); [apply ret_ok in E as [<- _]; discriminate|].
    apply catch_inv in E as [(a' & E1 & X)|[(x & s2 & k & E1 & X & E3)|(x & _ & _ & X)]].
    - destruct (String.eqb (tr_grant_type q) CODE) eqn:G1; [apply seqb_eq in G1; auto|].
      destruct (String.eqb (tr_grant_type q) REFRESH) eqn:G2; [apply seqb_eq in G2; auto|].
      apply ret_ok in E1 as [<- _]. injection X as ->. discriminate.
    - assert (k = ret (Err "invalid_request")) as -> by (destruct x; congruence).
      apply ret_ok in E3 as [<- _]. discriminate.
    - discriminate.
  Qed.

  Lemma keeps_token_process q issue :
    spec e now (pending e q) (token_process e now q issue) (fun _ _ => True).
  Proof.
    destruct (String.eqb (tr_grant_type q) CODE) eqn:G1; [apply seqb_eq in G1|].
    - intros s r s' I (P & _) E. destruct (P G1) as (v & l & i & t & Ev & H & Vv & Cv).
      destruct (token_process_code q issue v l i t G1 Ev Vv Cv _ _ _ I H E) as (I' & L & _). auto.
    - destruct (String.eqb (tr_grant_type q) REFRESH) eqn:G2; [apply seqb_eq in G2|].
      + intros s r s' I (_ & P) E. destruct (P G2) as (v & l & i & t & Ev & H & Vv & Cv & Wi).
        destruct (token_process_refresh q issue v l i t G2 Ev Vv Cv _ _ _ I (conj H Wi) E) as (I' & L & _). auto.
      + unfold token_process. rewrite G1, G2. apply keeps_spec.
        apply keeps_bind.
        * destruct (negb _); [apply keeps_reader, reader_ret|]. apply keeps_catch; [apply keeps_reader, reader_ret|].
          intros x k X. assert (k = ret (Err "invalid_request")) as -> by (destruct x; congruence).
          apply keeps_reader, reader_ret.
        * intros [x|a]; [apply keeps_reader, reader_ret|]. apply keeps_bind.
          { destruct (rs_access a); apply keeps_reader; auto using reader_ret, reader_raise. }
          intros w. apply keeps_bind; [apply keeps_quiet, quiet_by_token|]. intros j.
          apply keeps_bind; [apply keeps_reader, reader_grant_at|]. intros ?. apply keeps_reader, reader_ret.
  Qed.
End Specs.

(** ** The invariant of histories *)
Record HI (e : env) (h : hst) : Prop := {
  hi_inv : Inv e (h_st h);
  hi_parsed : Forall (fun q => pending e q (h_st h)) (h_parsed h)
}.

Lemma hi_init e always : HI e (h_init always).
Proof.
  constructor; [|constructor]. cbn. constructor; cbn; try (intros; match goal with
    | H : hp _ ?l = Some _ |- _ => unfold hp in H; cbn in H; destruct l; discriminate H end).
  - intros u c g l _ H. discriminate.
  - constructor.
  - intros k l H. discriminate.
Qed.

Section Step.
  Variables (e : env) (W : laws e).

  Lemma hi_on {A} now h (f : res A -> event) (m : M st A) ev h' :
    HI e h -> keeps e now m -> on_st h f m = (ev, h') ->
    HI e h' /\ st_later now (h_st h) (h_st h') /\ h_parsed h' = h_parsed h.
  Proof.
    unfold on_st. intros [I P] K E. destruct (m (h_st h)) as [r s] eqn:Em. injection E as _ <-. cbn.
    destruct (K _ _ _ I Logic.I Em) as (I' & L & _). split; [|auto]. constructor; auto. cbn.
    eapply Forall_impl; [|exact P]. intros q. eapply st_pending; eauto.
  Qed.

  Lemma keeps_reload now : keeps e now (reload e now).
  Proof.
    intros s r s' I _ E. destruct (reload_ok e now s I) as (s1 & E1 & R). rewrite E1 in E. injection E as <- <-.
    split; [eapply reloaded_inv; eauto|]. split; [eapply reloaded_later; eauto|auto].
  Qed.

  Lemma step_keeps h o ev h' : HI e h -> proper e o -> step e h o = (ev, h') ->
    HI e h' /\ st_later (op_time o) (h_st h) (h_st h')
    /\ (exists r, h_parsed h' = h_parsed h ++ r).
  Proof.
    intros Hh Po E.
    assert (forall now, op_time o = now -> (HI e h' /\ st_later now (h_st h) (h_st h') /\ h_parsed h' = h_parsed h) ->
      HI e h' /\ st_later (op_time o) (h_st h) (h_st h') /\ (exists r, h_parsed h' = h_parsed h ++ r)) as K.
    { intros now <- (A & B & C). split; auto. split; auto. exists []. now rewrite app_nil_r. }
    destruct o; cbn [step] in E; cbn [proper] in Po.
    - eapply K; [reflexivity|]. eapply hi_on; [auto| |exact E]. eapply spec_keeps, authorize_spec; tauto.
    - eapply K; [reflexivity|]. eapply hi_on; [auto| |exact E]. eapply spec_keeps, login_spec; tauto.
    - destruct (token_parse_all e now cid req (h_st h)) as [r s] eqn:Ep. injection E as _ <-.
      destruct Hh as [I P]. destruct (token_parse_all_spec e now cid req _ _ _ I Logic.I Ep) as (I' & L & Q).
      cbn. split; [|split; auto].
      + constructor; cbn; auto.
        assert (Forall (fun q => pending e q s) (h_parsed h)) as P'.
        { eapply Forall_impl; [|exact P]. intros q. eapply st_pending; eauto. }
        destruct r as [[x|q]|x]; auto. apply Forall_app. split; auto. constructor; auto.
        apply (Q _ eq_refl _ eq_refl).
      + destruct r as [[x|q]|x]; [exists []|exists [q]|exists []]; now rewrite ?app_nil_r.
    - destruct (nth_error (h_parsed h) i) as [q|] eqn:Nq.
      + eapply K; [reflexivity|]. unfold on_st in E. destruct Hh as [I P].
        destruct (token_process e now q issue (h_st h)) as [r s] eqn:Ep. injection E as _ <-.
        assert (pending e q (h_st h)) as Pq. { rewrite Forall_forall in P. apply P. eapply nth_error_In; eauto. }
        destruct (keeps_token_process e now W q issue _ _ _ I Pq Ep) as (I' & L & _). cbn. split; [|auto].
        constructor; auto. cbn. eapply Forall_impl; [|exact P]. intros q'. eapply st_pending; eauto.
      + injection E as _ <-. eapply K; [reflexivity|]. split; auto. split; auto. apply st_later_refl.
    - eapply K; [reflexivity|]. eapply hi_on; [auto| |exact E]. apply keeps_quiet, quiet_introspect.
    - eapply K; [reflexivity|]. eapply hi_on; [auto| |exact E]. apply keeps_quiet, quiet_userinfo.
    - eapply K; [reflexivity|]. eapply hi_on; [auto| |exact E]. apply keeps_logout; auto.
    - eapply K; [reflexivity|]. eapply hi_on; [auto| |exact E]. apply keeps_mgr_revoke_token; auto.
    - eapply K; [reflexivity|]. eapply hi_on; [auto| |exact E]. apply keeps_revoke_grant; auto.
    - eapply K; [reflexivity|]. eapply hi_on; [auto| |exact E]. apply keeps_revoke_client; auto.
    - eapply K; [reflexivity|]. eapply hi_on; [auto| |exact E]. apply keeps_remove; auto.
    - eapply K; [reflexivity|]. eapply hi_on; [auto| |exact E]. apply keeps_flush; auto.
    - eapply K; [reflexivity|]. eapply hi_on; [auto| |exact E]. apply keeps_reload.
  Qed.

  (** What every call keeps, a history keeps. *)
  Lemma exec_keeps (R : hst -> Prop) ops : forall h evs h',
    (forall h1 o ev h2, In o ops -> HI e h1 -> step e h1 o = (ev, h2) ->
       st_later (op_time o) (h_st h1) (h_st h2) -> R h1 -> R h2) ->
    HI e h -> Forall (proper e) ops -> exec e h ops = (evs, h') -> R h -> HI e h' /\ R h'.
  Proof.
    induction ops as [|o ops IH]; intros h evs h' K Hh Po E Rh; cbn in E.
    - injection E as _ <-. auto.
    - destruct (step e h o) as [ev h1] eqn:Es. destruct (exec e h1 ops) as [evs' h2] eqn:Ee.
      injection E as _ <-. inversion Po; subst. destruct (step_keeps _ _ _ _ Hh H1 Es) as (H1' & L & _).
      eapply IH; [|exact H1'|auto|exact Ee|].
      + intros h3 o3 ev3 h4 I3. apply K. now right.
      + eapply K; [now left| |exact Es| |]; auto.
  Qed.
  Lemma exec_hi ops h evs h' : HI e h -> Forall (proper e) ops -> exec e h ops = (evs, h') -> HI e h'.
  Proof. intros. eapply (exec_keeps (fun _ => True)); eauto. Qed.
  (** What is stable at any time, a history keeps. *)
  Lemma exec_stable (P : st -> Prop) ops h evs h' : (forall now, Stable now P) ->
    HI e h -> Forall (proper e) ops -> exec e h ops = (evs, h') -> P (h_st h) -> P (h_st h').
  Proof.
    intros St Hh Po E p. eapply (exec_keeps (fun h => P (h_st h)) ops); [|exact Hh|exact Po|exact E|exact p].
    intros h1 o ev h2 _ _ _ L. eapply St; eauto.
  Qed.
  Lemma history_hi ops evs h : history e ops evs h -> HI e h.
  Proof. intros (Po & a & E). eapply exec_hi; eauto. apply hi_init. Qed.

  (** The call behind an event. *)
  Lemma event_at ops : forall h evs h' i ev, HI e h -> Forall (proper e) ops -> exec e h ops = (evs, h') ->
    nth_error evs i = Some ev ->
    exists o h1 h2, nth_error ops i = Some o /\ exec e h (firstn i ops) = (firstn i evs, h1)
      /\ HI e h1 /\ proper e o /\ step e h1 o = (ev, h2) /\ HI e h2
      /\ Forall (proper e) (skipn (S i) ops) /\ exec e h2 (skipn (S i) ops) = (skipn (S i) evs, h').
  Proof.
    induction ops as [|o ops IH]; intros h evs h' i ev Hh Po E N; cbn in E.
    - injection E as <- _. now destruct i.
    - destruct (step e h o) as [ev1 h1] eqn:Es. destruct (exec e h1 ops) as [evs' h2] eqn:Ee.
      injection E as <- <-. inversion Po; subst. destruct (step_keeps _ _ _ _ Hh H1 Es) as (H1' & L & _).
      destruct i as [|i]; cbn in N.
      + injection N as <-. exists o, h, h1. cbn. auto 10.
      + destruct (IH _ _ _ _ _ H1' H2 Ee N) as (o' & h3 & h4 & A & B & C & D & F & G & K & Lx).
        exists o', h3, h4. cbn. rewrite Es, B. auto 10.
  Qed.
  Lemma exec_app ops1 : forall ops2 h, exec e h (ops1 ++ ops2) =
    let (evs1, h1) := exec e h ops1 in let (evs2, h2) := exec e h1 ops2 in (evs1 ++ evs2, h2).
  Proof.
    induction ops1 as [|o ops1 IH]; intros ops2 h; cbn.
    - now destruct (exec e h ops2).
    - destruct (step e h o) as [ev h1]. rewrite IH. destruct (exec e h1 ops1) as [evs1 h2].
      now destruct (exec e h2 ops2).
  Qed.
End Step.

(** ** Token events *)
Section Token.
  Variables (e : env) (W : laws e).

  Lemma token_event_code now h q issue l i t a s' v :
    HI e h -> token_process e now q issue (h_st h) = (Ok (Good a), s') ->
    tr_grant_type q = CODE -> tr_code q = Some v -> has l i t (h_st h) -> t_value t = v -> t_class t = CODE ->
    rs_access a <> None /\ served e now q l i t None a s' /\ code_extra e now q l a s'.
  Proof.
    intros [I _] E G C H V K.
    destruct (token_process_code e now W q issue v l i t G C V K _ _ _ I H E) as (_ & _ & Q).
    exact (Q _ eq_refl _ eq_refl).
  Qed.
  Lemma token_event_refresh now h q issue l i t a s' v :
    HI e h -> token_process e now q issue (h_st h) = (Ok (Good a), s') ->
    tr_grant_type q = REFRESH -> tr_refresh q = Some v -> has l i t (h_st h) -> t_value t = v ->
    t_class t = REFRESH -> (forall sc, tr_scope q = Some sc -> within e l sc (h_st h)) ->
    served e now q l i t (Some (rs_scope a)) a s' /\ refresh_extra e q l i t a s'.
  Proof.
    intros [I _] E G C H V K Wi.
    destruct (token_process_refresh e now W q issue v l i t G C V K _ _ _ I (conj H Wi) E) as (_ & _ & Q).
    exact (Q _ eq_refl _ eq_refl).
  Qed.

  (** The call behind a token answer. *)
  Lemma token_step h o q r h' : step e h o = (EvToken q r, h') ->
    exists now i issue s', o = OProcess now i issue /\ nth_error (h_parsed h) i = Some q
      /\ token_process e now q issue (h_st h) = (r, s') /\ h' = mk_hst s' (h_parsed h).
  Proof.
    intros E. destruct o; cbn [step] in E; unfold on_st in E;
      try (match type of E with (let (_, _) := ?m in _) = _ => destruct m end; discriminate E).
    destruct (nth_error (h_parsed h) i) as [q'|] eqn:N; [|discriminate].
    destruct (token_process e now q' issue (h_st h)) as [r' s'] eqn:Ep. injection E as <- <- <-.
    exists now, i, issue, s'. auto.
  Qed.

  (** A token that has been registered for is no parent of a second code answer. *)
  Lemma used_code_child s now l i t tc sc v : Inv e s -> t_class t = CODE -> (1 <= t_used t)%Z ->
    ~ child e now l i t tc sc v s.
  Proof.
    intros I C U (b & u & Lb & (g & b' & Hg & Nb & Lb') & _ & (j & g1 & t1 & _ & _ & _ & _ & _ & M)).
    destruct M as (_ & _ & _ & _ & B & _). destruct (B b eq_refl) as [_ A].
    apply tok_active_live in A. destruct A as (_ & A & _). unfold live in *.
    pose proof (gi_tok _ _ (inv_grants _ _ I _ _ Hg) b' (nth_error_In _ _ Nb)) as T.
    pose proof (to_code _ _ T) as Tc.
    destruct Lb as (C1 & _ & _ & _ & _ & _ & _ & _ & _ & _ & _ & _ & _ & U1).
    destruct Lb' as (C2 & _ & _ & R2 & _).
    rewrite C2, C1, R2 in Tc. specialize (Tc C). specialize (A _ Tc). lia.
  Qed.
  Lemma revoked_child s now l i t tc sc v : t_revoked t = true -> ~ child e now l i t tc sc v s.
  Proof.
    intros R (b & u & Lb & _ & _ & (j & g1 & t1 & _ & _ & _ & _ & _ & M)).
    destruct M as (_ & _ & _ & _ & B & _). destruct (B b eq_refl) as [_ A].
    apply tok_active_live in A. destruct A as (A & _).
    destruct Lb as (_ & _ & _ & _ & _ & _ & _ & _ & _ & _ & _ & _ & Rv & _). rewrite (Rv R) in A. discriminate.
  Qed.

  Lemma has_later s l i t t' : has l i t' s -> token_later t t' -> has l i t s.
  Proof.
    intros (g & u & H & N & L) K. exists g, u. split; auto. split; auto. eapply token_later_trans; eauto.
  Qed.

  Lemma has_now s l i t : Inv e s -> has l i t s ->
    exists t', has l i t' s /\ token_later t t' /\ (0 <= t_used t')%Z.
  Proof.
    intros I (g & u & H & N & L). exists u. split; [eapply has_here; eauto|]. split; auto.
    apply (to_used _ _ (gi_tok _ _ (inv_grants _ _ I _ _ H) u (nth_error_In _ _ N))).
  Qed.
  Lemma nth_error_skipn' {A} n (xs : list A) i : nth_error (skipn n xs) i = nth_error xs (n + i).
  Proof. revert xs; induction n as [|n IH]; intros [|x xs]; cbn; auto; now destruct i. Qed.
  Lemma Forall_firstn' {A} (P : A -> Prop) n xs : Forall P xs -> Forall P (firstn n xs).
  Proof. intros H. revert n. induction H; intros [|n]; cbn; auto. Qed.

  (** Two token answers in one history. *)
  Lemma two_answers ops evs h i j q q' r r' : history e ops evs h ->
    nth_error evs i = Some (EvToken q r) -> nth_error evs j = Some (EvToken q' r') -> i < j ->
    exists now k issue h1 s2 now' k' issue' h3 s4,
      HI e h1 /\ pending e q (h_st h1) /\ token_process e now q issue (h_st h1) = (r, s2)
      /\ Inv e s2 /\ HI e h3 /\ pending e q' (h_st h3)
      /\ token_process e now' q' issue' (h_st h3) = (r', s4) /\ Inv e s4
      /\ nth_error ops i = Some (OProcess now k issue) /\ nth_error ops j = Some (OProcess now' k' issue')
      /\ (forall P : st -> Prop, (forall n, Stable n P) -> P s2 -> P (h_st h3)).
  Proof.
    intros (Po & al & E) Ni Nj Lt.
    destruct (event_at e W _ _ _ _ _ _ (hi_init e al) Po E Ni) as (o & h1 & h2 & No & _ & H1 & _ & S1 & H2 & P2 & E2).
    apply token_step in S1 as (now & k & issue & s' & -> & Nq & Ep & ->).
    assert (nth_error (skipn (S i) evs) (j - S i) = Some (EvToken q' r')) as Nj'.
    { rewrite nth_error_skipn'. rewrite <- Nj. f_equal. lia. }
    destruct (event_at e W _ _ _ _ _ _ H2 P2 E2 Nj') as (o' & h3 & h4 & No' & E3 & H3 & _ & S3 & H4 & _).
    apply token_step in S3 as (now' & k' & issue' & s3 & -> & Nq' & Ep' & ->).
    exists now, k, issue, h1, s', now', k', issue', h3, s3.
    split; [exact H1|]. split; [apply (proj1 (Forall_forall _ _) (hi_parsed _ _ H1)); eapply nth_error_In; eauto|].
    split; auto. split; [apply H2|]. split; auto.
    split; [apply (proj1 (Forall_forall _ _) (hi_parsed _ _ H3)); eapply nth_error_In; eauto|].
    split; auto. split; [apply H4|]. split; auto. split.
    { rewrite nth_error_skipn' in No'. rewrite <- No'. f_equal. lia. }
    intros P St p. eapply (exec_stable e W P); [exact St|exact H2| |exact E3|exact p].
    apply Forall_firstn'. exact P2.
  Qed.

  (** At most one answer for a code. *)
  Lemma code_once_lt ops evs h i j q q' a a' : history e ops evs h ->
    nth_error evs i = Some (EvToken q (Ok (Good a))) -> nth_error evs j = Some (EvToken q' (Ok (Good a'))) ->
    tr_grant_type q = CODE -> tr_grant_type q' = CODE -> tr_code q = tr_code q' -> i < j -> False.
  Proof.
    intros Hi Ni Nj G G' C Lt.
    destruct (two_answers _ _ _ _ _ _ _ _ _ Hi Ni Nj Lt) as
      (now & k & issue & h1 & s2 & now' & k' & issue' & h3 & s4 & H1 & (Pq & _) & Ep & I2 & H3 & _ & Ep' & I4 & _ & _ & St).
    destruct (Pq G) as (v & l & m & t0 & Ev & Ht0 & Vt0 & Ct0).
    destruct (has_now _ _ _ _ (hi_inv _ _ H1) Ht0) as (t & Ht & Lt0 & Ut).
    assert (t_value t = v) as Vt by (destruct Lt0 as (_ & X & _); congruence).
    assert (t_class t = CODE) as Ct by (destruct Lt0 as (X & _); congruence).
    destruct (token_event_code now h1 q issue l m t a s2 v) as (_ & Sv & _); auto.
    destruct Sv as (_ & _ & _ & _ & (t1 & L1 & Hr)).
    assert (has l m (tok_register t1) (h_st h3)) as Hr3.
    { apply St; auto. intros n. apply (st_has n). }
    destruct (token_event_code now' h3 q' issue' l m (tok_register t1) a' s4 v) as (Na & Sv & _); auto.
    { congruence. } { cbn. destruct L1 as (_ & X & _). congruence. } { cbn. destruct L1 as (X & _). congruence. }
    destruct Sv as (_ & Ac & _). destruct (rs_access a') as [w|]; [|congruence].
    eapply used_code_child; [exact I4| | |exact (Ac w eq_refl)].
    - cbn. destruct L1 as (X & _). congruence.
    - cbn. destruct L1 as (_ & _ & _ & _ & _ & _ & _ & _ & _ & _ & _ & _ & _ & Z). lia.
  Qed.
  Lemma code_once ops evs h i j q q' a a' : history e ops evs h ->
    nth_error evs i = Some (EvToken q (Ok (Good a))) -> nth_error evs j = Some (EvToken q' (Ok (Good a'))) ->
    tr_grant_type q = CODE -> tr_grant_type q' = CODE -> tr_code q = tr_code q' -> i = j.
  Proof.
    intros Hi Ni Nj G G' C. destruct (Nat.lt_trichotomy i j) as [L|[L|L]]; auto; exfalso.
    - eapply code_once_lt; [exact Hi|exact Ni|exact Nj|..]; auto.
    - eapply code_once_lt; [exact Hi|exact Nj|exact Ni|..]; auto.
  Qed.

  (** A rotated refresh token gives no second answer. *)
  Lemma refresh_once_lt ops evs h i j q q' a a' c : history e ops evs h ->
    nth_error evs i = Some (EvToken q (Ok (Good a))) -> nth_error evs j = Some (EvToken q' (Ok (Good a'))) ->
    tr_grant_type q = REFRESH -> tr_grant_type q' = REFRESH -> tr_refresh q = tr_refresh q' ->
    tr_client q = Some c -> revoke_refresh e c = true -> i < j -> False.
  Proof.
    intros Hi Ni Nj G G' C Ec Rr Lt.
    destruct (two_answers _ _ _ _ _ _ _ _ _ Hi Ni Nj Lt) as
      (now & k & issue & h1 & s2 & now' & k' & issue' & h3 & s4 & H1 & (_ & Pq) & Ep & I2 & H3 & (_ & Pq') & Ep' & I4 & _ & _ & St).
    destruct (Pq G) as (v & l & m & t & Ev & Ht & Vt & Ct & Wi).
    destruct (token_event_refresh now h1 q issue l m t a s2 v) as (_ & Xt); auto.
    destruct Xt as (_ & _ & Rv & _). destruct (Rv c Ec Rr) as (t1 & L1 & Hr & R1).
    assert (has l m t1 (h_st h3)) as Hr3 by (apply St; auto; intros n; apply (st_has n)).
    destruct (Pq' G') as (v' & l' & m' & t' & Ev' & Ht' & Vt' & Ct' & Wi').
    assert (v' = v) by congruence. subst v'.
    assert (t_value t1 = v) as V1 by (destruct L1 as (_ & X & _); congruence).
    destruct (has_place e _ _ _ _ _ _ _ (hi_inv _ _ H3) Hr3 Ht') as [<- <-]; [congruence|].
    destruct (token_event_refresh now' h3 q' issue' l m t1 a' s4 v) as (Sv & Xt'); auto.
    { congruence. } { destruct L1 as (X & _). congruence. }
    destruct Sv as (_ & Ac & _). destruct Xt' as (_ & _ & _ & Na).
    destruct (rs_access a') as [w|]; [|congruence].
    eapply revoked_child; [exact R1|exact (Ac w eq_refl)].
  Qed.
End Token.
