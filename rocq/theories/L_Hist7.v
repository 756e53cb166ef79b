(** Histories, part 7: the token endpoint. *)
From Verif Require Import M_Base M_Types M_Codec M_Grant M_Env M_Session M_Claims M_Handler
  M_Authz M_TokenEP M_PKCE M_AuthzEP M_Info M_Logout M_History S_Codec S_Grant S_Store S_History
  L_Base L_Codec L_Monad L_Grant L_Claims L_Store L_Hist1 L_Hist2 L_Hist3 L_Hist4 L_Hist5 L_Hist6.

Lemma find_pos_gen v ts : forall k i, find_pos v ts k = Some i ->
  exists j t, i = k + j /\ nth_error ts j = Some t /\ t_value t = v.
Proof.
  induction ts as [|t ts IH]; intros k i H; [discriminate|]. cbn in H.
  destruct (String.eqb (t_value t) v) eqn:E.
  - injection H as <-. apply seqb_eq in E. exists 0, t. split; [lia|auto].
  - destruct (IH _ _ H) as (j & t' & -> & N & V). exists (S j), t'. split; [lia|auto].
Qed.
Lemma find_pos_ok v ts i : find_pos v ts 0 = Some i ->
  exists t, nth_error ts i = Some t /\ t_value t = v.
Proof. intros H. apply find_pos_gen in H as (j & t & -> & N & V). eauto. Qed.

(** Text without blanks is not changed by the replacement. *)
Lemma replace_char_id a b v : ~ occurs_in (String a "") v -> replace_char a b v = v.
Proof.
  induction v as [|c v IH]; intros H; cbn; auto. f_equal.
  - destruct (Ascii.eqb c a) eqn:E; auto. apply Ascii.eqb_eq in E. subst c. exfalso. apply H.
    exists "", v. reflexivity.
  - apply IH. intros (p & q & ->). apply H. exists (String c p), q. reflexivity.
Qed.

Section Specs.
  Variables (e : env) (now : Z).
  Hypothesis W : laws e.

  (** Two places that hold the same token text are the same place. *)
  Lemma has_place s l i l' i' t t' : Inv e s -> has l i t s -> has l' i' t' s ->
    t_value t = t_value t' -> l = l' /\ i = i'.
  Proof.
    intros I (g & u & H & N & L) (g' & u' & H' & N' & L') V.
    eapply (inv_vals _ _ I l l'); eauto.
    destruct L as (_ & -> & _), L' as (_ & -> & _). exact V.
  Qed.
  Lemma has_made s l i t : Inv e s -> has l i t s -> exists n, made e n (t_value t).
  Proof.
    intros I (g & u & H & N & L). destruct (inv_made _ _ I l g u H) as (n & M & _).
    { eapply nth_error_In; eauto. }
    exists n. destruct L as (_ & V & _). congruence.
  Qed.
  Lemma has_final s l i t : Inv e s -> has l i t s -> final e l s.
  Proof.
    intros I (g & u & H & N & L). exists g. split; auto. intros _.
    apply (gi_final _ _ (inv_grants _ _ I _ _ H)). intros Z. rewrite Z in N. now destruct i.
  Qed.

  (** The session of a token text. *)
  Lemma by_token_spec v P : spec e now P (get_session_info_by_token e now v)
    (fun i s => dec_sid3 e (ss_sid i) = Ok (ss_user i, ss_client i, ss_gid i)
                /\ owns e s (ss_grant i) (ss_user i) (ss_client i) (ss_gid i)).
  Proof.
    unfold get_session_info_by_token.
    eapply spec_seq with (Q := fun _ _ => True); [apply keeps_spec, keeps_reader, reader_lift|]. intros ti.
    destruct (negb _); [apply spec_raise|].
    eapply spec_seq with (Q := fun _ _ => True); [apply keeps_spec, keeps_quiet, quiet_compatible|]. intros sid.
    apply spec_reader; [apply reader_get_session_info|]. intros s i I _ H.
    destruct (get_session_info_read _ _ _ _ I H) as (E & D & _ & O). rewrite E. auto.
  Qed.

  (** A token of class [tc] made during this call from the token [t0] at
      [(l, i)], which was active. *)
  Definition child (l i : nat) (t0 : token) (tc : string) (scope : option (list string)) (v : string)
      (s : st) : Prop :=
    exists b t, token_later t0 b /\ has l i b s /\ v = t_value t
      /\ fresh_tok e now l tc (Some b) scope t s.
  Lemma st_child l i t0 tc scope v : Stable now (child l i t0 tc scope v).
  Proof.
    intros s s' L (b & t & A & B & C & D). exists b, t. split; auto. split; [eapply (st_has now); eauto|].
    split; auto. eapply st_fresh; eauto.
  Qed.

  (** The answer [a] to [q] comes from the token [t0] at [(l, i)]. *)
  Definition served (q : treq) (l i : nat) (t0 : token) (sc : option (list string)) (a : tresp) (s : st) : Prop :=
    (exists u c gid, owns e s l u c gid /\ tr_client q = Some c)
    /\ (forall v, rs_access a = Some v -> child l i t0 ACCESS sc v s)
    /\ (forall v, rs_refresh a = Some v -> child l i t0 REFRESH sc v s)
    /\ (forall v, rs_id a = Some v -> child l i t0 IDTOKEN sc v s)
    /\ (exists t1, token_later t0 t1 /\ has l i (tok_register t1) s).
  Lemma st_served q l i t0 sc a : Stable now (served q l i t0 sc a).
  Proof.
    intros s s' L ((u & c & gid & O & C) & A & R & D & (t1 & T & H)).
    split. { exists u, c, gid. split; auto. eapply owns_later; eauto. }
    split. { intros v V. eapply st_child; eauto. }
    split. { intros v V. eapply st_child; eauto. }
    split. { intros v V. eapply st_child; eauto. }
    exists t1. split; auto. eapply (st_has now); eauto.
  Qed.

  Lemma place_pre s l sid i b tc scope : Inv e s -> has l i b s -> fits e sid l s ->
    (t_class b = CODE \/ t_class b = REFRESH) -> tc <> CODE ->
    (forall sc, scope = Some sc -> tc <> IDTOKEN -> within e l sc s) ->
    mint_pre e l sid tc (Some b) scope s.
  Proof.
    intros I H Fs C Nc S. split; [eapply has_final; eauto|]. split; auto. split; [|split; [auto|congruence]].
    intros b' X. injection X as <-. eauto.
  Qed.

  (** Minting from the token at a place. *)
  Lemma mint_child l sid i t0 b tc scope ttype :
    token_later t0 b ->
    (t_class t0 = CODE \/ t_class t0 = REFRESH) -> tc <> CODE ->
    spec e now (fun s => has l i b s /\ fits e sid l s /\ (forall sc, scope = Some sc -> tc <> IDTOKEN -> within e l sc s))
      (mint_value e now l sid tc (Some b) scope ttype)
      (fun t s => child l i t0 tc scope (t_value t) s).
  Proof.
    intros L C Nc. eapply spec_post with (Q' := fun t s => fresh_tok e now l tc (Some b) scope t s /\ has l i b s).
    { intros t s _ (F & H). exists b, t. auto. }
    eapply spec_pre with (P' := fun s => mint_pre e l sid tc (Some b) scope s /\ has l i b s).
    { intros s I (H & Fs & S). split; auto. apply place_pre with i; auto. destruct L as (-> & _). exact C. }
    apply spec_frame; [apply st_has|]. apply mint_value_spec; auto.
  Qed.
  Lemma rotate_child l sid i t0 b sc :
    token_later t0 b ->
    (t_class t0 = CODE \/ t_class t0 = REFRESH) ->
    spec e now (fun s => has l i b s /\ fits e sid l s /\ within e l sc s)
      (mint_rotated e now l sid b sc)
      (fun t s => child l i t0 REFRESH (Some sc) (t_value t) s).
  Proof.
    intros L C. eapply spec_post with (Q' := fun t s => fresh_tok e now l REFRESH (Some b) (Some sc) t s /\ has l i b s).
    { intros t s _ (F & H). exists b, t. auto. }
    eapply spec_pre with (P' := fun s => mint_pre e l sid REFRESH (Some b) (Some sc) s /\ has l i b s).
    { intros s I (H & Fs & S). split; auto. apply place_pre with i; auto.
      - destruct L as (-> & _). exact C.
      - discriminate.
      - intros sc' X _. injection X as <-. exact S. }
    apply spec_frame; [apply st_has|]. apply mint_rotated_spec; auto.
  Qed.

  Lemma has_tok_at l i t0 s b : has l i t0 s -> tok_at l i s = (Ok b, s) -> token_later t0 b /\ has l i b s.
  Proof.
    intros (g & t & H & N & L) E. apply tok_at_ok in E as (_ & g' & H' & N').
    rewrite H in H'. injection H' as <-. rewrite N in N'. injection N' as <-. split; auto.
    eapply has_here; eauto.
  Qed.

  (** The grant read at the start is seen by the rest. *)
  Lemma within_scope s l g sc : Inv e s -> hp s l = Some (OGrant g) -> incl sc (g_scope g) ->
    g_tokens g <> [] -> within e l sc s.
  Proof.
    intros I H C N. exists g. split; auto.
    rewrite <- (gi_final _ _ (inv_grants _ _ I _ _ H) N). exact C.
  Qed.

  Lemma parent_scope_incl s l g t sc : Inv e s -> hp s l = Some (OGrant g) -> In t (g_tokens g) ->
    parent_scope e g t = Ok sc -> incl sc (g_scope g).
  Proof.
    intros I H It P. unfold parent_scope in P. eapply find_scope_incl; [| | |exact P].
    - intros t0 I0. destruct (string_dec (t_class t0) IDTOKEN); auto. left.
      apply (gi_tok _ _ (inv_grants _ _ I _ _ H) t0 I0). auto.
    - intros t0 v I0 B0 p Gp. apply not_idt_cases.
      eapply (parent_class e g); eauto. eapply inv_grants; eauto. eapply inv_nodup; eauto.
    - destruct (t_based t) as [v|] eqn:B; auto. destruct (get_token g v) as [p|] eqn:Gp; auto. split.
      + exists p. split; [eapply get_token_In; eauto|apply token_later_refl].
      + apply not_idt_cases. eapply (parent_class e g); eauto. eapply inv_grants; eauto. eapply inv_nodup; eauto.
  Qed.

  (** ** Redeeming a code *)
  Definition code_extra (q : treq) (l : nat) (a : tresp) (s : st) : Prop :=
    exists g ar, sees now l g s /\ g_areq g = Some ar
      /\ (forall uri, ar_redirect_uri ar = Some uri -> tr_redirect q = Some uri)
      /\ rs_scope a = g_scope g
      /\ (forall v, rs_refresh a = Some v ->
            exists c gts, tr_client q = Some c /\ grant_types_of e c = Ok gts /\ In REFRESH gts).

  Lemma catch_child l i t0 tc scope (m : M st token) h (P : st -> Prop) :
    spec e now P m (fun t s => child l i t0 tc scope (t_value t) s) ->
    (forall x k, h x = Some k -> k = ret None) ->
    spec e now P (catch (a <- m ;; ret (Some a)) h)
      (fun o s => forall t, o = Some t -> child l i t0 tc scope (t_value t) s).
  Proof.
    intros H K. apply spec_catch'.
    - eapply spec_seq; [exact H|]. intros t. apply spec_ret. intros s C t' X. injection X as <-. exact C.
    - intros x k X. rewrite (K _ _ X). apply spec_ret. discriminate.
  Qed.
  Lemma st_opt_child l i t0 tc scope o : Stable now (fun s => forall t, o = Some t -> child l i t0 tc scope (t_value t) s).
  Proof. intros s s' L H t X. eapply st_child; eauto. Qed.

  Lemma code_process_spec q issue v l0 i0 t0 :
    tr_code q = Some v -> t_value t0 = v -> t_class t0 = CODE ->
    spec e now (has l0 i0 t0) (code_process e now q issue)
      (fun r s => forall a, r = Good a -> served q l0 i0 t0 None a s /\ code_extra q l0 a s).
  Proof.
    intros Ev Vv Cv. unfold code_process. rewrite Ev.
    destruct (negb (String.eqb (tr_grant_type q) CODE)); [apply spec_ret; discriminate|].
    eapply spec_pure with (phi := replace_char " " "+" v = v).
    { intros s I H. destruct (has_made _ _ _ _ I H) as (n & M). rewrite <- Vv.
      apply replace_char_id. apply (law_text _ W _ _ M). }
    intros Rc. rewrite Rc. cbv zeta.
    eapply spec_bind; [apply st_has|apply by_token_spec|]. intros i.
    eapply spec_pure; [intros s _ (_ & X & _); exact X|]. intros D.
    eapply spec_rbind with (Q := fun rc _ => tr_client q = Some rc).
    { destruct (tr_client q); auto using reader_ret, reader_raise. }
    { intros s rc _ _ H. destruct (tr_client q); [|discriminate]. apply ret_ok in H as [<- _]. auto. }
    intros rc. destruct (negb (String.eqb (ss_client i) rc)) eqn:Ec; [apply spec_ret; discriminate|].
    apply negb_false_iff, seqb_eq in Ec. subst rc.
    eapply spec_pure; [intros s _ (_ & X); exact X|]. intros Eq.
    eapply spec_rbind with (Q := fun gts _ => grant_types_of e (ss_client i) = Ok gts); [apply reader_lift| |].
    { intros s gts _ _ H. apply lift_ok in H. apply H. }
    intros gts. eapply spec_pure; [intros s _ (_ & X); exact X|]. intros Egt.
    set (l := ss_grant i) in *. set (sid := ss_sid i) in *.
    set (P0 := fun s => has l0 i0 t0 s /\ owns e s l (ss_user i) (ss_client i) (ss_gid i)).
    eapply spec_pre with (P' := P0); [intros s _ H; split; apply H|].
    assert (Stable now P0) as St0 by (unfold P0; stab).
    eapply spec_rbind with (Q := fun g s => hp s l = Some (OGrant g)); [apply reader_grant_at| |].
    { intros s g _ _ H. apply grant_at_ok in H. apply H. }
    intros g.
    set (P1 := fun s => P0 s /\ sees now l g s).
    eapply spec_pre with (P' := P1). { intros s _ (H & K). split; auto. now apply sees_here. }
    assert (Stable now P1) as St1 by (unfold P1; apply st_and; [exact St0|apply st_sees]).
    set (dp := if e_oidc e && e_dpop e then _ else _).
    eapply spec_bind with (Q := fun _ _ => True); [exact St1| |].
    { apply keeps_spec. destruct dp; [apply keeps_set_extra|apply keeps_reader, reader_ret]. }
    intros []. eapply spec_pre with (P' := P1); [tauto|].
    eapply spec_rbind with (Q := fun pos _ => find_pos v (g_tokens g) 0 = Some pos); [apply reader_need| |].
    { intros s pos _ _ H. destruct (find_pos v (g_tokens g) 0); [|discriminate]. apply ret_ok in H as [<- _]. auto. }
    intros pos. eapply spec_pure; [intros s _ (_ & X); exact X|]. intros Fp.
    apply find_pos_ok in Fp as (tv & Np & Vp).
    eapply spec_pure with (phi := l = l0 /\ pos = i0).
    { intros s I (((H0 & _) & (g' & Hg & Lg)) & _).
      assert (tokens_later (g_tokens g) (g_tokens g')) as Tl by apply Lg.
      destruct (Tl _ _ Np) as (tv' & Np' & Lt). apply (has_place s l pos l0 i0 tv' t0 I).
      - eapply has_here; eauto.
      - exact H0.
      - destruct Lt as (_ & Vt & _). congruence. }
    intros (El & Epos). subst pos. clearbody l. subst l.
    eapply spec_pre with (P' := P1); [tauto|].
    eapply spec_rbind with (Q := fun b s => token_later t0 b /\ has l0 i0 b s); [apply reader_tok_at| |].
    { intros s b _ ((H0 & _) & _) H. eapply has_tok_at; eauto. }
    intros b. eapply spec_pure; [intros s _ (_ & X & _); exact X|]. intros Lb. cbv zeta.
    set (mints := match r_minting (t_rules b) with Some m => m | None => [] end).
    set (P2 := fun s => P1 s /\ has l0 i0 b s).
    eapply spec_pre with (P' := P2). { intros s _ (H & _ & K). split; auto. }
    assert (Stable now P2) as St2 by (unfold P2; apply st_and; [exact St1|apply st_has]).
    eapply spec_rbind with (Q := fun ar _ => g_areq g = Some ar).
    { destruct (g_areq g); auto using reader_ret, reader_raise. }
    { intros s ar _ _ H. destruct (g_areq g); [|discriminate]. apply ret_ok in H as [<- _]. auto. }
    intros ar. eapply spec_pure; [intros s _ (_ & X); exact X|]. intros Ear.
    eapply spec_pre with (P' := P2); [tauto|].
    eapply spec_rbind with (Q := fun same _ => same = true ->
       forall uri, ar_redirect_uri ar = Some uri -> tr_redirect q = Some uri).
    { destruct (ar_redirect_uri ar); [|apply reader_ret].
      destruct (tr_redirect q); auto using reader_ret, reader_raise. }
    { intros s same _ _ H Es uri Eu. rewrite Eu in H. destruct (tr_redirect q) as [w|]; [|discriminate].
      apply ret_ok in H as [H _]. rewrite Es in H. apply seqb_eq in H. now subst. }
    intros same. eapply spec_pure; [intros s _ (_ & X); exact X|]. intros Esame.
    destruct same; cbn [negb]; [|apply spec_ret; discriminate]. specialize (Esame eq_refl).
    eapply spec_pre with (P' := P2); [tauto|].
    assert (forall s, P2 s -> fits e sid l0 s) as Fs2.
    { intros s (((_ & O) & _) & _). eexists _, _, _. eauto. }
    assert (t_class t0 = CODE \/ t_class t0 = REFRESH) as Cl by auto.
    (* access token *)
    eapply spec_bind with (Q := fun o s => forall t, o = Some t -> child l0 i0 t0 ACCESS None (t_value t) s); [exact St2| |].
    { destruct (smem ACCESS mints); [|apply spec_ret; discriminate]. apply catch_child.
      - eapply spec_pre; [|apply mint_child; eauto; discriminate]. intros s _ H.
        split; [apply H|]. split; [|discriminate]. apply Fs2. exact H.
      - intros x k X. destruct x; try discriminate X. congruence. }
    intros access.
    set (P3 := fun s => P2 s /\ forall t, access = Some t -> child l0 i0 t0 ACCESS None (t_value t) s).
    assert (Stable now P3) as St3 by (unfold P3; apply st_and; [exact St2|apply st_opt_child]).
    eapply spec_pre with (P' := P3); [intros ? _ HH; exact HH|].
    (* refresh token *)
    eapply spec_bind with (Q := fun o s => (forall t, o = Some t -> child l0 i0 t0 REFRESH None (t_value t) s)
                                 /\ (o <> None -> In REFRESH gts)); [exact St3| |].
    { match goal with |- context[if ?c then _ else _] => destruct c eqn:Ei end; [|apply spec_ret; split; [discriminate|congruence]].
      apply andb_prop in Ei as [_ Ei]. apply smem_In in Ei.
      eapply spec_rbind with (Q := fun b' s => token_later t0 b' /\ has l0 i0 b' s); [apply reader_tok_at| |].
      { intros s b' _ ((((H0 & _) & _) & _) & _) H. eapply has_tok_at; eauto. }
      intros b'. eapply spec_pure; [intros s _ (_ & X & _); exact X|]. intros Lb'.
      eapply spec_post; [|apply catch_child].
      - intros o s _ H. split; [exact H|auto].
      - eapply spec_pre; [|apply mint_child; eauto; discriminate]. intros s _ (H2 & _ & H). split; auto.
        split; [|discriminate]. apply Fs2. apply H2.
      - intros x k X. destruct x; try discriminate X. congruence. }
    intros refresh.
    eapply spec_pure; [intros s _ (_ & _ & X); exact X|]. intros Rg.
    set (P4 := fun s => P3 s /\ forall t, refresh = Some t -> child l0 i0 t0 REFRESH None (t_value t) s).
    assert (Stable now P4) as St4 by (unfold P4; apply st_and; [exact St3|apply st_opt_child]).
    eapply spec_pre with (P' := P4); [unfold P4; tauto|].
    (* storing *)
    eapply spec_bind with (Q := fun _ _ => True); [exact St4| |].
    { unfold mgr_put. eapply spec_rbind with (Q := fun p _ => dec_sid e sid = Ok p); [apply reader_lift| |].
      { intros s p _ _ H. apply lift_ok in H. apply H. }
      intros p. eapply spec_pure; [intros s _ (_ & X); exact X|]. intros Ep.
      pose proof (dec_sid3_ok _ _ _ _ _ D) as Ep'. fold sid in Ep'. rewrite Ep in Ep'. injection Ep' as ->.
      eapply spec_pre; [|apply db_set_spec; [exact W|eapply dec_sid3_separable; eauto]].
      intros s _ ((((((_ & O) & _) & _) & _) & _) & _). split; [|cbn; split; discriminate]. intros u1 c1 g1 r X. injection X; intros; subst; auto. }
    intros []. eapply spec_pre with (P' := P4); [tauto|].
    (* ID token *)
    eapply spec_bind with (Q := fun o s => forall w, o = Good (Some w) -> child l0 i0 t0 IDTOKEN None w s); [exact St4| |].
    { destruct (e_oidc e); [|apply spec_ret; discriminate].
      eapply spec_rbind with (Q := fun _ _ => True); [|auto|].
      { destruct (ar_scope ar); auto using reader_ret, reader_raise. }
      intros sc. destruct (smem "openid" sc && smem IDTOKEN mints); [|apply spec_ret; discriminate].
      eapply spec_rbind with (Q := fun b' s => token_later t0 b' /\ has l0 i0 b' s); [apply reader_tok_at| |].
      { intros s b' _ ((((((H0 & _) & _) & _) & _) & _) & _) H. eapply has_tok_at; eauto. }
      intros b'. eapply spec_pure; [intros s _ (_ & X & _); exact X|]. intros Lb'.
      eapply spec_seq with (Q := fun o s => forall t, o = Some t -> child l0 i0 t0 IDTOKEN None (t_value t) s).
      { apply catch_child.
        - eapply spec_pre; [|apply mint_child; eauto; discriminate]. intros s _ (H2 & _ & H). split; auto.
          split; [|discriminate]. apply Fs2. apply H2.
        - intros x k X. destruct x; try discriminate X; congruence. }
      intros [t|]; apply spec_ret; [|discriminate]. intros s H w X. injection X as <-. auto. }
    intros [x|idv]; [apply spec_ret; discriminate|].
    set (P5 := fun s => P4 s /\ forall w, Good idv = Good (Some w) -> child l0 i0 t0 IDTOKEN None w s).
    assert (Stable now P5) as St5.
    { unfold P5. apply st_and; [exact St4|]. intros s s' L H w X. eapply st_child; eauto. }
    eapply spec_pre with (P' := P5); [intros ? _ HH; exact HH|].
    eapply spec_bind with (Q := fun _ s => exists t1, token_later t0 t1 /\ has l0 i0 (tok_register t1) s); [exact St5| |].
    { eapply spec_pre; [|apply upd_tok_at; apply token_later_register]. intros s _ H. apply H. }
    intros []. apply spec_ret. intros s (H5 & Hr) a X. injection X as <-.
    destruct H5 as (H4 & Hid). destruct H4 as (H3 & Hre). destruct H3 as (H2 & Hac).
    destruct H2 as (((Hh & O) & Sg) & _). split.
    - split; [exists (ss_user i), (ss_client i), (ss_gid i); auto|]. cbn.
      split. { intros w X. destruct access as [t|]; [|discriminate]. cbn in X. injection X as <-. auto. }
      split. { intros w X. destruct refresh as [t|]; [|discriminate]. cbn in X. injection X as <-. auto. }
      split; auto. intros w X. subst idv. auto.
    - exists g, ar. cbn. split; auto. split; auto. split; auto. split; auto.
      intros w X. destruct refresh as [t|]; [|discriminate]. exists (ss_client i), gts. split; auto. split; auto.
      apply Rg. discriminate.
  Qed.

  (** ** Refreshing *)
  Definition refresh_extra (q : treq) (l i : nat) (t0 : token) (a : tresp) (s : st) : Prop :=
    (forall sc, tr_scope q = Some sc -> rs_scope a = sc)
    /\ within e l (rs_scope a) s
    /\ (forall c, tr_client q = Some c -> revoke_refresh e c = true ->
          exists t1, token_later t0 t1 /\ has l i t1 s /\ t_revoked t1 = true)
    /\ rs_access a <> None.
  Lemma st_refresh_extra q l i t0 a : Stable now (refresh_extra q l i t0 a).
  Proof.
    intros s s' L (A & B & C & D). split; auto. split; [eapply st_within; eauto|]. split; auto.
    intros c E1 E2. destruct (C c E1 E2) as (t1 & T & H & R). exists t1. split; auto. split; auto.
    eapply (st_has now); eauto.
  Qed.
  Lemma st_code_extra q l a : Stable now (code_extra q l a).
  Proof.
    intros s s' L (g & ar & A & B). exists g, ar. split; auto. eapply st_sees; eauto.
  Qed.

  Lemma refresh_process_spec q issue v l0 i0 t0 :
    tr_refresh q = Some v -> t_value t0 = v -> t_class t0 = REFRESH ->
    spec e now (fun s => has l0 i0 t0 s /\ forall sc, tr_scope q = Some sc -> within e l0 sc s)
      (refresh_process e now q issue)
      (fun r s => forall a, r = Good a -> served q l0 i0 t0 (Some (rs_scope a)) a s
                                          /\ refresh_extra q l0 i0 t0 a s).
  Proof.
    intros Ev Vv Cv. unfold refresh_process. rewrite Ev.
    destruct (negb (String.eqb (tr_grant_type q) REFRESH)); [apply spec_ret; discriminate|].
    set (P := fun s => has l0 i0 t0 s /\ forall sc, tr_scope q = Some sc -> within e l0 sc s).
    assert (Stable now P) as StP.
    { intros s s' L (H & K). split; [eapply (st_has now); eauto|]. intros sc E. eapply st_within; eauto. }
    eapply spec_rbind with (Q := fun w _ => w = v); [apply reader_ret| |].
    { intros s w _ _ H. apply ret_ok in H as [<- _]. auto. }
    intros w. eapply spec_pure; [intros s _ (_ & X); exact X|]. intros ->.
    eapply spec_pre with (P' := P); [tauto|].
    eapply spec_bind; [exact StP|apply by_token_spec|]. intros i.
    eapply spec_pure; [intros s _ (_ & X & _); exact X|]. intros D.
    eapply spec_rbind with (Q := fun rc _ => tr_client q = Some rc).
    { destruct (tr_client q); auto using reader_ret, reader_raise. }
    { intros s rc _ _ H. destruct (tr_client q); [|discriminate]. apply ret_ok in H as [<- _]. auto. }
    intros rc. destruct (negb (String.eqb (ss_client i) rc)) eqn:Ec; [apply spec_ret; discriminate|].
    apply negb_false_iff, seqb_eq in Ec. subst rc.
    eapply spec_pure; [intros s _ (_ & X); exact X|]. intros Eq. cbv zeta.
    set (l := ss_grant i) in *. set (sid := ss_sid i) in *.
    set (P0 := fun s => P s /\ owns e s l (ss_user i) (ss_client i) (ss_gid i)).
    eapply spec_pre with (P' := P0); [intros s _ H; split; apply H|].
    assert (Stable now P0) as St0 by (unfold P0; apply st_and; [exact StP|apply st_owns]).
    eapply spec_rbind with (Q := fun g s => hp s l = Some (OGrant g) /\
       forall t sc, In t (g_tokens g) -> parent_scope e g t = Ok sc -> within e l sc s); [apply reader_grant_at| |].
    { intros s g I _ H. apply grant_at_ok in H as [_ H]. split; auto. intros t sc It Ps.
      eapply within_scope; eauto; [eapply parent_scope_incl; eauto|]. intros Z. rewrite Z in It. destruct It. }
    intros g.
    set (P1 := fun s => P0 s /\ sees now l g s
                 /\ forall t sc, In t (g_tokens g) -> parent_scope e g t = Ok sc -> within e l sc s).
    eapply spec_pre with (P' := P1). { intros s _ (H & K & K2). split; auto. split; auto. now apply sees_here. }
    assert (Stable now P1) as St1.
    { unfold P1. apply st_and; [exact St0|]. apply st_and; [apply st_sees|].
      intros s s' L H t sc A B. eapply st_within; eauto. }
    set (dp := if e_dpop_info e then _ else _).
    eapply spec_bind with (Q := fun _ _ => True); [exact St1| |].
    { apply keeps_spec. destruct dp; [apply keeps_set_extra|apply keeps_reader, reader_ret]. }
    intros []. eapply spec_pre with (P' := P1); [tauto|].
    eapply spec_rbind with (Q := fun pos _ => find_pos v (g_tokens g) 0 = Some pos); [apply reader_need| |].
    { intros s pos _ _ H. destruct (find_pos v (g_tokens g) 0); [|discriminate]. apply ret_ok in H as [<- _]. auto. }
    intros pos. eapply spec_pure; [intros s _ (_ & X); exact X|]. intros Fp.
    apply find_pos_ok in Fp as (tv & Np & Vp).
    eapply spec_pure with (phi := l = l0 /\ pos = i0).
    { intros s I ((((H0 & _) & _) & (g' & Hg & Lg) & _) & _).
      assert (tokens_later (g_tokens g) (g_tokens g')) as Tl by apply Lg.
      destruct (Tl _ _ Np) as (tv' & Np' & Lt). apply (has_place s l pos l0 i0 tv' t0 I).
      - eapply has_here; eauto.
      - exact H0.
      - destruct Lt as (_ & Vt & _). congruence. }
    intros (El & Epos). subst pos. clearbody l. subst l.
    eapply spec_pre with (P' := P1); [tauto|].
    eapply spec_rbind with (Q := fun b s => (token_later t0 b /\ has l0 i0 b s)
       /\ forall sc, parent_scope e g b = Ok sc -> within e l0 sc s); [apply reader_tok_at| |].
    { intros s b I (((H0 & _) & _) & (g' & Hg & Lg) & Wi) H. split; [eapply has_tok_at; eauto|].
      intros sc Ps. apply tok_at_ok in H as (_ & g2 & Hg2 & Nb). rewrite Hg in Hg2. injection Hg2 as <-.
      assert (tokens_later (g_tokens g) (g_tokens g')) as Tl by apply Lg.
      destruct (Tl _ _ Np) as (tb & Nb' & Lt). rewrite Nb in Nb'. injection Nb' as <-.
      apply Wi with tv; [eapply nth_error_In; eauto|]. unfold parent_scope in *.
      destruct Lt as (_ & _ & Ba & _). now rewrite Ba in Ps. }
    intros b. eapply spec_pure; [intros s _ (_ & (X & _) & _); exact X|]. intros Lb.
    set (P2 := fun s => P1 s /\ has l0 i0 b s).
    assert (Stable now P2) as St2 by (unfold P2; apply st_and; [exact St1|apply st_has]).
    eapply spec_rbind with (Q := fun psc s => within e l0 psc s); [apply reader_lift| |].
    { intros s psc _ (_ & _ & K) H. apply lift_ok in H as [H _]. auto. }
    intros psc. set (scope := match tr_scope q with Some s => s | None => psc end).
    set (P3 := fun s => P2 s /\ within e l0 scope s).
    assert (Stable now P3) as St3 by (unfold P3; apply st_and; [exact St2|apply st_within]).
    eapply spec_pre with (P' := P3).
    { intros s _ ((H & (_ & Hb) & _) & Wp). split; [split; auto|]. unfold scope.
      destruct (tr_scope q) as [sc|] eqn:Es; auto. destruct H as (((_ & K) & _) & _). auto. }
    assert (forall s, P3 s -> fits e sid l0 s) as Fs3.
    { intros s ((((_ & O) & _) & _) & _). eexists _, _, _. eauto. }
    assert (t_class t0 = CODE \/ t_class t0 = REFRESH) as Cl by auto.
    eapply spec_bind with (Q := fun t s => child l0 i0 t0 ACCESS (Some scope) (t_value t) s); [exact St3| |].
    { eapply spec_pre; [|apply mint_child; eauto; discriminate]. intros s _ H3. split; [apply H3|].
      split; [apply Fs3; exact H3|]. intros sc X _. injection X as <-. apply H3. }
    intros access. set (P4 := fun s => P3 s /\ child l0 i0 t0 ACCESS (Some scope) (t_value access) s).
    assert (Stable now P4) as St4 by (unfold P4; apply st_and; [exact St3|apply st_child]).
    eapply spec_pre with (P' := P4); [intros ? _ HH; exact HH|].
    eapply spec_rbind with (Q := fun _ _ => True); [|auto|].
    { destruct (r_minting (t_rules b)); auto using reader_ret, reader_raise. }
    intros mints. eapply spec_pre with (P' := P4); [tauto|].
    assert (forall s, P4 s -> has l0 i0 t0 s) as Hb4.
    { intros s H. destruct H as ((((((H & _) & _) & _) & _) & _) & _). exact H. }
    assert (forall s, P4 s -> within e l0 scope s) as Hw4.
    { intros s H. destruct H as ((_ & H) & _). exact H. }
    eapply spec_bind with (Q := fun o s => forall w, o = Some w -> child l0 i0 t0 REFRESH (Some scope) w s); [exact St4| |].
    { match goal with |- context[if ?c then _ else _] => destruct c end; [|apply spec_ret; discriminate].
      eapply spec_rbind with (Q := fun b' s => token_later t0 b' /\ has l0 i0 b' s); [apply reader_tok_at| |].
      { intros s b' _ H4 H. eapply has_tok_at; eauto. }
      intros b'. eapply spec_pure; [intros s _ (_ & X & _); exact X|]. intros Lb'.
      eapply spec_seq; [eapply spec_pre; [|apply rotate_child with (i := i0) (t0 := t0); eauto]|].
      - intros s _ (H4 & _ & H). split; auto. split; auto. apply Fs3. apply H4.
      - intros t. apply spec_ret. intros s H w X. injection X as <-. exact H. }
    intros refresh. set (P5 := fun s => P4 s /\ forall w, refresh = Some w -> child l0 i0 t0 REFRESH (Some scope) w s).
    assert (Stable now P5) as St5.
    { unfold P5. apply st_and; [exact St4|]. intros s s' L H w X. eapply st_child; eauto. }
    eapply spec_pre with (P' := P5); [intros ? _ HH; exact HH|].
    eapply spec_bind with (Q := fun o s => forall w, o = Good (Some w) -> child l0 i0 t0 IDTOKEN (Some scope) w s); [exact St5| |].
    { destruct (e_oidc e && smem IDTOKEN mints && smem "openid" scope); [|apply spec_ret; discriminate].
      eapply spec_rbind with (Q := fun b' s => token_later t0 b' /\ has l0 i0 b' s); [apply reader_tok_at| |].
      { intros s b' _ (H4 & _) H. eapply has_tok_at; eauto. }
      intros b'. eapply spec_pure; [intros s _ (_ & X & _); exact X|]. intros Lb'.
      eapply spec_seq with (Q := fun o s => forall t, o = Some t -> child l0 i0 t0 IDTOKEN (Some scope) (t_value t) s).
      { apply catch_child.
        - eapply spec_pre; [|apply mint_child; eauto; discriminate]. intros s _ (H5 & _ & H). split; auto.
          split; [|congruence]. apply Fs3. apply H5.
        - intros x k X. destruct x; try discriminate X; congruence. }
      intros [t|]; apply spec_ret; [|discriminate]. intros s H w X. injection X as <-. auto. }
    intros [x|idv]; [apply spec_ret; discriminate|].
    set (P6 := fun s => P5 s /\ forall w, Good idv = Good (Some w) -> child l0 i0 t0 IDTOKEN (Some scope) w s).
    assert (Stable now P6) as St6.
    { unfold P6. apply st_and; [exact St5|]. intros s s' L H w X. eapply st_child; eauto. }
    eapply spec_pre with (P' := P6); [intros ? _ HH; exact HH|].
    eapply spec_bind with (Q := fun _ s => exists t1, token_later t0 t1 /\ has l0 i0 (tok_register t1) s); [exact St6| |].
    { eapply spec_pre; [|apply upd_tok_at; apply token_later_register]. intros s _ ((H & _) & _). auto. }
    intros [].
    set (P7 := fun s => P6 s /\ exists t1, token_later t0 t1 /\ has l0 i0 (tok_register t1) s).
    assert (Stable now P7) as St7.
    { unfold P7. apply st_and; [exact St6|]. stab. }
    eapply spec_pre with (P' := P7); [intros ? _ HH; exact HH|].
    eapply spec_bind with (Q := fun _ s => revoke_refresh e (ss_client i) = true ->
        exists t1, token_later t0 t1 /\ has l0 i0 t1 s /\ t_revoked t1 = true); [exact St7| |].
    { destruct (revoke_refresh e (ss_client i)); [|apply spec_ret; discriminate].
      eapply spec_post; [|eapply spec_pre; [|apply upd_tok_at with (t := t0); apply token_later_revoke]].
      - intros [] s _ (t1 & L1 & H1) _. exists (tok_set_revoked t1). split; [|split; auto].
        eapply token_later_trans; [exact L1|apply token_later_revoke].
      - intros s _ (((H & _) & _) & _). auto. }
    intros []. apply spec_ret. intros s (H7 & Hrev) a X. injection X as <-. cbn [rs_scope].
    destruct H7 as (H6 & Hreg). destruct H6 as (H5 & Hid). destruct H5 as (H4 & Href). pose proof (Hw4 _ H4) as Hw.
    destruct H4 as (H3 & Hac). destruct H3 as ((((_ & O) & _) & _) & _). split.
    - split; [exists (ss_user i), (ss_client i), (ss_gid i); auto|]. cbn.
      split. { intros w X. injection X as <-. auto. }
      split; auto. split; auto. intros w X. subst idv. auto.
    - split. { intros sc X. cbn. unfold scope. now rewrite X. }
      split; auto. split; [|discriminate].
      intros c X R. rewrite Eq in X. injection X as <-. auto.
  Qed.
End Specs.
