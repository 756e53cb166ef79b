(** A valid token request is answered: proofs. *)
From Verif Require Import M_Base M_Types M_Codec M_Grant M_Env M_Session M_Claims M_Handler
  M_Authz M_TokenEP M_PKCE M_AuthzEP M_Info M_Logout M_History S_Codec S_Grant S_Claims S_History S_PKCE S_Answer
  L_Base L_Codec L_Monad L_Grant L_Claims L_Store L_Hist1 L_Hist2 L_Hist3 L_Hist4 L_Hist5 L_Hist6
  L_Hist7 L_Hist8 L_Emit L_Hist9 L_Hist10 L_Hist11 L_PKCE.

(** From states of [P], [m] succeeds, with [Q]. *)
Definition succeeds {A} (P : st -> Prop) (m : M st A) (Q : A -> st -> Prop) : Prop :=
  forall s, P s -> exists a s', m s = (Ok a, s') /\ Q a s'.

Lemma sc_bind {A B} P (m : M st A) (f : A -> M st B) Q R :
  succeeds P m Q -> (forall a, succeeds (Q a) (f a) R) -> succeeds P (bind m f) R.
Proof.
  intros H K s p. destruct (H s p) as (a & s1 & E & q). destruct (K a s1 q) as (b & s2 & E2 & r).
  exists b, s2. split; auto. now rewrite (bind_run _ _ _ _ _ E).
Qed.
Lemma sc_ret {A} (P : st -> Prop) (a : A) (Q : A -> st -> Prop) : (forall s, P s -> Q a s) -> succeeds P (ret a) Q.
Proof. intros H s p. exists a, s. auto. Qed.
Lemma sc_lift {A} (P : st -> Prop) (r : res A) (a : A) : r = Ok a -> succeeds P (lift r) (fun x s => x = a /\ P s).
Proof. intros -> s p. exists a, s. auto. Qed.
Lemma sc_conseq {A} (P P' : st -> Prop) (m : M st A) (Q Q' : A -> st -> Prop) :
  succeeds P m Q -> (forall s, P' s -> P s) -> (forall a s, Q a s -> Q' a s) -> succeeds P' m Q'.
Proof. intros H A1 A2 s p. destruct (H s (A1 s p)) as (a & s1 & E & q). exists a, s1. auto. Qed.
Lemma sc_pure {A} (X : Prop) (P : st -> Prop) (m : M st A) Q :
  (X -> succeeds P m Q) -> succeeds (fun s => X /\ P s) m Q.
Proof. intros H s [x p]. now apply H. Qed.

(** ** Claims *)
Lemma release_total info restr : (forall k sp, In (k, sp) restr -> well_formed sp) ->
  exists d, release info restr = Ok d.
Proof.
  induction restr as [|[k sp] r IH]; intros H; cbn [release]; [eauto|].
  destruct (claims_match_spec (dget info k) sp) as (b & -> & _). { eapply H. left; reflexivity. }
  destruct IH as (d & ->). { intros k' sp' I. eapply H. right. exact I. }
  cbn [rbind]. eauto.
Qed.
Lemma release_clear info restr d w : release info restr = Ok d -> dget info w = None -> dget d w = None.
Proof.
  intros H N. destruct (dget d w) as [v|] eqn:E; auto. exfalso. apply dget_In in E.
  destruct (release_In _ _ _ _ _ H E) as (sp & _ & X & _). congruence.
Qed.
Lemma user_claims_total e u restr users : e_users e = Some users ->
  (forall k sp, In (k, sp) restr -> well_formed sp) ->
  exists d, get_user_claims e u (Some restr) = Ok d
    /\ forall w, dget (users u) w = None -> dget d w = None.
Proof.
  intros U H. unfold get_user_claims. rewrite U. destruct restr as [|x r].
  - exists []. split; auto.
  - destruct (release_total (users u) (x :: r) H) as (d & E). exists d. split; auto.
    intros w N. eapply release_clear; eauto.
Qed.
Lemma acr_total g point ae : legible (g_claims g) -> g_aevent g = Some ae -> exists b, add_acr_value g point = Ok b.
Proof.
  intros L A. unfold add_acr_value. rewrite A. destruct (dget (g_claims g) point) as [[|x r]|] eqn:D; eauto.
  assert (well_formed (match dget (x :: r) "acr" with Some s => s | None => None end)) as Wf.
  { destruct (dget (x :: r) "acr") as [sp|] eqn:E; [|discriminate].
    eapply L; eapply dget_In; eauto. }
  destruct (claims_match_spec (Some (JStr (ae_authn_info ae))) _ Wf) as (b & E & _). eauto.
Qed.

(** ** Scopes of tokens *)
Lemma find_first ts more : forall i p v, nth_error ts i = Some p -> t_value p = v ->
  exists j q, j <= i /\ nth_error ts j = Some q /\ find (fun t => String.eqb (t_value t) v) (ts ++ more) = Some q.
Proof.
  induction ts as [|x ts IH]; intros [|i] p v N V; cbn in N; try discriminate.
  - assert (x = p) by congruence. subst. exists 0, p. cbn. now rewrite seqb_refl.
  - cbn [app find]. destruct (String.eqb (t_value x) v) eqn:E.
    + exists 0, x. split; [lia|]. auto.
    + destruct (IH _ _ _ N V) as (j & q & L & A & B). exists (S j), q. split; [lia|]. auto.
Qed.
Lemma find_scope_prefix : forall k g' ts more p j, forest ts -> g_tokens g' = ts ++ more ->
  nth_error ts j = Some p -> j < k -> exists sc, find_scope k g' (Some p) = Ok sc.
Proof.
  induction k as [|k IH]; intros g' ts more p j F T N L; [lia|]. cbn [find_scope].
  destruct (list_true (t_scope p)); [eauto|]. destruct (t_based p) as [v|] eqn:B; [|eauto].
  destruct (str_true v); [|eauto]. destruct F as (F1 & F2 & F3). destruct (F3 _ _ _ N B) as (i & q & Li & Nq & Vq).
  destruct (find_first ts more i q v Nq Vq) as (i' & q' & Li' & Nq' & Fq). unfold get_token. rewrite T, Fq.
  apply (IH g' ts more q' i'); auto; [repeat split; auto|lia].
Qed.
Lemma upd_nth_app {A} (a b : list A) i f : List.length a <= i -> upd_nth i f (a ++ b) = a ++ upd_nth (i - List.length a) f b.
Proof.
  revert i; induction a as [|x a IH]; intros i L; cbn in *; [now rewrite Nat.sub_0_r|].
  destruct i as [|i]; [lia|]. cbn. now rewrite IH by lia.
Qed.

Lemma sc_except_minting {A} P (m : M st A) Q : succeeds P m Q ->
  succeeds P (except_minting m) (fun o s => exists a, o = Some a /\ Q a s).
Proof.
  intros H s p. destruct (H s p) as (a & s1 & E & q). exists (Some a), s1. split; [|eauto].
  unfold except_minting, catch. rewrite (bind_run _ _ _ _ _ E). reflexivity.
Qed.
Lemma sc_except_jwe {A} P (m : M st A) Q : succeeds P m Q ->
  succeeds P (except_jwe m) (fun o s => exists a, o = Some a /\ Q a s).
Proof.
  intros H s p. destruct (H s p) as (a & s1 & E & q). exists (Some a), s1. split; [|eauto].
  unfold except_jwe, catch. rewrite (bind_run _ _ _ _ _ E). reflexivity.
Qed.
Lemma lets_mint_b t tc : lets_mint t tc <-> smem tc (match r_minting (t_rules t) with Some m => m | None => [] end) = true.
Proof.
  unfold lets_mint. rewrite smem_In. destruct (r_minting (t_rules t)) as [m|]; split.
  - intros (x & E & I). congruence.
  - eauto.
  - intros (x & E & I). discriminate.
  - intros [].
Qed.
Lemma lets_supports t tc : lets_mint t tc -> supports_minting t tc = true.
Proof. intros (m & E & I). unfold supports_minting. rewrite E. now apply smem_In. Qed.

Section A.
  Variables (e : env) (now : Z) (u c gid : string) (l : nat) (sid : string) (gts : list string).
  Variables (g : grant) (t : token) (pos : nat) (ar : areq) (ae : aevent).
  Hypothesis W : laws e.
  Hypothesis O : in_order e now u c gts.
  Hypothesis Hd : dec_sid3 e sid = Ok (u, c, gid).
  Hypothesis Hne : sid <> "".
  Hypothesis Hu : sid <> u.
  Hypothesis Hga : g_areq g = Some ar.
  Hypothesis Hge : g_aevent g = Some ae.
  Hypothesis Hact : grant_active now g = true.
  Hypothesis Hmax : g_max g = None.
  Hypothesis Hleg : legible (g_claims g).
  Hypothesis Hreq : forall m, ar_claims ar = Some m -> legible m.
  Hypothesis Hpos : nth_error (g_tokens g) pos = Some t.
  Hypothesis Hfor : forest (g_tokens g).
  Hypothesis Hlim : List.length (g_tokens g) < e_limit e.
  Hypothesis Htok : tok_active now t = true.
  Hypothesis Hcl : clean c.
  Hypothesis Hgid : clean gid.

  Record like (g' : grant) : Prop := {
    lk_areq : g_areq g' = Some ar;
    lk_aevent : g_aevent g' = Some ae;
    lk_claims : g_claims g' = g_claims g;
    lk_scope : g_scope g' = g_scope g;
    lk_active : grant_active now g' = true;
    lk_max : g_max g' = None;
    lk_tokens : exists more, g_tokens g' = g_tokens g ++ more
  }.

  (** The grant is found in the session database. *)
  Definition found (s : st) : Prop :=
    exists ul iu cl ic,
      dget (s_db s) u = Some ul /\ hp s ul = Some (OInfo iu) /\ smem c (si_sub iu) = true
      /\ dget (s_db s) (session_key [u; c]) = Some cl /\ hp s cl = Some (OInfo ic)
      /\ smem gid (si_sub ic) = true
      /\ dget (s_db s) (session_key [u; c; gid]) = Some l.
  Definition keep (s : st) : Prop :=
    found s /\ exists g', hp s l = Some (OGrant g') /\ like g'.

  Lemma found_get s : found s -> db_get [u; c; gid] s = (Ok l, s).
  Proof.
    intros (ul & iu & cl & ic & A1 & A2 & A3 & A4 & A5 & A6 & A7). unfold db_get. cbn [eval_path].
    unfold bind at 1, lift. rewrite db_lookup_bind, A1.
    assert (deref ul s = (Ok (OInfo iu), s)) as D by (unfold deref; unfold hp in A2; now rewrite A2).
    rewrite (bind_run _ _ _ _ _ D).
    assert (subordinate ul s = (Ok (si_sub iu), s)) as S1 by (unfold subordinate; rewrite (bind_run _ _ _ _ _ D); reflexivity).
    rewrite (bind_run _ _ _ _ _ S1), A3. cbn [negb]. rewrite db_lookup_bind, A4.
    assert (deref cl s = (Ok (OInfo ic), s)) as D2 by (unfold deref; unfold hp in A5; now rewrite A5).
    assert (subordinate cl s = (Ok (si_sub ic), s)) as S2 by (unfold subordinate; rewrite (bind_run _ _ _ _ _ D2); reflexivity).
    rewrite (bind_run _ _ _ _ _ S2), A6. cbn [negb]. rewrite db_lookup_bind, A7. reflexivity.
  Qed.
  Lemma get_found s : db_get [u; c; gid] s = (Ok l, s) -> found s.
  Proof.
    unfold db_get. cbn [eval_path]. unfold bind at 1, lift. intros H.
    rewrite db_lookup_bind in H. destruct (dget (s_db s) u) as [ul|] eqn:A1; [|discriminate H].
    unfold bind at 1 in H. unfold deref at 1 in H. destruct (nth_error (s_heap s) ul) as [uo|] eqn:A2; [|discriminate H].
    assert (exists iu, uo = OInfo iu) as (iu & ->).
    { destruct uo as [iu|g0|]; [eauto| |discriminate H]. exfalso.
      unfold subordinate, bind, deref in H. rewrite A2 in H. discriminate H. }
    assert (subordinate ul s = (Ok (si_sub iu), s)) as S1 by (unfold subordinate, bind, deref; rewrite A2; reflexivity).
    rewrite (bind_run _ _ _ _ _ S1) in H. destruct (smem c (si_sub iu)) eqn:A3; [|discriminate H]. cbn [negb] in H.
    rewrite db_lookup_bind in H. destruct (dget (s_db s) (session_key [u; c])) as [cl|] eqn:A4; [|discriminate H].
    destruct (nth_error (s_heap s) cl) as [co|] eqn:A5.
    2:{ unfold subordinate, bind, deref in H. rewrite A5 in H. discriminate H. }
    assert (exists ic, co = OInfo ic) as (ic & ->).
    { destruct co as [ic|g0|]; [eauto| |]; unfold subordinate, bind, deref in H; rewrite A5 in H; discriminate H. }
    assert (subordinate cl s = (Ok (si_sub ic), s)) as S2 by (unfold subordinate, bind, deref; rewrite A5; reflexivity).
    rewrite (bind_run _ _ _ _ _ S2) in H. destruct (smem gid (si_sub ic)) eqn:A6; [|discriminate H]. cbn [negb] in H.
    rewrite db_lookup_bind in H. destruct (dget (s_db s) (session_key [u; c; gid])) as [gl|] eqn:A7; [|discriminate H].
    apply ret_ok in H as [H _]. exists ul, iu, cl, ic. unfold hp. rewrite <- H.
    do 6 (split; [assumption|]). assumption.
  Qed.

  (** Changes that keep it. *)
  Lemma found_same s s' : s_heap s' = s_heap s -> s_db s' = s_db s -> found s -> found s'.
  Proof. unfold found, hp. intros -> ->. auto. Qed.
  Lemma keep_same s s' : s_heap s' = s_heap s -> s_db s' = s_db s -> keep s -> keep s'.
  Proof.
    intros A B [F (g' & H & L)]. split; [eapply found_same; eauto|]. exists g'. unfold hp in *. rewrite A. auto.
  Qed.
  Lemma keep_upd s f : keep s -> (forall g', hp s l = Some (OGrant g') -> like g' -> like (f g')) ->
    keep (mk_st (upd_nth l (on_grant f) (s_heap s)) (s_db s) (s_ctr s) (s_always s)).
  Proof.
    intros [(ul & iu & cl & ic & A1 & A2 & A3 & A4 & A5 & A6 & A7) (g' & H & L)] K. split.
    - exists ul, iu, cl, ic. rewrite !hp_upd_other; [auto 10| |].
      + intros ->. congruence.
      + intros ->. congruence.
    - exists (f g'). split; [|auto]. rewrite hp_upd_same, H. reflexivity.
  Qed.

  (** The grant is there, as [g']. *)
  Definition keepg (g' : grant) (s : st) : Prop := found s /\ hp s l = Some (OGrant g').
  Lemma keepg_same g' s s' : s_heap s' = s_heap s -> s_db s' = s_db s -> keepg g' s -> keepg g' s'.
  Proof. intros A B [F H]. split; [eapply found_same; eauto|]. unfold hp in *. now rewrite A. Qed.
  Lemma sc_open {A} (m : M st A) Q : (forall g', like g' -> succeeds (keepg g') m Q) -> succeeds keep m Q.
  Proof. intros H s [F (g' & E & L)]. apply (H g' L). split; auto. Qed.
  Lemma keepg_keep g' s : like g' -> keepg g' s -> keep s.
  Proof. intros L [F H]. split; eauto. Qed.

  Lemma sc_keep_tick g' : succeeds (keepg g') tick (fun _ => keepg g').
  Proof. intros s K. do 2 eexists. split; [reflexivity|]. eapply keepg_same; [| |exact K]; reflexivity. Qed.
  Lemma sc_grant_at g' : succeeds (keepg g') (grant_at l) (fun x s => x = g' /\ keepg g' s).
  Proof.
    intros s K. exists g', s. split; auto. destruct K as [F H].
    unfold grant_at, deref, bind. unfold hp in H. rewrite H. reflexivity.
  Qed.
  Lemma sc_info g' : succeeds (keepg g') (get_session_info e sid) (fun i s => i = mk_sess sid u c gid l /\ keepg g' s).
  Proof.
    intros s K. exists (mk_sess sid u c gid l), s. split; auto. unfold get_session_info. rewrite Hd.
    unfold bind, lift. rewrite found_get by apply K. reflexivity.
  Qed.

  (** Storing the grant again, under the encrypted and under the plain key. *)
  Lemma sep : separable [u; c; gid].
  Proof. eapply dec_sid3_separable; eauto. Qed.
  Lemma sid_plain : unpack_session_key sid = [sid] /\ ~ occurs_in ";;" sid.
  Proof.
    pose proof (dec_sid3_ok _ _ _ _ _ Hd) as D. split; [eapply dec_sid_plain; eauto|].
    unfold dec_sid, decrypt_session_id in D. destruct (b64d _ sid) eqn:B; [|discriminate]. eapply law_sid; eauto.
  Qed.
  Lemma sc_store g' : succeeds (keepg g') (db_set (unpack_session_key sid) l) (fun _ => keepg g').
  Proof.
    destruct sid_plain as [-> N]. intros s [(ul & iu & cl & ic & A1 & A2 & A3 & A4 & A5 & A6 & A7) H].
    unfold db_set. cbn [eval_path ostr_true]. unfold db_get_or.
    assert (session_key [u; c; gid] <> sid) as N3 by (apply dec_key_neq; [exact N|exact sep|cbn; lia]).
    assert (session_key [u; c] <> sid) as N2.
    { apply dec_key_neq; [exact N| |cbn; lia]. apply (separable_prefix [u; c] [gid]). exact sep. }
    assert (forall s', (exists x, s_heap s' = s_heap s ++ x) -> s_db s' = dset (s_db s) sid l -> keepg g' s') as Fin.
    { intros s' (x & Eh) Ed.
      assert (forall k o, hp s k = Some o -> hp s' k = Some o) as Hh.
      { intros k o X. unfold hp in *. rewrite Eh, nth_error_app1; auto. apply nth_error_Some. congruence. }
      split; [|auto]. exists ul, iu, cl, ic. rewrite Ed, !dget_dset_other by congruence. auto 12. }
    destruct (dget (s_db s) sid) as [x|] eqn:D.
    - do 2 eexists. split.
      { unfold bind, lift, ret, db_lookup, db_put. cbn [ostr_true]. cbv beta iota zeta. rewrite D. reflexivity. }
      apply Fin; [exists []; cbn; now rewrite app_nil_r|reflexivity].
    - do 2 eexists. split.
      { unfold bind, lift, ret, db_lookup, db_put. cbn [ostr_true]. cbv beta iota zeta. rewrite D. reflexivity. }
      apply Fin; [eexists; reflexivity|reflexivity].
  Qed.
  Lemma sc_put : succeeds keep (mgr_put e sid l) (fun _ => keep).
  Proof.
    intros s [(ul & iu & cl & ic & A1 & A2 & A3 & A4 & A5 & A6 & A7) (g' & H & L)].
    assert (str_true gid = true) as Tg by (apply str_true_iff; apply Hgid).
    assert (str_true c = true) as Tc by (apply str_true_iff; apply Hcl).
    set (s1 := mk_st (s_heap s) (dset (s_db s) (session_key [u; c; gid]) l) (s_ctr s) (s_always s)).
    assert (s_db s1 = s_db s) as Ed by (apply dset_self; exact A7).
    exists tt, s1. split.
    - unfold mgr_put. rewrite (dec_sid3_ok _ _ _ _ _ Hd). change (db_set [u; c; gid] l s = (Ok tt, s1)).
      assert (subordinate cl s1 = (Ok (si_sub ic), s1)) as S2.
      { unfold subordinate, bind, deref. change (s_heap s1) with (s_heap s). unfold hp in A5. rewrite A5. reflexivity. }
      assert (subordinate ul s1 = (Ok (si_sub iu), s1)) as S1.
      { unfold subordinate, bind, deref. change (s_heap s1) with (s_heap s). unfold hp in A2. rewrite A2. reflexivity. }
      unfold db_set. cbn [eval_path]. unfold db_get_or.
      unfold bind, lift, ret, db_lookup, db_put. cbn [ostr_true ostr]. cbv beta iota zeta.
      rewrite Tg, Tc. cbn [negb]. fold s1. rewrite Ed, A4, S2, A6, Ed, A1, S1, A3. reflexivity.
    - apply (keep_same s); [reflexivity|exact Ed|]. split; [exists ul, iu, cl, ic; auto 10|eauto].
  Qed.

  (** ** Minting *)
  Lemma module_total point : exists om, get_module e point = Ok om
    /\ forall m, om = Some m -> In (point, m) (e_modules e).
  Proof.
    unfold get_module. destruct (smem point (release_points e)) eqn:R; [|exists None; split; [auto|discriminate]].
    destruct (dget (e_modules e) point) as [m|] eqn:D.
    - exists (Some m). split; auto. intros m' E. injection E as <-. now apply dget_In.
    - destruct (String.eqb point "id_token") eqn:P; [|exists None; split; [auto|discriminate]].
      apply seqb_eq in P. subst point. exfalso. unfold release_points in R.
      destruct (e_oidc e) eqn:Oi; [|discriminate R]. destruct (io_id _ _ _ _ _ O Oi) as (h & m & _ & X). congruence.
  Qed.
  Lemma request_wf point k sp : In (k, sp) (request_claims (Some ar) point) -> well_formed sp.
  Proof.
    unfold request_claims. destruct (ar_claims ar) as [m|] eqn:E; [|intros []].
    destruct (dget m point) as [d|] eqn:D; [|intros []]. intros I. apply (Hreq m eq_refl point d k sp); [now apply dget_In|exact I].
  Qed.
  Lemma wf_none : well_formed None.
  Proof. intros d v H. discriminate. Qed.
  Lemma sc_gcfr g' point scopes : succeeds (keepg g') (get_claims_from_request e (Some ar) point scopes c "")
    (fun d s => (forall k sp, In (k, sp) d -> well_formed sp) /\ keepg g' s).
  Proof.
    unfold get_claims_from_request. destruct (module_total point) as (om & -> & Hm).
    eapply sc_bind; [apply sc_lift; reflexivity|]. intros x. apply sc_pure. intros ->.
    destruct om as [m|]; [|apply sc_ret; intros s K; split; [intros k sp []|exact K]].
    specialize (Hm m eq_refl).
    assert (str_true c = true) as Tc by (apply str_true_iff; apply Hcl). rewrite Tc.
    eapply sc_bind with (Q := fun (ba : bool * dict cspec) s => (forall k sp, In (k, sp) (snd ba) -> well_formed sp) /\ keepg g' s).
    - destruct (m_per_client m && dmem (e_clients e) c).
      + intros s K. destruct (client_always_run c point "" s) as (ll & s1 & E & (C1 & C2 & _) & _).
        do 2 eexists. split; [rewrite (bind_run _ _ _ _ _ E); reflexivity|]. cbn [snd]. split.
        * intros k sp I. apply in_map_iff in I as (y & E2 & _). injection E2 as _ <-. apply wf_none.
        * eapply keepg_same; eauto.
      + apply sc_ret. intros s K. split; auto. cbn [snd]. intros k sp I. eapply (io_claims _ _ _ _ _ O); eauto.
    - intros [by_scope always]. cbn [snd]. apply sc_pure. intros Ha. apply sc_ret. intros s K. split; auto.
      assert (forall k sp, In (k, sp) (dupdate (m_base m) always) -> well_formed sp) as Hb.
      { intros k sp I. apply dupdate_In in I as [I|I]; [eapply (io_claims _ _ _ _ _ O); eauto|eauto]. }
      intros k sp I. apply dupdate_In in I as [I|I]; [|eapply request_wf; eauto].
      destruct by_scope; [|eauto].
      destruct scopes as [sc|].
      + apply dupdate_In in I as [I|I]; [eauto|]. apply scopes_to_claims_null in I. subst sp. apply wf_none.
      + destruct (ar_scope ar) as [sc|]; [|eauto].
        apply dupdate_In in I as [I|I]; [eauto|]. apply scopes_to_claims_null in I. subst sp. apply wf_none.
  Qed.

  Lemma clear_dset p k v : clear_of_words p -> ~ In k handler_words -> clear_of_words (dset p k v).
  Proof. intros C N w I. rewrite dget_dset_other by congruence. auto. Qed.
  Lemma sc_payload g' point scope : like g' ->
    succeeds (keepg g') (payload_arguments e g' sid point scope "") (fun p s => clear_of_words p /\ keepg g' s).
  Proof.
    intros L. unfold payload_arguments. destruct (io_users _ _ _ _ _ O) as (users & U & Cu).
    eapply sc_bind; [apply sc_keep_tick|]. intros n. cbv zeta.
    set (p1 := [("scope", _); _; _]). set (p2 := match dget (g_extra g') "dpop_jkt" with Some _ => _ | None => _ end).
    set (p3 := match g_areq g' with Some _ => _ | None => _ end).
    assert (clear_of_words p1) as C1 by (intros w I; unfold p1; repeat (destruct I as [<-|I]; [reflexivity|]); destruct I).
    assert (clear_of_words p2) as C2.
    { unfold p2. destruct (dget (g_extra g') "dpop_jkt") as [j|]; auto. destruct (str_true j); auto.
      apply clear_dset; auto. intros I. repeat (destruct I as [I|I]; [discriminate|]). destruct I. }
    assert (clear_of_words p3) as C3.
    { unfold p3. destruct (g_areq g') as [x|]; auto. destruct (str_true _); auto.
      apply clear_dset; [apply clear_dset; auto|]; intros I; repeat (destruct I as [I|I]; [discriminate|]); destruct I. }
    clearbody p3.
    eapply sc_bind with (Q := fun restr s => (forall k sp, In (k, sp) restr -> well_formed sp) /\ keepg g' s).
    { unfold get_claims. eapply sc_bind; [apply sc_info|]. intros i. apply sc_pure. intros ->. cbn [ss_grant ss_client].
      eapply sc_bind; [apply sc_grant_at|]. intros x. apply sc_pure. intros ->. rewrite (lk_areq _ L). apply sc_gcfr. }
    intros restr. apply sc_pure. intros Hr.
    eapply sc_bind; [apply sc_lift; exact Hd|]. intros x. apply sc_pure. intros ->. cbv beta iota.
    destruct (user_claims_total e u restr users U Hr) as (info & Ei & Ci).
    eapply sc_bind; [apply sc_lift; exact Ei|]. intros x. apply sc_pure. intros ->.
    assert (clear_of_words (dupdate p3 info)) as C4.
    { intros w I. rewrite dget_dupdate_notin; auto. }
    assert (legible (g_claims g')) as Lg by (rewrite (lk_claims _ L); exact Hleg).
    destruct (acr_total g' point ae Lg (lk_aevent _ L)) as (b1 & ->).
    destruct (acr_total g' "" ae Lg (lk_aevent _ L)) as (b2 & ->).
    eapply sc_bind; [apply sc_lift; reflexivity|]. intros x. apply sc_pure. intros ->.
    eapply sc_bind with (Q := fun _ => keepg g').
    { destruct b1; [apply sc_ret; auto|]. eapply sc_conseq; [apply (sc_lift (keepg g')); reflexivity|auto|]. intros a s [_ K]; exact K. }
    intros a2. apply sc_ret. intros s K. split; auto. destruct a2; auto. destruct (g_aevent g') as [x|]; auto.
    apply clear_dset; auto. intros I. repeat (destruct I as [I|I]; [discriminate|]). destruct I.
  Qed.

  Lemma sc_handler g' h rules p : like g' -> clear_of_words p ->
    succeeds (keepg g') (handler_mint e now h sid rules None None p)
      (fun v s => (dget (e_handlers e) "access_token" = Some h -> exists i, token_info e now v = Ok i /\ ti_sid i = sid)
                  /\ keepg g' s).
  Proof.
    intros L Cp.
    assert (succeeds (keepg g') (handler_mint e now h sid rules None None p) (fun _ => keepg g')) as X.
    { unfold handler_mint. assert (clash p = false) as ->.
      { unfold clash, dmem. rewrite !Cp by (cbn; auto). reflexivity. }
      eapply sc_bind; [apply sc_keep_tick|]. intros n. destruct h as [pw cls lt|cls alg iss lt|lt].
      - apply sc_ret. auto.
      - destruct (io_sign _ _ _ _ _ O alg n (jwt_payload cls iss lt now sid rules p)) as (v & ->).
        eapply sc_conseq; [apply (sc_lift (keepg g')); reflexivity|auto|]. intros a s [_ K]; exact K.
      - eapply sc_bind; [apply sc_lift; exact Hd|]. intros x. apply sc_pure. intros ->. cbv beta iota.
        destruct (io_client _ _ _ _ _ O) as (cl & -> & _).
        eapply sc_bind; [apply sc_info|]. intros i. apply sc_pure. intros ->. cbn [ss_grant].
        eapply sc_bind; [apply sc_grant_at|]. intros x. apply sc_pure. intros ->. cbv zeta.
        match goal with |- succeeds _ (lift (e_sign e ?a n ?q)) _ => destruct (io_sign _ _ _ _ _ O a n q) as (v & ->) end.
        eapply sc_conseq; [apply (sc_lift (keepg g')); reflexivity|auto|]. intros a s [_ K]; exact K. }
    intros s K. destruct (X s K) as (v & s' & E & K'). exists v, s'. split; auto. split; auto.
    intros A. eapply (io_reads _ _ _ _ _ O); eauto.
  Qed.

  Definition read_back (tk : token) : Prop := exists x, token_info e now (t_value tk) = Ok x /\ ti_sid x = sid.
  Definition minted (tc : string) (i : nat) (g' : grant) : Prop :=
    List.length (g_tokens g) <= i
    /\ exists tk, nth_error (g_tokens g') i = Some tk /\ (tc = ACCESS -> read_back tk).

  Lemma like_add g' tk : like g' -> like (g_add_token tk g').
  Proof.
    intros [A1 A2 A3 A4 A5 A6 (more & A7)]. constructor; auto.
    - unfold grant_active in *. cbn. rewrite A6 in *. exact A5.
    - cbn. exists (more ++ [tk]). now rewrite A7, app_assoc.
  Qed.
  Lemma like_upd g' i f : like g' -> List.length (g_tokens g) <= i -> like (g_set_tokens (upd_nth i f (g_tokens g')) g').
  Proof.
    intros [A1 A2 A3 A4 A5 A6 (more & A7)] Li. constructor; auto.
    cbn. rewrite A7, upd_nth_app by exact Li. eauto.
  Qed.
  Lemma like_extra g' x : like g' -> like (g_set_extra x g').
  Proof. intros [A1 A2 A3 A4 A5 A6 A7]. constructor; auto. Qed.
  Lemma like_g : like g.
  Proof. constructor; auto. exists []. now rewrite app_nil_r. Qed.
  Lemma like_len g' : like g' -> List.length (g_tokens g) <= List.length (g_tokens g').
  Proof. intros [_ _ _ _ _ _ (more & ->)]. rewrite app_length. lia. Qed.

  Lemma keepg_upd g' s f : keepg g' s ->
    keepg (f g') (mk_st (upd_nth l (on_grant f) (s_heap s)) (s_db s) (s_ctr s) (s_always s)).
  Proof.
    intros [(ul & iu & cl & ic & A1 & A2 & A3 & A4 & A5 & A6 & A7) H]. split.
    - exists ul, iu, cl, ic. rewrite !hp_upd_other; [auto 10| |].
      + intros ->. congruence.
      + intros ->. congruence.
    - rewrite hp_upd_same, H. reflexivity.
  Qed.

  Lemma sc_mint tc h rules scope ttype : lets_mint t tc -> In tc [ACCESS; REFRESH; IDTOKEN] ->
    dget (e_handlers e) tc = Some h -> forall g', like g' ->
    succeeds (keepg g') (mint e now l sid tc (Some t) rules scope ttype no_args)
      (fun r s => exists i g2, r = Some i /\ like g2 /\ minted tc i g2 /\ keepg g2 s).
  Proof.
    intros Lm Itc Hh g' L. unfold mint.
    eapply sc_bind; [apply sc_grant_at|]. intros x. apply sc_pure. intros ->.
    eapply sc_bind; [apply sc_keep_tick|]. intros n.
    destruct (lk_tokens _ L) as (more & Tk).
    destruct (find_scope_prefix (e_limit e) g' (g_tokens g) more t pos Hfor Tk Hpos) as (sc & Es).
    { assert (pos < List.length (g_tokens g)) by (apply nth_error_Some; congruence). lia. }
    assert (exists tk0 gx, mint_token (e_limit e) g' now sid tc (Some t) rules scope ttype (e_uuid e n) (fun _ => Ok "")
              = Ok (Some (tk0, gx))) as (tk0 & gx & Em).
    { unfold mint_token. rewrite (lk_active _ L), (lets_supports _ _ Lm), Htok. cbn [negb rbind].
      assert (known_class tc = true) as -> by (repeat (destruct Itc as [<-|Itc]; [reflexivity|]); destruct Itc).
      cbn [negb]. rewrite Es. destruct scope; cbn [rbind]; eauto. }
    eapply sc_bind; [apply sc_lift; exact Em|]. intros x. apply sc_pure. intros ->. rewrite Hh. cbv zeta.
    eapply sc_bind; [apply (sc_payload g' _ _ L)|]. intros p. apply sc_pure. intros Cp.
    eapply sc_bind; [apply (sc_handler g' h _ p L Cp)|]. intros v. apply sc_pure. intros Rv.
    intros s K. do 2 eexists. split; [reflexivity|].
    exists (List.length (g_tokens g')), (g_add_token (tok_set_value v tk0) g'). split; [auto|].
    split; [now apply like_add|]. split; [|now apply keepg_upd].
    split; [now apply like_len|]. exists (tok_set_value v tk0). split.
    - cbn. rewrite nth_error_app2, Nat.sub_diag by lia. reflexivity.
    - intros ->. exact (Rv Hh).
  Qed.

  Lemma sc_ep_mint tc h scope ttype : lets_mint t tc -> In tc [ACCESS; REFRESH; IDTOKEN] ->
    dget (e_handlers e) tc = Some h -> forall g', like g' ->
    succeeds (keepg g') (ep_mint e now l sid tc (Some t) scope ttype)
      (fun r s => exists i g2, r = Some i /\ like g2 /\ minted tc i g2 /\ keepg g2 s).
  Proof.
    intros Lm Itc Hh g' L. unfold ep_mint.
      eapply sc_bind; [apply sc_grant_at|]. intros x. apply sc_pure. intros ->. cbv zeta.
      eapply sc_bind with (Q := fun _ => keepg g').
      { unfold dmem. rewrite Hh. apply sc_ret. auto. }
      intros _. eapply sc_bind; [apply (sc_mint tc h _ scope ttype Lm Itc Hh g' L)|]. intros r.
      intros s (i & g2 & -> & L2 & Mi & K).
      assert (exists s2 g3, (match ep_lifetime (dget (g_rules g') tc) with
                 | Some x => i0 <- need (Some i) ;; upd_tok l i0 (tok_set_exp (now + x))
                 | None => ret tt end) s = (Ok tt, s2) /\ like g3 /\ minted tc i g3 /\ keepg g3 s2)
        as (s2 & g3 & E & L3 & M3 & K3).
      { destruct (ep_lifetime (dget (g_rules g') tc)) as [x|]; [|exists s, g2; auto].
        do 2 eexists. split; [reflexivity|].
        split; [|split; [|apply (keepg_upd _ _ (fun g => g_set_tokens (upd_nth i (tok_set_exp (now + x)) (g_tokens g)) g) K)]].
        - apply like_upd; [exact L2|apply Mi].
        - destruct Mi as (Li & tk & N & R). split; auto. exists (tok_set_exp (now + x) tk). split; [|exact R].
          cbn. now rewrite nth_upd_nth_same, N. }
      rewrite (bind_run _ _ _ _ _ E).
      destruct (sc_store g3 s2 K3) as ([] & s3 & E3 & K4). rewrite (bind_run _ _ _ _ _ E3).
      do 2 eexists. split; [reflexivity|]. exists i, g3. auto.
  Qed.
  Lemma sc_mint_value tc h scope ttype : lets_mint t tc -> In tc [ACCESS; REFRESH; IDTOKEN] ->
    dget (e_handlers e) tc = Some h ->
    succeeds keep (mint_value e now l sid tc (Some t) scope ttype) (fun tk s => (tc = ACCESS -> read_back tk) /\ keep s).
  Proof.
    intros Lm Itc Hh. apply sc_open. intros g' L. unfold mint_value.
    eapply sc_bind; [apply (sc_ep_mint tc h scope ttype Lm Itc Hh g' L)|].
    intros r s (i & g2 & -> & L2 & (Li & tk & N & R) & K). exists tk, s. split; [|split; auto; eapply keepg_keep; eauto].
      unfold need, tok_at. unfold bind at 1. unfold ret at 1.
      destruct (sc_grant_at g2 s K) as (x & s1 & E & -> & K1).
      assert (s1 = s) as -> by (pose proof (reader_grant_at _ _ _ _ E); auto).
      rewrite (bind_run _ _ _ _ _ E), N. reflexivity.
  Qed.
  Lemma sc_tok_pos : succeeds keep (tok_at l pos) (fun x s => x = t /\ keep s).
  Proof.
    apply sc_open. intros g' L. unfold tok_at. eapply sc_bind; [apply sc_grant_at|]. intros x. apply sc_pure. intros ->.
    destruct (lk_tokens _ L) as (more & ->). rewrite nth_error_app1 by (apply nth_error_Some; congruence). rewrite Hpos.
    apply sc_ret. intros s K. split; auto. eapply keepg_keep; eauto.
  Qed.

  Lemma sc_rotated h scope : lets_mint t REFRESH -> dget (e_handlers e) REFRESH = Some h ->
    succeeds keep (mint_rotated e now l sid t scope) (fun _ => keep).
  Proof.
    intros Lm Hh. apply sc_open. intros g' L. unfold mint_rotated.
    eapply sc_bind; [apply (sc_ep_mint REFRESH h (Some scope) "" Lm ltac:(right; now left) Hh g' L)|].
    intros r s (i & g2 & -> & L2 & (Li & tk & N & R) & K).
    unfold need. unfold bind at 1. unfold ret at 1.
    pose proof (keepg_upd _ _ (fun g => g_set_tokens (upd_nth i (tok_set_rules (t_rules t)) (g_tokens g)) g) K) as K2.
    cbv beta in K2. set (g3 := g_set_tokens _ g2) in K2.
    assert (like g3) as L3 by (apply like_upd; auto).
    eexists (tok_set_rules (t_rules t) tk), _. split; [|eapply keepg_keep; [exact L3|exact K2]].
    unfold bind at 1, upd_tok, upd_obj. cbv beta iota.
    unfold tok_at. destruct (sc_grant_at g3 _ K2) as (x & s1 & E & -> & K1).
    pose proof (reader_grant_at _ _ _ _ E) as Es. rewrite (bind_run _ _ _ _ _ E).
    unfold g3. cbn [g_tokens g_set_tokens]. rewrite nth_upd_nth_same, N. cbn [option_map]. now rewrite Es.
  Qed.

  (** ** A request with a refresh token *)
  Section R.
  Variables (rq : treq) (rissue : option bool) (rv : string).
  Hypothesis Rp : presents rq rv "refresh_token".
  Hypothesis Rc : tr_client rq = Some c.
  Hypothesis Rfp : find_pos rv (g_tokens g) 0 = Some pos.
  Hypothesis Racc : lets_mint t ACCESS.

  Lemma parent_scope_total : exists psc, parent_scope e g t = Ok psc
    /\ inherited_scope (g_tokens g) (g_scope g) (t_based t) psc.
  Proof.
    assert (exists psc, parent_scope e g t = Ok psc) as (psc & Ep).
    { unfold parent_scope. destruct (t_based t) as [b|] eqn:B.
      - pose proof Hfor as (F1 & F2 & F3). destruct (F3 _ _ _ Hpos B) as (i0 & p & Li & Np & Vp).
        rewrite <- Vp, get_token_forest; [|exact Hfor|eapply nth_error_In; eauto].
        apply (find_scope_prefix _ g (g_tokens g) [] p i0); auto; [now rewrite app_nil_r|].
        assert (i0 < List.length (g_tokens g)) by (apply nth_error_Some; congruence). lia.
      - destruct (e_limit e) as [|k]; [lia|]. cbn. eauto. }
    exists psc. split; auto. unfold parent_scope in Ep. destruct (t_based t) as [b|] eqn:B.
    - pose proof Hfor as (F1 & F2 & F3). destruct (F3 _ _ _ Hpos B) as (i0 & p & Li & Np & Vp).
      rewrite <- Vp, get_token_forest in Ep; [|exact Hfor|eapply nth_error_In; eauto].
      eapply (find_scope_inherited g Hfor) in Ep; [|eapply nth_error_In; eauto]. cbn in Ep. congruence.
    - eapply (find_scope_inherited g Hfor) in Ep; auto.
  Qed.

  Definition refreshed (r : outcome tresp) (s : st) : Prop :=
    exists a, r = Good a /\ full_refresh e g t rq rissue a
      /\ (exists x, rs_access a = Some x /\ exists i, token_info e now x = Ok i /\ ti_sid i = sid)
      /\ exists g2, keepg g2 s.

  Lemma sc_refresh (s0 : st) s1 : get_session_info_by_token e now rv s0 = (Ok (mk_sess sid u c gid l), s1) ->
    keepg g s1 -> exists r s2, refresh_process e now rq rissue s0 = (Ok r, s2) /\ refreshed r s2.
  Proof.
    intros E0 K0. destruct Rp as [(X & _)|(_ & G1 & G2)]; [discriminate X|].
    unfold refresh_process. rewrite G1, G2. change (String.eqb "refresh_token" REFRESH) with true. cbn [negb].
    unfold bind at 1. unfold ret at 1.
    rewrite (bind_run _ _ _ _ _ E0). rewrite Rc. cbn [ss_client ss_grant ss_sid].
    unfold bind at 1. unfold ret at 1. rewrite seqb_refl. cbn [negb]. cbv zeta.
    match goal with |- exists r s2, ?m s1 = _ /\ _ => enough (succeeds (keepg g) m refreshed) as H by exact (H s1 K0) end.
    clear E0 K0.
    eapply sc_bind; [apply sc_grant_at|]. intros x. apply sc_pure. intros ->.
    match goal with |- context [match ?d with Some _ => upd_obj _ _ | None => _ end] => set (dpop := d) end.
    eapply sc_bind with (Q := fun _ => keep).
    { destruct dpop as [j|].
      - intros s K. do 2 eexists. split; [reflexivity|].
        eapply keepg_keep; [|apply (keepg_upd _ _ (fun g => g_set_extra (dset (g_extra g) "dpop_jkt" j) g) K)].
        apply like_extra, like_g.
      - apply sc_ret. intros s K. eapply keepg_keep; [apply like_g|exact K]. }
    intros _. rewrite Rfp. eapply sc_bind with (Q := fun p s => p = pos /\ keep s); [apply sc_ret; auto|].
    intros p. apply sc_pure. intros ->.
    eapply sc_bind; [apply sc_tok_pos|]. intros b. apply sc_pure. intros ->.
    destruct parent_scope_total as (psc & Eps & Ips).
    eapply sc_bind; [apply sc_lift; exact Eps|]. intros x. apply sc_pure. intros ->.
    set (scope := match tr_scope rq with Some s => s | None => psc end).
    destruct (io_handlers _ _ _ _ _ O ACCESS) as (ha & Ha). { now left. }
    destruct (io_handlers _ _ _ _ _ O REFRESH) as (hr & Hr). { right; now left. }
    eapply sc_bind; [apply (sc_mint_value ACCESS ha); auto; now left|]. intros tka. apply sc_pure. intros Rb.
    specialize (Rb eq_refl). pose proof Racc as (mints & Em & _). rewrite Em.
    eapply sc_bind with (Q := fun p s => p = mints /\ keep s); [apply sc_ret; auto|]. intros p. apply sc_pure. intros ->.
    assert (forall tc, smem tc mints = true <-> lets_mint t tc) as Lm.
    { intros tc. rewrite lets_mint_b, Em. reflexivity. }
    match goal with |- context [smem REFRESH mints && ?i] => set (iss := i) end.
    assert (iss = true <-> (rissue = Some true \/ e_oidc e = true /\ rissue = None /\ In "offline_access" scope)) as Wi.
    { unfold iss. destruct (e_oidc e), rissue as [[]|]; cbn [otrue]; rewrite ?smem_In; split; intros X;
        try discriminate; auto; destruct X as [X|(X & Y & Z)]; try discriminate; auto. }
    clearbody iss.
    eapply sc_bind with (Q := fun o s => ((exists x : string, o = Some x) <-> iss = true /\ lets_mint t REFRESH) /\ keep s).
    { destruct (smem REFRESH mints && iss) eqn:B.
      - apply andb_true_iff in B as [B1 B2]. apply Lm in B1.
        eapply sc_bind; [apply sc_tok_pos|]. intros b. apply sc_pure. intros ->.
        eapply sc_bind; [apply (sc_rotated hr); auto|]. intros tk. apply sc_ret. intros s K.
        split; auto. split; eauto.
      - apply sc_ret. intros s K. split; auto. split; [intros (tk & X); discriminate|].
        intros (X1 & X2). exfalso. apply Lm in X2. rewrite X1, X2 in B. discriminate. }
    intros ref. apply sc_pure. intros Href.
    eapply sc_bind with (Q := fun o s => (exists idv, o = Good idv /\ ((exists x : string, idv = Some x) <->
        e_oidc e = true /\ lets_mint t IDTOKEN /\ In "openid" scope)) /\ keep s).
    { destruct (e_oidc e && smem IDTOKEN mints && smem "openid" scope) eqn:B.
      - apply andb_true_iff in B as [B B3]. apply andb_true_iff in B as [B1 B2]. apply Lm in B2. apply smem_In in B3.
        destruct (io_id _ _ _ _ _ O B1) as (hi & mo & Hi & _).
        eapply sc_bind; [apply sc_tok_pos|]. intros b. apply sc_pure. intros ->.
        eapply sc_bind; [apply sc_except_jwe, (sc_mint_value IDTOKEN hi); auto; do 2 right; now left|].
        intros o. intros s (tk & -> & _ & K). do 2 eexists. split; [reflexivity|]. split; auto.
        eexists. split; [reflexivity|]. split; eauto 8.
      - apply sc_ret. intros s K. split; auto. eexists. split; [reflexivity|].
        split; [intros (x & X); discriminate|]. intros (X1 & X2 & X3). exfalso.
        apply Lm in X2. apply smem_In in X3. rewrite X1, X2, X3 in B. discriminate. }
    intros o. apply sc_pure. intros (idv & -> & Hid).
    intros s [F (g2 & H2 & L2)].
    pose proof (keepg_upd g2 s (fun g => g_set_tokens (upd_nth pos tok_register (g_tokens g)) g) (conj F H2)) as K2.
    cbv beta in K2.
    match type of K2 with keepg ?ga ?sa => set (g3 := ga) in *; set (s3 := sa) in * end.
    assert (exists s4 g4, (if revoke_refresh e c then upd_tok l pos tok_set_revoked else ret tt) s3 = (Ok tt, s4) /\ keepg g4 s4)
      as (s4 & g4 & E4 & K4).
    { destruct (revoke_refresh e c); [|exists s3, g3; auto]. do 2 eexists. split; [reflexivity|].
      apply (keepg_upd g3 s3 (fun g => g_set_tokens (upd_nth pos tok_set_revoked (g_tokens g)) g) K2). }
    exists (Good (mk_tresp (if e_oidc e then Some match dpop with Some _ => "DPoP" | None => "Bearer" end else t_type tka) scope
             (Some (t_value tka)) (expires_in now tka) ref idv)), s4. split.
    { assert (upd_tok l pos tok_register s = (Ok tt, s3)) as E3 by reflexivity.
      rewrite (bind_run _ _ _ _ _ E3), (bind_run _ _ _ _ _ E4). reflexivity. }
    eexists. split; [reflexivity|]. split; [|split; [|eauto]].
    - unfold full_refresh, wanted_again. cbn [rs_scope rs_access rs_refresh rs_id]. split.
      { unfold scope. destruct (tr_scope rq); [split; [intros sc X; congruence|discriminate]|split; [discriminate|auto]]. }
      split; [eauto|]. change "refresh_token" with REFRESH. change "id_token" with IDTOKEN.
      split; [rewrite Href, Wi; reflexivity|rewrite Hid; reflexivity].
    - cbn [rs_access]. eexists. split; [reflexivity|]. exact Rb.
  Qed.
  End R.

  (** ** The request *)
  Variables (q : treq) (issue : option bool) (v : string).
  Hypothesis Hq : right_request q v ar.
  Hypothesis Hc : ar_client_id ar = c.
  Hypothesis Hv : replace_char " " "+" v = v.
  Hypothesis Hfp : find_pos v (g_tokens g) 0 = Some pos.
  Hypothesis Hacc : lets_mint t ACCESS.
  Hypothesis Hsc : e_oidc e = true -> exists sc, ar_scope ar = Some sc.

  Definition there_still (s : st) : Prop := exists g2, keepg g2 s.
  Definition well_answered (r : outcome tresp) (s : st) : Prop :=
    exists a, r = Good a /\ full_answer e g ar t gts issue a
      /\ (exists x, rs_access a = Some x /\ exists i, token_info e now x = Ok i /\ ti_sid i = sid)
      /\ there_still s.

  Lemma lm_false tc : smem tc (match r_minting (t_rules t) with Some m => m | None => [] end) = false -> ~ lets_mint t tc.
  Proof. intros H L. apply lets_mint_b in L. congruence. Qed.

  Lemma sc_rest (s0 : st) s1 : get_session_info_by_token e now v s0 = (Ok (mk_sess sid u c gid l), s1) ->
    keepg g s1 -> exists r s2, code_process e now q issue s0 = (Ok r, s2) /\ well_answered r s2.
  Proof.
    intros E0 K0. destruct Hq as (Pq & Cq & Rq). destruct Pq as [(_ & G1 & G2)|(X & _)]; [|discriminate X].
    unfold code_process. rewrite G1, G2, Hv. change (String.eqb "authorization_code" CODE) with true. cbn [negb].
    rewrite (bind_run _ _ _ _ _ E0). rewrite Cq, Hc. cbn [ss_client ss_grant ss_sid].
    unfold bind at 1. unfold ret at 1. rewrite seqb_refl. cbn [negb].
    assert (grant_types_of e c = Ok gts) as Eg.
    { unfold grant_types_of. destruct (io_client _ _ _ _ _ O) as (cl & -> & [->|[-> ->]]); reflexivity. }
    unfold bind at 1. unfold lift at 1. rewrite Eg. cbv zeta.
    match goal with |- exists r s2, ?m s1 = _ /\ _ => enough (succeeds (keepg g) m well_answered) as H by exact (H s1 K0) end.
    clear E0 K0.
    eapply sc_bind; [apply sc_grant_at|]. intros x. apply sc_pure. intros ->.
    match goal with |- context [match ?d with Some _ => upd_obj _ _ | None => _ end] => set (dpop := d) end.
    eapply sc_bind with (Q := fun _ => keep).
    { destruct dpop as [j|].
      - intros s K. do 2 eexists. split; [reflexivity|].
        eapply keepg_keep; [|apply (keepg_upd _ _ (fun g => g_set_extra (dset (g_extra g) "dpop_jkt" j) g) K)].
        apply like_extra, like_g.
      - apply sc_ret. intros s K. eapply keepg_keep; [apply like_g|exact K]. }
    intros _. rewrite Hfp. eapply sc_bind with (Q := fun p s => p = pos /\ keep s); [apply sc_ret; auto|].
    intros p. apply sc_pure. intros ->.
    eapply sc_bind; [apply sc_tok_pos|]. intros b. apply sc_pure. intros ->.
    rewrite Hga. eapply sc_bind with (Q := fun p s => p = ar /\ keep s); [apply sc_ret; auto|].
    intros p. apply sc_pure. intros ->.
    eapply sc_bind with (Q := fun p s => p = true /\ keep s).
    { destruct (ar_redirect_uri ar) as [uri|] eqn:Er; [|apply sc_ret; auto].
      rewrite (Rq uri eq_refl). apply sc_ret. intros s K. rewrite seqb_refl. auto. }
    intros p. apply sc_pure. intros ->. cbn [negb].
    match goal with |- context [if ?i && _ && _ then _ else _] => set (iss := i) end.
    set (mints := match r_minting (t_rules t) with Some m => m | None => [] end).
    assert (smem ACCESS mints = true) as Ma by (apply lets_mint_b; exact Hacc). rewrite Ma.
    assert (iss = true <-> wants_refresh e g issue) as Wi.
    { unfold iss, wants_refresh. destruct (e_oidc e), issue as [[]|]; cbn [otrue]; rewrite ?smem_In; split; intros X;
        try discriminate; auto; destruct X as [X|(X & Y & Z)]; try discriminate; auto. }
    clearbody iss.
    destruct (io_handlers _ _ _ _ _ O ACCESS) as (ha & Ha). { now left. }
    destruct (io_handlers _ _ _ _ _ O REFRESH) as (hr & Hr). { right; now left. }
    eapply sc_bind with (Q := fun o s => (exists tk, o = Some tk /\ read_back tk) /\ keep s).
    { eapply sc_conseq; [apply sc_except_minting, (sc_mint_value ACCESS ha); auto; now left|auto|].
      intros o s (tk & -> & R & K). split; eauto. }
    intros acc. apply sc_pure. intros (tka & -> & Rb).
    eapply sc_bind with (Q := fun o s => ((exists tk : token, o = Some tk) <->
        wants_refresh e g issue /\ lets_mint t REFRESH /\ In REFRESH gts) /\ keep s).
    { destruct (iss && smem REFRESH mints && smem REFRESH gts) eqn:B.
      - apply andb_true_iff in B as [B B3]. apply andb_true_iff in B as [B1 B2].
        apply lets_mint_b in B2. apply smem_In in B3.
        eapply sc_bind; [apply sc_tok_pos|]. intros b. apply sc_pure. intros ->.
        eapply sc_conseq; [apply sc_except_minting, (sc_mint_value REFRESH hr); auto; right; now left|auto|].
        intros o s (tk & -> & R & K). split; auto. split; [|eauto]. intros _. rewrite <- Wi. auto.
      - apply sc_ret. intros s K. split; auto. split; [intros (tk & X); discriminate|].
        intros (X1 & X2 & X3). exfalso. apply Wi in X1. apply lets_mint_b in X2. apply smem_In in X3.
        fold mints in X2. rewrite X1, X2, X3 in B. discriminate. }
    intros ref. apply sc_pure. intros Href.
    eapply sc_bind with (Q := fun _ => keep); [apply sc_put|]. intros _.
    eapply sc_bind with (Q := fun o s => (exists idv, o = Good idv /\ ((exists x : string, idv = Some x) <->
        e_oidc e = true /\ lets_mint t IDTOKEN /\ exists sc, ar_scope ar = Some sc /\ In "openid" sc)) /\ keep s).
    { destruct (e_oidc e) eqn:Oi.
      - destruct (Hsc eq_refl) as (sc & Es). rewrite Es.
        eapply sc_bind with (Q := fun p s => p = sc /\ keep s); [apply sc_ret; auto|]. intros p. apply sc_pure. intros ->.
        destruct (smem "openid" sc && smem IDTOKEN mints) eqn:B.
        + apply andb_true_iff in B as [B1 B2]. apply lets_mint_b in B2. apply smem_In in B1.
          destruct (io_id _ _ _ _ _ O Oi) as (hi & mo & Hi & _).
          eapply sc_bind; [apply sc_tok_pos|]. intros b. apply sc_pure. intros ->.
          eapply sc_bind; [apply sc_except_jwe, (sc_mint_value IDTOKEN hi); auto; do 2 right; now left|].
          intros o. intros s (tk & -> & _ & K). do 2 eexists. split; [reflexivity|]. split; auto.
          eexists. split; [reflexivity|]. split; eauto 8.
        + apply sc_ret. intros s K. split; auto. eexists. split; [reflexivity|].
          split; [intros (x & X); discriminate|]. intros (_ & X2 & sc' & X3 & X4). exfalso.
          apply lets_mint_b in X2. fold mints in X2. assert (sc' = sc) by congruence. subst sc'.
          apply smem_In in X4. rewrite X2, X4 in B. discriminate.
      - apply sc_ret. intros s K. split; auto. eexists. split; [reflexivity|].
        split; [intros (x & X); discriminate|]. intros (X & _). discriminate. }
    intros o. apply sc_pure. intros (idv & -> & Hid).
    intros s [F (g2 & H2 & L2)]. do 2 eexists. split; [reflexivity|].
    eexists. split; [reflexivity|]. split; [|split].
    - split; [reflexivity|]. split; [eexists; reflexivity|]. cbn [rs_refresh rs_id]. split; [|exact Hid].
      change "refresh_token" with REFRESH. rewrite <- Href. split.
      + intros (x & X). destruct ref as [tk|]; [eauto|discriminate].
      + intros (tk & ->). eexists; reflexivity.
    - cbn [rs_access option_map]. eexists. split; [reflexivity|]. exact Rb.
    - eexists. apply (keepg_upd g2 s (fun g => g_set_tokens (upd_nth pos tok_register (g_tokens g)) g)). split; auto.
  Qed.

  Lemma by_token_again x s : there_still s -> (exists i, token_info e now x = Ok i /\ ti_sid i = sid) ->
    get_session_info_by_token e now x s = (Ok (mk_sess sid u c gid l), s).
  Proof.
    intros (g2 & F & _) (i & Ei & Es). unfold get_session_info_by_token. rewrite Ei.
    unfold bind at 1, lift at 1. rewrite Es. assert (str_true sid = true) as -> by now apply str_true_iff.
    cbn [negb]. unfold compatible_sid. destruct sid_plain as [-> _]. cbn [List.length Nat.eqb].
    unfold bind at 1, ret at 1. unfold get_session_info. rewrite Hd. unfold bind, lift. rewrite found_get by exact F. reflexivity.
  Qed.
  Lemma process_answers (s0 : st) s1 : get_session_info_by_token e now v s0 = (Ok (mk_sess sid u c gid l), s1) ->
    keepg g s1 -> exists a s2, token_process e now q issue s0 = (Ok (Good a), s2) /\ full_answer e g ar t gts issue a.
  Proof.
    intros E K. destruct (sc_rest s0 s1 E K) as (r & s2 & Ec & a & -> & Fa & (x & Ex & Rx) & Th).
    destruct Hq as (Pq & _ & _). destruct Pq as [(_ & G1 & _)|(X & _)]; [|discriminate X].
    exists a, s2. split; auto. unfold token_process. rewrite G1.
    assert (smem "authorization_code" (e_helpers e) = true) as -> by (apply smem_In, (io_helper _ _ _ _ _ O)).
    change (String.eqb "authorization_code" CODE) with true. cbn [negb].
    unfold bind at 1. unfold catch at 1. rewrite Ec. rewrite Ex. unfold bind at 1, ret at 1.
    rewrite (bind_run _ _ _ _ _ (by_token_again x s2 Th Rx)). cbn [ss_grant].
    destruct Th as (g2 & K2). destruct (sc_grant_at g2 s2 K2) as (y & s3 & Eg & _).
    assert (s3 = s2) as -> by (pose proof (reader_grant_at _ _ _ _ Eg); auto).
    rewrite (bind_run _ _ _ _ _ Eg). reflexivity.
  Qed.
End A.

Lemma refresh_answers e now u c gid l sid gts g t pos ar ae : laws e -> in_order e now u c gts ->
  dec_sid3 e sid = Ok (u, c, gid) -> sid <> "" -> sid <> u -> g_areq g = Some ar -> g_aevent g = Some ae ->
  grant_active now g = true -> g_max g = None -> legible (g_claims g) ->
  (forall m, ar_claims ar = Some m -> legible m) -> nth_error (g_tokens g) pos = Some t ->
  forest (g_tokens g) -> List.length (g_tokens g) < e_limit e -> tok_active now t = true ->
  clean c -> clean gid -> forall q issue v,
  presents q v "refresh_token" -> tr_client q = Some c -> find_pos v (g_tokens g) 0 = Some pos ->
  lets_mint t ACCESS -> In "refresh_token" (e_helpers e) ->
  forall s0 s1, get_session_info_by_token e now v s0 = (Ok (mk_sess sid u c gid l), s1) ->
  keepg u c gid l g s1 ->
  exists a s2, token_process e now q issue s0 = (Ok (Good a), s2) /\ full_refresh e g t q issue a.
Proof.
  intros W O D Ns Nu Ar Ae Ga Gm Lc Lr Nj Fo Ll Ta Kc Kg q issue v Pq Cq Hp La Hh s0 s1 E K.
  destruct (sc_refresh e now u c gid l sid gts g t pos ar ae W O D Ns Nu Ar Ae Ga Gm Lc Lr Nj Fo Ll Ta Kc q issue v Pq Cq Hp La s0 s1 E K)
    as (r & s2 & Ec & a & -> & Fa & (x & Ex & Rx) & Th).
  destruct Pq as [(X & _)|(_ & G1 & _)]; [discriminate X|].
  exists a, s2. split; auto. unfold token_process. rewrite G1.
  assert (smem "refresh_token" (e_helpers e) = true) as -> by now apply smem_In.
  change (String.eqb "refresh_token" CODE) with false. change (String.eqb "refresh_token" REFRESH) with true. cbn [negb].
  unfold bind at 1. unfold catch at 1. rewrite Ec. rewrite Ex. unfold bind at 1, ret at 1.
  rewrite (bind_run _ _ _ _ _ (by_token_again e now u c gid l sid W D Ns x s2 Th Rx)). cbn [ss_grant].
  destruct Th as (g2 & K2). destruct (sc_grant_at u c gid l g2 s2 K2) as (y & s3 & Eg & _).
  assert (s3 = s2) as -> by (pose proof (reader_grant_at _ _ _ _ Eg); auto).
  rewrite (bind_run _ _ _ _ _ Eg). reflexivity.
Qed.


(** ** In every history *)
Lemma find_pos_has v ts t : forall k, In t ts -> t_value t = v -> exists i, find_pos v ts k = Some i.
Proof.
  induction ts as [|x ts IH]; intros k I V; [destruct I|]. cbn [find_pos]. destruct I as [->|I].
  - rewrite V, seqb_refl. eauto.
  - destruct (String.eqb (t_value x) v); eauto.
Qed.
Section B.
  Variables (e : env) (W : laws e).

  Lemma code_request_answered ops evs h now gid g u c gts ar t v k q issue :
    history e ops evs h -> grant_of h gid g -> belongs e g u c -> g_areq g = Some ar ->
    In t (g_tokens g) -> t_value t = v -> token_live t now -> grant_live g now ->
    leads_to e now h v gid -> lets_mint t "access_token" ->
    nth_error (h_parsed h) k = Some q -> right_request q v ar ->
    in_order e now u c gts -> (forall p, dec_sid e u <> Ok p) ->
    legible (g_claims g) -> (forall m, ar_claims ar = Some m -> legible m) ->
    (e_oidc e = true -> exists sc, ar_scope ar = Some sc) ->
    List.length (g_tokens g) < e_limit e ->
    exists a h', step e h (OProcess now k issue) = (EvToken q (Ok (Good a)), h')
      /\ full_answer e g ar t gts issue a.
  Proof.
    intros Hi (l & Hl & Eid) Bg Ar It Vt Lt Lg (i & s1 & Ei & Egi) La Nk Rq O Nu Lc Lr Ls Ll.
    assert (forest (g_tokens g)) as Fo by (eapply (history_forest e W); [exact Hi|exists l; eauto]).
    destruct (history_hi e W _ _ _ Hi) as [I _]. set (s0 := h_st h) in *.
    destruct (by_token_read e now v s0 i s1 I Ei) as (Q & I1 & (gr & Hgr & Egr & Bgr)).
    pose proof (by_token_spec e now v (fun _ => True) _ _ _ I Logic.I Ei) as (_ & _ & X).
    destruct (X i eq_refl) as (D & _). clear X.
    change (hp s0 l = Some (OGrant g)) in Hl.
    assert (ss_grant i = l) as El by (eapply (inv_uniq _ _ I); eauto; congruence).
    rewrite El in Hgr. assert (gr = g) by congruence. subst gr.
    destruct Bg as (ar1 & ae & B1 & B2 & B3 & B4 & B5). destruct Bgr as (ar2 & ae2 & C1 & C2 & C3 & C4 & C5).
    assert (ar1 = ar) by congruence. subst ar1. assert (ar2 = ar) by congruence. subst ar2.
    assert (ae2 = ae) by congruence. subst ae2.
    assert (ss_client i = c) as Ec by congruence. assert (ss_user i = u) as Eu by congruence.
    assert (i = mk_sess (ss_sid i) u c gid l) as Ei2 by (destruct i; cbn in *; congruence).
    set (sid := ss_sid i) in *. rewrite Eu, Ec, Egi in D.
    assert (found u c gid l s1 /\ sid <> "") as [F Ns].
    { unfold get_session_info_by_token in Ei. apply bind_ok in Ei as (ti & s2 & _ & Ei).
      destruct (str_true (ti_sid ti)) eqn:St; [|discriminate]. cbn [negb] in Ei.
      apply bind_ok in Ei as (sid' & s3 & Ec' & Ei). unfold get_session_info in Ei.
      apply bind_ok in Ei as ([[u' c'] g'] & s4 & _ & Ei). apply bind_ok in Ei as (l' & s5 & Eg & Ei).
      apply ret_ok in Ei as [Ei <-]. pose proof (reader_db_get _ _ _ _ Eg). subst s4.
      rewrite <- Ei in Ei2. assert (sid = sid') as Esid by (unfold sid; rewrite <- Ei; reflexivity).
      injection Ei2 as _ -> -> -> ->. split; [now apply get_found|]. rewrite Esid.
      unfold compatible_sid in Ec'. destruct (Nat.eqb _ _).
      - unfold enc_sid in Ec'. apply bind_ok in Ec' as (n & s6 & _ & Ec'). apply ret_ok in Ec' as [<- _].
        unfold encrypted_session_id. apply (law_text _ W n). left. unfold crypt_encrypt. eauto.
      - apply ret_ok in Ec' as [<- _]. now apply str_true_iff. }
    assert (hp s1 l = Some (OGrant g)) as Hl1.
    { destruct Q as (Hh & _). unfold hp in *. now rewrite Hh. }
    pose proof (inv_grants _ _ I _ _ Hl) as Gi.
    destruct (find_pos_has v (g_tokens g) t 0 It Vt) as (pos & Hp).
    destruct (find_pos_ok _ _ _ Hp) as (t' & Np & Vp).
    destruct (In_nth_error _ _ It) as (j & Nj).
    assert (pos = j) as -> by (eapply (inv_vals _ _ I l l); eauto; congruence).
    assert (t' = t) by congruence. subst t'.
    assert (clean c /\ clean gid) as [Kc Kg].
    { destruct F as (ul & iu & cl & ic & A1 & A2 & A3 & A4 & A5 & A6 & A7). apply smem_In in A3, A6.
      split; [exact (inv_sub _ _ I1 _ _ _ A2 A3)|exact (inv_sub _ _ I1 _ _ _ A5 A6)]. }
    unfold step. rewrite Nk. unfold on_st.
    destruct (process_answers e now u c gid l sid gts g t j ar ae W O D Ns
      ltac:(intros Z; apply dec_sid3_ok in D; rewrite Z in D; exact (Nu _ D)) Ar B3
      (proj2 (grant_active_live now g) Lg) (gi_max _ _ Gi) Lc Lr Nj
      Fo Ll (proj2 (tok_active_live now t) Lt) Kc Kg q issue v Rq B2
      ltac:(destruct (inv_made _ _ I _ _ _ Hl It) as (n & Mn & _); rewrite Vt in Mn; apply replace_char_id; exact (proj2 (law_text _ W _ _ Mn)))
      Hp La Ls s0 s1 ltac:(rewrite Ei, <- Ei2; reflexivity) (conj F Hl1)) as (a & s2 & E & Fa).
    fold s0. rewrite E. exists a. eexists. split; [reflexivity|exact Fa].
  Qed.

  Lemma refresh_request_answered ops evs h now gid g u c gts ar t v k q issue :
    history e ops evs h -> grant_of h gid g -> belongs e g u c -> g_areq g = Some ar ->
    In t (g_tokens g) -> t_value t = v -> token_live t now -> grant_live g now ->
    leads_to e now h v gid -> lets_mint t "access_token" ->
    nth_error (h_parsed h) k = Some q -> presents q v "refresh_token" -> tr_client q = Some c ->
    In "refresh_token" (e_helpers e) ->
    in_order e now u c gts -> (forall p, dec_sid e u <> Ok p) ->
    legible (g_claims g) -> (forall m, ar_claims ar = Some m -> legible m) ->
    List.length (g_tokens g) < e_limit e ->
    exists a h', step e h (OProcess now k issue) = (EvToken q (Ok (Good a)), h')
      /\ full_refresh e g t q issue a.
  Proof.
    intros Hi (l & Hl & Eid) Bg Ar It Vt Lt Lg (i & s1 & Ei & Egi) La Nk Pq Cq Hlp O Nu Lc Lr Ll.
    assert (forest (g_tokens g)) as Fo by (eapply (history_forest e W); [exact Hi|exists l; eauto]).
    destruct (history_hi e W _ _ _ Hi) as [I _]. set (s0 := h_st h) in *.
    destruct (by_token_read e now v s0 i s1 I Ei) as (Q & I1 & (gr & Hgr & Egr & Bgr)).
    pose proof (by_token_spec e now v (fun _ => True) _ _ _ I Logic.I Ei) as (_ & _ & X).
    destruct (X i eq_refl) as (D & _). clear X.
    change (hp s0 l = Some (OGrant g)) in Hl.
    assert (ss_grant i = l) as El by (eapply (inv_uniq _ _ I); eauto; congruence).
    rewrite El in Hgr. assert (gr = g) by congruence. subst gr.
    destruct Bg as (ar1 & ae & B1 & B2 & B3 & B4 & B5). destruct Bgr as (ar2 & ae2 & C1 & C2 & C3 & C4 & C5).
    assert (ar1 = ar) by congruence. subst ar1. assert (ar2 = ar) by congruence. subst ar2.
    assert (ae2 = ae) by congruence. subst ae2.
    assert (ss_client i = c) as Ec by congruence. assert (ss_user i = u) as Eu by congruence.
    assert (i = mk_sess (ss_sid i) u c gid l) as Ei2 by (destruct i; cbn in *; congruence).
    set (sid := ss_sid i) in *. rewrite Eu, Ec, Egi in D.
    assert (found u c gid l s1 /\ sid <> "") as [F Ns].
    { unfold get_session_info_by_token in Ei. apply bind_ok in Ei as (ti & s2 & _ & Ei).
      destruct (str_true (ti_sid ti)) eqn:St; [|discriminate]. cbn [negb] in Ei.
      apply bind_ok in Ei as (sid' & s3 & Ec' & Ei). unfold get_session_info in Ei.
      apply bind_ok in Ei as ([[u' c'] g'] & s4 & _ & Ei). apply bind_ok in Ei as (l' & s5 & Eg & Ei).
      apply ret_ok in Ei as [Ei <-]. pose proof (reader_db_get _ _ _ _ Eg). subst s4.
      rewrite <- Ei in Ei2. assert (sid = sid') as Esid by (unfold sid; rewrite <- Ei; reflexivity).
      injection Ei2 as _ -> -> -> ->. split; [now apply get_found|]. rewrite Esid.
      unfold compatible_sid in Ec'. destruct (Nat.eqb _ _).
      - unfold enc_sid in Ec'. apply bind_ok in Ec' as (n & s6 & _ & Ec'). apply ret_ok in Ec' as [<- _].
        unfold encrypted_session_id. apply (law_text _ W n). left. unfold crypt_encrypt. eauto.
      - apply ret_ok in Ec' as [<- _]. now apply str_true_iff. }
    assert (hp s1 l = Some (OGrant g)) as Hl1.
    { destruct Q as (Hh & _). unfold hp in *. now rewrite Hh. }
    pose proof (inv_grants _ _ I _ _ Hl) as Gi.
    destruct (find_pos_has v (g_tokens g) t 0 It Vt) as (pos & Hp).
    destruct (find_pos_ok _ _ _ Hp) as (t' & Np & Vp).
    destruct (In_nth_error _ _ It) as (j & Nj).
    assert (pos = j) as -> by (eapply (inv_vals _ _ I l l); eauto; congruence).
    assert (t' = t) by congruence. subst t'.
    assert (clean c /\ clean gid) as [Kc Kg].
    { destruct F as (ul & iu & cl & ic & A1 & A2 & A3 & A4 & A5 & A6 & A7). apply smem_In in A3, A6.
      split; [exact (inv_sub _ _ I1 _ _ _ A2 A3)|exact (inv_sub _ _ I1 _ _ _ A5 A6)]. }
    unfold step. rewrite Nk. unfold on_st.
    destruct (refresh_answers e now u c gid l sid gts g t j ar ae W O D Ns
      ltac:(intros Z; apply dec_sid3_ok in D; rewrite Z in D; exact (Nu _ D)) Ar B3
      (proj2 (grant_active_live now g) Lg) (gi_max _ _ Gi) Lc Lr Nj
      Fo Ll (proj2 (tok_active_live now t) Lt) Kc Kg q issue v Pq Cq Hp La Hlp
      s0 s1 ltac:(rewrite Ei, <- Ei2; reflexivity) (conj F Hl1)) as (a & s2 & E & Fa).
    fold s0. rewrite E. exists a. eexists. split; [reflexivity|exact Fa].
  Qed.

  (** ** Parsing *)
  Lemma leads_quiet now v gid s s' : quiet s s' ->
    (exists i s1, get_session_info_by_token e now v s = (Ok i, s1) /\ ss_gid i = gid) ->
    exists i s1, get_session_info_by_token e now v s' = (Ok i, s1) /\ ss_gid i = gid.
  Proof.
    intros Q (i & s1 & E & G). pose proof Q as (Q1 & Q2 & _).
    unfold get_session_info_by_token in *. apply bind_ok in E as (ti & s2 & E1 & E). apply lift_ok in E1 as [E1 <-].
    rewrite E1. unfold bind at 1, lift at 1.
    destruct (str_true (ti_sid ti)); [|discriminate]. cbn [negb] in *.
    apply bind_ok in E as (sid & s3 & Ec & E).
    assert (exists sid' s3', compatible_sid e (ti_sid ti) s' = (Ok sid', s3') /\ quiet s' s3' /\ dec_sid3 e sid' = dec_sid3 e sid)
      as (sid' & s3' & Ec' & Q3 & D).
    { unfold compatible_sid in *. destruct (Nat.eqb _ _).
      - unfold enc_sid in *. unfold bind, tick, ret in Ec. injection Ec as <- <-.
        do 2 eexists. split; [reflexivity|]. split; [split; [reflexivity|split; [reflexivity|cbn; lia]]|].
        unfold dec_sid3. erewrite dec_any_nonce by exact W. reflexivity.
      - apply ret_ok in Ec as [<- <-]. exists (ti_sid ti), s'. split; [reflexivity|]. split; [apply quiet_refl|reflexivity]. }
    rewrite (bind_run _ _ _ _ _ Ec').
    pose proof (quiet_compatible _ _ _ _ _ Ec) as Q4.
    unfold get_session_info in *. apply bind_ok in E as ([[u c] g] & s4 & Ed & E). apply lift_ok in Ed as [Ed <-].
    apply bind_ok in E as (l & s5 & Eg & E). apply ret_ok in E as [<- <-].
    pose proof (reader_db_get _ _ _ _ Eg). subst s5. apply get_found in Eg.
    exists (mk_sess sid' u c g l), s3'. split; [|exact G]. rewrite D, Ed. unfold bind, lift.
    rewrite (found_get u c g l s3'); [reflexivity|]. destruct Q3 as (Q31 & Q32 & _), Q4 as (Q41 & Q42 & _).
    eapply found_same; [| |exact Eg]; congruence.
  Qed.

  Lemma of_matches m vf ch : matches e m vf ch -> verify_code_challenge e vf ch m = Ok true.
  Proof.
    unfold verify_code_challenge, cc_method. intros [[-> ->]|[M1 M2]].
    - cbn. now rewrite seqb_refl.
    - destruct M1 as [-> | [-> | ->]]; cbn [String.eqb Ascii.eqb Bool.eqb smem existsb orb]; cbn; rewrite M2; cbn; now rewrite seqb_refl.
  Qed.

  Lemma code_request_parsed ops evs h now gid g u c ar t v q :
    history e ops evs h -> grant_of h gid g -> belongs e g u c -> g_areq g = Some ar ->
    In t (g_tokens g) -> t_value t = v -> t_class t = "authorization_code" -> token_live t now ->
    leads_to e now h v gid -> may_use e c "authorization_code" ->
    sent_request q v ar -> keeps_challenge e q ar ->
    exists q' s', token_parse_all e now c q (h_st h) = (Ok (Good q'), s') /\ quiet (h_st h) s' /\ right_request q' v ar.
  Proof.
    intros Hi (l & Hl & Eid) Bg Ar It Vt Ct Lt Le (cl & Mu1 & Mu2 & Mu3) (Pq & Cq & Rq) Kq.
    destruct Le as (i & s1 & Ei & Egi).
    destruct (history_hi e W _ _ _ Hi) as [I _]. set (s0 := h_st h) in *.
    destruct (by_token_read e now v s0 i s1 I Ei) as (Q & I1 & (gr & Hgr & Egr & Bgr)).
    change (hp s0 l = Some (OGrant g)) in Hl.
    assert (ss_grant i = l) as El by (eapply (inv_uniq _ _ I); eauto; congruence).
    destruct Pq as [(_ & G1 & G2)|(X & _)]; [|discriminate X].
    assert (hp s1 l = Some (OGrant g)) as Hl1.
    { destruct Q as (Hh & _). unfold hp in *. now rewrite Hh. }
    assert (get_token g v = Some t) as Gt.
    { destruct (In_nth_error _ _ It) as (j & Nj).
      destruct (find_first (g_tokens g) [] j t v Nj Vt) as (j' & t' & _ & Nj' & Ft). rewrite app_nil_r in Ft.
      unfold get_token. rewrite Ft. f_equal. pose proof (find_some _ _ Ft) as [_ Vt']. apply seqb_eq in Vt'.
      assert (j = j') as -> by (eapply (inv_vals _ _ I l l); eauto; congruence). congruence. }
    pose proof (gi_tok _ _ (inv_grants _ _ I _ _ Hl) _ It) as Tk.
    assert (t_used t = 0%Z) as Us.
    { pose proof (to_used _ _ Tk). pose proof (to_code _ _ Tk Ct) as Mx.
      destruct Lt as (_ & Lm & _). specialize (Lm _ Mx). lia. }
    set (q' := match tr_client q with Some _ => q | None => tr_set_client (ar_client_id ar) q end).
    assert (right_request q' v ar) as Rq'.
    { unfold q', right_request, presents. destruct Cq as [->| Cq]; [|rewrite Cq]; cbn; auto 10. }
    assert (token_parse e now c q s0 = (Ok (Good q'), s1)) as Ep.
    { unfold token_parse. rewrite Mu1, G1.
      assert (match c_grant_types cl with Some l0 => negb (smem "authorization_code" l0) | None => false end = false) as ->.
      { destruct (c_grant_types cl) as [gt|]; auto. apply negb_false_iff, smem_In, Mu2. reflexivity. }
      assert (smem "authorization_code" (e_helpers e) = true) as -> by now apply smem_In. cbn [negb].
      change (String.eqb "authorization_code" CODE) with true. unfold code_parse. rewrite G2.
      assert (catch (c0 <- ret v ;; i0 <- get_session_info_by_token e now c0 ;; ret (Some (c0, i0)))
                (fun x => if is_KeyError x then Some (ret None)
                    else match x with UnknownToken => Some (ret None) | _ => None end) s0 = (Ok (Some (v, i)), s1)) as Ex.
      { unfold catch. unfold bind at 1, ret at 1. rewrite (bind_run _ _ _ _ _ Ei). reflexivity. }
      rewrite (bind_run _ _ _ _ _ Ex). rewrite El.
      assert (grant_at l s1 = (Ok g, s1)) as Eg.
      { unfold grant_at, deref, bind. unfold hp in Hl1. rewrite Hl1. reflexivity. }
      rewrite (bind_run _ _ _ _ _ Eg), Gt, Ct, Us. change (String.eqb "authorization_code" CODE) with true.
      rewrite (proj2 (tok_active_live now t) Lt). cbn [negb Z.eqb andb]. rewrite andb_false_r, Ar.
      unfold q'. destruct (tr_client q); reflexivity. }
    unfold token_parse_all. rewrite (bind_run _ _ _ _ _ Ep).
    assert (tr_grant_type q' = "authorization_code" /\ tr_code q' = Some v /\ tr_verifier q' = tr_verifier q) as (G1' & G2' & G3').
    { unfold q'. destruct (tr_client q); auto. }
    destruct (e_pkce e && String.eqb (tr_grant_type q') CODE) eqn:B.
    2:{ exists q', s1. auto. }
    apply andb_true_iff in B as [B _].
    assert (exists i s, get_session_info_by_token e now v s1 = (Ok i, s) /\ ss_gid i = gid) as (i2 & s2 & E2 & Egi2).
    { eapply leads_quiet; [exact Q|eauto]. }
    destruct (by_token_read e now v s1 i2 s2 I1 E2) as (Q2 & I2 & (gr2 & Hgr2 & Egr2 & _)).
    assert (ss_grant i2 = l) as El2 by (eapply (inv_uniq _ _ I1); eauto; congruence).
    exists q', s2. split; [|split; [eapply quiet_trans; eauto|exact Rq']].
    unfold pkce_check. rewrite G2'.
    assert (catch (c0 <- ret v ;; i0 <- get_session_info_by_token e now c0 ;; ret (Some i0))
              (fun x => if is_KeyError x then Some (ret None) else None) s1 = (Ok (Some i2), s2)) as Ex.
    { unfold catch. unfold bind at 1, ret at 1. rewrite (bind_run _ _ _ _ _ E2). reflexivity. }
    rewrite (bind_run _ _ _ _ _ Ex), El2.
    assert (grant_at l s2 = (Ok g, s2)) as Eg.
    { destruct Q2 as (Hh & _). unfold grant_at, deref, bind. unfold hp in Hl1. rewrite Hh, Hl1. reflexivity. }
    rewrite (bind_run _ _ _ _ _ Eg), Ar. unfold bind at 1, ret at 1.
    destruct (ar_code_challenge ar) as [ch|] eqn:Ch; [|reflexivity].
    destruct (Kq B ch Ch) as (m & vf & M1 & M2 & M3). rewrite G3', M2, M1. unfold bind at 1, ret at 1.
    rewrite (of_matches _ _ _ M3). reflexivity.
  Qed.

  Lemma refresh_request_parsed ops evs h now gid g u c ar t v q :
    history e ops evs h -> grant_of h gid g -> belongs e g u c -> g_areq g = Some ar ->
    In t (g_tokens g) -> t_value t = v -> t_class t = "refresh_token" -> token_live t now ->
    leads_to e now h v gid -> may_use e c "refresh_token" ->
    presents q v "refresh_token" -> asks_within g t q -> List.length (g_tokens g) < e_limit e ->
    exists s', token_parse_all e now c q (h_st h) = (Ok (Good q), s') /\ quiet (h_st h) s'.
  Proof.
    intros Hi Gr Bg Ar It Vt Ct Lt Le (cl & Mu1 & Mu2 & Mu3) Pq Aq Ll.
    pose proof (history_forest e W _ _ _ _ _ Hi Gr) as Fo. destruct Gr as (l & Hl & Eid).
    destruct Le as (i & s1 & Ei & Egi).
    destruct (history_hi e W _ _ _ Hi) as [I _]. set (s0 := h_st h) in *.
    destruct (by_token_read e now v s0 i s1 I Ei) as (Q & I1 & (gr & Hgr & Egr & Bgr)).
    change (hp s0 l = Some (OGrant g)) in Hl.
    assert (ss_grant i = l) as El by (eapply (inv_uniq _ _ I); eauto; congruence).
    destruct Pq as [(X & _)|(_ & G1 & G2)]; [discriminate X|].
    assert (hp s1 l = Some (OGrant g)) as Hl1.
    { destruct Q as (Hh & _). unfold hp in *. now rewrite Hh. }
    assert (get_token g v = Some t) as Gt by (rewrite <- Vt; apply get_token_forest; auto).
    destruct (In_nth_error _ _ It) as (pos & Np).
    destruct (parent_scope_total e g t pos Np Fo Ll) as (psc & Eps & Ips).
    exists s1. split; auto. unfold token_parse_all.
    assert (token_parse e now c q s0 = (Ok (Good q), s1)) as Ep.
    { unfold token_parse. rewrite Mu1, G1.
      assert (match c_grant_types cl with Some l0 => negb (smem "refresh_token" l0) | None => false end = false) as ->.
      { destruct (c_grant_types cl) as [gt|]; auto. apply negb_false_iff, smem_In, Mu2. reflexivity. }
      assert (smem "refresh_token" (e_helpers e) = true) as -> by now apply smem_In. cbn [negb].
      change (String.eqb "refresh_token" CODE) with false. change (String.eqb "refresh_token" REFRESH) with true.
      unfold refresh_parse. rewrite G2. unfold bind at 1, ret at 1.
      assert (catch (i0 <- get_session_info_by_token e now v ;; ret (Some i0))
                (fun x => if is_KeyError x then Some (ret None) else None) s0 = (Ok (Some i), s1)) as Ex.
      { unfold catch. rewrite (bind_run _ _ _ _ _ Ei). reflexivity. }
      rewrite (bind_run _ _ _ _ _ Ex). rewrite El.
      assert (grant_at l s1 = (Ok g, s1)) as Eg.
      { unfold grant_at, deref, bind. unfold hp in Hl1. rewrite Hl1. reflexivity. }
      rewrite (bind_run _ _ _ _ _ Eg), Gt, Ct. change (String.eqb "refresh_token" REFRESH) with true.
      rewrite (proj2 (tok_active_live now t) Lt). cbn [negb].
      destruct (tr_scope q) as [sc|] eqn:Es; [|reflexivity]. rewrite Eps. unfold bind at 1, lift at 1.
      assert (subset_b sc psc = true) as ->; [|reflexivity]. apply subset_b_incl. exact (Aq sc psc Es Ips). }
    rewrite (bind_run _ _ _ _ _ Ep). rewrite G1. change (String.eqb "refresh_token" CODE) with false.
    rewrite andb_false_r. reflexivity.
  Qed.

  Lemma code_request_succeeds ops evs h now now2 gid g u c gts ar t v q issue :
    history e ops evs h -> grant_of h gid g -> belongs e g u c -> g_areq g = Some ar ->
    In t (g_tokens g) -> t_value t = v -> t_class t = "authorization_code" ->
    token_live t now -> token_live t now2 -> grant_live g now2 ->
    leads_to e now h v gid -> leads_to e now2 h v gid -> lets_mint t "access_token" ->
    may_use e c "authorization_code" -> sent_request q v ar -> keeps_challenge e q ar ->
    in_order e now2 u c gts -> (forall p, dec_sid e u <> Ok p) ->
    legible (g_claims g) -> (forall m, ar_claims ar = Some m -> legible m) ->
    (e_oidc e = true -> exists sc, ar_scope ar = Some sc) ->
    List.length (g_tokens g) < e_limit e ->
    exists q' a h', exec e h [OParse now c q; OProcess now2 (List.length (h_parsed h)) issue]
        = ([EvParse (Ok (Good q')); EvToken q' (Ok (Good a))], h')
      /\ full_answer e g ar t gts issue a.
  Proof.
    intros Hi Gr Bg Ar It Vt Ct Lt Lt2 Lg Le Le2 La Mu Sq Kq O Nu Lc Lr Ls Ll.
    destruct (code_request_parsed ops evs h now gid g u c ar t v q Hi Gr Bg Ar It Vt Ct Lt Le Mu Sq Kq)
      as (q' & s1 & Ep & Q & Rq).
    set (h1 := mk_hst s1 (h_parsed h ++ [q'])).
    assert (step e h (OParse now c q) = (EvParse (Ok (Good q')), h1)) as Es.
    { unfold step. rewrite Ep. reflexivity. }
    assert (history e (ops ++ [OParse now c q]) (evs ++ [EvParse (Ok (Good q'))]) h1) as Hi1.
    { destruct Hi as (Pr & al & Ex). split.
      - apply Forall_app. split; [exact Pr|constructor; [exact Logic.I|constructor]].
      - exists al. rewrite exec_app, Ex. cbn [exec]. rewrite Es. reflexivity. }
    assert (grant_of h1 gid g) as Gr1.
    { destruct Gr as (l & Hl & E). exists l. split; auto. cbn. destruct Q as (-> & _). exact Hl. }
    destruct (code_request_answered _ _ h1 now2 gid g u c gts ar t v (List.length (h_parsed h)) q' issue Hi1 Gr1 Bg Ar It Vt Lt2 Lg)
      as (a & h' & Ea & Fa); auto.
    { unfold leads_to. cbn [h_st h1]. eapply leads_quiet; [exact Q|exact Le2]. }
    { cbn. rewrite nth_error_app2, Nat.sub_diag by lia. reflexivity. }
    exists q', a, h'. split; auto. cbn [exec]. rewrite Es, Ea. reflexivity.
  Qed.

  Lemma refresh_request_succeeds ops evs h now now2 gid g u c gts ar t v q issue :
    history e ops evs h -> grant_of h gid g -> belongs e g u c -> g_areq g = Some ar ->
    In t (g_tokens g) -> t_value t = v -> t_class t = "refresh_token" ->
    token_live t now -> token_live t now2 -> grant_live g now2 ->
    leads_to e now h v gid -> leads_to e now2 h v gid -> lets_mint t "access_token" ->
    may_use e c "refresh_token" -> presents q v "refresh_token" -> tr_client q = Some c -> asks_within g t q ->
    in_order e now2 u c gts -> (forall p, dec_sid e u <> Ok p) ->
    legible (g_claims g) -> (forall m, ar_claims ar = Some m -> legible m) ->
    List.length (g_tokens g) < e_limit e ->
    exists a h', exec e h [OParse now c q; OProcess now2 (List.length (h_parsed h)) issue]
        = ([EvParse (Ok (Good q)); EvToken q (Ok (Good a))], h')
      /\ full_refresh e g t q issue a.
  Proof.
    intros Hi Gr Bg Ar It Vt Ct Lt Lt2 Lg Le Le2 La Mu Pq Cq Aq O Nu Lc Lr Ll.
    destruct (refresh_request_parsed ops evs h now gid g u c ar t v q Hi Gr Bg Ar It Vt Ct Lt Le Mu Pq Aq Ll)
      as (s1 & Ep & Q).
    set (h1 := mk_hst s1 (h_parsed h ++ [q])).
    assert (step e h (OParse now c q) = (EvParse (Ok (Good q)), h1)) as Es.
    { unfold step. rewrite Ep. reflexivity. }
    assert (history e (ops ++ [OParse now c q]) (evs ++ [EvParse (Ok (Good q))]) h1) as Hi1.
    { destruct Hi as (Pr & al & Ex). split.
      - apply Forall_app. split; [exact Pr|constructor; [exact Logic.I|constructor]].
      - exists al. rewrite exec_app, Ex. cbn [exec]. rewrite Es. reflexivity. }
    assert (grant_of h1 gid g) as Gr1.
    { destruct Gr as (l & Hl & E). exists l. split; auto. cbn. destruct Q as (-> & _). exact Hl. }
    destruct Mu as (cl & Mu1 & Mu2 & Mu3).
    destruct (refresh_request_answered _ _ h1 now2 gid g u c gts ar t v (List.length (h_parsed h)) q issue Hi1 Gr1 Bg Ar It Vt Lt2 Lg)
      as (a & h' & Ea & Fa); auto.
    { unfold leads_to. cbn [h_st h1]. eapply leads_quiet; [exact Q|exact Le2]. }
    { cbn. rewrite nth_error_app2, Nat.sub_diag by lia. reflexivity. }
    exists a, h'. split; auto. cbn [exec]. rewrite Es, Ea. reflexivity.
  Qed.
End B.

From Verif Require Import S_Handler L_Handler.
(** Opaque access tokens are recognised, if the handlers asked before that of
    access tokens are opaque, too, and have other keys. *)
Lemma opaque_recognised e now pre post pw lt : laws e -> fernet_authentic (e_crypto e) ->
  e_handlers e = pre ++ ("access_token", HDefault pw "access_token" lt) :: post ->
  (forall k h, In (k, h) pre -> k <> "access_token" /\ exists pw' cls' lt', h = HDefault pw' cls' lt' /\ pw' <> pw) ->
  recognises e now.
Proof.
  intros W Fa Eh Hp h sid rules p s v s' Hh Ns Cp Em.
  assert (h = HDefault pw "access_token" lt) as ->.
  { rewrite Eh in Hh. clear - Hh Hp. induction pre as [|[k x] pre IH]; cbn [app dget] in Hh.
    - rewrite seqb_refl in Hh. congruence.
    - destruct (String.eqb_spec "access_token" k) as [<-|N].
      + destruct (Hp "access_token" x (or_introl eq_refl)) as (X & _). congruence.
      + apply IH; auto. intros k' h' I. apply (Hp k' h'). now right. }
  unfold handler_mint in Em. destruct (clash p); [discriminate|]. apply bind_ok in Em as (n & s1 & _ & Em).
  rewrite Cp in Em by (cbn; auto). apply ret_ok in Em as [<- _].
  destruct (default_info_reports (e_crypto e) pw "access_token" lt (e_rnd e n) n now sid) as (i & Ei & Es & _);
    [exact (law_fernet _ W)|exact (law_base64 _ W)|discriminate|].
  exists i. split; [|exact Es]. apply token_info_ok.
  exists (map snd pre), (HDefault pw "access_token" lt), (map snd post). split; [rewrite Eh, map_app; reflexivity|].
  split; [exact Ei|]. intros h' I. apply in_map_iff in I as ([k x] & <- & I).
  destruct (Hp _ _ I) as (_ & pw' & cls' & lt' & -> & N). exists UnknownToken. split; [|constructor].
  cbn [snd handler_info]. apply default_info_other_key; auto. exact (law_base64 _ W).
Qed.
