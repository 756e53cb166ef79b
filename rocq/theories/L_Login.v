(** A log-in is answered with a code: proofs. *)
From Verif Require Import M_Base M_Types M_Codec M_Grant M_Env M_Session M_Claims M_Handler
  M_Authz M_TokenEP M_PKCE M_AuthzEP M_Info M_Logout M_History S_Codec S_Grant S_Claims S_History S_Answer S_Login
  L_Base L_Codec L_Monad L_Grant L_Claims L_Store L_Hist1 L_Hist2 L_Hist3 L_Hist4 L_Hist5 L_Hist6
  L_Hist7 L_Hist8 L_Emit L_Answer L_Records.

Lemma sc_exists {A X} (P : X -> st -> Prop) (m : M st A) Q :
  (forall x, succeeds (P x) m Q) -> succeeds (fun s => exists x, P x s) m Q.
Proof. intros H s [x p]. exact (H x s p). Qed.

Lemma gcfr_client e ar point scopes c : ar_client_id ar = c -> str_true c = true ->
  get_claims_from_request e (Some ar) point scopes "" "" = get_claims_from_request e (Some ar) point scopes c "".
Proof. intros <- T. unfold get_claims_from_request. cbn [str_true]. rewrite T. reflexivity. Qed.

Section C.
  Variables (e : env) (now : Z) (u c gid : string) (l : nat) (sid : string) (gts : list string).
  Variables (ar : areq) (ae : aevent).
  Hypothesis W : laws e.
  Hypothesis O : in_order e now u c gts.
  Hypothesis V : gives_codes e.
  Hypothesis Hd : dec_sid3 e sid = Ok (u, c, gid).
  Hypothesis Hne : sid <> "".
  Hypothesis Hu : sid <> u.
  Hypothesis Hreq : forall m, ar_claims ar = Some m -> legible m.
  Hypothesis Hcl : clean c.
  Hypothesis Hgid : clean gid.
  Hypothesis Hc : ar_client_id ar = c.

  Local Notation keepg := (keepg u c gid l).

  (** A grant that was made for the request and is fit for use. *)
  Record fit (g : grant) : Prop := {
    ft_areq : g_areq g = Some ar;
    ft_aevent : g_aevent g = Some ae;
    ft_active : grant_active now g = true;
    ft_max : g_max g = None;
    ft_tokens : List.length (g_tokens g) < e_limit e
  }.

  Lemma sc_upd g f : succeeds (keepg g) (upd_obj l (on_grant f)) (fun _ => keepg (f g)).
  Proof. intros s K. do 2 eexists. split; [reflexivity|]. now apply keepg_upd. Qed.

  Lemma sc_all g f points :
    (forall p, succeeds (keepg g) (f p) (fun d s => (forall k sp, In (k, sp) d -> well_formed sp) /\ keepg g s)) ->
    succeeds (keepg g) (all_usage f points) (fun m s => legible m /\ keepg g s).
  Proof.
    intros H. induction points as [|p r IH]; cbn [all_usage].
    - apply sc_ret. intros s K. split; auto. intros ? ? ? ? [].
    - eapply sc_bind; [apply H|]. intros d. apply sc_pure. intros Hw.
      eapply sc_bind; [apply IH|]. intros rest. apply sc_pure. intros Hr.
      apply sc_ret. intros s K. split; auto. intros point d' k sp [E|I] J; [|eauto].
      injection E as <- <-. eauto.
  Qed.
  Lemma sc_all_usage g scopes : g_areq g = Some ar ->
    succeeds (keepg g) (get_claims_all_usage e sid scopes) (fun m s => legible m /\ keepg g s).
  Proof.
    intros Ga. assert (str_true c = true) as Tc by (apply str_true_iff; apply Hcl).
    unfold get_claims_all_usage. destruct (e_oidc e).
    - unfold get_grant.
      eapply sc_bind with (Q := fun l' s => l' = l /\ keepg g s).
      { intros s K. exists l, s. split; auto. rewrite Hd. unfold bind, lift.
        rewrite (found_get u c gid l) by apply K. destruct K as [_ K]. unfold deref. unfold hp in K. rewrite K. reflexivity. }
      intros l'. apply sc_pure. intros ->. eapply sc_bind; [apply sc_grant_at|]. intros x. apply sc_pure. intros ->.
      rewrite Ga. apply sc_all. intros p. rewrite (gcfr_client e ar p _ c Hc Tc).
      eapply sc_gcfr; eauto.
    - apply sc_all. intros p. unfold get_claims.
      eapply sc_bind; [eapply sc_info; eauto|]. intros i. apply sc_pure. intros ->. cbn [ss_grant ss_client].
      eapply sc_bind; [apply sc_grant_at|]. intros x. apply sc_pure. intros ->. rewrite Ga. eapply sc_gcfr; eauto.
  Qed.

  Lemma conf_fields g : g_areq (apply_gconf e now ar g) = g_areq g /\ g_aevent (apply_gconf e now ar g) = g_aevent g
    /\ g_max (apply_gconf e now ar g) = g_max g /\ g_tokens (apply_gconf e now ar g) = g_tokens g.
  Proof. unfold apply_gconf. destruct (gc_exp _), (gc_rules _), (gc_scope _); cbn; auto. Qed.
  Lemma conf_active g : grant_active now g = true -> grant_active now (apply_gconf e now ar g) = true.
  Proof.
    intros A. unfold grant_active, item_active in *. unfold apply_gconf.
    destruct (gc_exp (e_authz e)) as [x|] eqn:X.
    - assert (0 <= x)%Z by (eapply gv_life; eauto).
      destruct (gc_rules _), (gc_scope _); cbn in *;
        (destruct (max_usage_reached _ _); [discriminate|]; destruct (g_revoked g); [discriminate|];
         destruct (negb (Z.eqb (g_nbf g) 0) && _); [discriminate|];
         assert ((now + x <? now)%Z = false) as -> by (apply Z.ltb_ge; lia); now rewrite andb_false_r).
    - destruct (gc_rules _), (gc_scope _); cbn in *; exact A.
  Qed.

  (** What the configuration settles about the grant, and what stays. *)
  Definition settled (g0 g : grant) : Prop :=
    g_rules g = match gc_rules (e_authz e) with Some _ => env_rules e c | None => g_rules g0 end
    /\ g_exp g = match gc_exp (e_authz e) with Some x => (now + x)%Z | None => g_exp g0 end
    /\ g_nbf g = g_nbf g0 /\ g_revoked g = g_revoked g0 /\ g_id g = g_id g0 /\ g_sub g = g_sub g0.
  Definition gained (g0 : grant) (t : token) (g : grant) : Prop := g_tokens g = g_tokens g0 ++ [t].
  Definition stays (g g' : grant) : Prop :=
    g_rules g' = g_rules g /\ g_exp g' = g_exp g /\ g_nbf g' = g_nbf g /\ g_revoked g' = g_revoked g
    /\ g_id g' = g_id g /\ g_sub g' = g_sub g.
  Lemma conf_settled g : settled g (apply_gconf e now ar g).
  Proof. unfold settled, apply_gconf. rewrite Hc. destruct (gc_exp _), (gc_rules _), (gc_scope _); cbn; auto 10. Qed.

  Lemma sc_authz g : fit g ->
    succeeds (keepg g) (authz e now sid ar) (fun l' s => l' = l /\ exists g', (fit g' /\ legible (g_claims g') /\ settled g g' /\ g_tokens g' = g_tokens g) /\ keepg g' s).
  Proof.
    intros [F1 F2 F4 F5 F6]. unfold authz. rewrite (gv_policy _ V).
    eapply sc_bind; [eapply sc_info; eauto|]. intros i. apply sc_pure. intros ->. cbn [ss_grant ss_client]. cbv zeta.
    eapply sc_bind; [apply sc_grant_at|]. intros x. apply sc_pure. intros ->.
    eapply sc_bind; [apply sc_upd|]. intros [].
    eapply sc_bind; [apply sc_grant_at|]. intros x. apply sc_pure. intros ->.
    eapply sc_bind; [apply sc_upd|]. intros [].
    destruct (conf_fields g) as (C1 & C2 & C3 & C4). pose proof (conf_active g F4) as C5.
    set (g1 := apply_gconf e now ar g) in *.
    eapply sc_bind; [apply sc_all_usage; cbn; congruence|]. intros m. apply sc_pure. intros Lm.
    eapply sc_bind; [apply sc_upd|]. intros []. apply sc_ret. intros s K. split; auto. eexists. split; [|exact K].
    split; [constructor; cbn; try congruence; exact C5|]. split; [exact Lm|].
    split; [exact (conf_settled g)|cbn; exact C4].
  Qed.

  (** ** The code *)
  Definition code_of (r : rule) (x : Z) (t : token) : Prop :=
    t_class t = CODE /\ t_rules t = set_defaults CODE r /\ t_used t = 0%Z /\ t_revoked t = false
    /\ t_nbf t = 0%Z /\ t_exp t = x.
  Definition rule_exp (r : rule) : Z :=
    match r_exp r with Some x => if Z.eqb x 0 then 0%Z else (now + x)%Z | None => 0%Z end.
  Definition grant_rule (g : grant) : rule :=
    match dget (g_rules g) CODE with Some r => r | None => empty_rule end.
  (** The text was made by the handler of codes. *)
  Definition made_code (v : string) : Prop :=
    exists h rules p s0 s1, dget (e_handlers e) CODE = Some h /\ clear_of_words p
      /\ handler_mint e now h sid rules None None p s0 = (Ok v, s1).

  Lemma sc_az_code g : fit g -> legible (g_claims g) ->
    succeeds (keepg g) (az_value e now l sid CODE None no_args)
      (fun t s => exists g', like now g ar ae g' /\ stays g g' /\ keepg g' s
         /\ gained g t g' /\ code_of (grant_rule g) (rule_exp (grant_rule g)) t /\ made_code (t_value t)).
  Proof.
    intros [F1 F2 F4 F5 F6] F3. destruct (gv_handler _ V) as (h & Hh).
    assert (like now g ar ae g) as L by (apply like_g; auto).
    unfold az_value, az_mint.
    eapply sc_bind with (Q := fun r s => exists g', like now g ar ae g' /\ stays g g' /\ keepg g' s /\
      exists t, r = Some (List.length (g_tokens g)) /\ gained g t g' /\ code_of (grant_rule g) (rule_exp (grant_rule g)) t /\ made_code (t_value t)).
    - eapply sc_bind; [apply sc_grant_at|]. intros x. apply sc_pure. intros ->. cbv zeta. fold (grant_rule g).
      set (rules := grant_rule g).
      eapply sc_bind with (Q := fun r s => exists g', like now g ar ae g' /\ stays g g' /\ keepg g' s /\
        exists t, r = Some (List.length (g_tokens g)) /\ gained g t g' /\ code_of rules 0%Z t /\ made_code (t_value t)).
      + unfold mint.
        eapply sc_bind; [apply sc_grant_at|]. intros x. apply sc_pure. intros ->.
        eapply sc_bind; [apply sc_keep_tick|]. intros n.
        assert (exists tk0 gx, mint_token (e_limit e) g now sid CODE None (Some rules) None "" (e_uuid e n) (fun _ => Ok "")
                = Ok (Some (tk0, gx)) /\ code_of rules 0%Z tk0) as (tk0 & gx & Em & Ec).
        { unfold mint_token. rewrite F4. cbn [negb rbind]. change (known_class CODE) with true. cbn [negb rbind].
          do 2 eexists. split; [reflexivity|]. unfold code_of. cbn [t_class t_rules t_used t_revoked t_nbf t_exp new_token]. auto 10. }
        eapply sc_bind; [apply sc_lift; exact Em|]. intros x. apply sc_pure. intros ->.
        change (dget (e_handlers e) CODE = Some h) in Hh. rewrite Hh. cbv zeta.
        eapply sc_bind; [eapply (sc_payload e now u c gid l sid gts g ar ae); eauto|]. intros p. apply sc_pure. intros Cp.
        eapply sc_bind with (Q := fun v s => made_code v /\ keepg g s).
        { intros s K.
          destruct (sc_handler e now u c gid l sid gts g ar ae O Hd Hne g h (Some rules) p L Cp s K) as (v & s' & E & _ & K').
          exists v, s'. split; [exact E|]. split; [|exact K']. exists h, (Some rules), p, s, s'. auto. }
        intros v. apply sc_pure. intros Mv.
        intros s K. do 2 eexists. split; [reflexivity|].
        exists (g_add_token (tok_set_value v tk0) g). split; [now apply like_add|].
        split; [unfold stays; cbn; auto 10|]. split; [now apply keepg_upd|].
        exists (tok_set_value v tk0). split; [reflexivity|]. split; [reflexivity|]. split; [exact Ec|exact Mv].
      + intros r s (g2 & L2 & S2 & K2 & t & -> & Et & Ct & Mt).
        assert (exists s2 g3 t3, (match r_exp rules with
           | Some x => if Z.eqb x 0 then ret tt else i <- need (Some (List.length (g_tokens g))) ;; upd_tok l i (tok_set_exp (now + x))
           | None => ret tt end) s = (Ok tt, s2) /\ like now g ar ae g3 /\ stays g g3 /\ keepg g3 s2 /\ gained g t3 g3
             /\ code_of rules (rule_exp rules) t3 /\ made_code (t_value t3))
          as (s2 & g3 & t3 & E & L3 & S3 & K3 & E3 & C3).
        { unfold rule_exp. destruct (r_exp rules) as [x|]; [|exists s, g2, t; auto 10].
          destruct (Z.eqb x 0); [exists s, g2, t; auto 10|].
          do 3 eexists. split; [reflexivity|].
          split; [|split; [|split; [apply (keepg_upd _ _ _ _ _ _ (fun g1 => g_set_tokens (upd_nth (List.length (g_tokens g)) (tok_set_exp (now + x)) (g_tokens g1)) g1) K2)|]]].
          - apply like_upd; [exact L2|lia].
          - exact S2.
          - unfold gained in Et |- *. cbn [g_set_tokens g_tokens]. rewrite Et, upd_nth_app, Nat.sub_diag by lia. cbn [upd_nth].
            split; [reflexivity|]. split; [|exact Mt].
            destruct Ct as (C1 & C2 & C3 & C4 & C5 & C6). unfold code_of. cbn. auto 10. }
        rewrite (bind_run _ _ _ _ _ E).
        destruct (sc_store e u c gid l sid g W Hd Hu) with (g' := g3) (s := s2) as ([] & s3 & E4 & K4); auto.
        rewrite (bind_run _ _ _ _ _ E4). do 2 eexists. split; [reflexivity|].
        exists g3. split; auto. split; auto. split; auto. exists t3. auto.
    - intros r s (g2 & L2 & S2 & K2 & t & -> & Et & Ct). exists t, s. split.
      + unfold need, tok_at. unfold bind at 1. unfold ret at 1.
        destruct (sc_grant_at u c gid l g2 s K2) as (x & s1 & E & -> & K1).
        assert (s1 = s) as -> by (pose proof (reader_grant_at _ _ _ _ E); auto).
        rewrite (bind_run _ _ _ _ _ E), Et, nth_error_app2, Nat.sub_diag by lia. reflexivity.
      + exists g2. auto 10.
  Qed.

  Lemma sc_put_same g s : keepg g s -> exists s', db_set [u; c; gid] l s = (Ok tt, s') /\ keepg g s'.
  Proof.
    intros [(ul & iu & cl & ic & A1 & A2 & A3 & A4 & A5 & A6 & A7) H].
    assert (str_true gid = true) as Tg by (apply str_true_iff; apply Hgid).
    assert (str_true c = true) as Tc by (apply str_true_iff; apply Hcl).
    set (s1 := mk_st (s_heap s) (dset (s_db s) (session_key [u; c; gid]) l) (s_ctr s) (s_always s)).
    assert (s_db s1 = s_db s) as Ed by (apply dset_self; exact A7).
    exists s1. split.
    - assert (subordinate cl s1 = (Ok (si_sub ic), s1)) as S2.
      { unfold subordinate, bind, deref. change (s_heap s1) with (s_heap s). unfold hp in A5. rewrite A5. reflexivity. }
      assert (subordinate ul s1 = (Ok (si_sub iu), s1)) as S1.
      { unfold subordinate, bind, deref. change (s_heap s1) with (s_heap s). unfold hp in A2. rewrite A2. reflexivity. }
      unfold db_set. cbn [eval_path]. unfold db_get_or.
      unfold bind, lift, ret, db_lookup, db_put. cbn [ostr_true ostr]. cbv beta iota zeta.
      rewrite Tg, Tc. cbn [negb]. fold s1. rewrite Ed, A4, S2, A6, Ed, A1, S1, A3. reflexivity.
    - apply (keepg_same u c gid l g s); [reflexivity|exact Ed|]. split; [exists ul, iu, cl, ic; auto 10|exact H].
  Qed.

  (** ** The response *)
  Hypothesis Hask : asks_for_code ar.

  Definition code_args (v : string) (a : aresp) : Prop :=
    ap_code a = Some v /\ ap_access a = None /\ ap_id a = None
    /\ (forall x, ar_state ar = Some x -> x <> "" -> ap_state a = Some x).

  (** The grant, which was [g0] before, holds the code [v]. *)
  Definition given (g0 : grant) (v : string) (s : st) : Prop :=
    exists g t, keepg g s /\ g_areq g = Some ar /\ g_aevent g = Some ae /\ legible (g_claims g)
      /\ g_max g = None /\ settled g0 g /\ gained g0 t g /\ code_of (grant_rule g) (rule_exp (grant_rule g)) t
      /\ t_value t = v /\ made_code v.

  Lemma sc_response g0 g : fit g -> legible (g_claims g) -> settled g0 g -> g_tokens g = g_tokens g0 ->
    succeeds (keepg g) (create_authn_response e now ar sid)
      (fun r s => exists v a, r = (Good a, false) /\ code_args v a /\ given g0 v s).
  Proof.
    intros F Fc S0 T0. destruct Hask as [Rt _]. unfold create_authn_response. rewrite Rt.
    eapply sc_bind; [eapply sc_info; eauto|]. intros i. apply sc_pure. intros ->. cbn [ss_grant ss_client ss_sid]. cbv zeta.
    set (scope := match ar_scope ar with Some (x :: r) => _ | _ => None end). clearbody scope.
    eapply sc_bind with (Q := fun r s => exists v a, r = Good a /\ code_args v a /\ given g0 v s).
    - unfold authn_tokens. rewrite Rt. cbv zeta. change (smem "code" ["code"]) with true.
      change (smem "token" ["code"]) with false. change (smem "id_token" ["code"]) with false.
      change (forallb (fun x => smem x ["code"; "token"; "id_token"]) ["code"]) with true. cbv iota.
      eapply sc_bind with (Q := fun o s => exists v, o = Some v /\ given g0 v s).
      { eapply sc_bind; [apply (sc_az_code g F Fc)|]. intros t. apply sc_ret.
        intros s (g' & L & (S1 & S2 & S3 & S4 & S5 & S6) & K & Et & Ct & Mt). exists (t_value t). split; auto. exists g', t.
        split; auto. split; [apply L|]. split; [apply L|].
        split; [rewrite (lk_claims _ _ _ _ _ L); exact Fc|]. split; [apply L|].
        split; [destruct S0 as (T1 & T2 & T3 & T4 & T5 & T6); unfold settled; repeat split; congruence|].
        split; [unfold gained; rewrite <- T0; exact Et|]. split; [unfold grant_rule; rewrite S1; exact Ct|]. auto. }
      intros o s (v & -> & G). do 2 eexists. split; [reflexivity|]. do 2 eexists. split; [reflexivity|]. split; [|exact G].
      split; [reflexivity|]. split; [reflexivity|]. split; [reflexivity|].
      intros x -> N. cbn. apply str_true_iff in N. now rewrite N.
    - intros r s (v & a & -> & C & G). do 2 eexists. split; [reflexivity|]. eauto.
  Qed.

  Lemma sc_post g0 uri : fit g0 ->
    succeeds (keepg g0) (post_authentication e now ar sid (Some uri))
      (fun o s => exists v, answers_with_code ar uri v o /\ given g0 v s).
  Proof.
    intros F. unfold post_authentication.
    eapply sc_bind; [apply (sc_authz g0 F)|]. intros l'. apply sc_pure. intros ->.
    apply sc_exists. intros g1. apply sc_pure. intros (F1 & Fc1 & S1 & T1).
    eapply sc_bind; [apply sc_grant_at|]. intros x. apply sc_pure. intros ->. rewrite (ft_active _ F1). cbn [negb].
    eapply sc_bind; [apply sc_lift; exact Hd|]. intros x. apply sc_pure. intros ->. cbv beta iota.
    assert (like now g1 ar ae g1) as L by (apply like_g; apply F1).
    eapply sc_bind with (Q := fun b s => b = true /\ keepg g1 s).
    { intros s K. destruct (sc_put_same g1 s K) as (s' & E & K'). exists true, s'. split; auto.
      unfold catch. rewrite (bind_run _ _ _ _ _ E). reflexivity. }
    intros b. apply sc_pure. intros ->. cbn [negb].
    eapply sc_bind; [apply (sc_response g0 g1 F1 Fc1 S1 T1)|]. intros r s (v & a & -> & C & G).
    assert (forall form frag, (form = true <-> ar_response_mode ar = Some "form_post") -> frag <> Some true ->
      answers_with_code ar uri v (mk_aout (Good a) form (Some uri) frag None false)) as Fin.
    { intros form frag X Y. split; [exists a; split; [reflexivity|exact C]|]. auto. }
    destruct Hask as [_ [M|[M|M]]]; rewrite M; do 2 eexists; (split; [reflexivity|]); exists v; (split; [|exact G]);
      apply Fin; try discriminate; rewrite M; split; congruence.
  Qed.

  Lemma sc_part2 g0 uri iframe : fit g0 -> event_valid now ae = true ->
    succeeds (keepg g0) (authz_part2 e now iframe ar sid (Some uri))
      (fun o s => exists v, answers_with_code ar uri v o /\ given g0 v s).
  Proof.
    intros F Ev. unfold authz_part2.
    eapply sc_bind with (Q := fun o s => exists o' v, o = Some o' /\ answers_with_code ar uri v o' /\ given g0 v s).
    { intros s K. destruct (sc_post g0 uri F s K) as (o & s' & E & v & A & G). exists (Some o), s'. split; [|eauto 6].
      unfold catch. rewrite (bind_run _ _ _ _ _ E). reflexivity. }
    intros o s (o' & v & -> & A & G). cbv beta iota.
    assert (forall i ss, answers_with_code ar uri v (mk_aout (ao_args o') (ao_form o') (ao_uri o') (ao_frag o') i ss)) as Fin.
    { intros i ss. exact A. }
    destruct iframe; [|do 2 eexists; split; [reflexivity|]; exists v; split; [apply Fin|exact G]].
    destruct G as (g' & t' & K & G1 & G2 & G3).
    assert (get_authentication_event e sid s = (Ok (Some ae), s)) as Eg.
    { unfold get_authentication_event, get_session_info. rewrite Hd. unfold bind, lift.
      rewrite (found_get u c gid l) by apply K. unfold ret at 1. cbn [ss_grant]. unfold grant_at, bind, deref.
      destruct K as [_ K]. unfold hp in K. rewrite K. unfold ret. now rewrite G2. }
    assert (catch (ev <- get_authentication_event e sid ;; ret (Some ev))
              (fun x => if is_KeyError x then Some (ret None) else None) s = (Ok (Some (Some ae)), s)) as Ec.
    { unfold catch. rewrite (bind_run _ _ _ _ _ Eg). reflexivity. }
    rewrite (bind_run _ _ _ _ _ Ec). unfold need. unfold bind at 1. unfold ret at 1. rewrite Ev. cbn [negb].
    do 2 eexists. split; [reflexivity|]. exists v. split; [apply Fin|]. exists g', t'. auto.
  Qed.
End C.

(** ** Creating the session *)
Lemma sub_run ul s iu : hp s ul = Some (OInfo iu) -> subordinate ul s = (Ok (si_sub iu), s).
Proof. intros H. unfold subordinate, bind, deref. unfold hp in H. rewrite H. reflexivity. Qed.
Lemma or_run k i s l : dget (s_db s) k = Some l -> db_get_or k i s = (Ok l, s).
Proof. intros H. unfold db_get_or, bind, db_lookup. rewrite H. reflexivity. Qed.

Section D.
  Variables (e : env) (u c : string).
  Hypothesis W : laws e.
  Hypothesis Gu : good_id u.
  Hypothesis Gc : good_id c.

  Definition kept (s : st) : Prop :=
    forall ul, dget (s_db s) u = Some ul ->
      exists iu, hp s ul = Some (OInfo iu)
      /\ forall cl, In c (si_sub iu) -> dget (s_db s) (session_key [u; c]) = Some cl ->
         exists ic, hp s cl = Some (OInfo ic).
  Definition has_user (s : st) : Prop :=
    exists ul iu, dget (s_db s) u = Some ul /\ hp s ul = Some (OInfo iu)
      /\ forall cl, In c (si_sub iu) -> dget (s_db s) (session_key [u; c]) = Some cl ->
         exists ic, hp s cl = Some (OInfo ic).
  Definition has_client (s : st) : Prop :=
    exists ul iu cl ic, dget (s_db s) u = Some ul /\ hp s ul = Some (OInfo iu) /\ smem c (si_sub iu) = true
      /\ dget (s_db s) (session_key [u; c]) = Some cl /\ hp s cl = Some (OInfo ic).

  Lemma Tc : str_true c = true.
  Proof. apply str_true_iff. apply Gc. Qed.
  Lemma sep2 : separable [u; c].
  Proof.
    apply (separable_prefix [u; c] [e_uuid e 0]). apply sep_good; auto. apply (law_uuid_id _ W 0).
  Qed.
  Lemma key2 : session_key [u; c] <> u.
  Proof. apply dec_key_neq; [apply Gu|exact sep2|cbn; lia]. Qed.

  Lemma hp_more s x d n a k o : hp s k = Some o -> hp (mk_st (s_heap s ++ x) d n a) k = Some o.
  Proof. unfold hp. cbn. intros H. rewrite nth_error_app1; auto. apply nth_error_Some. congruence. Qed.

  Lemma sc_user :
    succeeds kept (catch (db_get [u] ;; ret tt)
      (fun x => if is_KeyError x
                then Some (l <- new_obj (OInfo (new_user_info u)) ;; db_set [u] l)
                else None)) (fun _ => has_user).
  Proof.
    intros s K. unfold catch. destruct (dget (s_db s) u) as [ul|] eqn:D.
    - destruct (K ul D) as (iu & H & J).
      assert (db_get [u] s = (Ok ul, s)) as E.
      { unfold db_get. cbn [eval_path]. unfold bind at 1, lift. rewrite db_lookup_bind, D.
        unfold bind, deref. unfold hp in H. rewrite H. reflexivity. }
      rewrite (bind_run _ _ _ _ _ E). exists tt, s. split; [reflexivity|]. exists ul, iu. auto.
    - assert (db_get [u] s = (Raise KeyError, s)) as E.
      { unfold db_get. cbn [eval_path]. unfold bind at 1, lift. rewrite db_lookup_bind, D. reflexivity. }
      unfold bind at 1. rewrite E. cbn [is_KeyError].
      unfold bind at 1. unfold new_obj at 1. set (ul := List.length (s_heap s)).
      set (s1 := mk_st _ _ _ _).
      assert (dget (s_db s1) u = None) as D1 by exact D.
      unfold db_set. cbn [eval_path ostr_true]. unfold db_get_or. unfold bind, lift, ret, db_lookup, new_obj, db_put.
      cbv beta iota zeta. cbn [ostr_true]. cbv beta iota zeta. rewrite D1.
      do 2 eexists. split; [reflexivity|]. exists ul, (new_user_info u). cbn [s_db]. rewrite dget_dset_same.
      split; [reflexivity|]. split.
      + unfold bind, hp. cbn. rewrite nth_error_app1 by (rewrite app_length; cbn; unfold ul; lia).
        rewrite nth_error_app2, Nat.sub_diag by (unfold ul; lia). reflexivity.
      + intros cl [].
  Qed.

  Lemma set_client s l0 i0 : has_user s -> hp s l0 = Some (OInfo i0) ->
    (forall ul, dget (s_db s) u = Some ul -> ul <> l0) ->
    exists s', db_set [u; c] l0 s = (Ok tt, s') /\ has_client s'.
  Proof.
    intros (ul & iu & A1 & A2 & A3) H0 N. specialize (N ul A1). pose proof key2 as N2. pose proof Tc as T.
    unfold db_set. cbn [eval_path]. unfold bind at 1, lift. cbn [ostr_true ostr]. rewrite T.
    unfold bind at 1, ret at 1.
    assert (exists s1, (ci <- db_get_or (session_key [u; c]) (new_client_info "") ;;
       (if negb false then db_put (session_key [u; c]) l0 else sub <- subordinate ci ;; if smem "" sub then ret tt else
          upd_obj ci (on_info (si_add "")) ;; db_put (session_key [u; c]) ci)) s = (Ok tt, s1)
       /\ hp s1 ul = Some (OInfo iu) /\ hp s1 l0 = Some (OInfo i0) /\ s_db s1 = dset (s_db s) (session_key [u; c]) l0)
      as (s1 & E & B1 & B2 & B3).
    { unfold db_get_or. unfold bind, db_lookup, db_put, new_obj, ret. cbn [negb].
      destruct (dget (s_db s) (session_key [u; c])); (eexists; split; [reflexivity|]); cbn [s_db].
      - auto.
      - split; [apply (hp_more s)|split; [apply (hp_more s)|]]; auto. }
    cbv zeta. rewrite (bind_run _ _ _ _ _ E). clear E.
    assert (dget (s_db s1) u = Some ul) as B4 by (rewrite B3, dget_dset_other by congruence; exact A1).
    assert (dget (s_db s1) (session_key [u; c]) = Some l0) as B5 by (rewrite B3; apply dget_dset_same).
    rewrite (bind_run _ _ _ _ _ (or_run _ _ _ _ B4)), (bind_run _ _ _ _ _ (sub_run _ _ _ B1)).
    destruct (smem c (si_sub iu)) eqn:Sm.
    - exists s1. split; [reflexivity|]. exists ul, iu, l0, i0. auto.
    - eexists. split; [reflexivity|].
      exists ul, (si_add c iu), l0, i0. cbn [s_db].
      rewrite dget_dset_same, dget_dset_other by congruence.
      split; [reflexivity|]. split; [|split; [|split; [exact B5|]]].
      + unfold hp. cbn [s_heap]. rewrite nth_upd_nth_same. unfold hp in B1. rewrite B1. reflexivity.
      + unfold si_add. rewrite Sm. cbn. apply smem_In. apply in_or_app. right. now left.
      + unfold hp. cbn [s_heap]. rewrite nth_upd_nth_other by congruence. exact B2.
  Qed.

  Lemma sc_client :
    succeeds has_user (catch (db_get [u; c] ;; ret tt)
      (fun x => match x with
                | NoSuchClientSession | ValueError =>
                    Some (l <- new_obj (OInfo (new_client_info c)) ;; db_set [u; c] l)
                | _ => None
                end)) (fun _ => has_client).
  Proof.
    intros s (ul & iu & A1 & A2 & A3).
    assert (exists s', (l <- new_obj (OInfo (new_client_info c)) ;; db_set [u; c] l) s = (Ok tt, s') /\ has_client s') as (s' & E' & Hc').
    { unfold bind at 1. unfold new_obj at 1. apply set_client with (i0 := new_client_info c).
      - exists ul, iu. cbn [s_db]. split; [exact A1|]. split; [now apply (hp_more s)|].
        intros cl I D. destruct (A3 cl I D) as (ic & X). exists ic. now apply (hp_more s).
      - apply (hp_app_same s).
      - cbn [s_db]. intros ul' X. assert (ul' = ul) by congruence. subst ul'. intros ->.
        unfold hp in A2. assert (List.length (s_heap s) < List.length (s_heap s)) by (apply nth_error_Some; congruence). lia. }
    assert (deref ul s = (Ok (OInfo iu), s)) as Dr by (unfold deref; unfold hp in A2; now rewrite A2).
    unfold catch.
    destruct (smem c (si_sub iu)) eqn:Sm; [destruct (dget (s_db s) (session_key [u; c])) as [cl|] eqn:D|].
    - assert (db_get [u; c] s = (Ok cl, s)) as E.
      { unfold db_get. cbn [eval_path]. unfold bind at 1, lift. rewrite db_lookup_bind, A1.
        rewrite (bind_run _ _ _ _ _ Dr), (bind_run _ _ _ _ _ (sub_run _ _ _ A2)), Sm. cbn [negb].
        rewrite db_lookup_bind, D. reflexivity. }
      rewrite (bind_run _ _ _ _ _ E). exists tt, s. split; [reflexivity|].
      destruct (A3 cl) as (ic & Hic); [now apply smem_In|reflexivity|]. exists ul, iu, cl, ic. auto.
    - assert (db_get [u; c] s = (Raise NoSuchClientSession, s)) as E.
      { unfold db_get. cbn [eval_path]. unfold bind at 1, lift. rewrite db_lookup_bind, A1.
        rewrite (bind_run _ _ _ _ _ Dr), (bind_run _ _ _ _ _ (sub_run _ _ _ A2)), Sm. cbn [negb].
        rewrite db_lookup_bind, D. reflexivity. }
      unfold bind at 1. rewrite E, E'. eauto.
    - assert (db_get [u; c] s = (Raise ValueError, s)) as E.
      { unfold db_get. cbn [eval_path]. unfold bind at 1, lift. rewrite db_lookup_bind, A1.
        rewrite (bind_run _ _ _ _ _ Dr), (bind_run _ _ _ _ _ (sub_run _ _ _ A2)), Sm. reflexivity. }
      unfold bind at 1. rewrite E, E'. eauto.
  Qed.

  Lemma sc_new_grant now ae ar rules :
    succeeds has_client (create_grant e now ae ar u c rules None)
      (fun sid s => exists gid l, dec_sid3 e sid = Ok (u, c, gid) /\ clean gid /\ sid <> ""
         /\ keepg u c gid l (new_grant now ar ae (e_sub e u (ar_sector ar)) gid rules None) s).
  Proof.
    intros s (ul & iu & cl & ic & A1 & A2 & A3 & A4 & A5). unfold create_grant.
    unfold bind at 1. unfold tick at 1. cbv zeta. set (gid := e_uuid e (s_ctr s)).
    unfold bind at 1. unfold new_obj at 1. cbn [s_heap s_db s_ctr s_always]. set (l := List.length (s_heap s)).
    set (g := new_grant now ar ae (e_sub e u (ar_sector ar)) gid rules None).
    set (s1 := mk_st _ _ _ _).
    destruct (law_uuid_id _ W (s_ctr s)) as [(N1 & N2 & N3) N4]. fold gid in N1, N2, N3, N4.
    assert (separable [u; c; gid]) as S3 by (apply sep_good; auto).
    assert (session_key [u; c; gid] <> u) as K3 by (apply dec_key_neq; [apply Gu|exact S3|cbn; lia]).
    assert (session_key [u; c; gid] <> session_key [u; c]) as K4.
    { intros X. apply session_key_inj in X; [discriminate|discriminate|discriminate|exact S3|exact sep2]. }
    pose proof key2 as K2. pose proof Tc as T. assert (str_true gid = true) as Tg by (apply str_true_iff; exact N1).
    assert (hp s1 ul = Some (OInfo iu)) as B2 by (now apply (hp_more s)).
    assert (hp s1 cl = Some (OInfo ic)) as B5 by (now apply (hp_more s)).
    assert (hp s1 l = Some (OGrant g)) as Bl by apply (hp_app_same s).
    set (s2 := mk_st (s_heap s1) (dset (s_db s1) (session_key [u; c; gid]) l) (s_ctr s1) (s_always s1)).
    assert (dget (s_db s2) (session_key [u; c]) = Some cl) as D2 by (cbn [s_db s2]; rewrite dget_dset_other by congruence; exact A4).
    assert (dget (s_db s2) u = Some ul) as D1 by (cbn [s_db s2]; rewrite dget_dset_other by congruence; exact A1).
    assert (dget (s_db s2) (session_key [u; c; gid]) = Some l) as D3 by (cbn [s_db s2]; apply dget_dset_same).
    assert (exists s3, db_set [u; c; gid] l s1 = (Ok tt, s3) /\ keepg u c gid l g s3) as (s3 & E3 & K).
    { unfold db_set. cbn [eval_path]. unfold bind at 1, lift. cbn [ostr_true ostr]. rewrite Tg, T. cbn [negb]. cbv zeta.
      unfold bind at 1. unfold db_put at 1. fold s2.
      destruct (smem gid (si_sub ic)) eqn:Sg.
      - assert ((ci <- db_get_or (session_key [u; c]) (new_client_info "") ;;
            sub <- subordinate ci ;; if smem gid sub then ret tt else upd_obj ci (on_info (si_add gid)) ;; db_put (session_key [u; c]) ci) s2
            = (Ok tt, s2)) as E.
        { rewrite (bind_run _ _ _ _ _ (or_run _ _ _ _ D2)). rewrite (bind_run _ _ _ _ _ (sub_run cl s2 ic B5)), Sg. reflexivity. }
        rewrite (bind_run _ _ _ _ _ E), (bind_run _ _ _ _ _ (or_run _ _ _ _ D1)), (bind_run _ _ _ _ _ (sub_run ul s2 iu B2)), A3.
        exists s2. split; [reflexivity|]. split; [|exact Bl]. exists ul, iu, cl, ic. auto 10.
      - set (s3 := mk_st (upd_nth cl (on_info (si_add gid)) (s_heap s2)) (dset (s_db s2) (session_key [u; c]) cl) (s_ctr s2) (s_always s2)).
        assert ((ci <- db_get_or (session_key [u; c]) (new_client_info "") ;;
            sub <- subordinate ci ;; if smem gid sub then ret tt else upd_obj ci (on_info (si_add gid)) ;; db_put (session_key [u; c]) ci) s2
            = (Ok tt, s3)) as E.
        { rewrite (bind_run _ _ _ _ _ (or_run _ _ _ _ D2)). rewrite (bind_run _ _ _ _ _ (sub_run cl s2 ic B5)), Sg. reflexivity. }
        rewrite (bind_run _ _ _ _ _ E).
        assert (s_db s3 = s_db s2) as Ed by (apply dset_self; exact D2).
        assert (hp s3 cl = Some (OInfo (si_add gid ic))) as H3.
        { unfold hp. cbn [s_heap s3]. rewrite nth_upd_nth_same. unfold hp in B5. cbn [s_heap s2]. rewrite B5. reflexivity. }
        assert (smem gid (si_sub (si_add gid ic)) = true) as Sg'.
        { unfold si_add. rewrite Sg. cbn. apply smem_In. apply in_or_app. right. now left. }
        assert (exists iu', hp s3 ul = Some (OInfo iu') /\ smem c (si_sub iu') = true) as (iu' & Hu' & Su').
        { destruct (Nat.eq_dec ul cl) as [->|Nl].
          - exists (si_add gid ic). split; [exact H3|]. assert (iu = ic) by congruence. subst iu.
            unfold si_add. rewrite Sg. cbn. apply smem_In. apply in_or_app. left. now apply smem_In.
          - exists iu. split; [|exact A3]. unfold hp. cbn [s_heap s3]. rewrite nth_upd_nth_other by congruence. exact B2. }
        assert (hp s3 l = Some (OGrant g)) as H3l.
        { unfold hp. cbn [s_heap s3]. rewrite nth_upd_nth_other; [exact Bl|]. intros ->. congruence. }
        assert (dget (s_db s3) u = Some ul) as D1' by (rewrite Ed; exact D1).
        rewrite (bind_run _ _ _ _ _ (or_run _ _ _ _ D1')), (bind_run _ _ _ _ _ (sub_run ul s3 iu' Hu')), Su'.
        exists s3. split; [reflexivity|]. split; [|exact H3l]. exists ul, iu', cl, (si_add gid ic). rewrite Ed. auto 10. }
    rewrite (bind_run _ _ _ _ _ E3). do 2 eexists. split; [reflexivity|]. exists gid, l.
    split. { unfold dec_sid3, dec_sid. rewrite decrypt_encrypt; auto; apply W. }
    split; [split; auto|]. split.
    { unfold encrypted_session_id. apply (law_text _ W (s_ctr s3)). left. unfold crypt_encrypt. eauto. }
    eapply keepg_same; [| |exact K]; reflexivity.
  Qed.
End D.

Lemma new_fit e now ar ae sub gid rules : gives_codes e -> fit e now ar ae (new_grant now ar ae sub gid rules None).
Proof. intros V. constructor; cbn; auto. exact (gv_limit _ V). Qed.
Lemma new_event_valid now u acr exp_in : (forall x, exp_in = Some x -> (0 <= x)%Z) ->
  event_valid now (new_event now u acr exp_in) = true.
Proof.
  intros H. unfold event_valid, new_event. cbn. apply Z.ltb_lt. destruct exp_in as [x|]; [|lia].
  specialize (H x eq_refl). destruct (Z.eqb_spec x 0); lia.
Qed.

Section E.
  Variables (e : env).
  Hypothesis W : laws e.

  Lemma sc_login now iframe ar u acr exp_in uri gts :
    in_order e now u (ar_client_id ar) gts -> gives_codes e -> asks_for_code ar ->
    (forall m, ar_claims ar = Some m -> legible m) -> (forall x, exp_in = Some x -> (0 <= x)%Z) ->
    good_id u -> good_id (ar_client_id ar) -> (forall p, dec_sid e u <> Ok p) ->
    succeeds (kept u (ar_client_id ar)) (login e now iframe ar u acr exp_in (Some uri))
      (fun o s => exists v gid l sid, answers_with_code ar uri v o /\ dec_sid3 e sid = Ok (u, ar_client_id ar, gid) /\ sid <> ""
         /\ given e now u (ar_client_id ar) gid l sid ar (new_event now u acr exp_in)
              (new_grant now ar (new_event now u acr exp_in) (e_sub e u (ar_sector ar)) gid
                 (Some (env_rules e (ar_client_id ar))) None) v s).
  Proof.
    intros O V A Hr Hx Gu Gc Nu. unfold login, ep_create_session, create_session.
    rewrite (Tc _ Gc). set (c := ar_client_id ar) in *. set (ae := new_event now u acr exp_in).
    eapply sc_bind.
    - eapply sc_bind; [apply (sc_user u c)|]. intros []. eapply sc_bind; [apply (sc_client e u c W Gu Gc)|]. intros [].
      apply (sc_new_grant e u c W Gu Gc).
    - intros sid. apply sc_exists. intros gid. apply sc_exists. intros l.
      apply sc_pure. intros Hd. apply sc_pure. intros Hg. apply sc_pure. intros Hne.
      assert (sid <> u) as Hu. { intros ->. apply dec_sid3_ok in Hd. eapply Nu; eauto. }
      assert (clean c) as Hcl by (split; apply Gc).
      eapply sc_conseq; [eapply (sc_part2 e now u c gid l sid gts ar ae W O V Hd Hne Hu Hr Hcl Hg eq_refl A)|intros s K; exact K|].
      + apply new_fit; auto.
      + now apply new_event_valid.
      + intros o s (v & X & G). exists v, gid, l, sid. auto.
  Qed.

  Lemma given_recorded now u c gid l sid ar ae g0 v s ps : given e now u c gid l sid ar ae g0 v s -> ae_uid ae = u ->
    code_recorded (mk_hst s ps) ar u v.
  Proof.
    intros (g & t & [_ H] & A & B & _ & _ & _ & I & (C & _) & T & _) Eu. exists (g_id g), g, ae, t.
    split; [exists l; auto|].
    assert (In t (g_tokens g)) by (rewrite I; apply in_or_app; right; now left). auto 10.
  Qed.

  Lemma history_kept ops evs h u c : good_id u -> good_id c -> (forall p, dec_sid e u <> Ok p) ->
    history e ops evs h -> kept u c (h_st h).
  Proof.
    intros Gu Gc Nu Hi. destruct (history_J e W u c (sep2 e u c W Gu Gc) Nu ops evs h Hi) as [_ B].
    intros ul D. destruct (B _ _ (dget_In _ _ _ D) (or_introl eq_refl)) as (iu & Hu). exists iu. split; [exact Hu|].
    intros cl _ D2. exact (B _ _ (dget_In _ _ _ D2) (or_intror eq_refl)).
  Qed.

  Lemma login_answered ops evs h now iframe ar u acr exp_in uri gts :
    history e ops evs h -> proper e (OLogin now iframe ar u acr exp_in (Some uri)) ->
    in_order e now u (ar_client_id ar) gts -> gives_codes e -> asks_for_code ar ->
    (forall m, ar_claims ar = Some m -> legible m) -> (forall x, exp_in = Some x -> (0 <= x)%Z) ->
    (forall p, dec_sid e u <> Ok p) ->
    exists o v h', step e h (OLogin now iframe ar u acr exp_in (Some uri)) = (EvLogin (Ok o), h')
      /\ answers_with_code ar uri v o /\ code_recorded h' ar u v.
  Proof.
    intros Hi [Gc Gu] O V A Hr Hx Nu.
    pose proof (history_kept _ _ _ u (ar_client_id ar) Gu Gc Nu Hi) as K.
    destruct (sc_login now iframe ar u acr exp_in uri gts O V A Hr Hx Gu Gc Nu (h_st h) K)
      as (o & s' & E & v & gid & l & sid0 & X & _ & _ & G).
    exists o, v, (mk_hst s' (h_parsed h)). split; [unfold step, on_st; rewrite E; reflexivity|].
    split; [exact X|]. eapply given_recorded; eauto.
  Qed.

  (** Users who are logged in already. *)
  Lemma prompt_b ar : no_new_login ar -> smem "login" (prompts ar) = false.
  Proof.
    intros H. unfold prompts. unfold no_new_login in H. destruct (ar_prompt ar) as [p|]; [|reflexivity].
    apply smem_false. now apply H.
  Qed.
  Lemma authorize_known ops evs h now iframe ar ru u acr exp_in uri gts :
    history e ops evs h -> proper e (OLogin now iframe ar u acr exp_in (Some uri)) ->
    in_order e now u (ar_client_id ar) gts -> gives_codes e -> asks_for_code ar -> no_new_login ar ->
    (ru = None \/ ru = Some u) ->
    (forall m, ar_claims ar = Some m -> legible m) -> (forall x, exp_in = Some x -> (0 <= x)%Z) ->
    (forall p, dec_sid e u <> Ok p) ->
    exists o v h', step e h (OAuthorize now false iframe ar ru acr exp_in (AUser u None) (Some uri))
        = (EvAuthorize (Ok (ROut o)), h')
      /\ answers_with_code ar uri v o /\ code_recorded h' ar u v.
  Proof.
    intros Hi [Gc Gu] O V A Np Hru Hr Hx Nu.
    pose proof (history_kept _ _ _ u (ar_client_id ar) Gu Gc Nu Hi) as K.
    destruct (sc_login now iframe ar u acr exp_in uri gts O V A Hr Hx Gu Gc Nu (h_st h) K)
      as (o & s' & E & v & gid & l & sid0 & X & _ & _ & G).
    exists o, v, (mk_hst s' (h_parsed h)). split; [|split; [exact X|eapply given_recorded; eauto]].
    cbn [step]. unfold on_st.
    assert (authorize e now false iframe ar ru acr exp_in (AUser u None) (Some uri) (h_st h) = (Ok (ROut o), s')) as ->;
      [|reflexivity].
    unfold authorize. destruct (io_client _ _ _ _ _ O) as (cl & -> & _).
    unfold check_unknown_scopes. cbn [negb]. unfold bind at 1, lift at 1.
    unfold login in E. apply bind_ok in E as (sid & s1 & E1 & E2).
    assert (setup_auth e now ar ru acr exp_in (AUser u None) (h_st h) = (Ok (SGo sid u), s1)) as Es.
    { unfold setup_auth. cbn [ostr_true]. unfold bind at 1, ret at 1. cbv zeta. rewrite (prompt_b _ Np).
      assert (match ru with Some r => negb (String.eqb u r) | None => false end = false) as ->.
      { destruct Hru as [-> | ->]; [reflexivity|]. now rewrite seqb_refl. }
      unfold bind at 1, ret at 1. cbn [str_true]. rewrite (bind_run _ _ _ _ _ E1). reflexivity. }
    rewrite (bind_run _ _ _ _ _ Es), (bind_run _ _ _ _ _ E2). reflexivity.
  Qed.

  Lemma new_answered s now iframe ar u uri gts ae rules sid s1 :
    has_client u (ar_client_id ar) s ->
    create_grant e now ae ar u (ar_client_id ar) rules None s = (Ok sid, s1) ->
    in_order e now u (ar_client_id ar) gts -> gives_codes e -> asks_for_code ar ->
    (forall m, ar_claims ar = Some m -> legible m) -> event_valid now ae = true ->
    good_id u -> good_id (ar_client_id ar) -> (forall p, dec_sid e u <> Ok p) ->
    get_authentication_event e sid s1 = (Ok (Some ae), s1) /\ sid <> "" /\
    exists o s' v gid l g0, authz_part2 e now iframe ar sid (Some uri) s1 = (Ok o, s')
      /\ answers_with_code ar uri v o /\ given e now u (ar_client_id ar) gid l sid ar ae g0 v s'.
  Proof.
    intros H E O V A Hr Ev Gu Gc Nu. set (c := ar_client_id ar) in *.
    destruct (sc_new_grant e u c W Gu Gc now ae ar rules s H) as (sid' & s2 & E' & gid & l & Hd & Hg & Hne & K).
    rewrite E in E'. injection E' as <- <-.
    assert (sid <> u) as Hu. { intros ->. apply dec_sid3_ok in Hd. eapply Nu; eauto. }
    assert (clean c) as Hcl by (split; apply Gc).
    split; [|split; [exact Hne|]].
    - unfold get_authentication_event, get_session_info. rewrite Hd. unfold bind, lift.
      rewrite (found_get u c gid l) by apply K. unfold ret at 1. cbn [ss_grant]. unfold grant_at, bind, deref.
      destruct K as [_ K]. unfold hp in K. rewrite K. reflexivity.
    - destruct (sc_part2 e now u c gid l sid gts ar ae W O V Hd Hne Hu Hr Hcl Hg eq_refl A _ uri iframe
        (new_fit e now ar ae _ gid rules V) Ev s1 K) as (o & s' & E2 & v & X & G).
      eexists o, s', v, gid, l, _. eauto.
  Qed.

  Lemma authorize_other_request ops evs h now iframe ar ru u acr exp_in uri gts sid g :
    history e ops evs h -> proper e (OLogin now iframe ar u acr exp_in (Some uri)) ->
    signed_on e now h u (ar_client_id ar) sid g -> (forall a, g_areq g = Some a -> areq_eqb ar a = false) ->
    in_order e now u (ar_client_id ar) gts -> gives_codes e -> asks_for_code ar -> no_new_login ar ->
    (ru = None \/ ru = Some u) ->
    (forall m, ar_claims ar = Some m -> legible m) ->
    (forall p, dec_sid e u <> Ok p) ->
    exists o v h', step e h (OAuthorize now false iframe ar ru acr exp_in (AUser u (Some sid)) (Some uri))
        = (EvAuthorize (Ok (ROut o)), h')
      /\ answers_with_code ar uri v o /\ code_recorded h' ar u v.
  Proof.
    intros Hi [Gc Gu] (_ & gid & l & ae & Hd & Hg & Hl & Lg & Ga & Eu & Ev) Nq O V A Np Hru Hr Nu.
    apply grant_active_live in Lg. set (s := h_st h) in *. set (c := ar_client_id ar) in *.
    assert (event_valid now ae = true) as Ev' by (apply Z.ltb_lt; exact Ev).
    pose proof (get_found _ _ _ _ _ Hg) as (ul & iu & cl & ic & A1 & A2 & A3 & A4 & A5 & A6 & A7).
    assert (has_client u c s) as Hc by (exists ul, iu, cl, ic; auto 10).
    destruct (sc_new_grant e u c W Gu Gc now ae ar None s Hc) as (sid' & s1 & E1 & _).
    destruct (new_answered s now iframe ar u uri gts ae None sid' s1 Hc E1 O V A Hr Ev' Gu Gc Nu)
      as (Eg & Hne & o & s' & v & gid2 & l2 & g0 & E2 & X & G).
    exists o, v, (mk_hst s' (h_parsed h)). split; [|split; [exact X|eapply given_recorded; eauto]].
    cbn [step]. unfold on_st. fold s.
    assert (authorize e now false iframe ar ru acr exp_in (AUser u (Some sid)) (Some uri) s = (Ok (ROut o), s')) as ->;
      [|reflexivity].
    unfold authorize. fold c. destruct (io_client _ _ _ _ _ O) as (cl0 & -> & _).
    unfold check_unknown_scopes. cbn [negb]. unfold bind at 1, lift at 1.
    assert (mgr_get e sid s = (Ok l, s)) as Em.
    { unfold mgr_get. rewrite (dec_sid3_ok _ _ _ _ _ Hd). exact Hg. }
    assert (grant_at l s = (Ok g, s)) as Egr by (unfold grant_at, bind, deref; rewrite Hl; reflexivity).
    assert (setup_auth e now ar ru acr exp_in (AUser u (Some sid)) s = (Ok (SGo sid' u), s1)) as Es.
    { unfold setup_auth. fold c.
      assert ((if ostr_true (Some sid) then
                 l <- mgr_get e (ostr (Some sid)) ;; g <- grant_at l ;;
                 ret (if grant_active now g then Some (u, Some sid) else None)
               else ret (Some (u, Some sid))) s = (Ok (Some (u, Some sid)), s)) as E0.
      { destruct (ostr_true (Some sid)); [|reflexivity]. cbn [ostr].
        rewrite (bind_run _ _ _ _ _ Em), (bind_run _ _ _ _ _ Egr), Lg. reflexivity. }
      rewrite (bind_run _ _ _ _ _ E0). cbv zeta. cbv beta iota. rewrite (prompt_b _ Np).
      assert (match ru with Some r => negb (String.eqb u r) | None => false end = false) as ->.
      { destruct Hru as [-> | ->]; [reflexivity|]. now rewrite seqb_refl. }
      match goal with |- bind ?m _ s = _ => assert (m s = (Ok (Some sid'), s1)) as E3 end.
      { rewrite Hd. unfold bind at 1, lift at 1. rewrite seqb_refl. cbn [negb].
        rewrite (bind_run _ _ _ _ _ Em), (bind_run _ _ _ _ _ Egr), Lg. cbn [negb].
        assert (match g_areq g with Some a => areq_eqb ar a | None => false end = false) as ->.
        { destruct (g_areq g) as [a|] eqn:Ea; auto. }
        assert (get_authentication_event e sid s = (Ok (Some ae), s)) as Eev.
        { unfold get_authentication_event, get_session_info. rewrite Hd. unfold bind at 1. unfold bind at 1, lift at 1.
          rewrite (bind_run _ _ _ _ _ Hg). unfold ret at 1. cbn [ss_grant]. rewrite (bind_run _ _ _ _ _ Egr), Ga. reflexivity. }
        rewrite (bind_run _ _ _ _ _ Eev). unfold need. unfold bind at 1, ret at 1. rewrite Ev'. cbn [negb].
        rewrite (bind_run _ _ _ _ _ E1). reflexivity. }
      rewrite (bind_run _ _ _ _ _ E3). apply str_true_iff in Hne. rewrite Hne.
      rewrite (bind_run _ _ _ _ _ Eg). unfold need. unfold bind at 1, ret at 1. rewrite Ev'. reflexivity. }
    rewrite (bind_run _ _ _ _ _ Es), (bind_run _ _ _ _ _ E2). reflexivity.
  Qed.

  (** The same request once more: the session and its grant are used again. *)
  Lemma authorize_same_request ops evs h now iframe ar ru u acr exp_in uri gts sid g :
    history e ops evs h -> proper e (OLogin now iframe ar u acr exp_in (Some uri)) ->
    signed_on e now h u (ar_client_id ar) sid g -> g_areq g = Some ar -> areq_eqb ar ar = true ->
    List.length (g_tokens g) < e_limit e ->
    in_order e now u (ar_client_id ar) gts -> gives_codes e -> asks_for_code ar -> no_new_login ar ->
    (ru = None \/ ru = Some u) ->
    (forall m, ar_claims ar = Some m -> legible m) ->
    (forall p, dec_sid e u <> Ok p) ->
    exists o v h', step e h (OAuthorize now false iframe ar ru acr exp_in (AUser u (Some sid)) (Some uri))
        = (EvAuthorize (Ok (ROut o)), h')
      /\ answers_with_code ar uri v o /\ code_recorded h' ar u v.
  Proof.
    intros Hi [Gc Gu] (Hne & gid & l & ae & Hd & Hg & Hl & Lg & Ga & Eu & Ev) Eq Eb Ll O V A Np Hru Hr Nu.
    apply grant_active_live in Lg. pose proof (hi_inv _ _ (history_hi e W _ _ _ Hi)) as I.
    set (s := h_st h) in *. set (c := ar_client_id ar) in *.
    assert (event_valid now ae = true) as Ev' by (apply Z.ltb_lt; exact Ev).
    pose proof (get_found _ _ _ _ _ Hg) as F. pose proof F as (ul & iu & cl & ic & A1 & A2 & A3 & A4 & A5 & A6 & A7).
    apply smem_In in A6. pose proof (inv_sub _ _ I _ _ _ A5 A6) as Kg.
    pose proof (gi_max _ _ (inv_grants _ _ I _ _ Hl)) as Gm.
    assert (sid <> u) as Hu. { intros ->. apply dec_sid3_ok in Hd. eapply Nu; eauto. }
    assert (clean c) as Hcl by (split; apply Gc).
    assert (fit e now ar ae g) as Ft by (constructor; auto).
    destruct (sc_part2 e now u c gid l sid gts ar ae W O V Hd Hne Hu Hr Hcl Kg eq_refl A g uri iframe Ft Ev' s (conj F Hl))
      as (o & s' & E2 & v & X & G).
    exists o, v, (mk_hst s' (h_parsed h)). split; [|split; [exact X|eapply given_recorded; eauto]].
    cbn [step]. unfold on_st. fold s.
    assert (authorize e now false iframe ar ru acr exp_in (AUser u (Some sid)) (Some uri) s = (Ok (ROut o), s')) as ->;
      [|reflexivity].
    unfold authorize. fold c. destruct (io_client _ _ _ _ _ O) as (cl0 & -> & _).
    unfold check_unknown_scopes. cbn [negb]. unfold bind at 1, lift at 1.
    assert (mgr_get e sid s = (Ok l, s)) as Em.
    { unfold mgr_get. rewrite (dec_sid3_ok _ _ _ _ _ Hd). exact Hg. }
    assert (grant_at l s = (Ok g, s)) as Egr by (unfold grant_at, bind, deref; rewrite Hl; reflexivity).
    assert (get_authentication_event e sid s = (Ok (Some ae), s)) as Eev.
    { unfold get_authentication_event, get_session_info. rewrite Hd. unfold bind at 1. unfold bind at 1, lift at 1.
      rewrite (bind_run _ _ _ _ _ Hg). unfold ret at 1. cbn [ss_grant]. rewrite (bind_run _ _ _ _ _ Egr), Ga. reflexivity. }
    assert (setup_auth e now ar ru acr exp_in (AUser u (Some sid)) s = (Ok (SGo sid u), s)) as Es.
    { unfold setup_auth. fold c.
      assert ((if ostr_true (Some sid) then
                 l <- mgr_get e (ostr (Some sid)) ;; g <- grant_at l ;;
                 ret (if grant_active now g then Some (u, Some sid) else None)
               else ret (Some (u, Some sid))) s = (Ok (Some (u, Some sid)), s)) as E0.
      { destruct (ostr_true (Some sid)); [|reflexivity]. cbn [ostr].
        rewrite (bind_run _ _ _ _ _ Em), (bind_run _ _ _ _ _ Egr), Lg. reflexivity. }
      rewrite (bind_run _ _ _ _ _ E0). cbv zeta. cbv beta iota. rewrite (prompt_b _ Np).
      assert (match ru with Some r => negb (String.eqb u r) | None => false end = false) as ->.
      { destruct Hru as [-> | ->]; [reflexivity|]. now rewrite seqb_refl. }
      match goal with |- bind ?m _ s = _ => assert (m s = (Ok (Some sid), s)) as E3 end.
      { rewrite Hd. unfold bind at 1, lift at 1. rewrite seqb_refl. cbn [negb].
        rewrite (bind_run _ _ _ _ _ Em), (bind_run _ _ _ _ _ Egr), Lg. cbn [negb].
        rewrite Eq, Eb. reflexivity. }
      rewrite (bind_run _ _ _ _ _ E3). apply str_true_iff in Hne. rewrite Hne.
      rewrite (bind_run _ _ _ _ _ Eev). unfold need. unfold bind at 1, ret at 1. rewrite Ev'. reflexivity. }
    rewrite (bind_run _ _ _ _ _ Es), (bind_run _ _ _ _ _ E2). reflexivity.
  Qed.

  Lemma authorize_signed_on ops evs h now iframe ar ru u acr exp_in uri gts sid g :
    history e ops evs h -> proper e (OLogin now iframe ar u acr exp_in (Some uri)) ->
    signed_on e now h u (ar_client_id ar) sid g -> (g_areq g = Some ar -> List.length (g_tokens g) < e_limit e) ->
    in_order e now u (ar_client_id ar) gts -> gives_codes e -> asks_for_code ar -> no_new_login ar ->
    (ru = None \/ ru = Some u) ->
    (forall m, ar_claims ar = Some m -> legible m) ->
    (forall p, dec_sid e u <> Ok p) ->
    exists o v h', step e h (OAuthorize now false iframe ar ru acr exp_in (AUser u (Some sid)) (Some uri))
        = (EvAuthorize (Ok (ROut o)), h')
      /\ answers_with_code ar uri v o /\ code_recorded h' ar u v.
  Proof.
    intros Hi Pr So Ll O V A Np Hru Hr Nu.
    destruct (g_areq g) as [a|] eqn:Ga.
    - destruct (areq_eqb ar a) eqn:Eb.
      + pose proof (areq_eqb_eq _ _ Eb) as <-. eapply authorize_same_request; eauto.
      + eapply authorize_other_request; eauto. intros a' X. congruence.
    - eapply authorize_other_request; eauto. intros a' X. congruence.
  Qed.
End E.
