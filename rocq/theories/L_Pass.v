(** What holds of every grant of a history: a generic induction over the calls.
    The claim [G] about grants, and [Q] about grants that have tokens, are
    given together with the cases that depend on them. *)
From Verif Require Import M_Base M_Types M_Codec M_Grant M_Env M_Session M_Claims M_Handler
  M_Authz M_TokenEP M_PKCE M_AuthzEP M_Info M_Logout M_History S_Codec S_Grant S_Store S_History
  L_Base L_Codec L_Monad L_Grant L_Claims L_Store L_Hist1 L_Hist2 L_Hist3 L_Hist4 L_Hist5 L_Hist6 L_Emit
  L_Hist7 L_Hist8 M_Dump L_Dump.

(** [g'] is [g], but for flags, counters and the like. *)
Definition framed (g g' : grant) : Prop :=
  g_areq g' = g_areq g /\ g_claims g' = g_claims g /\ g_rules g' = g_rules g /\ g_scope g' = g_scope g
  /\ g_id g' = g_id g /\ g_sub g' = g_sub g /\ g_exp g' = g_exp g
  /\ (forall t', In t' (g_tokens g') -> exists t, In t (g_tokens g) /\ t_class t' = t_class t
        /\ t_value t' = t_value t /\ t_exp t' = t_exp t /\ t_issued t' = t_issued t /\ t_based t' = t_based t).
Lemma framed_tokens g g' : g_areq g' = g_areq g -> g_claims g' = g_claims g -> g_rules g' = g_rules g ->
  g_scope g' = g_scope g -> g_id g' = g_id g -> g_sub g' = g_sub g -> g_exp g' = g_exp g ->
  g_tokens g' = g_tokens g -> framed g g'.
Proof. intros. unfold framed. do 7 (split; auto). intros t I. exists t. rewrite <- H6. repeat (split; auto). Qed.

Lemma grant_at_some l s g : hp s l = Some (OGrant g) -> grant_at l s = (Ok g, s).
Proof. intros H. unfold grant_at, bind, deref. fold (hp s l). rewrite H. reflexivity. Qed.
Lemma gsame_catch {T} (m : M st T) h : gsame m -> (forall x k, h x = Some k -> gsame k) -> gsame (catch m h).
Proof.
  intros H K s r s' E l g Hg.
  apply catch_inv in E as [(a & E1 & ->)|[(x & s1 & k & E1 & E2 & E3)|(x & E1 & _ & ->)]].
  - eapply H; eauto.
  - eapply K; eauto.
  - eapply H; eauto.
Qed.

(** The release points for which the list of another is looked up: only for ID
    tokens, as if they were userinfo. *)
Definition paired (p x : string) : Prop := x = "" \/ (x = "userinfo" /\ p = "id_token").

Section Pass.
  Variables (e : env) (now : Z).
  Variables (A : dict (dict (list string)) -> Prop) (G Q : grant -> Prop).
  Hypothesis HA : forall cid p x s r s', paired p x -> client_always cid p x s = (r, s') ->
    A (s_always s) -> A (s_always s').
  Hypothesis HF : forall g g', framed g g' -> G g -> G g'.
  Hypothesis HQ : forall g g', framed g g' -> Q g -> Q g'.
  Hypothesis HGQ : forall g, G g -> g_tokens g <> [] -> Q g.

  Definition J (s : st) : Prop := A (s_always s) /\ forall l g, hp s l = Some (OGrant g) -> G g.
  Definition isq (l : nat) (s : st) : Prop := exists g, hp s l = Some (OGrant g) /\ Q g.
  Definition up (s s' : st) : Prop := forall l, isq l s -> isq l s'.
  Definition Mono (P : st -> Prop) : Prop := forall s s', up s s' -> P s -> P s'.
  Definition any (s : st) : Prop := True.
  Lemma mono_any : Mono any.
  Proof. intros s s' _ H. exact H. Qed.
  Lemma mono_isq l : Mono (isq l).
  Proof. intros s s' U. apply U. Qed.
  Lemma up_refl s : up s s.
  Proof. intros l H. exact H. Qed.
  Lemma up_heap s s' : s_heap s' = s_heap s -> up s s'.
  Proof. intros E l (g & H & K). exists g. unfold hp in *. now rewrite E. Qed.

  Definition kp {T} (P : st -> Prop) (m : M st T) : Prop :=
    forall s r s', J s -> P s -> m s = (r, s') -> J s' /\ up s s'.

  Lemma kp_weaken {T} (P : st -> Prop) (m : M st T) : kp any m -> kp P m.
  Proof. intros H s r s' Js _ E. eapply H; eauto. exact Logic.I. Qed.
  Lemma kp_bind' {T B} P (m : M st T) (f : T -> M st B) : Mono P -> kp P m ->
    (forall a, (exists s s', J s /\ P s /\ m s = (Ok a, s')) -> kp P (f a)) -> kp P (bind m f).
  Proof.
    intros Mo H K s r s' Js p E. apply bind_inv in E as [(a & s1 & E1 & E2)|(x & E1 & ->)].
    - destruct (H _ _ _ Js p E1) as (J1 & G1).
      destruct (K a (ex_intro _ s (ex_intro _ s1 (conj Js (conj p E1)))) _ _ _ J1 (Mo _ _ G1 p) E2) as (J2 & G2).
      split; auto. intros l X. auto.
    - eapply H; eauto.
  Qed.
  Lemma kp_bind {T B} P (m : M st T) (f : T -> M st B) : Mono P -> kp P m ->
    (forall a, kp P (f a)) -> kp P (bind m f).
  Proof. intros Mo H K. apply kp_bind'; auto. Qed.
  Lemma kp_catch {T} P (m : M st T) h : Mono P -> kp P m ->
    (forall x k, h x = Some k -> kp P k) -> kp P (catch m h).
  Proof.
    intros Mo H K s r s' Js p E.
    apply catch_inv in E as [(a & E1 & ->)|[(x & s1 & k & E1 & E2 & E3)|(x & E1 & _ & ->)]].
    - eapply H; eauto.
    - destruct (H _ _ _ Js p E1) as (J1 & G1). destruct (K _ _ E2 _ _ _ J1 (Mo _ _ G1 p) E3) as (J2 & G2).
      split; auto. intros l X. auto.
    - eapply H; eauto.
  Qed.
  Lemma kp_reader {T} P (m : M st T) : reader m -> kp P m.
  Proof. intros H s r s' Js _ E. apply H in E. subst. split; auto. apply up_refl. Qed.
  Lemma kp_ret {T} P (a : T) : kp P (ret a).
  Proof. apply kp_reader, reader_ret. Qed.
  Lemma kp_raise {T} P x : kp P (@raise st T x).
  Proof. apply kp_reader, reader_raise. Qed.
  Lemma kp_lift {T} P (x : res T) : kp P (lift x).
  Proof. apply kp_reader, reader_lift. Qed.
  Lemma kp_need {T} P (x : option T) : kp P (need x).
  Proof. apply kp_reader, reader_need. Qed.
  (** A grant that has a token. *)
  Lemma kp_tok_at {B} P l i (f : token -> M st B) : (forall t, kp (isq l) (f t)) -> kp P (bind (tok_at l i) f).
  Proof.
    intros K s r s' Js _ E. apply bind_inv in E as [(t & s1 & E1 & E2)|(x & E1 & ->)].
    - pose proof (reader_tok_at _ _ _ _ _ E1). subst s1. unfold tok_at in E1.
      apply bind_ok in E1 as (g & s1 & E1 & E3). apply grant_at_ok in E1 as [-> Hl].
      destruct (nth_error (g_tokens g) i) eqn:N; [|discriminate].
      eapply K; eauto. exists g. split; auto. apply HGQ; [eapply Js; eauto|]. intros X. rewrite X in N. destruct i; discriminate.
    - apply reader_tok_at in E1. subst. split; auto. apply up_refl.
  Qed.

  Lemma kp_heap {T} P (m : M st T) :
    (forall s r s', m s = (r, s') -> s_heap s' = s_heap s /\ s_always s' = s_always s) -> kp P m.
  Proof.
    intros H s r s' (Ja & Jg) _ E. destruct (H _ _ _ E) as (X & Y). split; [|now apply up_heap].
    split; [now rewrite Y|]. intros l g K. apply (Jg l). unfold hp in *. now rewrite <- X.
  Qed.
  Lemma kp_tick P : kp P tick.
  Proof. apply kp_heap. intros s r s' E. injection E as _ <-. auto. Qed.
  Lemma kp_put P k l : kp P (db_put k l).
  Proof. apply kp_heap. intros s r s' E. injection E as _ <-. auto. Qed.
  Lemma kp_del P k : kp P (db_del k).
  Proof. apply kp_heap. intros s r s' E. unfold db_del in E. destruct (dget _ _); injection E as _ <-; auto. Qed.
  Lemma kp_flush P : kp P flush.
  Proof. apply kp_heap. intros s r s' E. injection E as _ <-. auto. Qed.
  Lemma kp_always P cid p x : paired p x -> kp P (client_always cid p x).
  Proof.
    intros Pa s r s' (Ja & Jg) _ E.
    assert (s_heap s' = s_heap s) as X by exact (proj1 (quiet_client_always _ _ _ _ _ _ E)).
    split; [|now apply up_heap]. split; [eapply HA; eauto|].
    intros l g K. apply (Jg l). unfold hp in *. now rewrite <- X.
  Qed.

  Lemma kp_upd P l f : (forall o g', f o = OGrant g' -> exists g, o = OGrant g /\ framed g g') ->
    (forall g, exists g', f (OGrant g) = OGrant g') -> kp P (upd_obj l f).
  Proof.
    intros K K2 s r s' (Ja & Jg) _ E. unfold upd_obj in E. injection E as _ <-. split; [split; [exact Ja|]|].
    - intros l' g' H. destruct (Nat.eq_dec l' l) as [->|N]; [|rewrite hp_upd_other in H by auto; eauto].
      rewrite hp_upd_same in H. destruct (hp s l) as [o|] eqn:Ho; [|discriminate]. cbn in H. injection H as H.
      destruct (K _ _ H) as (g & -> & F). eapply HF; eauto.
    - intros l' (g & H & q). destruct (Nat.eq_dec l' l) as [->|N].
      + destruct (K2 g) as (g' & Eg). exists g'. rewrite hp_upd_same, H. cbn. rewrite Eg. split; auto.
        destruct (K _ _ Eg) as (g1 & X & F). injection X as <-. eapply HQ; eauto.
      + exists g. rewrite hp_upd_other by auto. auto.
  Qed.
  Lemma kp_info P l f : kp P (upd_obj l (on_info f)).
  Proof.
    apply kp_upd; [|intros g; exists g; reflexivity]. intros [i|g|] g' H; cbn in H; try discriminate.
    injection H as ->. exists g'. split; auto. now apply framed_tokens.
  Qed.
  Lemma kp_on_grant P l f : (forall g, framed g (f g)) -> kp P (upd_obj l (on_grant f)).
  Proof.
    intros K. apply kp_upd; [|intros g; exists (f g); reflexivity]. intros [i|g|] g' H; cbn in H; try discriminate.
    injection H as <-. eauto.
  Qed.
  Lemma kp_extra P l (f : grant -> dict string) : kp P (upd_obj l (on_grant (fun g => g_set_extra (f g) g))).
  Proof. apply kp_on_grant. intros g. now apply framed_tokens. Qed.
  Lemma kp_revoke P l : kp P (upd_obj l revoke_obj).
  Proof.
    apply kp_upd; [|intros g; eexists; reflexivity]. intros [i|g|] g' H; cbn in H; try discriminate.
    injection H as <-. exists g. split; auto. now apply framed_tokens.
  Qed.
  Lemma kp_upd_tok P l i f : (forall t, t_class (f t) = t_class t /\ t_value (f t) = t_value t
      /\ t_exp (f t) = t_exp t /\ t_issued (f t) = t_issued t /\ t_based (f t) = t_based t) -> kp P (upd_tok l i f).
  Proof.
    intros K. apply kp_on_grant. intros g. do 7 (split; [reflexivity|]). cbn. intros t' I.
    apply In_nth_error in I as [j N]. destruct (Nat.eq_dec j i) as [->|M].
    - rewrite nth_upd_nth_same in N. destruct (nth_error (g_tokens g) i) as [t|] eqn:E; [|discriminate].
      cbn in N. injection N as <-. exists t. destruct (K t). split; [eapply nth_error_In; eauto|auto].
    - rewrite nth_upd_nth_other in N by auto. exists t'. split; [eapply nth_error_In; eauto|auto].
  Qed.
  Lemma kp_register P l i : kp P (upd_tok l i tok_register).
  Proof. apply kp_upd_tok. auto. Qed.
  Lemma kp_set_revoked P l i : kp P (upd_tok l i tok_set_revoked).
  Proof. apply kp_upd_tok. auto. Qed.
  Lemma kp_set_rules P l i x : kp P (upd_tok l i (tok_set_rules x)).
  Proof. apply kp_upd_tok. auto. Qed.
  Lemma kp_on_tokens P l m : flags m -> kp P (on_tokens l m).
  Proof.
    intros F s r s' Js p E. unfold on_tokens in E.
    apply bind_inv in E as [(g & s1 & E1 & E2)|(x & E1 & _)].
    2:{ apply reader_grant_at in E1. subst. split; auto. apply up_refl. }
    apply grant_at_ok in E1 as [-> Hl]. destruct (m (g_tokens g)) as [r0 ts] eqn:Em.
    apply bind_inv in E2 as [([] & s2 & E2 & E3)|(x & E2 & _)]; [|discriminate E2].
    apply lift_inv in E3 as [_ <-]. unfold upd_obj in E2. injection E2 as <-.
    assert (framed g (g_set_tokens ts g)) as Fr.
    { do 7 (split; [reflexivity|]). cbn. intros t' I. destruct (F _ _ _ Em) as (Sk & Tl).
      apply In_nth_error in I as [j N]. assert (j < List.length ts) as Lj by (apply nth_error_Some; congruence).
      assert (List.length ts = List.length (g_tokens g)) as Ln.
      { apply (f_equal (@List.length _)) in Sk. unfold skel in Sk. now rewrite !map_length in Sk. }
      destruct (nth_error (g_tokens g) j) as [t|] eqn:Et; [|apply nth_error_None in Et; lia].
      destruct (Tl _ _ Et) as (t2 & N2 & L). rewrite N in N2. injection N2 as <-.
      exists t. split; [eapply nth_error_In; eauto|]. unfold token_later in L. tauto. }
    destruct Js as (Ja & Jg). split; [split; [exact Ja|]|].
    - intros l' g' H. destruct (Nat.eq_dec l' l) as [->|N]; [|rewrite hp_upd_other in H by auto; eauto].
      rewrite hp_upd_same, Hl in H. cbn in H. injection H as <-. eauto.
    - intros l' (g' & H & q). destruct (Nat.eq_dec l' l) as [->|N].
      + rewrite Hl in H. injection H as <-. exists (g_set_tokens ts g). rewrite hp_upd_same, Hl. split; eauto.
      + exists g'. rewrite hp_upd_other by auto. auto.
  Qed.
  Lemma kp_new P o : match o with OGrant g => G g | _ => True end -> kp P (new_obj o).
  Proof.
    intros K s r s' (Ja & Jg) _ E. unfold new_obj in E. injection E as _ <-. split; [split; [exact Ja|]|].
    - intros l g H. destruct (Nat.eq_dec l (List.length (s_heap s))) as [->|N].
      + rewrite hp_app_same in H. injection H as ->. exact K.
      + rewrite hp_app_other in H by auto. eauto.
    - intros l (g & H & q). exists g. rewrite hp_app_other; auto. apply hp_lt in H. lia.
  Qed.
  Lemma kp_new_info P i : kp P (new_obj (OInfo i)).
  Proof. apply kp_new. exact Logic.I. Qed.
  Lemma kp_new_none P : kp P (new_obj ONone).
  Proof. apply kp_new. exact Logic.I. Qed.

  Create HintDb kp.
  Hint Resolve kp_tick kp_put kp_del kp_flush kp_always kp_info kp_extra kp_revoke kp_register kp_set_revoked
    kp_set_rules kp_new_info kp_new_none : kp.
  Hint Resolve kp_on_tokens flags_revoke_token flags_revoke_dependent : kp.
  Ltac kp1 :=
    match goal with
    | |- Mono _ => first [apply mono_any | apply mono_isq | assumption]
    | |- kp _ (bind (tok_at _ _) _) => apply kp_tok_at
    | |- kp _ (bind _ _) => apply kp_bind
    | |- kp _ (catch _ _) => apply kp_catch; [| |let H := fresh in intros ? ? H; handler H]
    | |- kp _ (match ?x with _ => _ end) => destruct x
    | |- kp _ (let _ := _ in _) => cbv zeta
    | |- kp _ _ => first [apply kp_ret | apply kp_raise | apply kp_lift | apply kp_need
        | solve [auto with kp] | apply kp_reader; solve [auto with emr]]
    | |- forall _, _ => intro
    end.
  Ltac kp := repeat kp1.

  (** ** Claims and payloads *)
  Lemma kp_gcfr P ar p sc cid x : Mono P -> p = "" \/ paired p x -> kp P (get_claims_from_request e ar p sc cid x).
  Proof.
    intros Mo [->|Pa]; unfold get_claims_from_request.
    - assert (get_module e "" = Ok None) as -> by (unfold get_module, release_points; destruct (e_oidc e); reflexivity).
      intros s r s' Js Ps E. unfold bind, lift in E. exact (kp_ret P _ _ _ _ Js Ps E).
    - kp.
  Qed.
  Lemma paired_nil p : p = "" \/ paired p "".
  Proof. right. left. reflexivity. Qed.
  Hint Resolve paired_nil : kp.
  Hint Resolve kp_gcfr : kp.
  Lemma kp_get_claims P sid sc p x : Mono P -> p = "" \/ paired p x -> kp P (get_claims e sid sc p x).
  Proof. intros Mo Pa. unfold get_claims. kp. Qed.
  Hint Resolve kp_get_claims : kp.
  Lemma kp_all_usage P f ps : Mono P -> (forall p, kp P (f p)) -> kp P (all_usage f ps).
  Proof. intros Mo H. induction ps as [|p ps IH]; cbn; kp; auto. Qed.
  Lemma kp_all_claims P sid sc : Mono P -> kp P (get_claims_all_usage e sid sc).
  Proof. intros Mo. unfold get_claims_all_usage. kp; apply kp_all_usage; auto; intros; auto with kp. Qed.
  Lemma kp_payload P g sid p sc x : Mono P -> p = "" \/ paired p x -> kp P (payload_arguments e g sid p sc x).
  Proof. intros Mo Pa. unfold payload_arguments. kp. Qed.
  Lemma kp_enc_sid P p : Mono P -> kp P (enc_sid e p).
  Proof. intros Mo. unfold enc_sid. kp. Qed.
  Hint Resolve kp_all_claims kp_payload kp_enc_sid : kp.
  Lemma kp_compatible P sid : Mono P -> kp P (compatible_sid e sid).
  Proof. intros Mo. unfold compatible_sid. kp. Qed.
  Hint Resolve kp_compatible : kp.
  Lemma kp_by_token P v : Mono P -> kp P (get_session_info_by_token e now v).
  Proof. intros Mo. unfold get_session_info_by_token. kp. Qed.
  Lemma kp_handler P h sid rules code acc p : Mono P -> kp P (handler_mint e now h sid rules code acc p).
  Proof. intros Mo. unfold handler_mint. kp. Qed.
  Hint Resolve kp_by_token kp_handler : kp.

  (** ** The store *)
  Lemma kp_get_or P k i : Mono P -> kp P (db_get_or k i).
  Proof. intros Mo. unfold db_get_or. kp. Qed.
  Hint Resolve kp_get_or mono_any mono_isq : kp.
  Lemma kp_db_set P p l : kp P (db_set p l).
  Proof. apply kp_weaken. unfold db_set. kp. Qed.
  Hint Resolve kp_db_set : kp.
  Lemma kp_mgr_put P sid l : kp P (mgr_put e sid l).
  Proof. apply kp_weaken. unfold mgr_put. kp. Qed.
  Lemma kp_discard P k : kp P (db_discard k).
  Proof. apply kp_weaken. unfold db_discard. kp. Qed.
  Hint Resolve kp_mgr_put kp_discard : kp.
  Lemma kp_delete P p : kp P (db_delete p).
  Proof. apply kp_weaken. unfold db_delete. kp. Qed.
  Hint Resolve kp_delete : kp.
  Lemma kp_remove sid : kp any (remove_session e sid).
  Proof. unfold remove_session. kp. Qed.
  Lemma kp_revoke_token sid v rec : kp any (mgr_revoke_token e sid v rec).
  Proof. unfold mgr_revoke_token. kp. Qed.
  Lemma kp_revoke_grants u c gs : kp any (revoke_grants u c gs).
  Proof. induction gs; cbn; kp. Qed.
  Hint Resolve kp_revoke_grants : kp.
  Lemma kp_revoke_client sid : kp any (revoke_client_session e sid).
  Proof. unfold revoke_client_session. kp. Qed.
  Hint Resolve kp_revoke_client : kp.
  Lemma kp_revoke_grant sid : kp any (revoke_grant e sid).
  Proof. unfold revoke_grant. kp. Qed.
  Lemma kp_clean sids : kp any (clean_sessions e sids).
  Proof. induction sids; cbn; kp. Qed.
  Hint Resolve kp_clean : kp.
  Lemma kp_back cid c sid : kp any (back_channel_logout e now cid c sid).
  Proof. unfold back_channel_logout. kp. Qed.
  Hint Resolve kp_back : kp.
  Lemma kp_collect u cs : kp any (collect_logouts e now u cs).
  Proof. induction cs; cbn; kp. Qed.
  Hint Resolve kp_collect : kp.
  Lemma kp_logout sid alla : kp any (do_verified_logout e now sid alla).
  Proof. unfold do_verified_logout, logout_all_clients, logout_from_client. kp. Qed.
  (** ** Minting *)
  Lemma mint_added l sid tc based rules scope ttype ia s r s' : J s -> paired tc (ia_as_if ia) ->
    mint e now l sid tc based rules scope ttype ia s = (r, s') ->
    A (s_always s') /\
    ((s_heap s' = s_heap s /\ forall i, r <> Ok (Some i))
     \/ exists g t, hp s l = Some (OGrant g) /\ r = Ok (Some (List.length (g_tokens g)))
       /\ s_heap s' = upd_nth l (add_tok t) (s_heap s) /\ minted_from e now g tc based scope t
       /\ t_exp t = 0%Z).
  Proof.
    intros Js Pa H. unfold mint in H.
    assert ((if smem tc (release_points e) then tc else "") = ""
            \/ paired (if smem tc (release_points e) then tc else "") (ia_as_if ia)) as Pa'
      by (destruct (smem tc (release_points e)); auto).
    apply bind_inv in H as [(g & s1 & E & H)|(x & E & ->)].
    2:{ apply reader_grant_at in E. subst. split; [apply Js|]. left. split; auto. congruence. }
    apply grant_at_ok in E as [-> Hl].
    apply bind_inv in H as [(n0 & s1 & T & H)|(x & T & ->)]; [|discriminate T].
    pose proof (kp_tick any _ _ _ Js Logic.I T) as (J1 & _). pose proof (proj1 (quiet_tick _ _ _ T)) as H1.
    apply bind_inv in H as [(o & s2 & T2 & H)|(x & T2 & ->)].
    2:{ apply lift_inv in T2 as [_ <-]. split; [apply J1|]. left. split; auto. congruence. }
    apply lift_ok in T2 as [Mt <-].
    destruct o as [[t g']|].
    2:{ apply ret_inv in H as [-> <-]. split; [apply J1|]. left. split; auto. congruence. }
    destruct (dget (e_handlers e) tc) as [h|].
    2:{ apply raise_inv in H as [-> <-]. split; [apply J1|]. left. split; auto. congruence. }
    apply bind_inv in H as [(p & s3 & T3 & H)|(x & T3 & ->)].
    2:{ pose proof (kp_payload any _ _ _ _ _ mono_any Pa' _ _ _ J1 Logic.I T3) as (J3 & _). apply quiet_payload in T3 as (H3 & _).
        split; [apply J3|]. left. split; congruence. }
    pose proof (kp_payload any _ _ _ _ _ mono_any Pa' _ _ _ J1 Logic.I T3) as (J3 & _). apply quiet_payload in T3 as (H3 & _).
    apply bind_inv in H as [(v & s4 & T4 & H)|(x & T4 & ->)].
    2:{ pose proof (kp_handler any _ _ _ _ _ _ mono_any _ _ _ J3 Logic.I T4) as (J4 & _).
        apply handler_mint_run in T4 as [(H4 & _) _]. split; [apply J4|]. left. split; congruence. }
    pose proof (kp_handler any _ _ _ _ _ _ mono_any _ _ _ J3 Logic.I T4) as (J4 & _).
    apply handler_mint_run in T4 as [(H4 & _) _].
    unfold bind, upd_obj in H. apply ret_inv in H as [-> <-]. split; [apply J4|].
    right. exists g, (tok_set_value v t). cbn. split; auto. split; auto. split. { rewrite H4, H3, H1. reflexivity. }
    split; [eapply mint_token_facts; eauto|].
    unfold mint_token in Mt. destruct (grant_active now g); cbn [negb] in Mt; [|discriminate].
    apply rbind_ok in Mt as (br & _ & Mt). destruct (known_class tc); cbn [negb] in Mt; [|discriminate].
    apply rbind_ok in Mt as (sc & _ & Mt). apply rbind_ok in Mt as (v0 & _ & Mt). injection Mt as <- _. reflexivity.
  Qed.

  (** The life time of a token the authorization endpoint makes. *)
  Definition az_lifetime (r : option rule) : option Z :=
    match r with
    | Some r => match r_exp r with Some x => if Z.eqb x 0 then None else Some x | None => None end
    | None => None
    end.
  Definition set_life (o : option Z) (t : token) : token :=
    match o with Some x => tok_set_exp (now + x) t | None => t end.

  Definition lifetime (g : grant) (tc : string) (based : option token) : option Z :=
    let r := dget (g_rules g) tc in
    match based with Some _ => ep_lifetime r | None => az_lifetime r end.
  Hypothesis HAdd : forall g tc b sc t, G g -> Q g -> minted_from e now g tc b sc t -> t_exp t = 0%Z ->
    (b = None -> tc <> REFRESH) ->
    let g' := g_add_token (set_life (lifetime g tc b) t) g in G g' /\ Q g'.

  (** [m] adds to the grant at [l] the token that was minted. *)
  Lemma add_life l sid tc b rules sc ty ia life s r s' g : J s -> paired tc (ia_as_if ia) -> hp s l = Some (OGrant g) -> Q g ->
    life = lifetime g tc b -> (b = None -> tc <> REFRESH) ->
    (r <- mint e now l sid tc b rules sc ty ia ;;
     (match life with
      | Some x => i <- need r ;; upd_tok l i (tok_set_exp (now + x))
      | None => ret tt
      end) ;;
     db_set (unpack_session_key sid) l ;;
     ret r) s = (r, s') -> J s' /\ up s s'.
  Proof.
    intros Js Pa Hl q -> Ne E.
    apply bind_inv in E as [(o & s1 & E1 & E)|(x & E1 & ->)].
    2:{ destruct (mint_added _ _ _ _ _ _ _ _ _ _ _ Js Pa E1) as (Ja & [(Hh & _)|(? & ? & _ & X & _)]); [|discriminate X].
        split; [|now apply up_heap]. split; auto. intros l' g' H. apply (proj2 Js l'). unfold hp in *. now rewrite <- Hh. }
    destruct (mint_added _ _ _ _ _ _ _ _ _ _ _ Js Pa E1) as (Ja & [(Hh & No)|(g0 & t & H0 & X & Hh & Mf & Te)]).
    { assert (J s1 /\ up s s1) as (J1 & U1).
      { split; [|now apply up_heap]. split; auto. intros l' g' H. apply (proj2 Js l'). unfold hp in *. now rewrite <- Hh. }
      assert (o = None) as -> by (destruct o; auto; exfalso; eapply No; reflexivity).
      destruct (lifetime g tc b) as [z|].
      - apply bind_inv in E as [([] & s2 & E2 & E)|(x & E2 & ->)]; [discriminate E2|].
        apply bind_inv in E2 as [(i & s2 & E2 & _)|(y & E2 & _)]; [discriminate E2|].
        apply reader_need in E2. subst. auto.
      - revert E. match goal with |- ?m s1 = _ -> _ => enough (kp any m) as K end.
        + intros E. destruct (K _ _ _ J1 Logic.I E) as (J2 & U2). split; auto. intros l' Y. auto.
        + kp. }
    rewrite H0 in Hl. injection Hl as ->. injection X as ->.
    destruct (HAdd g tc b sc t (proj2 Js _ _ H0) q Mf Te Ne) as (Gg & Qg).
    set (life := lifetime g tc b) in *. clearbody life.
    assert (exists s2, (match life with
      | Some x => i <- need (Some (List.length (g_tokens g))) ;; upd_tok l i (tok_set_exp (now + x))
      | None => ret tt
      end) s1 = (Ok tt, s2) /\ A (s_always s2) /\ s_heap s2 = upd_nth l (fun _ => OGrant (g_add_token (set_life life t) g)) (s_heap s))
      as (s2 & E2 & Ja2 & Hh2).
    { destruct life as [x|].
      - eexists. split; [unfold bind, need, ret, upd_tok, upd_obj; reflexivity|]. split; [exact Ja|]. cbn [s_heap].
        rewrite Hh. clear - H0. unfold hp in H0. revert l H0. generalize (s_heap s). intros h. induction h as [|o h IH]; intros l H; [now destruct l|].
        destruct l as [|l]; cbn in *.
        + injection H as ->. cbn. do 2 f_equal. unfold g_add_token, g_set_tokens. cbn. f_equal.
          clear. induction (g_tokens g) as [|a ts IH]; cbn; [reflexivity|]. now rewrite IH.
        + f_equal. auto.
      - exists s1. split; [reflexivity|]. split; [exact Ja|]. rewrite Hh. cbn [set_life].
        clear - H0. unfold hp in H0. revert l H0. generalize (s_heap s). intros h. induction h as [|o h IH]; intros l H; [now destruct l|].
        destruct l as [|l]; cbn in *; [injection H as ->; reflexivity|f_equal; auto]. }
    assert (J s2 /\ up s s2) as (J2 & U2).
    { assert (forall l', hp s2 l' = if Nat.eq_dec l' l then Some (OGrant (g_add_token (set_life life t) g)) else hp s l') as Hp.
      { intros l'. unfold hp in *. rewrite Hh2. destruct (Nat.eq_dec l' l) as [->|N].
        - rewrite nth_upd_nth_same, H0. reflexivity.
        - now rewrite nth_upd_nth_other by auto. }
      split; [split; [exact Ja2|]|].
      - intros l' g' H. rewrite Hp in H. destruct (Nat.eq_dec l' l); [injection H as <-; auto|]. eapply (proj2 Js); eauto.
      - intros l' (g' & H & q'). unfold isq. rewrite Hp. destruct (Nat.eq_dec l' l); eauto. }
    unfold bind at 1 in E. rewrite E2 in E.
    revert E. match goal with |- ?m s2 = _ -> _ => enough (kp any m) as K end.
    + intros E. destruct (K _ _ _ J2 Logic.I E) as (J3 & U3). split; auto. intros l' Y. auto.
    + kp.
  Qed.
  Lemma kp_ep_mint l sid tc b sc ty : kp (isq l) (ep_mint e now l sid tc (Some b) sc ty).
  Proof.
    intros s r s' Js (g & Hl & q) E. unfold ep_mint in E. unfold bind at 1 in E. rewrite (grant_at_some _ _ _ Hl) in E.
    cbv zeta in E. apply bind_inv in E as [([] & s1 & E1 & E)|(x & E1 & ->)].
    2:{ destruct (dmem _ _); [discriminate|]. apply reader_raise in E1. subst. split; auto. apply up_refl. }
    assert (s1 = s) as -> by (destruct (dmem _ _); [apply ret_ok in E1; intuition congruence|discriminate]).
    eapply add_life with (ia := no_args) (b := Some b) (life := ep_lifetime (dget (g_rules g) tc));
      [exact Js|left; reflexivity|exact Hl|exact q|reflexivity|discriminate|exact E].
  Qed.
  Lemma kp_az_mint l sid tc sc ia : tc <> REFRESH -> paired tc (ia_as_if ia) -> kp (isq l) (az_mint e now l sid tc sc ia).
  Proof.
    intros Nr Pa s r s' Js (g & Hl & q) E. unfold az_mint in E. unfold bind at 1 in E. rewrite (grant_at_some _ _ _ Hl) in E.
    cbv zeta in E. eapply add_life with (life := az_lifetime (dget (g_rules g) tc)) (b := None) (ty := "")
      (rules := Some match dget (g_rules g) tc with Some r => r | None => empty_rule end); [exact Js|exact Pa|exact Hl|exact q|reflexivity|auto|].
    rewrite <- E. unfold az_lifetime.
    destruct (dget (g_rules g) tc) as [ru|]; [|reflexivity]. destruct (r_exp ru) as [x|]; [|reflexivity].
    destruct (Z.eqb x 0); reflexivity.
  Qed.
  Hint Resolve kp_ep_mint : kp.
  Lemma kp_mint_value l sid tc b sc ty : kp (isq l) (mint_value e now l sid tc (Some b) sc ty).
  Proof. unfold mint_value. kp. Qed.
  Lemma kp_rotated l sid old sc : kp (isq l) (mint_rotated e now l sid old sc).
  Proof. unfold mint_rotated. kp. Qed.
  Lemma kp_az_value l sid tc sc ia : tc <> REFRESH -> paired tc (ia_as_if ia) -> kp (isq l) (az_value e now l sid tc sc ia).
  Proof. intros Nr Pa. unfold az_value. kp. now apply kp_az_mint. Qed.
  Hint Resolve kp_mint_value kp_rotated : kp.
  Lemma kp_process q issue : kp any (token_process e now q issue).
  Proof. unfold token_process, code_process, refresh_process, except_minting, except_jwe. kp. Qed.
  Lemma kp_parse cid q : kp any (token_parse e now cid q).
  Proof. unfold token_parse, code_parse, refresh_parse. kp. Qed.
  Lemma kp_parse_all cid q : kp any (token_parse_all e now cid q).
  Proof. unfold token_parse_all. apply kp_bind; [kp|apply kp_parse|]. intros r. unfold pkce_check. kp. Qed.
  Lemma kp_tokens ar sid l sc : kp (isq l) (authn_tokens e now ar sid l sc).
  Proof. unfold authn_tokens, except_jwe. kp; (apply kp_az_value; [discriminate|]); try (left; reflexivity).
    all: destruct (ar_response_type ar) as [|? [|? ?]]; solve [left; reflexivity|right; auto]. Qed.

  (** ** The authorization endpoint *)
  Hypothesis W : laws e.
  Hypothesis HNew : forall ar ae sub gid rules, rules = None \/ rules = Some (env_rules e (ar_client_id ar)) ->
    G (new_grant now ar ae sub gid rules None).
  Hypothesis HAz : forall u ar sid s r s', Inv e s -> ready e now u ar sid s -> J s ->
    authz e now sid ar s = (r, s') -> J s' /\ up s s' /\ forall l, r = Ok l -> isq l s'.

  Lemma kp_create_grant ae ar u c rules : rules = None \/ rules = Some (env_rules e (ar_client_id ar)) ->
    kp any (create_grant e now ae ar u c rules None).
  Proof. intros H. unfold create_grant. kp. apply kp_new. now apply HNew. Qed.
  Hint Resolve kp_create_grant : kp.
  Lemma kp_create_session ar u acr x : kp any (ep_create_session e now ar u acr x).
  Proof. unfold ep_create_session, create_session. kp. Qed.
  Hint Resolve kp_create_session : kp.
  Lemma kp_setup ar ru acr x ans : kp any (setup_auth e now ar ru acr x ans).
  Proof. unfold setup_auth. kp. Qed.

  (** With the invariant of histories. *)
  Definition kpi {T} (P : st -> Prop) (m : M st T) : Prop :=
    forall s r s', Inv e s -> J s -> P s -> m s = (r, s') -> J s' /\ up s s'.
  Lemma kpi_kp {T} P (m : M st T) : kp any m -> kpi P m.
  Proof. intros H s r s' _ Js _ E. eapply H; eauto. exact Logic.I. Qed.
  Lemma kpi_seq {T B} (m : M st T) (f : T -> M st B) (P : st -> Prop) R :
    spec e now P m R -> kpi P m -> (forall a, kpi (R a) (f a)) -> kpi P (bind m f).
  Proof.
    intros S H K s r s' Is Js p E. apply bind_inv in E as [(a & s1 & E1 & E2)|(x & E1 & ->)].
    - destruct (H _ _ _ Is Js p E1) as (J1 & U1). destruct (S _ _ _ Is p E1) as (I1 & _ & Ra).
      destruct (K a _ _ _ I1 J1 (Ra a eq_refl) E2) as (J2 & U2). split; auto. intros l X. auto.
    - eapply H; eauto.
  Qed.

  Lemma kpi_last {T B} (m : M st T) (f : T -> M st B) (P : st -> Prop) :
    kpi P m -> (forall a, kp any (f a)) -> kpi P (bind m f).
  Proof.
    intros H K s r s' Is Js p E. apply bind_inv in E as [(a & s1 & E1 & E2)|(x & E1 & ->)].
    - destruct (H _ _ _ Is Js p E1) as (J1 & U1).
      destruct (K a _ _ _ J1 Logic.I E2) as (J2 & U2). split; auto. intros l X. auto.
    - eapply H; eauto.
  Qed.

  Lemma kp_response_at u ar sid l gid : dec_sid3 e sid = Ok (u, ar_client_id ar, gid) ->
    kpi (fun s => isq l s /\ owns e s l u (ar_client_id ar) gid) (create_authn_response e now ar sid).
  Proof.
    intros D s r s' Is Js (q & O) E.
    assert (forall T (f : outcome aresp -> M st T) rt r,
      (forall a, kp any (f a)) -> (i <- get_session_info e sid ;;
      let scope := match ar_scope ar with
                   | Some (x :: r) => Some (filter_scopes e (x :: r) (ss_client i))
                   | _ => None end in
      r <- authn_tokens e now rt (ss_sid i) (ss_grant i) scope ;; f r) s = (r, s') -> J s' /\ up s s') as K.
    { clear E r. intros T f rt r Kf E. apply bind_inv in E as [(i & s1 & E1 & E)|(x & E1 & ->)].
      2:{ apply reader_get_session_info in E1. subst. split; auto. apply up_refl. }
      pose proof (reader_get_session_info _ _ _ _ _ E1). subst s1.
      destruct (get_session_info_read _ _ _ _ Is E1) as (Es & D' & _ & O'). rewrite D in D'. injection D' as E2 E3 E4.
      rewrite <- E2, <- E3, <- E4 in O'. assert (l = ss_grant i) as El by (eapply owns_unique; eauto).
      cbv zeta in E. rewrite <- El in E. revert E. match goal with |- ?m s = _ -> _ => enough (kp (isq l) m) as K by (intros E; eapply K; eauto) end.
      apply kp_bind; [kp|apply kp_tokens|]. intros a. apply kp_weaken, Kf. }
    unfold create_authn_response in E. remember (ar_response_type ar) as rt. clear Heqrt.
    repeat (match type of E with (match ?a with _ => _ end) _ = _ =>
      first [is_var a; destruct a; try (eapply K; [|exact E]; intros; apply kp_ret) | fail 1] end).
    apply reader_ret in E. subst. split; auto. apply up_refl.
  Qed.
  (** post_authentication after authz. *)
  Definition post_tail (ar : areq) (sid : string) (uri : option string) (l : nat) : M st aout :=
    g <- grant_at l ;;
    if negb (grant_active now g) then ret (aout_error "server_error")
    else
      x <- lift (dec_sid3 e sid) ;;
      let '(u, c, gid) := x in
      ok <- catch (db_set [u; c; gid] l ;; ret true) (fun _ => Some (ret false)) ;;
      if negb ok then ret (aout_error "server_error")
      else
        r <- create_authn_response e now ar sid ;;
        let '(args, frag) := r in
        match uri with
        | None => ret (mk_aout (Err "invalid_request") false None (Some frag) None false)
        | Some v =>
            match ar_response_mode ar with
            | None => ret (mk_aout args false (Some v) (Some frag) None false)
            | Some m =>
                match response_mode m (Some frag) with
                | Raise _ => ret (mk_aout (Err "invalid_request") false (Some v) (Some frag) None false)
                | Ok (form, frag) => ret (mk_aout args form (Some v) frag None false)
                end
            end
        end.
  Lemma kpi_post_tail u ar sid uri l gid : dec_sid3 e sid = Ok (u, ar_client_id ar, gid) ->
    kpi (fun s => isq l s /\ owns e s l u (ar_client_id ar) gid) (post_tail ar sid uri l).
  Proof.
    intros D. unfold post_tail.
    set (P := fun s => isq l s /\ owns e s l u (ar_client_id ar) gid).
    assert (forall T (m : M st T), reader m -> spec e now P m (fun _ => P)) as Rd.
    { intros T m Rm s r s' Is p E. apply Rm in E. subst. split; auto. split; [apply st_later_refl|auto]. }
    apply kpi_seq with (R := fun _ => P); [apply Rd, reader_grant_at|apply kpi_kp; kp|]. intros g.
    destruct (negb _); [apply kpi_kp; kp|].
    apply kpi_seq with (R := fun x s => x = (u, ar_client_id ar, gid) /\ P s); [|apply kpi_kp; kp|].
    { intros s r s' Is p E. apply lift_inv in E as [Er <-]. split; auto. split; [apply st_later_refl|].
      intros x ->. rewrite D in Er. injection Er as <-. auto. }
    intros [[u0 c0] gid0] s r s' Is Js (X & p). injection X as -> -> ->. revert s r s' Is Js p.
    match goal with |- forall s r s', _ -> _ -> P s -> ?m s = _ -> _ => change (kpi P m) end.
    apply kpi_seq with (R := fun _ => P); [| apply kpi_kp; kp |].
    { intros s r s' Is p E.
      assert (spec e now (fun s => owns e s l u (ar_client_id ar) gid)
        (catch (db_set [u; ar_client_id ar; gid] l;; ret true) (fun _ => Some (ret false)))
        (fun _ s => owns e s l u (ar_client_id ar) gid)) as S.
      { eapply spec_post with (Q' := fun _ s => owns e s l u (ar_client_id ar) gid /\ True); [tauto|].
        assert (Stable now (fun s => owns e s l u (ar_client_id ar) gid)) as StO
          by (intros a b L O; eapply owns_later; eauto).
        assert (spec e now (fun s => owns e s l u (ar_client_id ar) gid)
          (catch (db_set [u; ar_client_id ar; gid] l;; ret true) (fun _ => Some (ret false))) (fun _ _ => True)) as S1.
        { apply spec_catch'.
          - eapply spec_seq with (Q := fun _ _ => True); [|intros; apply spec_ret; auto].
            eapply spec_pre; [|apply db_set_spec; [exact W|eapply dec_sid3_separable; eauto]].
            intros s0 _ O. split; [|cbn; split; discriminate]. intros u1 c1 g1 r0 X. injection X; intros; subst; auto.
          - intros x k X. injection X as <-. apply spec_ret. auto. }
        pose proof (spec_frame e now _ _ _ _ StO S1) as S2. intros s0 r0 s0' I0 p0 E0.
        destruct (S2 _ _ _ I0 (conj p0 p0) E0) as (A1 & A2 & A3). split; auto. split; auto. intros a X.
        destruct (A3 a X). auto. }
      destruct (S _ _ _ Is (proj2 p) E) as (I' & L & O'). split; auto. split; auto. intros a Ea. split; [|eauto].
      assert (gsame (catch (db_set [u; ar_client_id ar; gid] l;; ret true) (fun _ => Some (ret false)))) as Gs.
      { apply gsame_catch; [apply gsame_bind; [apply gsame_db_set|intros; apply gsame_reader, reader_ret]|].
        intros x k X. injection X as <-. apply gsame_reader, reader_ret. }
      destruct p as ((g1 & H1 & q1) & _). exists g1. split; auto. eapply Gs; eauto. }
    intros ok. destruct (negb ok); [apply kpi_kp; kp|].
    apply kpi_last; [now apply kp_response_at|]. intros [args frag]. kp.
  Qed.
  Lemma kpi_post u ar sid uri : kpi (ready e now u ar sid) (post_authentication e now ar sid uri).
  Proof.
    intros s r s' Is Js R E. change (bind (authz e now sid ar) (post_tail ar sid uri) s = (r, s')) in E.
    apply bind_inv in E as [(l & s1 & E1 & E)|(x & E1 & ->)].
    2:{ destruct (HAz _ _ _ _ _ _ Is R Js E1) as (J1 & U1 & _). auto. }
    destruct (HAz _ _ _ _ _ _ Is R Js E1) as (J1 & U1 & Ql). specialize (Ql l eq_refl).
    destruct (authz_spec e now u ar sid _ _ _ Is R E1) as (I1 & _ & X). destruct (X l eq_refl) as (_ & gid & D & O). clear X.
    destruct (kpi_post_tail u ar sid uri l gid D _ _ _ I1 J1 (conj Ql O) E) as (J2 & U2). split; auto. intros l' Y. auto.
  Qed.
  Lemma kpi_part2 u ifr ar sid uri : kpi (ready e now u ar sid) (authz_part2 e now ifr ar sid uri).
  Proof.
    unfold authz_part2. apply kpi_last; [|intros o; kp].
    intros s r s' Is Js R E.
    apply catch_inv in E as [(a & E1 & ->)|[(x & s1 & k & E1 & E2 & E3)|(x & _ & X & _)]]; [| |discriminate X].
    - apply bind_ok in E1 as (o & s1 & E1 & E2). apply ret_ok in E2 as [_ <-]. eapply kpi_post; eauto.
    - injection E2 as <-. apply ret_inv in E3 as [_ <-].
      apply bind_inv in E1 as [(o & s2 & E1 & E2)|(y & E1 & _)].
      + apply ret_inv in E2 as [X _]. discriminate X.
      + eapply kpi_post; eauto.
  Qed.
  Lemma kpi_login ifr ar uid acr x uri : good_id (ar_client_id ar) -> good_id uid ->
    kpi any (login e now ifr ar uid acr x uri).
  Proof.
    intros Gc Gu. unfold login. eapply kpi_seq; [apply ep_create_session_spec; auto|apply kpi_kp; kp|].
    intros sid. apply kpi_part2.
  Qed.
  Lemma kpi_authorize deny ifr ar ru acr x ans uri : good_id (ar_client_id ar) ->
    match ans with
    | ANobody => True
    | AUser u sid => good_id u /\ forall s u' c g, sid = Some s -> dec_sid3 e s = Ok (u', c, g) -> u' = u
    end ->
    kpi any (authorize e now deny ifr ar ru acr x ans uri).
  Proof.
    intros Gc Pa. unfold authorize. destruct (dget (e_clients e) (ar_client_id ar)); [|apply kpi_kp; kp].
    apply kpi_seq with (R := fun _ _ => True); [apply spec_reader; [apply reader_lift|auto]|apply kpi_kp; kp|]. intros ?.
    eapply kpi_seq; [apply setup_auth_spec; auto|apply kpi_kp, kp_setup|]. intros o. cbv beta.
    destruct o as [| |sid u]; [apply kpi_kp; kp|apply kpi_kp; kp|].
    apply kpi_last; [|intros; kp]. intros s r s' Is Js R E. eapply kpi_part2; eauto.
  Qed.

  (** One call. *)
  Lemma step_pass h o ev h' : Inv e (h_st h) -> proper e o -> op_time o = now -> step e h o = (ev, h') ->
    J (h_st h) -> J (h_st h').
  Proof.
    intros Is Po To E Js.
    assert (forall {T} (f : res T -> event) (m : M st T), kpi any m -> on_st h f m = (ev, h') -> J (h_st h')) as K.
    { intros T f m Km Em. unfold on_st in Em. destruct (m (h_st h)) as [r s] eqn:Er. injection Em as _ <-.
      cbn [h_st]. eapply Km; eauto. exact Logic.I. }
    destruct o; cbn [step] in E; cbn [proper] in Po; cbn [op_time] in To; subst now0.
    - eapply K; [|exact E]. apply kpi_authorize; destruct ans; tauto.
    - eapply K; [|exact E]. apply kpi_login; tauto.
    - destruct (token_parse_all e now cid req (h_st h)) as [r s] eqn:Ep. injection E as _ <-. cbn [h_st].
      eapply kp_parse_all; eauto; exact Logic.I.
    - destruct (nth_error (h_parsed h) i) as [q|]; [|injection E as _ <-; exact Js].
      eapply K; [|exact E]. apply kpi_kp, kp_process.
    - eapply K; [|exact E]. apply kpi_kp. unfold introspect. kp.
    - eapply K; [|exact E]. apply kpi_kp. unfold userinfo. kp.
    - eapply K; [|exact E]. apply kpi_kp, kp_logout.
    - eapply K; [|exact E]. apply kpi_kp, kp_revoke_token.
    - eapply K; [|exact E]. apply kpi_kp, kp_revoke_grant.
    - eapply K; [|exact E]. apply kpi_kp, kp_revoke_client.
    - eapply K; [|exact E]. apply kpi_kp, kp_remove.
    - eapply K; [|exact E]. apply kpi_kp, kp_flush.
    - unfold on_st in E. destruct (reload_ok e now (h_st h) Is) as (s1 & E1 & R). rewrite E1 in E.
      injection E as _ <-. cbn [h_st]. destruct Js as (Ja & Jg). split; [now rewrite (rl_always _ _ R)|].
      intros l g H. eapply Jg. eapply reloaded_grants; eauto.
  Qed.
End Pass.

(** What authz does to a state in which the session is [ready]. *)
Definition authz_result (e : env) (now : Z) (u sid : string) (ar : areq) (g g' : grant) (s : st) (r : res nat) (s' : st) : Prop :=
  e_implicit e = false
  /\ g_rules g' = match gc_rules (e_authz e) with Some _ => env_rules e (ar_client_id ar) | None => g_rules g end
  /\ g_exp g' = match gc_exp (e_authz e) with Some x => (now + x)%Z | None => g_exp g end
  /\ exists l gid g1 s1 s2 c, s_always s1 = s_always s /\ s_always s' = s_always s2
     /\ Inv e s1 /\ dec_sid3 e sid = Ok (u, ar_client_id ar, gid) /\ hp s1 l = Some (OGrant g1) /\ g_id g1 = gid
     /\ g_areq g1 = Some ar
     /\ get_claims_all_usage e sid (authz_scope e g) s1 = (c, s2)
     /\ match c with Ok c => g_claims g' = c | Raise x => g_claims g' = g_claims g /\ r = Raise x end.
Lemma authz_effect e now u ar sid s r s' : Inv e s -> ready e now u ar sid s -> authz e now sid ar s = (r, s') ->
  exists l g g', hp s l = Some (OGrant g) /\ g_areq g = Some ar /\ hp s' l = Some (OGrant g')
    /\ (forall l', l' <> l -> hp s' l' = hp s l')
    /\ g_tokens g' = g_tokens g /\ g_areq g' = g_areq g /\ g_id g' = g_id g /\ g_sub g' = g_sub g
    /\ ((s' = s /\ ((exists x, r = Raise x) \/ e_implicit e = true)) \/ authz_result e now u sid ar g g' s r s')
    /\ (forall l0, r = Ok l0 -> l0 = l).
Proof.
  intros I P E.
  assert (exists l g, hp s l = Some (OGrant g) /\ g_areq g = Some ar) as (lr & gr & Hr & Ar).
  { destruct P as (gid & l & g & _ & H & _ & _ & _ & A). eauto. }
  assert (forall x, r = Raise x -> s' = s -> exists l g g', hp s l = Some (OGrant g) /\ g_areq g = Some ar
    /\ hp s' l = Some (OGrant g') /\ (forall l', l' <> l -> hp s' l' = hp s l')
    /\ g_tokens g' = g_tokens g /\ g_areq g' = g_areq g /\ g_id g' = g_id g /\ g_sub g' = g_sub g
    /\ ((s' = s /\ ((exists x, r = Raise x) \/ e_implicit e = true)) \/ authz_result e now u sid ar g g' s r s')
    /\ (forall l0, r = Ok l0 -> l0 = l)) as Fail.
  { intros x -> ->. exists lr, gr, gr. repeat (split; [solve [eauto]|]). discriminate. }
  unfold authz in E. destruct (e_implicit e) eqn:Im.
  - apply bind_inv in E as [(l & s1 & E1 & E)|(x & E1 & ->)].
    2:{ apply reader_get_grant in E1. eapply Fail; eauto. }
    pose proof (reader_get_grant _ _ _ _ _ E1). subst s1.
    destruct (gconf_empty (e_authz e)); [|apply raise_inv in E as [-> <-]; eapply Fail; eauto].
    apply ret_inv in E as [-> <-].
    unfold get_grant in E1.
    apply bind_inv in E1 as [([[u0 c0] g0] & s1 & H0 & E1)|(? & _ & ?)]; [|discriminate].
    apply lift_ok in H0 as [H0 <-].
    apply bind_inv in E1 as [(a & s1 & H & E1)|(? & _ & ?)]; [|discriminate].
    pose proof (reader_db_get _ _ _ _ H). subst s1.
    apply bind_inv in E1 as [(o & s1 & H1 & E1)|(? & _ & ?)]; [|discriminate].
    pose proof (reader_deref _ _ _ _ H1). subst s1. destruct o; try discriminate E1.
    apply ret_ok in E1 as [<- _].
    pose proof (db_get_owns e s u0 c0 g0 [] a I (dec_sid3_separable _ _ _ _ _ H0) H) as O.
    destruct (ready_unique _ _ _ _ _ _ _ _ _ _ I P H0 O) as (-> & -> & gg & Hg & Ag & Rg).
    exists a, gg, gg. repeat (split; [solve [eauto]|]). congruence.
  - apply bind_inv in E as [(i & s1 & E1 & E)|(x & E1 & ->)].
    2:{ apply reader_get_session_info in E1. eapply Fail; eauto. }
    pose proof (reader_get_session_info _ _ _ _ _ E1). subst s1.
    destruct (get_session_info_read _ _ _ _ I E1) as (_ & D & _ & O).
    destruct (ready_unique _ _ _ _ _ _ _ _ _ _ I P D O) as (Eu & Ec & g & Hg & Ag & Rg).
    assert (g_id g = ss_gid i) as Gid. { destruct O as (g0 & H0 & Id & _). congruence. }
    rewrite Eu, Ec in D.
    cbv zeta in E. set (l := ss_grant i) in *. clearbody l.
    unfold bind at 1 in E. rewrite (grant_at_some _ _ _ Hg) in E.
    set (f1 := fun g => g_set_resources [ss_client i] (apply_gconf e now ar g)) in *.
    unfold bind at 1 in E. unfold upd_obj at 1 in E.
    set (s1 := mk_st (upd_nth l (on_grant f1) (s_heap s)) (s_db s) (s_ctr s) (s_always s)) in *.
    assert (hp s1 l = Some (OGrant (f1 g))) as H1 by (unfold s1; rewrite hp_upd_same, Hg; reflexivity).
    unfold bind at 1 in E. rewrite (grant_at_some _ _ _ H1) in E.
    set (sc := match g_scope (f1 g) with
               | [] => match ar_scope ar with Some s => s | None => [] end
               | s => s
               end) in *.
    unfold bind at 1 in E. unfold upd_obj at 1 in E.
    set (s2 := mk_st (upd_nth l (on_grant (g_set_scope sc)) (s_heap s1)) (s_db s1) (s_ctr s1) (s_always s1)) in *.
    pose proof (inv_grants _ _ I _ _ Hg) as G.
    assert (sc = authz_scope e g) as Esc.
    { unfold authz_scope. rewrite Im, Rg. unfold sc, f1, apply_gconf.
      destruct (gi_scope _ _ G) as [Z|Z].
      - destruct (gc_scope (e_authz e)) as [[|x y]|]; cbn; destruct (gc_rules (e_authz e)), (gc_exp (e_authz e));
          cbn; rewrite ?Z; reflexivity.
      - unfold authz_scope in Z. rewrite Im, Rg in Z.
        destruct (gc_scope (e_authz e)) as [[|x y]|]; cbn; destruct (gc_rules (e_authz e)), (gc_exp (e_authz e));
          cbn; rewrite ?Z; try reflexivity; destruct (ar_scope ar) as [[|? ?]|]; reflexivity. }
    set (F := fun g => g_set_scope sc (f1 g)).
    assert (s2 = mk_st (upd_nth l (on_grant F) (s_heap s)) (s_db s) (s_ctr s) (s_always s)) as Es2.
    { unfold s2, s1. cbn [s_heap s_db s_ctr s_always]. rewrite upd_nth_twice. f_equal.
      apply upd_nth_ext. intros [x|x|]; reflexivity. }
    assert (g_id (F g) = g_id g /\ g_areq (F g) = g_areq g /\ g_sub (F g) = g_sub g /\ g_tokens (F g) = g_tokens g
      /\ g_claims (F g) = g_claims g
      /\ g_rules (F g) = match gc_rules (e_authz e) with Some _ => env_rules e (ar_client_id ar) | None => g_rules g end
      /\ g_aevent (F g) = g_aevent g /\ g_max (F g) = g_max g /\ g_nbf (F g) = g_nbf g /\ g_scope (F g) = sc
      /\ g_exp (F g) = match gc_exp (e_authz e) with Some x => (now + x)%Z | None => g_exp g end)
      as (F1 & F2 & F3 & F4 & F5 & F6 & F7 & F8 & F9 & F10 & F11).
    { unfold F, f1, apply_gconf.
      destruct (gc_scope (e_authz e)), (gc_rules (e_authz e)), (gc_exp (e_authz e)); cbn; repeat split. }
    assert (Inv e s2) as I2.
    { rewrite Es2. apply inv_upd; auto. intros o Ho. rewrite Hg in Ho. injection Ho as <-. cbn [on_grant obj_change].
      rewrite F4. do 5 (split; [assumption || reflexivity|]). intros _.
      assert (authz_scope e (F g) = authz_scope e g) as Ea by (unfold authz_scope; now rewrite F2).
      constructor; rewrite ?Ea, ?F4, ?F8, ?F9, ?F10; try apply G; auto.
      2:{ intros t It Cl. apply (sid_of_same e g); auto. apply (gi_sid _ _ G); auto. }
      intros t It. pose proof (gi_tok _ _ G t It) as [T1 T2 T3 T4 T5 T6 T7 T8]. constructor; auto.
      all: rewrite F10, Esc; rewrite <- (gi_final _ _ G); auto; intros Z; rewrite Z in It; destruct It. }
    assert (hp s2 l = Some (OGrant (F g))) as H2 by (rewrite Es2, hp_upd_same, Hg; reflexivity).
    assert (forall l', l' <> l -> hp s2 l' = hp s l') as O2.
    { intros l' N. rewrite Es2. unfold hp. cbn [s_heap]. now rewrite nth_upd_nth_other by auto. }
    assert (s_always s2 = s_always s) as A2 by (rewrite Es2; reflexivity).
    clearbody s2 F sc. subst sc. clear s1 H1 f1 Es2.
    apply bind_inv in E as [(c & s3 & E2 & E)|(x & E2 & ->)].
    + pose proof (quiet_all_claims _ _ _ _ _ _ E2) as (Hh & _).
      unfold bind at 1 in E. unfold upd_obj at 1 in E. apply ret_inv in E as [-> <-].
      assert (forall l', hp s3 l' = hp s2 l') as H3 by (intros; unfold hp; now rewrite Hh).
      exists l, g, (g_set_claims c (F g)). split; [auto|]. split; [auto|]. split; [rewrite hp_upd_same, H3, H2; reflexivity|].
      split. { intros l' N. rewrite <- (O2 _ N), <- H3. unfold hp. cbn [s_heap]. now rewrite nth_upd_nth_other by auto. }
      do 4 (split; [cbn; assumption|]). split; [right|congruence].
      split; [auto|]. split; [cbn; auto|]. split; [cbn; auto|]. exists l, (ss_gid i), (F g), s2, s3, (Ok c). cbn [s_always].
      do 6 (split; [congruence|]). split; [congruence|]. split; [auto|reflexivity].
    + pose proof (quiet_all_claims _ _ _ _ _ _ E2) as (Hh & _).
      assert (forall l', hp s' l' = hp s2 l') as H3 by (intros; unfold hp; now rewrite Hh).
      exists l, g, (F g). split; [auto|]. split; [auto|]. split; [rewrite H3; auto|].
      split; [intros l' N; rewrite H3; auto|]. do 4 (split; [auto|]). split; [right|discriminate].
      split; [auto|]. split; [auto|]. split; [auto|]. exists l, (ss_gid i), (F g), s2, s', (Raise x).
      do 6 (split; [congruence|]). split; [congruence|]. auto.
Qed.
