(** Histories, part 2: a program logic for calls, and minting. *)
From Verif Require Import M_Base M_Types M_Codec M_Grant M_Env M_Session M_Claims M_Handler
  M_Authz M_TokenEP M_PKCE M_AuthzEP M_Info M_Logout M_History S_Codec S_Grant S_Store S_History
  L_Base L_Codec L_Monad L_Grant L_Store L_Hist1.

(** ** Readers and quiet computations *)
Definition reader {A} (m : M st A) : Prop := forall s r s', m s = (r, s') -> s' = s.
Definition quietm {A} (m : M st A) : Prop := forall s r s', m s = (r, s') -> quiet s s'.

Lemma reader_ret {A} (a : A) : reader (ret a).
Proof. intros s r s' H. now apply ret_inv in H as [_ ->]. Qed.
Lemma reader_raise {A} x : reader (@raise st A x).
Proof. intros s r s' H. now apply raise_inv in H as [_ ->]. Qed.
Lemma reader_lift {A} (x : res A) : reader (lift x).
Proof. intros s r s' H. now apply lift_inv in H as [_ ->]. Qed.
Lemma reader_bind {A B} (m : M st A) (f : A -> M st B) :
  reader m -> (forall a, reader (f a)) -> reader (bind m f).
Proof.
  intros H K s r s' E. apply bind_inv in E as [(a & s1 & E1 & E2)|(x & E1 & _)].
  - apply H in E1. subst. eapply K; eauto.
  - eapply H; eauto.
Qed.
Lemma reader_catch {A} (m : M st A) h : reader m -> (forall x k, h x = Some k -> reader k) ->
  reader (catch m h).
Proof.
  intros H K s r s' E. apply catch_inv in E as [(a & E1 & _)|[(x & s1 & k & E1 & E2 & E3)|(x & E1 & _)]].
  - eapply H; eauto.
  - apply H in E1. subst. eapply K; eauto.
  - eapply H; eauto.
Qed.
Lemma reader_deref l : reader (deref l).
Proof. intros s r s' H. unfold deref in H. destruct (nth_error _ _); injection H; auto. Qed.
Lemma reader_lookup k : reader (db_lookup k).
Proof. intros s r s' H. unfold db_lookup in H. injection H; auto. Qed.
Lemma reader_subordinate l : reader (subordinate l).
Proof.
  unfold subordinate. apply reader_bind; [apply reader_deref|]. intros []; auto using reader_ret, reader_raise.
Qed.
Lemma reader_grant_at l : reader (grant_at l).
Proof.
  unfold grant_at. apply reader_bind; [apply reader_deref|]. intros []; auto using reader_ret, reader_raise.
Qed.
Lemma reader_db_get p : reader (db_get p).
Proof. intros s r s' H. pose proof (db_get_state p s) as K. rewrite H in K. exact K. Qed.
Lemma reader_get_session_info e sid : reader (get_session_info e sid).
Proof.
  unfold get_session_info. apply reader_bind; [apply reader_lift|]. intros [[u c] g].
  apply reader_bind; [apply reader_db_get|]. intros; apply reader_ret.
Qed.
Lemma reader_need {A} (o : option A) : reader (need o).
Proof. destruct o; [apply reader_ret|apply reader_raise]. Qed.
Lemma reader_tok_at l i : reader (tok_at l i).
Proof.
  unfold tok_at. apply reader_bind; [apply reader_grant_at|]. intros g.
  destruct (nth_error _ _); auto using reader_ret, reader_raise.
Qed.
Lemma reader_mgr_get e sid : reader (mgr_get e sid).
Proof. unfold mgr_get. apply reader_bind; [apply reader_lift|]. intros; apply reader_db_get. Qed.
Lemma reader_get_grant e sid : reader (get_grant e sid).
Proof.
  unfold get_grant. apply reader_bind; [apply reader_lift|]. intros [[u c] g].
  apply reader_bind; [apply reader_db_get|]. intros l. apply reader_bind; [apply reader_deref|].
  intros []; auto using reader_ret, reader_raise.
Qed.
Lemma reader_get_event e sid : reader (get_authentication_event e sid).
Proof.
  unfold get_authentication_event. apply reader_bind; [apply reader_get_session_info|]. intros i.
  apply reader_bind; [apply reader_grant_at|]. intros; apply reader_ret.
Qed.

Lemma reader_quiet {A} (m : M st A) : reader m -> quietm m.
Proof. intros H s r s' E. apply H in E. subst. apply quiet_refl. Qed.
Lemma quiet_bind {A B} (m : M st A) (f : A -> M st B) :
  quietm m -> (forall a, quietm (f a)) -> quietm (bind m f).
Proof.
  intros H K s r s' E. apply bind_inv in E as [(a & s1 & E1 & E2)|(x & E1 & _)].
  - eapply quiet_trans; [eapply H|eapply K]; eauto.
  - eapply H; eauto.
Qed.
Lemma quiet_catch {A} (m : M st A) h : quietm m -> (forall x k, h x = Some k -> quietm k) ->
  quietm (catch m h).
Proof.
  intros H K s r s' E. apply catch_inv in E as [(a & E1 & _)|[(x & s1 & k & E1 & E2 & E3)|(x & E1 & _)]].
  - eapply H; eauto.
  - eapply quiet_trans; [eapply H|eapply K]; eauto.
  - eapply H; eauto.
Qed.
Lemma quiet_tick : quietm tick.
Proof. intros s r s' H. injection H as _ <-. unfold quiet; cbn. auto. Qed.

Lemma quiet_client_always cid p x : quietm (client_always cid p x).
Proof.
  intros s r s' H. unfold client_always in H.
  destruct (str_true x); [|injection H as _ <-; apply quiet_refl].
  destruct (dget _ p); injection H as _ <-; [unfold quiet; cbn; auto|apply quiet_refl].
Qed.
Lemma quiet_gcfr e ar p sc cid x : quietm (get_claims_from_request e ar p sc cid x).
Proof.
  unfold get_claims_from_request. apply quiet_bind; [apply reader_quiet, reader_lift|].
  intros [m|]; [|apply reader_quiet, reader_ret].
  apply quiet_bind.
  - destruct (m_per_client m && _); [|apply reader_quiet, reader_ret].
    apply quiet_bind; [apply quiet_client_always|]. intros; apply reader_quiet, reader_ret.
  - intros [b a]. apply reader_quiet, reader_ret.
Qed.
Lemma quiet_get_claims e sid sc p x : quietm (get_claims e sid sc p x).
Proof.
  unfold get_claims. apply quiet_bind; [apply reader_quiet, reader_get_session_info|]. intros i.
  apply quiet_bind; [apply reader_quiet, reader_grant_at|]. intros; apply quiet_gcfr.
Qed.
Lemma quiet_all_usage f ps : (forall p, quietm (f p)) -> quietm (all_usage f ps).
Proof.
  intros H. induction ps as [|p ps IH]; cbn; [apply reader_quiet, reader_ret|].
  apply quiet_bind; [apply H|]. intros c. apply quiet_bind; [apply IH|]. intros; apply reader_quiet, reader_ret.
Qed.
Lemma quiet_all_claims e sid sc : quietm (get_claims_all_usage e sid sc).
Proof.
  unfold get_claims_all_usage. destruct (e_oidc e).
  - apply quiet_bind; [apply reader_quiet, reader_get_grant|]. intros l.
    apply quiet_bind; [apply reader_quiet, reader_grant_at|]. intros g.
    apply quiet_all_usage. intros; apply quiet_gcfr.
  - apply quiet_all_usage. intros; apply quiet_get_claims.
Qed.
Lemma quiet_payload e g sid p sc x : quietm (payload_arguments e g sid p sc x).
Proof.
  unfold payload_arguments. apply quiet_bind; [apply quiet_tick|]. intros n.
  apply quiet_bind; [apply quiet_get_claims|]. intros c.
  apply quiet_bind; [apply reader_quiet, reader_lift|]. intros [[u cl] gid].
  apply quiet_bind; [apply reader_quiet, reader_lift|]. intros d.
  apply quiet_bind; [apply reader_quiet, reader_lift|]. intros a1.
  apply quiet_bind; [destruct a1; apply reader_quiet; auto using reader_ret, reader_lift|].
  intros; apply reader_quiet, reader_ret.
Qed.
Lemma quiet_enc_sid e p : quietm (enc_sid e p).
Proof. unfold enc_sid. apply quiet_bind; [apply quiet_tick|]. intros; apply reader_quiet, reader_ret. Qed.
Lemma quiet_compatible e sid : quietm (compatible_sid e sid).
Proof.
  unfold compatible_sid. destruct (Nat.eqb _ _); [apply quiet_enc_sid|apply reader_quiet, reader_ret].
Qed.
Lemma quiet_by_token e now v : quietm (get_session_info_by_token e now v).
Proof.
  unfold get_session_info_by_token. apply quiet_bind; [apply reader_quiet, reader_lift|]. intros i.
  destruct (negb _); [apply reader_quiet, reader_raise|].
  apply quiet_bind; [apply quiet_compatible|]. intros; apply reader_quiet, reader_get_session_info.
Qed.

(** The handler's answer is a text made with a new draw. *)
Lemma handler_mint_run e now h sid rules code acc p s r s' :
  handler_mint e now h sid rules code acc p s = (r, s') ->
  quiet s s' /\ (forall v, r = Ok v -> exists n, made e n v /\ s_ctr s <= n /\ n < s_ctr s').
Proof.
  unfold handler_mint. destruct (clash p).
  - intros H. apply raise_inv in H as [-> <-]. split; [apply quiet_refl|]. discriminate.
  - intros H. apply bind_inv in H as [(n & s1 & T & H)|(x & T & ->)]; [|discriminate].
    unfold tick in T. injection T as <- <-.
    assert (forall (m : M st string), reader m ->
              m (mk_st (s_heap s) (s_db s) (S (s_ctr s)) (s_always s)) = (r, s') ->
              (forall v, r = Ok v -> made e (s_ctr s) v) ->
              quiet s s' /\ (forall v, r = Ok v -> exists n, made e n v /\ s_ctr s <= n /\ n < s_ctr s')) as Fin.
    { intros m Rm E Mv. apply Rm in E. subst s'. split; [unfold quiet; cbn; auto|].
      intros v Ev. exists (s_ctr s). cbn. split; auto. }
    destruct h.
    + eapply Fin; [apply reader_ret|exact H|]. intros v ->. apply ret_ok in H as [<- _].
      left. unfold default_mint, crypt_encrypt. eauto.
    + eapply Fin; [apply reader_lift|exact H|]. intros v ->. apply lift_ok in H as [E _]. right. eauto.
    + eapply Fin; [|exact H|].
      * apply reader_bind; [apply reader_lift|]. intros [[u c] g].
        destruct (dget (e_clients e) c); [|apply reader_raise].
        apply reader_bind; [apply reader_get_session_info|]. intros i.
        apply reader_bind; [apply reader_grant_at|]. intros; apply reader_lift.
      * intros v ->. minv1 H. destruct a as [[u c] g].
        destruct (dget (e_clients e) c); [|discriminate H]. minv1 H. minv1 H. minv1 H. right. eauto.
Qed.

(** ** The program logic *)
Section Logic.
  Variables (e : env) (now : Z).

  Definition spec {A} (P : st -> Prop) (m : M st A) (Q : A -> st -> Prop) : Prop :=
    forall s r s', Inv e s -> P s -> m s = (r, s') ->
      Inv e s' /\ st_later now s s' /\ (forall a, r = Ok a -> Q a s').

  Definition Stable (P : st -> Prop) : Prop := forall s s', st_later now s s' -> P s -> P s'.

  Lemma spec_ret {A} (a : A) (P : st -> Prop) (Q : A -> st -> Prop) :
    (forall s, P s -> Q a s) -> spec P (ret a) Q.
  Proof.
    intros H s r s' I p E. apply ret_inv in E as [-> <-]. split; auto. split; [apply st_later_refl|].
    intros b X. injection X as <-. auto.
  Qed.
  Lemma spec_raise {A} x P (Q : A -> st -> Prop) : spec P (raise x) Q.
  Proof.
    intros s r s' I p E. apply raise_inv in E as [-> <-]. split; auto. split; [apply st_later_refl|]. discriminate.
  Qed.
  Lemma spec_lift {A} (x : res A) (P : st -> Prop) (Q : A -> st -> Prop) :
    (forall s a, P s -> x = Ok a -> Q a s) -> spec P (lift x) Q.
  Proof.
    intros H s r s' I p E. apply lift_inv in E as [<- <-]. split; auto. split; [apply st_later_refl|]. auto.
  Qed.
  Lemma spec_bind {A B} (m : M st A) (f : A -> M st B) P Q R : Stable P ->
    spec P m Q -> (forall a, spec (fun s => P s /\ Q a s) (f a) R) -> spec P (bind m f) R.
  Proof.
    intros St H K s r s' I p E. apply bind_inv in E as [(a & s1 & E1 & E2)|(x & E1 & ->)].
    - destruct (H _ _ _ I p E1) as (I1 & L1 & Q1).
      destruct (K a s1 r s' I1 (conj (St _ _ L1 p) (Q1 _ eq_refl)) E2) as (I2 & L2 & Q2).
      split; auto. split; auto. eapply st_later_trans; eauto.
    - destruct (H _ _ _ I p E1) as (I1 & L1 & Q1). split; auto. split; auto. discriminate.
  Qed.
  (** When the first part only reads, nothing has to be stable. *)
  Lemma spec_rbind {A B} (m : M st A) (f : A -> M st B) (P : st -> Prop) (Q : A -> st -> Prop) R :
    reader m -> (forall s a, Inv e s -> P s -> m s = (Ok a, s) -> Q a s) ->
    (forall a, spec (fun s => P s /\ Q a s) (f a) R) -> spec P (bind m f) R.
  Proof.
    intros Rm H K s r s' I p E. apply bind_inv in E as [(a & s1 & E1 & E2)|(x & E1 & ->)].
    - pose proof (Rm _ _ _ E1). subst s1.
      destruct (K a s r s' I (conj p (H _ _ I p E1)) E2) as (I2 & L2 & Q2). auto.
    - apply Rm in E1. subst. split; auto. split; [apply st_later_refl|]. discriminate.
  Qed.
  Lemma spec_catch {A} (m : M st A) h P Q : Stable P -> spec P m Q ->
    (forall x k, h x = Some k -> spec P k Q) -> spec P (catch m h) Q.
  Proof.
    intros St H K s r s' I p E.
    apply catch_inv in E as [(a & E1 & ->)|[(x & s1 & k & E1 & E2 & E3)|(x & E1 & _ & ->)]].
    - apply (H _ _ _ I p E1).
    - destruct (H _ _ _ I p E1) as (I1 & L1 & _).
      destruct (K x k E2 _ _ _ I1 (St _ _ L1 p) E3) as (I2 & L2 & Q2). split; auto. split; auto.
      eapply st_later_trans; eauto.
    - destruct (H _ _ _ I p E1) as (I1 & L1 & _). split; auto. split; auto. discriminate.
  Qed.
  (** A handler that does not rely on the precondition. *)
  Lemma spec_catch' {A} (m : M st A) h P (Q : A -> st -> Prop) : spec P m Q ->
    (forall x k, h x = Some k -> spec (fun _ => True) k Q) -> spec P (catch m h) Q.
  Proof.
    intros H K s r s' I p E.
    apply catch_inv in E as [(a & E1 & ->)|[(x & s1 & k & E1 & E2 & E3)|(x & E1 & _ & ->)]].
    - apply (H _ _ _ I p E1).
    - destruct (H _ _ _ I p E1) as (I1 & L1 & _).
      destruct (K x k E2 _ _ _ I1 Logic.I E3) as (I2 & L2 & Q2). split; auto. split; auto.
      eapply st_later_trans; eauto.
    - destruct (H _ _ _ I p E1) as (I1 & L1 & _). split; auto. split; auto. discriminate.
  Qed.
  Lemma spec_pre {A} (P' P : st -> Prop) (m : M st A) Q :
    (forall s, Inv e s -> P s -> P' s) -> spec P' m Q -> spec P m Q.
  Proof. intros H K s r s' I p. apply K; auto. Qed.
  Lemma spec_post {A} P (m : M st A) (Q' Q : A -> st -> Prop) :
    (forall a s, Inv e s -> Q' a s -> Q a s) -> spec P m Q' -> spec P m Q.
  Proof. intros H K s r s' I p E. destruct (K _ _ _ I p E) as (I' & L & X). split; auto. Qed.
  (** Sequencing that forgets the precondition. *)
  Lemma spec_seq {A B} (m : M st A) (f : A -> M st B) (P : st -> Prop) Q R :
    spec P m Q -> (forall a, spec (Q a) (f a) R) -> spec P (bind m f) R.
  Proof.
    intros H K s r s' I p E. apply bind_inv in E as [(a & s1 & E1 & E2)|(x & E1 & ->)].
    - destruct (H _ _ _ I p E1) as (I1 & L1 & Q1).
      destruct (K a s1 r s' I1 (Q1 _ eq_refl) E2) as (I2 & L2 & Q2).
      split; auto. split; auto. eapply st_later_trans; eauto.
    - destruct (H _ _ _ I p E1) as (I1 & L1 & Q1). split; auto. split; auto. discriminate.
  Qed.
  (** When nothing is to be known about the result. *)
  Definition keeps {A} (m : M st A) : Prop := spec (fun _ => True) m (fun _ _ => True).
  Lemma keeps_spec {A} (m : M st A) P : keeps m -> spec P m (fun _ _ => True).
  Proof. intros H s r s' I _. apply H; auto. Qed.
  Lemma spec_keeps {A} (m : M st A) Q : spec (fun _ => True) m Q -> keeps m.
  Proof. intros H s r s' I p E. destruct (H _ _ _ I p E) as (A1 & A2 & _). auto. Qed.
  Lemma keeps_bind {A B} (m : M st A) (f : A -> M st B) :
    keeps m -> (forall a, keeps (f a)) -> keeps (bind m f).
  Proof. intros H K. eapply spec_seq; [exact H|]. intros a. apply keeps_spec, K. Qed.
  Lemma keeps_catch {A} (m : M st A) h : keeps m -> (forall x k, h x = Some k -> keeps k) ->
    keeps (catch m h).
  Proof. intros H K. apply spec_catch'; auto. Qed.
  Lemma spec_frame {A} P (m : M st A) Q R : Stable R -> spec P m Q ->
    spec (fun s => P s /\ R s) m (fun a s => Q a s /\ R s).
  Proof.
    intros St H s r s' I [p q] E. destruct (H _ _ _ I p E) as (I' & L & X). split; auto. split; auto.
    intros a Ea. split; auto. eapply St; eauto.
  Qed.
  Lemma spec_pure {A} (phi : Prop) (P : st -> Prop) (m : M st A) Q :
    (forall s, Inv e s -> P s -> phi) -> (phi -> spec P m Q) -> spec P m Q.
  Proof. intros H K s r s' I p E. apply (K (H s I p) _ _ _ I p E). Qed.
  Lemma spec_quiet {A} (m : M st A) P : quietm m -> spec P m (fun _ _ => True).
  Proof.
    intros H s r s' I p E. pose proof (H _ _ _ E) as K. split; [eapply quiet_inv; eauto|].
    split; auto. apply quiet_later; auto.
  Qed.
  Lemma spec_reader {A} (m : M st A) (P : st -> Prop) (Q : A -> st -> Prop) : reader m ->
    (forall s a, Inv e s -> P s -> m s = (Ok a, s) -> Q a s) -> spec P m Q.
  Proof.
    intros H K s r s' I p E. pose proof (H _ _ _ E). subst s'. split; auto. split; [apply st_later_refl|].
    intros a ->. auto.
  Qed.

  Lemma keeps_quiet {A} (m : M st A) : quietm m -> keeps m.
  Proof. apply spec_quiet. Qed.
  Lemma keeps_reader {A} (m : M st A) : reader m -> keeps m.
  Proof. intros H. apply keeps_quiet, reader_quiet, H. Qed.

  (** Assertions that stay true. *)
  Definition sees (l : nat) (g : grant) (s : st) : Prop :=
    exists g', hp s l = Some (OGrant g') /\ grant_later now g g'.
  Definition has (l i : nat) (t : token) (s : st) : Prop :=
    exists g' t', hp s l = Some (OGrant g') /\ nth_error (g_tokens g') i = Some t' /\ token_later t t'.
  Definition final (l : nat) (s : st) : Prop :=
    exists g, hp s l = Some (OGrant g) /\ (authz_scope e g <> [] -> g_scope g = authz_scope e g).

  Lemma st_pure phi : Stable (fun _ => phi).
  Proof. intros s s' _ H; exact H. Qed.
  Lemma st_and (P Q : st -> Prop) : Stable P -> Stable Q -> Stable (fun s => P s /\ Q s).
  Proof. intros H K s s' L [p q]. split; [eapply H|eapply K]; eauto. Qed.
  Lemma st_all {B} (P : B -> st -> Prop) : (forall b, Stable (P b)) -> Stable (fun s => forall b, P b s).
  Proof. intros H s s' L p b. eapply H; eauto. Qed.
  Lemma st_ex {B} (P : B -> st -> Prop) : (forall b, Stable (P b)) -> Stable (fun s => exists b, P b s).
  Proof. intros H s s' L [b p]. exists b. eapply H; eauto. Qed.
  Lemma st_imp (phi : Prop) (P : st -> Prop) : Stable P -> Stable (fun s => phi -> P s).
  Proof. intros H s s' L p x. eapply H; eauto. Qed.
  Lemma st_owns l u c g : Stable (fun s => owns e s l u c g).
  Proof. intros s s' L. eapply owns_later; eauto. Qed.
  Lemma st_sees l g : Stable (sees l g).
  Proof.
    intros s s' L (g' & H & K). destruct (st_later_grant _ _ _ _ _ L H) as (g2 & H2 & K2).
    exists g2. split; auto. eapply grant_later_trans; eauto.
  Qed.
  Lemma st_has l i t : Stable (has l i t).
  Proof.
    intros s s' L (g' & t' & H & N & K). destruct (st_later_grant _ _ _ _ _ L H) as (g2 & H2 & K2).
    assert (tokens_later (g_tokens g') (g_tokens g2)) as T by apply K2.
    destruct (T _ _ N) as (t2 & N2 & L2).
    exists g2, t2. split; auto. split; auto. eapply token_later_trans; eauto.
  Qed.
  Lemma st_final l : Stable (final l).
  Proof.
    intros s s' L (g & H & K). destruct (st_later_grant _ _ _ _ _ L H) as (g2 & H2 & K2).
    exists g2. split; auto. assert (authz_scope e g2 = authz_scope e g) as A.
    { unfold authz_scope. destruct K2 as (_ & -> & _). reflexivity. }
    rewrite A. intros N. rewrite <- (K N). destruct K2 as (_ & _ & _ & _ & _ & _ & _ & _ & _ & _ & _ & Sc).
    apply Sc. now rewrite (K N).
  Qed.
  Lemma st_since s0 : Stable (st_later now s0).
  Proof. intros s s' L p. eapply st_later_trans; eauto. Qed.

  Lemma sees_here l g s : hp s l = Some (OGrant g) -> sees l g s.
  Proof. intros H. exists g. split; auto. apply grant_later_refl. Qed.
  Lemma has_here l i g t s : hp s l = Some (OGrant g) -> nth_error (g_tokens g) i = Some t -> has l i t s.
  Proof. intros H N. exists g, t. split; auto. split; auto. apply token_later_refl. Qed.
End Logic.

Ltac stab := repeat first
  [ apply st_pure | apply st_owns | apply st_sees | apply st_has | apply st_final | apply st_since
  | apply st_and | apply st_all; intros | apply st_ex; intros | apply st_imp ].

(** ** Readers, as specifications *)
Lemma grant_at_ok l s g s' : grant_at l s = (Ok g, s') -> s' = s /\ hp s l = Some (OGrant g).
Proof.
  unfold grant_at. intros H. minv1 H. unfold deref in H0.
  destruct (nth_error (s_heap s) l) as [o|] eqn:E; [|discriminate]. injection H0 as <- <-.
  destruct o; try discriminate H. apply ret_ok in H as [<- <-]. auto.
Qed.
Lemma tok_at_ok l i s t s' : tok_at l i s = (Ok t, s') ->
  s' = s /\ exists g, hp s l = Some (OGrant g) /\ nth_error (g_tokens g) i = Some t.
Proof.
  unfold tok_at. intros H. minv1 H. apply grant_at_ok in H0 as [-> Hl].
  destruct (nth_error (g_tokens a) i) eqn:E; [|discriminate H]. apply ret_ok in H as [<- <-].
  split; auto. eauto.
Qed.
Lemma dec_sid_separable e sid p : dec_sid e sid = Ok p -> p <> [] /\ separable p.
Proof.
  unfold dec_sid, decrypt_session_id. destruct (b64d _ sid); [|discriminate].
  destruct (crypt_decrypt _ _ _); [|discriminate]. intros H. apply rbind_ok in H as (l & _ & H).
  destruct (nth_error l 1) as [k|]; [|discriminate]. injection H as <-.
  assert (unpack_session_key k <> []) as N by apply split_ne. split; auto.
  apply session_key_roundtrip_iff; auto.
  unfold session_key, unpack_session_key. now rewrite split_join_id.
Qed.
Lemma dec_sid3_ok e sid u c g : dec_sid3 e sid = Ok (u, c, g) -> dec_sid e sid = Ok [u; c; g].
Proof.
  unfold dec_sid3. intros H. apply rbind_ok in H as (p & E & H).
  destruct p as [|a [|b [|d [|? ?]]]]; try discriminate. injection H as -> -> ->. exact E.
Qed.
Lemma dec_sid3_separable e sid u c g : dec_sid3 e sid = Ok (u, c, g) -> separable [u; c; g].
Proof. intros H. apply dec_sid3_ok, dec_sid_separable in H. apply H. Qed.

(** Reading a grant path reads the database at its key. *)
Lemma db_get_3 u c g s l : db_get [u; c; g] s = (Ok l, s) ->
  dget (s_db s) (session_key [u; c; g]) = Some l.
Proof.
  unfold db_get. cbn [eval_path]. unfold bind at 1, lift. intros H.
  rewrite db_lookup_bind in H. destruct (dget (s_db s) u) as [ul|]; [|discriminate H].
  minv1 H. pose proof (reader_deref _ _ _ _ H0). subst s0.
  destruct a; try discriminate H.
  all: minv1 H; pose proof (reader_subordinate _ _ _ _ H1); subst s0;
    destruct (negb (smem c a)); [discriminate H|];
    rewrite db_lookup_bind in H; destruct (dget (s_db s) (session_key [u; c])) as [cl|]; [|discriminate H];
    minv1 H; pose proof (reader_subordinate _ _ _ _ H2); subst s0;
    destruct (negb (smem g a0)); [discriminate H|];
    rewrite db_lookup_bind in H; destruct (dget (s_db s) (session_key [u; c; g])); [|discriminate H];
    apply ret_ok in H as [<- _]; reflexivity.
Qed.

Lemma get_session_info_read e s sid i : Inv e s -> get_session_info e sid s = (Ok i, s) ->
  ss_sid i = sid /\ dec_sid3 e sid = Ok (ss_user i, ss_client i, ss_gid i)
  /\ reads s [ss_user i; ss_client i; ss_gid i] (ss_grant i)
  /\ owns e s (ss_grant i) (ss_user i) (ss_client i) (ss_gid i).
Proof.
  intros I H. unfold get_session_info in H. minv1 H. minv1 H0. subst s0. destruct a as [[u c] g].
  minv1 H. pose proof (reader_db_get _ _ _ _ H0). subst s0. minv1 H. subst i. cbn.
  split; auto. split; auto. split; auto. apply (inv_keys _ _ I); [eapply dec_sid3_separable; eauto|].
  now apply db_get_3.
Qed.
