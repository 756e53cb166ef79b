(** The program logic of histories, with a claim about the lists of claims the
    clients always get. *)
From Verif Require Import M_Base M_Types M_Codec M_Grant M_Env M_Session M_Claims M_Handler
  M_Authz M_TokenEP M_PKCE M_AuthzEP M_Info M_Logout M_History S_Codec S_Grant S_Store S_History
  L_Base L_Codec L_Monad L_Grant L_Claims L_Store L_Hist1 L_Hist2 L_Hist3 L_Hist4 L_Hist5 L_Hist6 L_Hist8 L_Pass.

Section Logic.
  Variables (e : env) (now : Z) (A : dict (dict (list string)) -> Prop).

  Definition spec2 {T} (P : st -> Prop) (m : M st T) (Q : T -> st -> Prop) : Prop :=
    forall s r s', Inv e s -> A (s_always s) -> P s -> m s = (r, s') ->
      Inv e s' /\ A (s_always s') /\ st_later now s s' /\ (forall a, r = Ok a -> Q a s').
  (** The part that is about the lists. *)
  Definition holdsA {T} (P : st -> Prop) (m : M st T) : Prop :=
    forall s r s', Inv e s -> A (s_always s) -> P s -> m s = (r, s') -> A (s_always s').

  Lemma spec2_of {T} P (m : M st T) (Q : T -> st -> Prop) : spec e now P m Q -> holdsA P m -> spec2 P m Q.
  Proof.
    intros H K s r s0 I a p E. destruct (H _ _ _ I p E) as (I0 & L & q). split; [exact I0|]. split; [exact (K _ _ _ I a p E)|]. split; [exact L|exact q].
  Qed.
  Lemma spec2_holds {T} P (m : M st T) (Q : T -> st -> Prop) : spec2 P m Q -> holdsA P m.
  Proof. intros H s r s' I a p E. destruct (H _ _ _ I a p E) as (_ & X & _). exact X. Qed.
  Lemma holds_reader {T} P (m : M st T) : reader m -> holdsA P m.
  Proof. intros R s r s' _ a _ E. apply R in E. now subst. Qed.

  Lemma spec2_ret {T} (a : T) (P : st -> Prop) (Q : T -> st -> Prop) :
    (forall s, P s -> Q a s) -> spec2 P (ret a) Q.
  Proof. intros H. apply spec2_of; [now apply spec_ret|apply holds_reader, reader_ret]. Qed.
  Lemma spec2_raise {T} x P (Q : T -> st -> Prop) : spec2 P (raise x) Q.
  Proof. apply spec2_of; [apply spec_raise|apply holds_reader, reader_raise]. Qed.
  Lemma spec2_lift {T} (x : res T) (P : st -> Prop) (Q : T -> st -> Prop) :
    (forall s a, P s -> x = Ok a -> Q a s) -> spec2 P (lift x) Q.
  Proof. intros H. apply spec2_of; [now apply spec_lift|apply holds_reader, reader_lift]. Qed.
  Lemma spec2_bind {T B} (m : M st T) (f : T -> M st B) P Q R : Stable now P ->
    spec2 P m Q -> (forall a, spec2 (fun s => P s /\ Q a s) (f a) R) -> spec2 P (bind m f) R.
  Proof.
    intros St H K s r s' I v p E. apply bind_inv in E as [(a & s1 & E1 & E2)|(x & E1 & ->)].
    - destruct (H _ _ _ I v p E1) as (I1 & V1 & L1 & Q1).
      destruct (K a s1 r s' I1 V1 (conj (St _ _ L1 p) (Q1 _ eq_refl)) E2) as (I2 & V2 & L2 & Q2).
      split; auto. split; auto. split; auto. eapply st_later_trans; eauto.
    - destruct (H _ _ _ I v p E1) as (I1 & V1 & L1 & Q1). split; auto. split; auto. split; auto. discriminate.
  Qed.
  Lemma spec2_rbind {T B} (m : M st T) (f : T -> M st B) (P : st -> Prop) (Q : T -> st -> Prop) R :
    reader m -> (forall s a, Inv e s -> P s -> m s = (Ok a, s) -> Q a s) ->
    (forall a, spec2 (fun s => P s /\ Q a s) (f a) R) -> spec2 P (bind m f) R.
  Proof.
    intros Rm H K s r s' I v p E. apply bind_inv in E as [(a & s1 & E1 & E2)|(x & E1 & ->)].
    - pose proof (Rm _ _ _ E1). subst s1.
      destruct (K a s r s' I v (conj p (H _ _ I p E1)) E2) as (I2 & V2 & L2 & Q2). auto.
    - apply Rm in E1. subst. split; auto. split; auto. split; [apply st_later_refl|]. discriminate.
  Qed.
  Lemma spec2_catch' {T} (m : M st T) h P (Q : T -> st -> Prop) : spec2 P m Q ->
    (forall x k, h x = Some k -> spec2 (fun _ => True) k Q) -> spec2 P (catch m h) Q.
  Proof.
    intros H K s r s' I v p E.
    apply catch_inv in E as [(a & E1 & ->)|[(x & s1 & k & E1 & E2 & E3)|(x & E1 & _ & ->)]].
    - apply (H _ _ _ I v p E1).
    - destruct (H _ _ _ I v p E1) as (I1 & V1 & L1 & _).
      destruct (K x k E2 _ _ _ I1 V1 Logic.I E3) as (I2 & V2 & L2 & Q2). split; auto. split; auto. split; auto.
      eapply st_later_trans; eauto.
    - destruct (H _ _ _ I v p E1) as (I1 & V1 & L1 & _). split; auto. split; auto. split; auto. discriminate.
  Qed.
  Lemma spec2_pre {T} (P' P : st -> Prop) (m : M st T) Q :
    (forall s, Inv e s -> P s -> P' s) -> spec2 P' m Q -> spec2 P m Q.
  Proof. intros H K s r s' I v p. apply K; auto. Qed.
  Lemma spec2_post {T} P (m : M st T) (Q' Q : T -> st -> Prop) :
    (forall a s, Inv e s -> Q' a s -> Q a s) -> spec2 P m Q' -> spec2 P m Q.
  Proof. intros H K s r s' I v p E. destruct (K _ _ _ I v p E) as (I' & V' & L & X). split; auto. Qed.
  Lemma spec2_seq {T B} (m : M st T) (f : T -> M st B) (P : st -> Prop) Q R :
    spec2 P m Q -> (forall a, spec2 (Q a) (f a) R) -> spec2 P (bind m f) R.
  Proof.
    intros H K s r s' I v p E. apply bind_inv in E as [(a & s1 & E1 & E2)|(x & E1 & ->)].
    - destruct (H _ _ _ I v p E1) as (I1 & V1 & L1 & Q1).
      destruct (K a s1 r s' I1 V1 (Q1 _ eq_refl) E2) as (I2 & V2 & L2 & Q2).
      split; auto. split; auto. split; auto. eapply st_later_trans; eauto.
    - destruct (H _ _ _ I v p E1) as (I1 & V1 & L1 & Q1). split; auto. split; auto. split; auto. discriminate.
  Qed.
  Lemma spec2_pure {T} (phi : Prop) (P : st -> Prop) (m : M st T) Q :
    (forall s, Inv e s -> P s -> phi) -> (phi -> spec2 P m Q) -> spec2 P m Q.
  Proof. intros H K s r s' I v p E. apply (K (H s I p) _ _ _ I v p E). Qed.
  Lemma spec2_frame {T} P (m : M st T) Q R : Stable now R -> spec2 P m Q ->
    spec2 (fun s => P s /\ R s) m (fun a s => Q a s /\ R s).
  Proof.
    intros St H s r s' I v [p q] E. destruct (H _ _ _ I v p E) as (I' & V' & L & X). split; auto. split; auto. split; auto.
    intros a Ea. split; auto. eapply St; eauto.
  Qed.
  Lemma spec2_and {T} (P : st -> Prop) (m : M st T) (Q R : T -> st -> Prop) :
    spec2 P m Q -> spec2 P m R -> spec2 P m (fun a s => Q a s /\ R a s).
  Proof.
    intros H K s r s' I v p E. destruct (H _ _ _ I v p E) as (A1 & A2 & A3 & A4). destruct (K _ _ _ I v p E) as (_ & _ & _ & A5).
    split; auto.
  Qed.
  Lemma spec2_with {T} (P : st -> Prop) (m : M st T) (Q R : T -> st -> Prop) :
    spec2 P m Q -> spec e now P m R -> spec2 P m (fun a s => Q a s /\ R a s).
  Proof.
    intros H K s r s' I v p E. destruct (H _ _ _ I v p E) as (A1 & A2 & A3 & A4). destruct (K _ _ _ I p E) as (_ & _ & A5).
    split; auto.
  Qed.
  Lemma spec2_keep {T} (P : st -> Prop) (K : st -> Prop) (m : M st T) (Q : T -> st -> Prop) :
    Stable now K -> (forall s, P s -> K s) -> spec2 P m Q -> spec2 P m (fun a s => Q a s /\ K s).
  Proof.
    intros St PK H s r s' I v p E. destruct (H _ _ _ I v p E) as (A1 & A2 & A3 & A4). split; auto. split; auto. split; auto.
    intros a X. split; auto. eapply St; eauto.
  Qed.
  Lemma spec2_ex {T X} (P : X -> st -> Prop) (m : M st T) Q :
    (forall x, spec2 (P x) m Q) -> spec2 (fun s => exists x, P x s) m Q.
  Proof. intros H s r s' I v (x & p) E. eapply H; eauto. Qed.

  (** ** What the lists are left at *)
  Hypothesis HA : forall cid p x s r s', paired p x -> client_always cid p x s = (r, s') ->
    A (s_always s) -> A (s_always s').
  Let tt_ (g : grant) : Prop := True.
  Lemma holds_kp {T} P (m : M st T) : kp A tt_ tt_ any m -> holdsA P m.
  Proof.
    intros K s r s' _ a _ E. destruct (K s r s') as ((X & _) & _); auto; [|exact Logic.I].
    split; auto. intros; exact Logic.I.
  Qed.
  Lemma holds_kpq {T} l (P : st -> Prop) (m : M st T) :
    (forall s, P s -> exists g, hp s l = Some (OGrant g)) -> kp A tt_ tt_ (isq tt_ l) m -> holdsA P m.
  Proof.
    intros F K s r s' _ a p E. destruct (F _ p) as (g & H). destruct (K s r s') as ((X & _) & _); auto.
    - split; auto. intros; exact Logic.I.
    - exists g. split; [exact H|exact Logic.I].
  Qed.
  Let fr (g g' : grant) : framed g g' -> tt_ g -> tt_ g' := fun _ _ => Logic.I.
  Lemma ad : forall g tc b sc t, tt_ g -> tt_ g -> minted_from e now g tc b sc t -> t_exp t = 0%Z ->
    (b = None -> tc <> REFRESH) -> let g' := g_add_token (set_life now (lifetime g tc b) t) g in tt_ g' /\ tt_ g'.
  Proof. intros. split; exact Logic.I. Qed.

  Lemma holds_mint_value l (P : st -> Prop) sid tc b sc ty : (forall s, P s -> exists g, hp s l = Some (OGrant g)) ->
    holdsA P (mint_value e now l sid tc (Some b) sc ty).
  Proof. intros F. apply (holds_kpq l); auto. apply kp_mint_value; auto; intros; split; exact Logic.I. Qed.
  Lemma holds_rotated l (P : st -> Prop) sid old sc : (forall s, P s -> exists g, hp s l = Some (OGrant g)) ->
    holdsA P (mint_rotated e now l sid old sc).
  Proof. intros F. apply (holds_kpq l); auto. apply kp_rotated; auto; intros; split; exact Logic.I. Qed.
  Lemma holds_az_value l (P : st -> Prop) sid tc sc ia : (forall s, P s -> exists g, hp s l = Some (OGrant g)) ->
    tc <> REFRESH -> paired tc (ia_as_if ia) -> holdsA P (az_value e now l sid tc sc ia).
  Proof. intros F N Pa. apply (holds_kpq l); auto. apply kp_az_value; auto; intros; split; exact Logic.I. Qed.
  Lemma holds_create P ar u acr x : holdsA P (ep_create_session e now ar u acr x).
  Proof. apply holds_kp. apply kp_create_session; auto. intros; exact Logic.I. Qed.
  Lemma holds_setup P ar ru acr x ans : holdsA P (setup_auth e now ar ru acr x ans).
  Proof. apply holds_kp. apply kp_setup; auto. intros; exact Logic.I. Qed.
  Lemma holds_by_token P v : holdsA P (get_session_info_by_token e now v).
  Proof. apply holds_kp. apply kp_by_token, mono_any. Qed.
  Lemma holds_db_set P p l : holdsA P (db_set p l).
  Proof. apply holds_kp. apply kp_db_set; auto. Qed.
  Lemma holds_upd_tok P l i f : holdsA P (upd_tok l i f).
  Proof. intros s r s' _ a _ E. unfold upd_tok, upd_obj in E. injection E as _ <-. exact a. Qed.
  Lemma holds_upd_obj P l f : holdsA P (upd_obj l f).
  Proof. intros s r s' _ a _ E. unfold upd_obj in E. injection E as _ <-. exact a. Qed.
  Lemma holds_authz u ar sid (P : st -> Prop) : (forall s, P s -> ready e now u ar sid s) -> holdsA P (authz e now sid ar).
  Proof.
    intros F s r s' I a p E. destruct (authz_effect e now u ar sid s r s' I (F _ p) E)
      as (l0 & g0 & g0' & _ & _ & _ & _ & _ & _ & _ & _ & [(X & _)|R] & _); [now rewrite X|].
    destruct R as (_ & _ & _ & l & gid & g1 & s1 & s2 & c & E1 & E2 & _ & _ & _ & _ & _ & Ec & _). rewrite E2.
    rewrite <- E1 in a.
    destruct (kp_all_claims e A tt_ tt_ HA any sid (authz_scope e g0) (mono_any tt_) s1 c s2) as ((X & _) & _); [|exact Logic.I|exact Ec|exact X].
    split; auto. intros; exact Logic.I.
  Qed.
End Logic.
