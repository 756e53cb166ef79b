(** Threads, part 2: a program logic for threads. What a thread relies on
    between two of its actions has to be stable under whatever the other threads
    and calls do. *)
From Verif Require Import M_Base M_Types M_Codec M_Grant M_Env M_Session M_Claims M_Handler
  M_Authz M_TokenEP M_PKCE M_AuthzEP M_Info M_Logout M_History M_Threads
  S_Codec S_Grant S_Store S_History
  L_Base L_Codec L_Monad L_Grant L_Claims L_Store L_Hist1 L_Hist2 L_Hist3 L_Hist4 L_Hist5 L_Hist6 L_Hist7
  L_Hist8 L_Hist9 L_Threads1.

(** Stable at any time. *)
Definition astable (P : st -> Prop) : Prop := forall now, Stable now P.

Lemma as_pure phi : astable (fun _ => phi).
Proof. intros now. apply st_pure. Qed.
Lemma as_and P Q : astable P -> astable Q -> astable (fun s => P s /\ Q s).
Proof. intros H K now. apply st_and; auto. Qed.
Lemma as_all {B} (P : B -> st -> Prop) : (forall b, astable (P b)) -> astable (fun s => forall b, P b s).
Proof. intros H now. apply st_all. intros b. apply H. Qed.
Lemma as_ex {B} (P : B -> st -> Prop) : (forall b, astable (P b)) -> astable (fun s => exists b, P b s).
Proof. intros H now. apply st_ex. intros b. apply H. Qed.
Lemma as_imp (phi : Prop) P : astable P -> astable (fun s => phi -> P s).
Proof. intros H now. apply st_imp. apply H. Qed.
Lemma as_owns e l u c g : astable (fun s => owns e s l u c g).
Proof. intros now. apply st_owns. Qed.
Lemma as_has l i t : astable (has l i t).
Proof. intros now. apply st_has. Qed.
Lemma as_within e l sc : astable (within e l sc).
Proof. intros now. apply st_within. Qed.
Lemma as_fits e sid l : astable (fits e sid l).
Proof. intros now. apply st_fits. Qed.
Lemma as_born l p tc v : astable (born l p tc v).
Proof. intros now. apply st_born. Qed.
Lemma as_pending e q : astable (pending e q).
Proof. intros now. apply st_pending. Qed.

(** The grant at [l], as it was read earlier. *)
Definition saw (l : nat) (g : grant) (s : st) : Prop :=
  exists g', hp s l = Some (OGrant g') /\ g_areq g' = g_areq g /\ tokens_later (g_tokens g) (g_tokens g').
Lemma as_saw l g : astable (saw l g).
Proof.
  intros now s s' L (g' & H & A & T). destruct (st_later_grant _ _ _ _ _ L H) as (g2 & H2 & K2).
  exists g2. split; auto. split; [destruct K2 as (_ & K & _); congruence|].
  eapply tokens_later_trans; [exact T|apply K2].
Qed.
Lemma saw_here l g s : hp s l = Some (OGrant g) -> saw l g s.
Proof. intros H. exists g. split; auto. split; auto. apply tokens_later_refl. Qed.

(** The token [v] of class [tc] was made from the token [t0] at [(l, i)], which
    was active then. *)
Definition kid (l i : nat) (t0 : token) (tc v : string) (s : st) : Prop :=
  born l (t_value t0) tc v s
  /\ exists now b, token_later t0 b /\ has l i b s /\ tok_active now b = true.
Lemma as_kid l i t0 tc v : astable (kid l i t0 tc v).
Proof.
  apply as_and; [apply as_born|]. apply as_ex; intros now. apply as_ex; intros b.
  apply as_and; [apply as_pure|]. apply as_and; [apply as_has|apply as_pure].
Qed.
Lemma child_kid e now l i t0 tc sc v s : child e now l i t0 tc sc v s -> kid l i t0 tc v s.
Proof.
  intros C. split; [eapply child_born; eauto|].
  destruct C as (b & u & Lb & Hb & _ & (j & g & t1 & _ & _ & _ & _ & _ & (_ & _ & _ & _ & B & _))).
  exists now, b. split; auto. split; auto. apply (B b eq_refl).
Qed.

Ltac astab := repeat first
  [ apply as_pure | apply as_owns | apply as_has | apply as_within | apply as_fits | apply as_born
  | apply as_saw | apply as_kid | apply as_pending | assumption
  | apply as_and | apply as_all; intros | apply as_ex; intros | apply as_imp ].

Section Specs.
  Variables (e : env) (W : laws e).
  Lemma cand P (Q R : Prop) : (P -> Q /\ R) -> (P -> Q) /\ (P -> R).
  Proof. tauto. Qed.

  (** Minting as an action. *)
  Lemma mint_act_spec now l sid pos t0 tc scope ttype (P : st -> Prop) :
    (t_class t0 = CODE \/ t_class t0 = REFRESH) -> tc <> CODE ->
    (forall s, P s -> has l pos t0 s /\ fits e sid l s
       /\ (forall sc, scope = Some sc -> tc <> IDTOKEN -> within e l sc s)) ->
    spec e now P (mint_act e l sid pos tc scope ttype now)
      (fun p s => kid l pos t0 tc (t_value (fst p)) s).
  Proof.
    intros C N H. unfold mint_act.
    eapply spec_rbind with (Q := fun b s => token_later t0 b /\ has l pos b s); [apply reader_tok_at| |].
    { intros s b _ Ps E. eapply has_tok_at; eauto. apply H. exact Ps. }
    intros b. eapply spec_pure; [intros s _ (_ & X & _); exact X|]. intros Lb.
    eapply spec_seq; [eapply spec_pre; [|apply (mint_child e now W l sid pos t0 b tc scope ttype Lb C N)]|].
    - intros s _ (Ps & _ & Hb). destruct (H s Ps) as (_ & F & S1). auto.
    - intros t. apply spec_ret. intros s K. cbn. eapply child_kid; eauto.
  Qed.
  Lemma rotate_act_spec now l sid pos t0 scope (P : st -> Prop) :
    (t_class t0 = CODE \/ t_class t0 = REFRESH) ->
    (forall s, P s -> has l pos t0 s /\ fits e sid l s /\ within e l scope s) ->
    spec e now P (rotate_act e l sid pos scope now)
      (fun t s => kid l pos t0 REFRESH (t_value t) s).
  Proof.
    intros C H. unfold rotate_act.
    eapply spec_rbind with (Q := fun b s => token_later t0 b /\ has l pos b s); [apply reader_tok_at| |].
    { intros s b _ Ps E. eapply has_tok_at; eauto. apply H. exact Ps. }
    intros b. eapply spec_pure; [intros s _ (_ & X & _); exact X|]. intros Lb.
    eapply spec_post; [|eapply spec_pre; [|apply (rotate_child e now W l sid pos t0 b scope Lb C)]].
    - intros t s _ K. exact (child_kid _ _ _ _ _ _ _ _ _ K).
    - intros s _ (Ps & _ & Hb). destruct (H s Ps) as (_ & F & S1). auto.
  Qed.
  Lemma catch_spec {A} now (m : M st A) h (P : st -> Prop) (Q : A -> st -> Prop) :
    spec e now P m Q -> (forall x k, h x = Some k -> k = ret None) ->
    spec e now P (catch (a <- m ;; ret (Some a)) h) (fun o s => forall a, o = Some a -> Q a s).
  Proof.
    intros H K. apply spec_catch'.
    - eapply spec_seq; [exact H|]. intros a. apply spec_ret. intros s C a' X. injection X as <-. exact C.
    - intros x k X. rewrite (K _ _ X). apply spec_ret. discriminate.
  Qed.
  Lemma minting_spec {A} now (m : M st A) (P : st -> Prop) (Q : A -> st -> Prop) :
    spec e now P m Q -> spec e now P (except_minting m) (fun o s => forall a, o = Some a -> Q a s).
  Proof. intros H. apply catch_spec; auto. intros x k X. destruct x; try discriminate X. congruence. Qed.
  Lemma jwe_spec {A} now (m : M st A) (P : st -> Prop) (Q : A -> st -> Prop) :
    spec e now P m Q -> spec e now P (except_jwe m) (fun o s => forall a, o = Some a -> Q a s).
  Proof. intros H. apply catch_spec; auto. intros x k X. destruct x; try discriminate X; congruence. Qed.
End Specs.

(** ** Changes of the configuration *)

Lemma inv_under e c s : Inv e s -> Inv (under e c) s.
Proof. intros []. constructor; auto. intros l g H. destruct (inv_grants l g H). constructor; auto. Qed.
Lemma inv_back e c s : Inv (under e c) s -> Inv e s.
Proof. intros []. constructor; auto. intros l g H. destruct (inv_grants l g H). constructor; auto. Qed.
Lemma laws_under e c : laws e -> laws (under e c).
Proof. intros []. constructor; auto. Qed.
Lemma spec_under {A} e c now (P : st -> Prop) (m : M st A) R : spec (under e c) now P m R -> spec e now P m R.
Proof.
  intros H s r s' I p E. destruct (H s r s' (inv_under e c s I) p E) as (I' & L & X).
  split; [exact (inv_back e c s' I')|]. split; auto.
Qed.
Lemma spec_to {A} e c now (P : st -> Prop) (m : M st A) R : spec e now P m R -> spec (under e c) now P m R.
Proof.
  intros H s r s' I p E. destruct (H s r s' (inv_back e c s I) p E) as (I' & L & X).
  split; [exact (inv_under e c s' I')|]. split; auto.
Qed.

Section Logic.
  Variables (e : env) (Conf : env -> Prop).

  (** The thread keeps the invariant with every action, from a state in which
      [P] holds, whatever the others do between its actions and however the
      configuration changes (within [Conf]); when it ends with [a], [Q a] holds. *)
  Fixpoint safe {A} (p : prog A) (P : st -> Prop) (Q : A -> st -> Prop) : Prop :=
    match p with
    | Done r => forall a s, r = Ok a -> Inv e s -> P s -> Q a s
    | Act m k => forall c now s r s', Conf c -> Inv e s -> P s -> m (under e c) now s = (r, s') ->
        Inv e s' /\ st_later now s s' /\ exists P' : st -> Prop, astable P' /\ P' s' /\ safe (k r) P' Q
    end.

  Lemma safe_pre {A} (p : prog A) (P' P : st -> Prop) Q :
    (forall s, Inv e s -> P s -> P' s) -> safe p P' Q -> safe p P Q.
  Proof. destruct p as [r|B m k]; cbn; intros H K; eauto. Qed.
  Lemma safe_post {A} (p : prog A) : forall (P : st -> Prop) (Q' Q : A -> st -> Prop),
    (forall a s, Inv e s -> Q' a s -> Q a s) -> safe p P Q' -> safe p P Q.
  Proof.
    induction p as [r|B m k IH]; cbn; intros P Q' Q H K; [eauto|].
    intros c now s r s' Kc I p E. destruct (K _ _ _ _ _ Kc I p E) as (I' & L & P' & A1 & A2 & A3).
    split; auto. split; auto. exists P'. split; [exact A1|]. split; [exact A2|]. eapply IH; eauto.
  Qed.
  Lemma safe_pure {A} (phi : Prop) (p : prog A) (P : st -> Prop) Q :
    (forall s, Inv e s -> P s -> phi) -> (phi -> safe p P Q) -> safe p P Q.
  Proof.
    destruct p as [r|B m k]; cbn; intros H K.
    - intros a s Er I p. eapply K; eauto.
    - intros c now s r s' Kc I p E. eapply K; eauto.
  Qed.
  Lemma safe_ex {A B} (p : prog A) (P : B -> st -> Prop) Q :
    (forall b, safe p (P b) Q) -> safe p (fun s => exists b, P b s) Q.
  Proof.
    destruct p as [r|C m k]; cbn; intros H.
    - intros a s Er I (b & p). eapply H; eauto.
    - intros c now s r s' Kc I (b & p) E. eapply H; eauto.
  Qed.
  Lemma safe_ret {A} (a : A) (P : st -> Prop) (Q : A -> st -> Prop) :
    (forall s, Inv e s -> P s -> Q a s) -> safe (pret a) P Q.
  Proof. intros H b s X I p. injection X as <-. auto. Qed.
  Lemma safe_raise {A} x (P : st -> Prop) (Q : A -> st -> Prop) : safe (praise x) P Q.
  Proof. intros b s X. discriminate. Qed.
  Lemma safe_done {A} (r : res A) (P : st -> Prop) (Q : A -> st -> Prop) :
    (forall a s, r = Ok a -> Inv e s -> P s -> Q a s) -> safe (Done r) P Q.
  Proof. intros H. exact H. Qed.
  Lemma safe_seq {A B} (p : prog A) (f : A -> prog B) : forall (P : st -> Prop) (R : A -> st -> Prop) Q,
    safe p P R -> (forall a, safe (f a) (R a) Q) -> safe (pbind p f) P Q.
  Proof.
    induction p as [[a|x]|C m k IH]; cbn; intros P R Q H K.
    - eapply safe_pre; [|apply (K a)]. intros s I p. apply H; auto.
    - discriminate.
    - intros c now s r s' Kc I p E. destruct (H _ _ _ _ _ Kc I p E) as (I' & L & P' & A1 & A2 & A3).
      split; auto. split; auto. exists P'. split; [exact A1|]. split; [exact A2|]. eapply IH; eauto.
  Qed.
  Lemma safe_catch {A} (p : prog A) h : forall (P : st -> Prop) (Q : A -> st -> Prop),
    safe p P Q -> (forall x q, h x = Some q -> safe q (fun _ => True) Q) -> safe (pcatch p h) P Q.
  Proof.
    induction p as [[a|x]|C m k IH]; cbn; intros P Q H K.
    - exact H.
    - destruct (h x) as [q|] eqn:E; [|discriminate]. eapply safe_pre; [|apply (K x q E)]; intros; exact Logic.I.
    - intros c now s r s' Kc I p E. destruct (H _ _ _ _ _ Kc I p E) as (I' & L & P' & A1 & A2 & A3).
      split; auto. split; auto. exists P'. split; [exact A1|]. split; [exact A2|]. eapply IH; eauto.
  Qed.
  Lemma safe_act {A} (m : env -> Z -> M st A) (P : st -> Prop) (R : A -> st -> Prop) :
    (forall a, astable (R a)) -> (forall c now, Conf c -> spec e now P (m (under e c) now) R) -> safe (act m) P R.
  Proof.
    intros St H. cbn. intros c now s r s' Kc I p E. destruct (H _ _ Kc _ _ _ I p E) as (I' & L & X).
    split; auto. split; auto. exists (fun s => forall a, r = Ok a -> R a s). split; [|split; [exact X|]].
    - apply as_all; intros a. apply as_imp, St.
    - intros a s1 Er _ Y. exact (Y a Er).
  Qed.
  (** An action, keeping what was known. *)
  Lemma safe_step {A} (m : env -> Z -> M st A) (P : st -> Prop) (R : A -> st -> Prop) :
    astable P -> (forall a, astable (R a)) -> (forall c now, Conf c -> spec e now P (m (under e c) now) R) ->
    safe (act m) P (fun a s => P s /\ R a s).
  Proof.
    intros SP St H. apply safe_act; [intros a; apply as_and; auto|].
    intros c now Kc s r s' I p E. destruct (H _ _ Kc _ _ _ I p E) as (I' & L & X). split; auto. split; auto.
    intros a Er. split; auto. eapply SP; eauto.
  Qed.
  Lemma safe_bind {A B} (m : env -> Z -> M st A) (f : A -> prog B) (P : st -> Prop) (R : A -> st -> Prop) Q :
    astable P -> (forall a, astable (R a)) -> (forall c now, Conf c -> spec e now P (m (under e c) now) R) ->
    (forall a, safe (f a) (fun s => P s /\ R a s) Q) -> safe (pbind (act m) f) P Q.
  Proof. intros SP St H K. eapply safe_seq; [apply safe_step; eauto|exact K]. Qed.
  (** An action about whose result nothing is to be known. *)
  Lemma safe_skip {A B} (m : env -> Z -> M st A) (f : A -> prog B) (P : st -> Prop) Q :
    astable P -> (forall c now, Conf c -> spec e now P (m (under e c) now) (fun _ _ => True)) ->
    (forall a, safe (f a) P Q) -> safe (pbind (act m) f) P Q.
  Proof.
    intros SP H K. eapply safe_bind with (R := fun _ _ => True); auto; [intros; apply as_pure|].
    intros a. eapply safe_pre; [|apply K]. tauto.
  Qed.
  (** A branch that needs no action. *)
  Lemma safe_need {A B} (o : option A) x (f : A -> prog B) P Q :
    (forall a, o = Some a -> safe (f a) P Q) ->
    safe (pbind (match o with Some a => pret a | None => praise x end) f) P Q.
  Proof. destruct o as [a|]; intros H; [exact (H a eq_refl)|]. apply (safe_raise x). Qed.
  Lemma safe_res {A B} (r : res A) (f : A -> prog B) P Q :
    (forall a, r = Ok a -> safe (f a) P Q) -> safe (pbind (Done r) f) P Q.
  Proof. destruct r as [a|x]; intros H; [exact (H a eq_refl)|]. apply (safe_raise x). Qed.

  Hypothesis W : laws e.

  (** What is known when a thread has answered [q] with [a], from the token [t0]
      at [(l, i)]. *)
  Definition gave (q : treq) (l i : nat) (t0 : token) (a : tresp) (s : st) : Prop :=
    (exists u c gid, owns e s l u c gid /\ tr_client q = Some c)
    /\ (forall v, rs_access a = Some v -> kid l i t0 ACCESS v s)
    /\ (forall v, rs_refresh a = Some v -> kid l i t0 REFRESH v s)
    /\ (forall v, rs_id a = Some v -> kid l i t0 IDTOKEN v s)
    /\ (exists t1, token_later t0 t1 /\ has l i (tok_register t1) s)
    /\ within e l (rs_scope a) s.
  Definition asked (l : nat) (ar : areq) (s : st) : Prop :=
    exists g, hp s l = Some (OGrant g) /\ g_areq g = Some ar.
  Definition gave_code (q : treq) (l : nat) (a : tresp) (s : st) : Prop :=
    (exists ar, asked l ar s /\ (forall uri, ar_redirect_uri ar = Some uri -> tr_redirect q = Some uri))
    /\ (forall v, rs_refresh a = Some v ->
            exists cf c gts, Conf cf /\ tr_client q = Some c /\ grant_types_of (under e cf) c = Ok gts /\ In REFRESH gts).
  Definition gave_refresh (q : treq) (l i : nat) (t0 : token) (a : tresp) (s : st) : Prop :=
    (forall sc, tr_scope q = Some sc -> rs_scope a = sc)
    /\ (forall c, tr_client q = Some c -> (forall cf, Conf cf -> revoke_refresh (under e cf) c = true) ->
          exists t1, token_later t0 t1 /\ has l i t1 s /\ t_revoked t1 = true).
  Lemma as_asked l ar : astable (asked l ar).
  Proof.
    intros now s s' L (g & H & A). destruct (st_later_grant _ _ _ _ _ L H) as (g2 & H2 & K2).
    exists g2. split; auto. destruct K2 as (_ & K & _). congruence.
  Qed.
  Lemma as_gave q l i t0 a : astable (gave q l i t0 a).
  Proof. unfold gave. astab. Qed.
  Lemma as_gave_code q l a : astable (gave_code q l a).
  Proof. 
    unfold gave_code. apply as_and; [|apply as_pure]. apply as_ex; intros ar.
    apply as_and; [apply as_asked|apply as_pure].
  Qed.
  Lemma as_gave_refresh q l i t0 a : astable (gave_refresh q l i t0 a).
  Proof. unfold gave_refresh. astab. Qed.

  (** Reading the grant. *)
  Lemma read_grant_spec now l (P : st -> Prop) : spec e now P (grant_at l) (fun g s => saw l g s
       /\ (g_tokens g <> [] -> within e l (g_scope g) s)
       /\ forall e1 t sc, In t (g_tokens g) -> parent_scope e1 g t = Ok sc -> within e l sc s).
  Proof.
    apply spec_reader; [apply reader_grant_at|]. intros s g I _ H. apply grant_at_ok in H as [_ H].
    split; [now apply saw_here|]. split.
    - intros N. eapply within_scope; eauto. apply incl_refl.
    - intros e1 t sc It Ps.
      eapply within_scope; eauto; [exact (parent_scope_incl (under e e1) s l g t sc (inv_under e e1 s I) H It Ps)|].
      intros Z. rewrite Z in It. destruct It.
  Qed.
  Lemma as_read l g : astable (fun s => saw l g s
       /\ (g_tokens g <> [] -> within e l (g_scope g) s)
       /\ forall e1 t sc, In t (g_tokens g) -> parent_scope e1 g t = Ok sc -> within e l sc s).
  Proof. astab. Qed.

  Lemma safe_read {B} l (f : grant -> prog B) (P : st -> Prop) Q : astable P ->
    (forall g, safe (f g) (fun s => P s /\ saw l g s
       /\ (g_tokens g <> [] -> within e l (g_scope g) s)
       /\ forall e1 t sc, In t (g_tokens g) -> parent_scope e1 g t = Ok sc -> within e l sc s) Q) ->
    safe (pbind (act (fun _ _ => grant_at l)) f) P Q.
  Proof.
    intros St H. eapply safe_bind; [exact St|intros g; apply (as_read l g)|intros c now _; apply read_grant_spec|exact H].
  Qed.

  (** An action that only consults the configuration. *)
  Lemma safe_conf {A B} (h : env -> res A) (f : A -> prog B) (P : st -> Prop) Q : astable P ->
    (forall c a, Conf c -> h (under e c) = Ok a -> safe (f a) P Q) ->
    safe (pbind (act (fun e _ => lift (h e))) f) P Q.
  Proof.
    intros St H. cbn. intros c now s r s' Kc I p E. apply lift_inv in E as [E <-].
    split; auto. split; [apply st_later_refl|]. exists P. split; [exact St|]. split; [exact p|].
    destruct r as [a|x]; [apply (H c a Kc); auto|discriminate].
  Qed.
  Lemma by_token_under v (P : st -> Prop) c now : spec e now P (get_session_info_by_token (under e c) now v)
    (fun i s => dec_sid3 e (ss_sid i) = Ok (ss_user i, ss_client i, ss_gid i)
                /\ owns e s (ss_grant i) (ss_user i) (ss_client i) (ss_gid i)).
  Proof. apply (spec_under e c). exact (by_token_spec (under e c) now v P). Qed.

  (** The position the thread works on is that of the presented token. *)
  Lemma same_place s l g pos tv l0 i0 t0 v : Inv e s -> saw l g s -> nth_error (g_tokens g) pos = Some tv ->
    t_value tv = v -> has l0 i0 t0 s -> t_value t0 = v -> l = l0 /\ pos = i0.
  Proof.
    intros I (g' & Hg & _ & Tl) Np Vp H0 V0. destruct (Tl _ _ Np) as (tv' & Np' & Lt).
    apply (has_place e s l pos l0 i0 tv' t0 I); [eapply has_here; eauto|exact H0|].
    destruct Lt as (_ & Vt & _). congruence.
  Qed.

  Lemma code_prog_safe e1 q issue v l0 i0 t0 :
    tr_code q = Some v -> t_value t0 = v -> t_class t0 = CODE ->
    safe (code_prog e1 q issue) (has l0 i0 t0)
      (fun r s => forall a, r = Good a -> gave q l0 i0 t0 a s /\ gave_code q l0 a s).
  Proof.
    intros Ev Vv Cv. unfold code_prog. rewrite Ev.
    destruct (negb (String.eqb (tr_grant_type q) CODE)); [apply safe_ret; discriminate|].
    eapply safe_pure with (phi := replace_char " " "+" v = v).
    { intros s I H. destruct (has_made _ _ _ _ _ I H) as (n & M). rewrite <- Vv.
      apply replace_char_id. apply (law_text _ W _ _ M). }
    intros Rc. rewrite Rc. cbv zeta.
    eapply safe_bind; [apply as_has| |intros c now _; apply by_token_under|].
    { intros i. astab. }
    intros i. eapply safe_pure; [intros s _ (_ & X & _); exact X|]. intros D.
    apply safe_need. intros rc Eq.
    destruct (negb (String.eqb (ss_client i) rc)) eqn:Ec; [apply safe_ret; discriminate|].
    apply negb_false_iff, seqb_eq in Ec. subst rc.
    set (l := ss_grant i) in *. set (sid := ss_sid i) in *.
    set (P0 := fun s => has l0 i0 t0 s /\ owns e s l (ss_user i) (ss_client i) (ss_gid i)).
    eapply safe_pre with (P' := P0); [intros s _ H; split; apply H|].
    assert (astable P0) as St0 by (unfold P0; astab).
    apply safe_conf; [exact St0|]. intros cf gts Kcf Egt.
    apply safe_read; [exact St0|].
    intros g.
    set (P1 := fun s => P0 s /\ saw l g s /\ (g_tokens g <> [] -> within e l (g_scope g) s)).
    eapply safe_pre with (P' := P1). { intros s _ (H & K1 & K2 & _). split; auto. }
    assert (astable P1) as St1 by (unfold P1; astab).
    set (dp := if e_oidc e1 && e_dpop e1 then _ else _).
    apply safe_skip; [exact St1| |].
    { intros c now _. apply keeps_spec. destruct dp; [apply keeps_set_extra|apply keeps_reader, reader_ret]. }
    intros [].
    apply safe_need. intros pos Fp.
    apply find_pos_ok in Fp as (tv & Np & Vp).
    eapply safe_pure with (phi := l = l0 /\ pos = i0).
    { intros s I ((H0 & _) & Sg & _). eapply same_place; eauto. }
    intros (El & Epos). subst pos. clearbody l. subst l.
    eapply safe_bind with (R := fun b s => has l0 i0 b s); [exact St1|intros b; apply as_has| |].
    { intros c now _. apply spec_reader; [apply reader_tok_at|]. intros s b _ ((H0 & _) & _) H.
      eapply has_tok_at; eauto. }
    intros b.
    set (mints := match r_minting (t_rules b) with Some m => m | None => [] end).
    eapply safe_pre with (P' := P1); [tauto|].
    apply safe_need. intros ar Ear.
    eapply safe_seq with (R := fun same s => P1 s /\ (same = true ->
       forall uri, ar_redirect_uri ar = Some uri -> tr_redirect q = Some uri)).
    { destruct (ar_redirect_uri ar) as [u|]; [|apply safe_ret; intros s _ H; split; [auto|discriminate]].
      destruct (tr_redirect q) as [w|]; [|apply safe_raise]. apply safe_ret. intros s _ H. split; auto.
      intros Es uri Eu. injection Eu as <-. apply seqb_eq in Es. now subst. }
    intros same. eapply safe_pure; [intros s _ (_ & X); exact X|]. intros Esame.
    destruct same; cbn [negb]; [|apply safe_ret; discriminate]. specialize (Esame eq_refl).
    eapply safe_pre with (P' := P1); [tauto|].
    assert (forall s, P1 s -> fits e sid l0 s) as Fs.
    { intros s ((_ & O) & _). eexists _, _, _. eauto. }
    assert (forall s, P1 s -> has l0 i0 t0 s) as Hs by (intros s ((H & _) & _); exact H).
    assert (t_class t0 = CODE \/ t_class t0 = REFRESH) as Cl by auto.
    (* access token *)
    eapply safe_seq with (R := fun o s => P1 s
      /\ forall p : token * option Z, o = Some p -> kid l0 i0 t0 ACCESS (t_value (fst p)) s).
    { destruct (smem ACCESS mints); [|apply safe_ret; intros s _ H; split; [auto|discriminate]].
      apply safe_step; [exact St1|intros; astab|]. intros c now _. apply (spec_under e c).
      apply minting_spec, mint_act_spec; auto using laws_under; [discriminate|].
      intros s H. split; [auto|]. split; [apply (Fs s); auto|discriminate]. }
    intros access.
    set (P2 := fun s => P1 s /\ forall p : token * option Z, access = Some p -> kid l0 i0 t0 ACCESS (t_value (fst p)) s).
    assert (astable P2) as St2 by (unfold P2; astab).
    (* refresh token *)
    eapply safe_seq with (R := fun o s => P2 s
      /\ (forall p : token * option Z, o = Some p -> kid l0 i0 t0 REFRESH (t_value (fst p)) s)
      /\ (o <> None -> In REFRESH gts)).
    { match goal with |- context[if ?c then _ else _] => destruct c eqn:Ei end;
        [|apply safe_ret; intros s _ H; split; [exact H|split; [discriminate|congruence]]].
      apply andb_prop in Ei as [_ Ei]. apply smem_In in Ei.
      eapply safe_post with (Q' := fun o s => P2 s
        /\ forall p : token * option Z, o = Some p -> kid l0 i0 t0 REFRESH (t_value (fst p)) s).
      { intros o s _ (H1 & H2). split; [exact H1|]. split; [exact H2|auto]. }
      apply safe_step; [exact St2|intros; astab|]. intros c now _. apply (spec_under e c).
      apply minting_spec, mint_act_spec; auto using laws_under; [discriminate|].
      intros s (H & _). split; [auto|]. split; [apply (Fs s); auto|discriminate]. }
    intros refresh.
    eapply safe_pure; [intros s _ (_ & _ & X); exact X|]. intros Rg.
    set (P3 := fun s => P2 s /\ forall p : token * option Z, refresh = Some p -> kid l0 i0 t0 REFRESH (t_value (fst p)) s).
    assert (astable P3) as St3 by (unfold P3; astab).
    eapply safe_pre with (P' := P3); [unfold P3; tauto|].
    (* storing *)
    apply safe_skip; [exact St3| |].
    { intros c now _. apply (spec_under e c). unfold mgr_put. eapply spec_rbind with (Q := fun p _ => dec_sid e sid = Ok p); [apply reader_lift| |].
      { intros s p _ _ H. apply lift_ok in H. apply H. }
      intros p. eapply spec_pure; [intros s _ (_ & X); exact X|]. intros Ep.
      pose proof (dec_sid3_ok _ _ _ _ _ D) as Ep'. fold sid in Ep'. rewrite Ep in Ep'. injection Ep' as ->.
      eapply spec_pre; [|apply db_set_spec; [now apply laws_under|eapply dec_sid3_separable; eauto]].
      intros s _ (((((_ & O) & _) & _) & _) & _). split; [|cbn; split; discriminate].
      intros u1 c1 g1 r X. injection X; intros; subst; auto. }
    intros [].
    (* ID token *)
    eapply safe_seq with (R := fun o s => P3 s /\ forall w, o = Good (Some w) -> kid l0 i0 t0 IDTOKEN w s).
    { destruct (e_oidc e1); [|apply safe_ret; intros s _ H; split; [auto|discriminate]].
      apply safe_need. intros sc _.
      destruct (smem "openid" sc && smem IDTOKEN mints); [|apply safe_ret; intros s _ H; split; [auto|discriminate]].
      eapply safe_bind with (R := fun o s => forall p, o = Some p -> kid l0 i0 t0 IDTOKEN (t_value (fst p)) s);
        [exact St3|intros; astab| |].
      { intros c now _. apply (spec_under e c).
        apply jwe_spec, mint_act_spec; auto using laws_under; [discriminate|]. intros s ((H & _) & _).
        split; [auto|]. split; [apply (Fs s); auto|discriminate]. }
      intros [[t x]|]; apply safe_ret; intros s _ (H & K); (split; [exact H|]); [|discriminate].
      intros w X. injection X as <-. apply (K _ eq_refl). }
    intros [x|idv]; [apply safe_ret; discriminate|].
    set (P4 := fun s => P3 s /\ forall w, Good idv = Good (Some w) -> kid l0 i0 t0 IDTOKEN w s).
    assert (astable P4) as St4 by (unfold P4; astab).
    eapply safe_bind with (R := fun _ s => exists t1, token_later t0 t1 /\ has l0 i0 (tok_register t1) s);
      [exact St4|intros; astab| |].
    { intros c now _. eapply spec_pre; [|apply upd_tok_at; apply token_later_register].
      intros s _ (((H & _) & _) & _). auto. }
    intros []. apply safe_ret. intros s _ ((((H1 & Ha) & Hr) & Hi) & Hu) a X. injection X as <-.
    destruct H1 as ((Hh & O) & Sg & Wi). split.
    - split; [exists (ss_user i), (ss_client i), (ss_gid i); auto|]. cbn.
      split. { intros w X. destruct access as [t|]; [|discriminate]. cbn in X. injection X as <-. auto. }
      split. { intros w X. destruct refresh as [t|]; [|discriminate]. cbn in X. injection X as <-. auto. }
      split. { intros w X. subst idv. auto. }
      split; auto. apply Wi. intros Z. rewrite Z in Np. now destruct i0.
    - split.
      + exists ar. split; auto. destruct Sg as (g' & Hg & A & _). exists g'. split; auto. congruence.
      + cbn. intros w X. destruct refresh as [t|]; [|discriminate]. exists cf, (ss_client i), gts. split; [exact Kcf|]. split; auto. split; auto.
        apply Rg. discriminate.
  Qed.

  Lemma refresh_prog_safe e1 q issue v l0 i0 t0 :
    tr_refresh q = Some v -> t_value t0 = v -> t_class t0 = REFRESH ->
    safe (refresh_prog e1 q issue) (fun s => has l0 i0 t0 s /\ forall sc, tr_scope q = Some sc -> within e l0 sc s)
      (fun r s => forall a, r = Good a -> rs_access a <> None /\ gave q l0 i0 t0 a s /\ gave_refresh q l0 i0 t0 a s).
  Proof.
    intros Ev Vv Cv. unfold refresh_prog.
    destruct (negb (String.eqb (tr_grant_type q) REFRESH)); [apply safe_ret; discriminate|].
    set (P := fun s => has l0 i0 t0 s /\ forall sc, tr_scope q = Some sc -> within e l0 sc s).
    assert (astable P) as StP by (unfold P; astab).
    apply safe_need. intros w Ew. assert (w = v) by congruence. subst w. clear Ew.
    eapply safe_bind; [exact StP| |intros c now _; apply by_token_under|].
    { intros i. astab. }
    intros i. eapply safe_pure; [intros s _ (_ & X & _); exact X|]. intros D.
    apply safe_need. intros rc Eq.
    destruct (negb (String.eqb (ss_client i) rc)) eqn:Ec; [apply safe_ret; discriminate|].
    apply negb_false_iff, seqb_eq in Ec. subst rc. cbv zeta.
    set (l := ss_grant i) in *. set (sid := ss_sid i) in *.
    set (P0 := fun s => P s /\ owns e s l (ss_user i) (ss_client i) (ss_gid i)).
    eapply safe_pre with (P' := P0); [intros s _ H; split; apply H|].
    assert (astable P0) as St0 by (unfold P0; astab).
    apply safe_read; [exact St0|].
    intros g.
    set (P1 := fun s => P0 s /\ saw l g s
        /\ forall e1 t sc, In t (g_tokens g) -> parent_scope e1 g t = Ok sc -> within e l sc s).
    eapply safe_pre with (P' := P1). { intros s _ (H & K1 & _ & K2). split; auto. }
    assert (astable P1) as St1 by (unfold P1; astab).
    set (dp := if e_dpop_info e1 then _ else _).
    apply safe_skip; [exact St1| |].
    { intros c now _. apply keeps_spec. destruct dp; [apply keeps_set_extra|apply keeps_reader, reader_ret]. }
    intros [].
    apply safe_need. intros pos Fp.
    apply find_pos_ok in Fp as (tv & Np & Vp).
    eapply safe_pure with (phi := l = l0 /\ pos = i0).
    { intros s I (((H0 & _) & _) & Sg & _). eapply same_place; eauto. }
    intros (El & Epos). subst pos. clearbody l. subst l.
    eapply safe_bind with (R := fun b s => forall e2 sc, parent_scope e2 g b = Ok sc -> within e l0 sc s);
      [exact St1|intros; astab| |].
    { intros c now _. apply spec_reader; [apply reader_tok_at|]. intros s b I (_ & (g' & Hg & _ & Tl) & Wi) H e2 sc Ps.
      apply tok_at_ok in H as (_ & g2 & Hg2 & Nb). rewrite Hg in Hg2. injection Hg2 as <-.
      destruct (Tl _ _ Np) as (tb & Nb' & Lt). rewrite Nb in Nb'. injection Nb' as <-.
      apply Wi with e2 tv; [eapply nth_error_In; eauto|]. unfold parent_scope in *.
      destruct Lt as (_ & _ & Ba & _). now rewrite Ba in Ps. }
    intros b. apply safe_conf; [astab|]. intros cf psc _ Eps.
    set (scope := match tr_scope q with Some s => s | None => psc end).
    set (P2 := fun s => P1 s /\ within e l0 scope s).
    eapply safe_pre with (P' := P2).
    { intros s _ (H & K). split; auto. unfold scope. destruct (tr_scope q) as [sc|] eqn:Es; [|eapply K; exact Eps].
      destruct H as (((_ & X) & _) & _). auto. }
    assert (astable P2) as St2 by (unfold P2; astab).
    assert (forall s, P2 s -> fits e sid l0 s) as Fs.
    { intros s (((_ & O) & _) & _). eexists _, _, _. eauto. }
    assert (forall s, P2 s -> has l0 i0 t0 s) as Hs by (intros s ((((H & _) & _) & _) & _); exact H).
    assert (forall s, P2 s -> within e l0 scope s) as Ws by (intros s H; apply H).
    assert (t_class t0 = CODE \/ t_class t0 = REFRESH) as Cl by auto.
    eapply safe_bind with (R := fun p s => kid l0 i0 t0 ACCESS (t_value (fst p)) s);
      [exact St2|intros; astab| |].
    { intros c now _. apply (spec_under e c). apply mint_act_spec; auto using laws_under; [discriminate|]. intros s H. split; [auto|]. split; [apply (Fs s); auto|].
      intros sc X _. injection X as <-. apply (Ws s); auto. }
    intros access. apply safe_need. intros mints _.
    set (P3 := fun s => P2 s /\ kid l0 i0 t0 ACCESS (t_value (fst access)) s).
    assert (astable P3) as St3 by (unfold P3; astab).
    eapply safe_seq with (R := fun o s => P3 s /\ forall w, o = Some w -> kid l0 i0 t0 REFRESH w s).
    { match goal with |- context[if ?c then _ else _] => destruct c end;
        [|apply safe_ret; intros s _ H; split; [exact H|discriminate]].
      eapply safe_bind with (R := fun t s => kid l0 i0 t0 REFRESH (t_value t) s);
        [exact St3|intros; astab| |].
      { intros c now _. apply (spec_under e c). apply rotate_act_spec; auto using laws_under.
        intros s (H & _). split; [auto|]. split; [apply (Fs s); auto|apply (Ws s); auto]. }
      intros t. apply safe_ret. intros s _ (H & K). split; [exact H|]. intros w X. injection X as <-. exact K. }
    intros refresh.
    set (P4 := fun s => P3 s /\ forall w, refresh = Some w -> kid l0 i0 t0 REFRESH w s).
    assert (astable P4) as St4 by (unfold P4; astab).
    eapply safe_seq with (R := fun o s => P4 s /\ forall w, o = Good (Some w) -> kid l0 i0 t0 IDTOKEN w s).
    { destruct (e_oidc e1 && smem IDTOKEN mints && smem "openid" scope);
        [|apply safe_ret; intros s _ H; split; [exact H|discriminate]].
      eapply safe_bind with (R := fun o s => forall p, o = Some p -> kid l0 i0 t0 IDTOKEN (t_value (fst p)) s);
        [exact St4|intros; astab| |].
      { intros c now _. apply (spec_under e c).
        apply jwe_spec, mint_act_spec; auto using laws_under; [discriminate|]. intros s ((H & _) & _).
        split; [auto|]. split; [apply (Fs s); auto|congruence]. }
      intros [[t x]|]; apply safe_ret; intros s _ (H & K); (split; [exact H|]); [|discriminate].
      intros w X. injection X as <-. apply (K _ eq_refl). }
    intros [x|idv]; [apply safe_ret; discriminate|].
    set (P5 := fun s => P4 s /\ forall w, Good idv = Good (Some w) -> kid l0 i0 t0 IDTOKEN w s).
    assert (astable P5) as St5 by (unfold P5; astab).
    eapply safe_bind with (R := fun _ s => exists t1, token_later t0 t1 /\ has l0 i0 (tok_register t1) s);
      [exact St5|intros; astab| |].
    { intros c now _. eapply spec_pre; [|apply upd_tok_at; apply token_later_register].
      intros s _ (((H & _) & _) & _). auto. }
    intros [].
    set (P6 := fun s => P5 s /\ exists t1, token_later t0 t1 /\ has l0 i0 (tok_register t1) s).
    assert (astable P6) as St6 by (unfold P6; astab).
    eapply safe_bind with (R := fun _ s => (forall cf, Conf cf -> revoke_refresh (under e cf) (ss_client i) = true) ->
        exists t1, token_later t0 t1 /\ has l0 i0 t1 s /\ t_revoked t1 = true); [exact St6|intros; astab| |].
    { intros c now Kc. destruct (revoke_refresh (under e c) (ss_client i)) eqn:Rv.
      - eapply spec_post; [|eapply spec_pre; [|apply upd_tok_at with (t := t0); apply token_later_revoke]].
        + intros [] s _ (t1 & L1 & H1) _. exists (tok_set_revoked t1). split; [|split; auto].
          eapply token_later_trans; [exact L1|apply token_later_revoke].
        + intros s _ ((((H & _) & _) & _) & _). auto.
      - apply spec_ret. intros s _ R. rewrite (R c Kc) in Rv. discriminate. }
    intros []. apply safe_ret. intros s _ (H6 & Hrev) a X. injection X as <-. cbn [rs_scope].
    destruct H6 as ((((H2 & Ha) & Hr) & Hi) & Hreg). split; [discriminate|]. split.
    - split. { exists (ss_user i), (ss_client i), (ss_gid i). split; auto. apply H2. } cbn.
      split. { intros w X. injection X as <-. auto. }
      split; auto. split. { intros w X. subst idv. auto. }
      split; auto.
    - split. { intros sc X. cbn. unfold scope. now rewrite X. }
      intros c X R. rewrite Eq in X. injection X as <-. auto.
  Qed.

  Lemma safe_end r (Q : tresp -> st -> Prop) : (forall a, astable (Q a)) ->
    safe (match r with
          | Err x => pret (Err x)
          | Good a =>
              v <~ (match rs_access a with Some v => pret v | None => praise KeyError end) ;;
              i <@ (fun e now => get_session_info_by_token e now v) ;;
              g <! grant_at (ss_grant i) ;;
              pret (Good a)
          end) (fun s => forall a, r = Good a -> Q a s)
      (fun r s => forall a, r = Good a -> rs_access a <> None /\ Q a s).
  Proof.
    intros St. destruct r as [x|a]; [apply safe_ret; discriminate|].
    eapply safe_pre with (P' := Q a); [intros s _ H; exact (H a eq_refl)|].
    apply safe_need. intros v Ev.
    apply safe_skip; [apply St|intros c now _; apply spec_quiet, quiet_by_token|]. intros i.
    apply safe_skip; [apply St|intros c now _; apply keeps_spec, keeps_reader, reader_grant_at|]. intros g.
    apply safe_ret. intros s I p a' X. injection X as <-. split; [congruence|exact p].
  Qed.

  Lemma token_prog_code e1 q issue v l i t :
    tr_grant_type q = CODE -> tr_code q = Some v -> t_value t = v -> t_class t = CODE ->
    safe (token_prog e1 q issue) (has l i t)
      (fun r s => forall a, r = Good a -> rs_access a <> None /\ gave q l i t a s /\ gave_code q l a s).
  Proof.
    intros Eg Ev Vv Cv. unfold token_prog.
    eapply safe_seq with (R := fun r s => forall a, r = Good a -> gave q l i t a s /\ gave_code q l a s).
    { destruct (negb _); [apply safe_ret; discriminate|]. apply safe_catch.
      - rewrite Eg, String.eqb_refl. eapply code_prog_safe; eauto.
      - intros x k X. assert (k = pret (Err "invalid_request")) as -> by (destruct x; congruence).
        apply safe_ret. discriminate. }
    intros r. apply (safe_end r (fun a s => gave q l i t a s /\ gave_code q l a s)).
    intros a. apply as_and; [apply as_gave|apply as_gave_code].
  Qed.
  Lemma token_prog_refresh e1 q issue v l i t :
    tr_grant_type q = REFRESH -> tr_refresh q = Some v -> t_value t = v -> t_class t = REFRESH ->
    safe (token_prog e1 q issue) (fun s => has l i t s /\ forall sc, tr_scope q = Some sc -> within e l sc s)
      (fun r s => forall a, r = Good a -> rs_access a <> None /\ gave q l i t a s /\ gave_refresh q l i t a s).
  Proof.
    intros Eg Ev Vv Cv. unfold token_prog.
    eapply safe_seq with (R := fun r s => forall a, r = Good a -> gave q l i t a s /\ gave_refresh q l i t a s).
    { destruct (negb _); [apply safe_ret; discriminate|]. apply safe_catch.
      - rewrite Eg. change (String.eqb REFRESH CODE) with false. rewrite String.eqb_refl.
        eapply safe_post; [|eapply refresh_prog_safe; eauto]. intros r s _ H a X. apply (H a X).
      - intros x k X. assert (k = pret (Err "invalid_request")) as -> by (destruct x; congruence).
        apply safe_ret. discriminate. }
    intros r. apply (safe_end r (fun a s => gave q l i t a s /\ gave_refresh q l i t a s)).
    intros a. apply as_and; [apply as_gave|apply as_gave_refresh].
  Qed.
  (** Any other grant type gives an error. *)
  Lemma token_prog_other e1 q issue P : tr_grant_type q <> CODE -> tr_grant_type q <> REFRESH ->
    safe (token_prog e1 q issue) P (fun r s => forall a, r <> Good a).
  Proof.
    intros N1 N2. apply String.eqb_neq in N1, N2. unfold token_prog. rewrite N1, N2.
    destruct (negb _); cbn; intros a s X; injection X as <-; discriminate.
  Qed.

  (** What a thread with the request [q] gives. *)
  Definition outcome_of (q : treq) (a : tresp) (s : st) : Prop :=
    exists l i t, (rs_access a <> None /\ (0 <= t_used t)%Z) /\ gave q l i t a s
      /\ ((presents q (t_value t) CODE /\ t_class t = CODE /\ gave_code q l a s)
          \/ (presents q (t_value t) REFRESH /\ t_class t = REFRESH /\ gave_refresh q l i t a s)).
  Lemma as_outcome q a : astable (outcome_of q a).
  Proof.
    unfold outcome_of. apply as_ex; intros l. apply as_ex; intros i. apply as_ex; intros t.
    apply as_and; [apply as_pure|]. apply as_and; [apply as_gave|].
    intros now s s' L [(A & B & C)|(A & B & C)]; [left|right]; (split; [auto|split; [auto|]]).
    - eapply as_gave_code; eauto.
    - eapply as_gave_refresh; eauto.
  Qed.
  Lemma token_prog_safe e1 q issue :
    safe (token_prog e1 q issue) (pending e q) (fun r s => forall a, r = Good a -> outcome_of q a s).
  Proof.
    destruct (string_dec (tr_grant_type q) CODE) as [G|G].
    - eapply safe_pre with (P' := fun s => exists v l i t,
        (tr_code q = Some v /\ t_value t = v /\ t_class t = CODE /\ (0 <= t_used t)%Z) /\ has l i t s).
      { intros s Is (P & _). destruct (P G) as (v & l & i & t & Ev & Ht & Vt & Ct).
        destruct (has_now e _ _ _ _ Is Ht) as (t' & Ht' & Lt & U). destruct Lt as (Lc & Lv & _).
        exists v, l, i, t'. split; [|exact Ht']. split; [exact Ev|]. split; [congruence|]. split; [congruence|exact U]. }
      apply safe_ex; intros v. apply safe_ex; intros l. apply safe_ex; intros i. apply safe_ex; intros t.
      eapply safe_pure; [intros s _ (X & _); exact X|]. intros (Ev & Vv & Cv & U).
      eapply safe_post; [|eapply safe_pre; [|apply (token_prog_code e1 q issue v l i t); auto]]; [|tauto].
      intros r s _ H a X. destruct (H a X) as (Na & Ga & Gc). exists l, i, t. split; auto. split; auto.
      left. split; auto. left. subst v. auto.
    - destruct (string_dec (tr_grant_type q) REFRESH) as [G'|G'].
      + eapply safe_pre with (P' := fun s => exists v l i t,
          (tr_refresh q = Some v /\ t_value t = v /\ t_class t = REFRESH /\ (0 <= t_used t)%Z) /\ has l i t s
          /\ forall sc, tr_scope q = Some sc -> within e l sc s).
        { intros s Is (_ & P). destruct (P G') as (v & l & i & t & Ev & Ht & Vt & Ct & Wi).
          destruct (has_now e _ _ _ _ Is Ht) as (t' & Ht' & Lt & U). destruct Lt as (Lc & Lv & _).
          exists v, l, i, t'. split; [|split; [exact Ht'|exact Wi]].
          split; [exact Ev|]. split; [congruence|]. split; [congruence|exact U]. }
        apply safe_ex; intros v. apply safe_ex; intros l. apply safe_ex; intros i. apply safe_ex; intros t.
        eapply safe_pure; [intros s _ (X & _); exact X|]. intros (Ev & Vv & Cv & U).
        eapply safe_post; [|eapply safe_pre; [|apply (token_prog_refresh e1 q issue v l i t); auto]]; [|tauto].
        intros r s _ H a X. destruct (H a X) as (Na & Ga & Gc). exists l, i, t. split; auto. split; auto.
        right. split; auto. right. subst v. auto.
      + eapply safe_post; [|apply token_prog_other; auto]. intros r s _ H a X. now destruct (H a).
  Qed.
End Logic.
