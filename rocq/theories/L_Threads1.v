(** Threads, part 1: a thread that is not interrupted does what the call does. *)
From Verif Require Import M_Base M_Types M_Codec M_Grant M_Env M_Session M_Claims M_Handler
  M_Authz M_TokenEP M_PKCE M_AuthzEP M_Info M_Logout M_History M_Threads
  L_Base L_Monad L_Hist1 L_Hist2.

Lemma run_bind {A B} e now (p : prog A) (f : A -> prog B) s :
  run e now (pbind p f) s = bind (run e now p) (fun a => run e now (f a)) s.
Proof.
  revert s. induction p as [[a|x]|C m k IH]; intros s; cbn; auto.
  unfold bind in *. destruct (m e now s) as [r s']. apply IH.
Qed.
Lemma run_catch {A} e now (p : prog A) h s :
  run e now (pcatch p h) s = catch (run e now p) (fun x => option_map (run e now) (h x)) s.
Proof.
  revert s. induction p as [[a|x]|C m k IH]; intros s; cbn; auto.
  - unfold catch, lift. destruct (h x); auto.
  - unfold catch in *. destruct (m e now s) as [r s']. apply IH.
Qed.
Lemma run_act {A} e now (m : env -> Z -> M st A) s : run e now (act m) s = m e now s.
Proof. cbn. destruct (m e now s). reflexivity. Qed.

(** Two computations that do the same. *)
Lemma bind_ext {A B} (m m' : M st A) (f f' : A -> M st B) s :
  m s = m' s -> (forall a s', m s = (Ok a, s') -> f a s' = f' a s') -> bind m f s = bind m' f' s.
Proof. intros E K. unfold bind. rewrite <- E. destruct (m s) as [[a|x] s'] eqn:Em; auto. Qed.
Lemma catch_ext {A} (m m' : M st A) h h' s :
  m s = m' s -> (forall x, match h x, h' x with
                           | Some k, Some k' => forall s', k s' = k' s'
                           | None, None => True
                           | _, _ => False end) ->
  catch m h s = catch m' h' s.
Proof.
  intros E K. unfold catch. rewrite <- E. destruct (m s) as [[a|x] s']; auto.
  specialize (K x). destruct (h x), (h' x); try tauto; auto.
Qed.
Lemma bind_assoc_st {A B C} (m : M st A) (f : A -> M st B) (k : B -> M st C) s :
  bind (bind m f) k s = bind m (fun a => bind (f a) k) s.
Proof. unfold bind. destruct (m s) as [[a|x] s']; auto. Qed.
Lemma bind_ret_st {A B} (a : A) (f : A -> M st B) s : bind (ret a) f s = f a s.
Proof. reflexivity. Qed.
Lemma bind_map {A A' B} (g : A' -> A) (m : M st A) (m' : M st A') (f : A -> M st B) (f' : A' -> M st B) s :
  m s = bind m' (fun a => ret (g a)) s -> (forall a s', m' s = (Ok a, s') -> f (g a) s' = f' a s') ->
  bind m f s = bind m' f' s.
Proof.
  intros E K. unfold bind in *. rewrite E. destruct (m' s) as [[a|x] s'] eqn:Em; cbn; auto.
Qed.

Lemma tok_at_raise l i s x s' : tok_at l i s = (Raise x, s') ->
  s' = s /\ (x = AttributeError \/ x = Other 0).
Proof.
  intros H. split; [eapply reader_tok_at; eauto|].
  unfold tok_at, grant_at, deref, bind, ret, raise in H.
  destruct (nth_error (s_heap s) l) as [[|g|]|]; try (left; congruence); try (right; congruence).
  destruct (nth_error (g_tokens g) i); left; congruence.
Qed.

Definition with_exp (now : Z) (t : token) : token * option Z := (t, expires_in now t).

(** An action that mints, against the call that was given the token object. *)
Lemma mint_act_run e l sid pos tc scope ttype now s :
  mint_act e l sid pos tc scope ttype now s
  = bind (bind (tok_at l pos) (fun b => mint_value e now l sid tc (Some b) scope ttype))
      (fun t => ret (with_exp now t)) s.
Proof. unfold mint_act. rewrite bind_assoc_st. reflexivity. Qed.
Lemma mint_act_here e l sid pos tc scope ttype now s b : tok_at l pos s = (Ok b, s) ->
  mint_act e l sid pos tc scope ttype now s
  = bind (mint_value e now l sid tc (Some b) scope ttype) (fun t => ret (with_exp now t)) s.
Proof. intros H. unfold mint_act. unfold bind at 1. now rewrite H. Qed.

Definition catches (f : forall A, M st A -> M st (option A)) (h : exn -> bool) : Prop :=
  forall A (m : M st A) s, f A m s = match m s with
                                     | (Ok a, s') => (Ok (Some a), s')
                                     | (Raise x, s') => (if h x then Ok None else Raise x, s')
                                     end.
Lemma catches_minting : catches (@except_minting)
  (fun x => match x with MintingNotAllowedTok => true | _ => false end).
Proof. intros A m s. unfold except_minting, catch, bind, ret. destruct (m s) as [[a|x] s']; auto. destruct x; auto. Qed.
Lemma catches_jwe : catches (@except_jwe)
  (fun x => match x with JWEException | NoSuitableSigningKeys => true | _ => false end).
Proof. intros A m s. unfold except_jwe, catch, bind, ret. destruct (m s) as [[a|x] s']; auto. destruct x; auto. Qed.

Lemma except_here f h e l sid pos tc scope ttype now s b : catches f h -> tok_at l pos s = (Ok b, s) ->
  f _ (mint_act e l sid pos tc scope ttype now) s
  = bind (f _ (mint_value e now l sid tc (Some b) scope ttype))
      (fun o => ret (option_map (with_exp now) o)) s.
Proof.
  intros C H. unfold bind at 1. rewrite !C, (mint_act_here _ _ _ _ _ _ _ _ _ _ H). unfold bind, ret.
  destruct (mint_value _ _ _ _ _ _ _ _ s) as [[t|x] s']; auto. now destruct (h x).
Qed.
Lemma except_read f h e l sid pos tc scope ttype now s : catches f h ->
  h AttributeError = false -> h (Other 0) = false ->
  f _ (mint_act e l sid pos tc scope ttype now) s
  = bind (bind (tok_at l pos) (fun b => f _ (mint_value e now l sid tc (Some b) scope ttype)))
      (fun o => ret (option_map (with_exp now) o)) s.
Proof.
  intros C H1 H2. rewrite bind_assoc_st. unfold bind at 1.
  destruct (tok_at l pos s) as [[b|x] s'] eqn:E.
  - pose proof (reader_tok_at _ _ _ _ _ E). subst s'. now apply except_here with (h := h).
  - apply tok_at_raise in E as E'. destruct E' as [-> E']. rewrite C. unfold mint_act, bind. rewrite E.
    destruct E' as [-> | ->]; [now rewrite H1|now rewrite H2].
Qed.

Ltac seq_step := rewrite run_bind; apply bind_ext; [|intros ? ? ?].

Lemma code_seq e now q issue s : run e now (code_prog e q issue) s = code_process e now q issue s.
Proof.
  unfold code_prog, code_process. destruct (negb _); [reflexivity|].
  destruct (tr_code q) as [raw|]; [|reflexivity]. cbv zeta.
  seq_step; [rewrite run_act; reflexivity|]. rename a into i, s' into s1.
  seq_step; [destruct (tr_client q); reflexivity|]. rename a into rc, s' into s2.
  destruct (negb (String.eqb (ss_client i) rc)); [reflexivity|].
  seq_step; [rewrite run_act; reflexivity|]. rename a into gts, s' into s3.
  seq_step; [rewrite run_act; reflexivity|]. rename a into g, s' into s4.
  seq_step; [rewrite run_act; reflexivity|]. rename s' into s5.
  seq_step; [unfold need; destruct (find_pos _ _ _); reflexivity|]. rename a0 into pos, s' into s6.
  seq_step; [rewrite run_act; reflexivity|]. rename a0 into b, s' into s7.
  rewrite run_act in H5. pose proof (reader_tok_at _ _ _ _ _ H5). subst s7.
  seq_step; [destruct (g_areq g); reflexivity|]. rename a0 into ar, s' into s8.
  assert (s8 = s6) as -> by (destruct (g_areq g); cbn in H6; unfold lift in H6; congruence).
  seq_step.
  { destruct (ar_redirect_uri ar); [destruct (tr_redirect q)|]; reflexivity. }
  rename a0 into same, s' into s9.
  assert (s9 = s6) as ->.
  { destruct (ar_redirect_uri ar); [destruct (tr_redirect q)|]; cbn in H7; unfold lift in H7; congruence. }
  destruct (negb same); [reflexivity|].
  rewrite run_bind.
  apply bind_map with (g := option_map (with_exp now)).
  { destruct (smem ACCESS _); [|reflexivity]. rewrite run_act.
    apply (except_here _ _ _ _ _ _ _ _ _ _ _ _ catches_minting H5). }
  intros access s10 _.
  rewrite run_bind. apply bind_map with (g := option_map (with_exp now)).
  { match goal with |- context[if ?c then _ else _] => destruct c end; [|reflexivity]. rewrite run_act.
    apply (except_read _ _ _ _ _ _ _ _ _ _ _ catches_minting); reflexivity. }
  intros refresh s11 _.
  seq_step; [rewrite run_act; reflexivity|]. rename s' into s12.
  seq_step.
  { destruct (e_oidc e); [|reflexivity].
    seq_step; [destruct (ar_scope ar); reflexivity|].
    destruct (smem "openid" a1 && _); [|reflexivity].
    rewrite run_bind. rewrite <- (bind_assoc_st (tok_at (ss_grant i) pos)).
    apply bind_map with (g := option_map (with_exp now)).
    - rewrite run_act. apply (except_read _ _ _ _ _ _ _ _ _ _ _ catches_jwe); reflexivity.
    - intros [t|] s13 _; reflexivity. }
  rename a1 into idt. destruct idt as [x|idv]; [reflexivity|].
  seq_step; [rewrite run_act; reflexivity|]. destruct access, refresh; reflexivity.
Qed.

Lemma refresh_seq e now q issue s : run e now (refresh_prog e q issue) s = refresh_process e now q issue s.
Proof.
  unfold refresh_prog, refresh_process. destruct (negb _); [reflexivity|].
  seq_step; [destruct (tr_refresh q); reflexivity|]. rename a into v, s' into s0.
  seq_step; [rewrite run_act; reflexivity|]. rename a into i, s' into s1.
  seq_step; [destruct (tr_client q); reflexivity|]. rename a into rc, s' into s2.
  destruct (negb (String.eqb (ss_client i) rc)); [reflexivity|]. cbv zeta.
  seq_step; [rewrite run_act; reflexivity|]. rename a into g, s' into s4.
  seq_step; [rewrite run_act; reflexivity|]. rename s' into s5.
  seq_step; [unfold need; destruct (find_pos _ _ _); reflexivity|]. rename a0 into pos, s' into s6.
  seq_step; [rewrite run_act; reflexivity|]. rename a0 into b, s' into s7.
  rewrite run_act in H5. pose proof (reader_tok_at _ _ _ _ _ H5). subst s7.
  seq_step; [rewrite run_act; reflexivity|]. rename a0 into psc, s' into s8.
  assert (s8 = s6) as -> by (rewrite run_act in H6; unfold lift in H6; congruence).
  rewrite run_bind. apply bind_map with (g := with_exp now).
  { rewrite run_act. apply mint_act_here, H5. }
  intros access s9 _.
  seq_step; [destruct (r_minting _); reflexivity|]. rename a0 into mints, s' into s10.
  seq_step.
  { match goal with |- context[if ?c then _ else _] => destruct c end; [|reflexivity].
    rewrite run_bind. unfold rotate_act. rewrite <- (bind_assoc_st (tok_at (ss_grant i) pos)).
    apply bind_ext; [rewrite run_act; reflexivity|]. reflexivity. }
  rename a0 into refresh, s' into s11.
  seq_step.
  { match goal with |- context[if ?c then _ else _] => destruct c end; [|reflexivity].
    rewrite run_bind. rewrite <- (bind_assoc_st (tok_at (ss_grant i) pos)).
    apply bind_map with (g := option_map (with_exp now)).
    - rewrite run_act. apply (except_read _ _ _ _ _ _ _ _ _ _ _ catches_jwe); reflexivity.
    - intros [t|] s13 _; reflexivity. }
  rename a0 into idt. destruct idt as [x|idv]; [reflexivity|].
  seq_step; [rewrite run_act; reflexivity|].
  seq_step; [rewrite run_act; destruct (revoke_refresh e rc); reflexivity|]. reflexivity.
Qed.

Lemma token_seq e now q issue s : run e now (token_prog e q issue) s = token_process e now q issue s.
Proof.
  unfold token_prog, token_process. seq_step.
  - destruct (negb _); [reflexivity|]. rewrite run_catch. apply catch_ext.
    + destruct (String.eqb _ CODE); [apply code_seq|].
      destruct (String.eqb _ REFRESH); [apply refresh_seq|reflexivity].
    + intros []; cbn; auto.
  - destruct a as [x|a]; [reflexivity|].
    seq_step; [destruct (rs_access a); reflexivity|].
    seq_step; [rewrite run_act; reflexivity|]. seq_step; [rewrite run_act; reflexivity|]. reflexivity.
Qed.
