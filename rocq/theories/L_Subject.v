(** Lemmas about subject identifiers. *)
From Verif Require Import M_Base M_Subject S_Subject L_Base.

Definition grows (w w' : world) : Prop :=
  forall f s, dget (w_files w) f = Some (FText s) -> dget (w_files w') f = Some (FText s).
Lemma grows_refl w : grows w w.
Proof. intros f s H; exact H. Qed.
Lemma grows_trans a b c : grows a b -> grows b c -> grows a c.
Proof. intros H K f s E. auto. Qed.

Definition growing {A} (m : M world A) : Prop := forall w r w', m w = (r, w') -> grows w w'.
Lemma growing_ret {A} (a : A) : growing (ret a).
Proof. intros w r w' E. injection E as _ <-. apply grows_refl. Qed.
Lemma growing_raise {A} x : growing (@raise world A x).
Proof. intros w r w' E. injection E as _ <-. apply grows_refl. Qed.
Lemma growing_bind {A B} (m : M world A) (f : A -> M world B) :
  growing m -> (forall a, growing (f a)) -> growing (bind m f).
Proof.
  intros Hm Hf w r w' E. unfold bind in E. destruct (m w) as [[a|x] w1] eqn:E1.
  - eapply grows_trans; [eapply Hm; eauto|eapply Hf; eauto].
  - injection E as _ <-. eapply Hm; eauto.
Qed.
Lemma growing_rnd rnd : growing (rndstr rnd).
Proof. intros w r w' E. injection E as _ <-. exact (grows_refl w). Qed.

Lemma growing_salt rnd salt file : growing (init_salt rnd salt file).
Proof.
  unfold init_salt. destruct (str_true salt); [apply growing_ret|].
  destruct (str_true file); [|apply growing_rnd].
  intros w r w' E. unfold bind at 1, get_st at 1 in E.
  destruct (dget (w_files w) file) as [[s|]|] eqn:F.
  - injection E as _ <-. apply grows_refl.
  - injection E as _ <-. apply grows_refl.
  - cbn in E. injection E as _ <-. intros f s Hs. cbn. rewrite dget_dset.
    destruct (String.eqb f file) eqn:Ef; auto. apply seqb_eq in Ef. subst f. congruence.
Qed.
Lemma growing_class rnd k salt file : growing (init_class rnd k salt file).
Proof.
  destruct k; cbn; [apply growing_ret| |];
    (apply growing_bind; [apply growing_salt|intros; apply growing_ret]).
Qed.
Lemma growing_sub rnd l : forall acc, growing (do_sub_func rnd l acc).
Proof.
  induction l as [|[k [c salt file|f|]] l IH]; intros acc; cbn [do_sub_func]; auto using growing_ret.
  apply growing_bind; auto using growing_class.
Qed.
Lemma growing_start rnd c : growing (start rnd c).
Proof.
  unfold start. apply growing_bind; [apply growing_sub|]. intros.
  apply growing_bind; [destruct (str_true (sc_password c)); auto using growing_ret, growing_rnd|]. intros.
  apply growing_bind; [destruct (str_true (sc_salt c)); auto using growing_ret, growing_rnd|]. intros.
  apply growing_ret.
Qed.
Lemma later_grows rnd w w' : S_Subject.later rnd w w' -> grows w w'.
Proof.
  induction 1; [apply grows_refl|]. eapply grows_trans; eauto. eapply growing_start; eauto.
Qed.

Lemma str_true_ne s : str_true s = true <-> s <> "".
Proof. destruct s; cbn; split; congruence. Qed.

Lemma init_salt_ok rnd salt file w s w' : init_salt rnd salt file w = (Ok s, w') ->
  (salt <> "" -> s = salt) /\
  (salt = "" -> file <> "" -> dget (w_files w') file = Some (FText s)).
Proof.
  unfold init_salt. destruct (str_true salt) eqn:Es.
  - intros E. injection E as <- <-. apply str_true_ne in Es. split; congruence.
  - assert (salt = "") by (destruct salt; cbn in Es; congruence).
    destruct (str_true file) eqn:Ef.
    + intros E. split; [congruence|]. intros _ _. unfold bind at 1, get_st at 1 in E.
      destruct (dget (w_files w) file) as [[x|]|] eqn:F.
      * injection E as <- <-. exact F.
      * discriminate.
      * cbn in E. injection E as <- <-. cbn. rewrite dget_dset, seqb_refl. reflexivity.
    + intros _. assert (file = "") by (destruct file; cbn in Ef; congruence). split; congruence.
Qed.

(** What the setup makes of an entry; [w] is the world after it. *)
Definition made_of (w : world) (en : entry) (m : option minter) (other : option minter) : Prop :=
  match en with
  | ENeither => m = other
  | EFunction f => m = Some (MFn f)
  | EClass KRaw _ _ => m = Some (MObj KRaw "")
  | EClass k salt file => exists s, m = Some (MObj k s) /\ (salt <> "" -> s = salt) /\
      (salt = "" -> file <> "" -> dget (w_files w) file = Some (FText s))
  end.
Lemma made_of_grows w w' en m o : grows w w' -> made_of w en m o -> made_of w' en m o.
Proof.
  intros G. destruct en as [[] salt file|f|]; cbn; auto; intros (s & E & A & B); exists s; auto.
Qed.

Lemma sub_func_ok rnd l : forall acc w d w', do_sub_func rnd l acc w = (Ok d, w') ->
  NoDup (dkeys l) -> forall k,
  match dget l k with None => dget d k = dget acc k | Some en => made_of w' en (dget d k) (dget acc k) end.
Proof.
  induction l as [|[k0 en] l IH]; intros acc w d w' E N k.
  - cbn in E. injection E as <- <-. reflexivity.
  - cbn [dkeys map fst] in N. inversion N as [|? ? N1 N2]; subst. cbn [dget].
    assert (Hl : dget l k0 = None).
    { destruct (dget l k0) eqn:X; auto. exfalso. apply N1. eapply dget_Some_keys; eauto. }
    destruct (String.eqb k k0) eqn:Ek.
    + apply seqb_eq in Ek. subst k0. destruct en as [c salt file|f|]; cbn [do_sub_func] in E.
      * unfold bind in E. destruct (init_class rnd c salt file w) as [[m|x] w1] eqn:E1; [|discriminate].
        specialize (IH _ _ _ _ E N2 k). rewrite Hl, dget_dset, seqb_refl in IH.
        apply growing_sub in E. apply made_of_grows with (1 := E). rewrite IH.
        destruct c; cbn in E1 |- *.
        -- injection E1 as <- <-; reflexivity.
        -- unfold bind in E1. destruct (init_salt rnd salt file w) as [[s|?] ?] eqn:E2; [|discriminate].
           apply init_salt_ok in E2. cbn in E1. injection E1 as <- <-. eauto.
        -- unfold bind in E1. destruct (init_salt rnd salt file w) as [[s|?] ?] eqn:E2; [|discriminate].
           apply init_salt_ok in E2. cbn in E1. injection E1 as <- <-. eauto.
      * specialize (IH _ _ _ _ E N2 k). rewrite Hl, dget_dset, seqb_refl in IH. exact IH.
      * specialize (IH _ _ _ _ E N2 k). rewrite Hl in IH. exact IH.
    + destruct en as [c salt file|f|]; cbn [do_sub_func] in E.
      * unfold bind in E. destruct (init_class rnd c salt file w) as [[m|x] w1] eqn:E1; [|discriminate].
        specialize (IH _ _ _ _ E N2 k). rewrite dget_dset, Ek in IH. exact IH.
      * specialize (IH _ _ _ _ E N2 k). rewrite dget_dset, Ek in IH. exact IH.
      * exact (IH _ _ _ _ E N2 k).
Qed.

(** The minter of a kind. *)
Definition default_fn (kind : string) : option mfunc :=
  if String.eqb kind "public" then Some FPublic
  else if String.eqb kind "pairwise" then Some FPair
  else if String.eqb kind "ephemeral" then Some FEphemeral else None.

Lemma with_default_get d k f x :
  dget (with_default d k f) x = match dget d x with
    | Some m => Some m | None => if String.eqb x k then Some (MFn f) else None end.
Proof.
  unfold with_default, dmem. destruct (dget d k) eqn:E.
  - destruct (dget d x) eqn:F; auto. destruct (String.eqb x k) eqn:X; auto.
    apply seqb_eq in X. congruence.
  - rewrite dget_dset. destruct (String.eqb x k) eqn:X; [|destruct (dget d x); auto].
    apply seqb_eq in X. subst. rewrite E. reflexivity.
Qed.

Lemma start_ok rnd c w m w' : start rnd c w = (Ok m, w') -> a_dict c ->
  (sc_salt c <> "" -> sm_salt m = sc_salt c) /\
  forall kind, made_of w' (match dget (sc_sub c) kind with Some en => en | None => ENeither end)
    (dget (sm_sub m) kind) (option_map MFn (default_fn kind)).
Proof.
  unfold start. intros E N. unfold bind at 1 in E.
  destruct (do_sub_func rnd (sc_sub c) [] w) as [[subs|x] w1] eqn:E1; [|discriminate].
  pose proof (sub_func_ok _ _ _ _ _ _ E1 N) as S.
  assert (G : grows w1 w').
  { revert E. match goal with |- ?f w1 = _ -> _ => assert (growing f) as Gr end.
    { apply growing_bind; [destruct (str_true (sc_password c)); auto using growing_ret, growing_rnd|]. intros.
      apply growing_bind; [destruct (str_true (sc_salt c)); auto using growing_ret, growing_rnd|]. intros.
      apply growing_ret. }
    apply Gr. }
  assert (exists k s, m = mk_smgr k s (with_default (with_default (with_default subs "public" FPublic) "pairwise" FPair)
       "ephemeral" FEphemeral) /\ (sc_salt c <> "" -> s = sc_salt c)) as (ky & s & -> & Hs).
  { unfold bind in E. destruct ((if str_true (sc_password c) then ret (sc_password c) else rndstr rnd) w1) as [[ky|?] w2]; [|discriminate].
    destruct (str_true (sc_salt c)) eqn:T.
    - cbn in E. injection E as <- _. eauto.
    - cbn in E. injection E as <- _. do 2 eexists; split; [reflexivity|]. intros X.
      apply str_true_ne in X. congruence. }
  split; [exact Hs|]. intros kind. cbn [sm_sub]. rewrite !with_default_get.
  specialize (S kind). unfold default_fn. destruct (dget (sc_sub c) kind) as [en|].
  - apply made_of_grows with (1 := G).
    destruct en as [[] salt file|f|]; cbn in S |- *;
      try (destruct S as (s' & -> & A); eauto); try (rewrite S; reflexivity).
    rewrite S. cbn. destruct (String.eqb kind "public"), (String.eqb kind "pairwise"), (String.eqb kind "ephemeral"); reflexivity.
  - cbn in S |- *. rewrite S.
    destruct (String.eqb kind "public"), (String.eqb kind "pairwise"), (String.eqb kind "ephemeral"); reflexivity.
Qed.

(** The identifier, by the way it is made. *)
Lemma sub_way rnd c w m w' H kind : start rnd c w = (Ok m, w') -> a_dict c ->
  match configured c kind with
  | None => forall u s d, make_sub H m kind u s d = Raise KeyError
  | Some Raw => forall u s d, make_sub H m kind u s d = Ok u
  | Some Ephemeral => forall u s d, make_sub H m kind u s d = Ok d
  | Some Public => exists salt, forall u s d, make_sub H m kind u s d = Ok (H (append u salt))
  | Some Pairwise => exists salt, forall u s d, make_sub H m kind u s d = Ok (H (append u (append s salt)))
  end.
Proof.
  intros E N. destruct (start_ok _ _ _ _ _ E N) as [_ K]. specialize (K kind).
  unfold configured, by_default, make_sub. unfold default_fn in K.
  destruct (dget (sc_sub c) kind) as [[[] salt file|[]|]|]; cbn in K.
  1: rewrite K; reflexivity.
  1,2: destruct K as (s & -> & _); exists s; reflexivity.
  1,2: rewrite K; exists (sm_salt m); reflexivity.
  1: rewrite K; reflexivity.
  all: rewrite K; destruct (String.eqb kind "public"); cbn; [exists (sm_salt m); reflexivity|];
    destruct (String.eqb kind "pairwise"); cbn; [exists (sm_salt m); reflexivity|];
    destruct (String.eqb kind "ephemeral"); reflexivity.
Qed.

Lemma stable rnd H c kind w m w1 w2 m' w3 :
  a_dict c -> salt_is_fixed c kind -> configured c kind <> Some Ephemeral ->
  start rnd c w = (Ok m, w1) -> later rnd w1 w2 -> start rnd c w2 = (Ok m', w3) ->
  forall u s d d', make_sub H m' kind u s d' = make_sub H m kind u s d.
Proof.
  intros N F X E1 L E2 u s d d'.
  destruct (start_ok _ _ _ _ _ E1 N) as [S1 K1]. destruct (start_ok _ _ _ _ _ E2 N) as [S2 K2].
  pose proof (later_grows _ _ _ L) as G. apply growing_start in E2. pose proof (grows_trans _ _ _ G E2) as G'.
  specialize (K1 kind). specialize (K2 kind). apply made_of_grows with (1 := G') in K1.
  unfold make_sub, salt_is_fixed, configured, by_default in *. unfold default_fn in *.
  destruct (dget (sc_sub c) kind) as [[[] salt file|[]|]|]; cbn in K1, K2.
  1: now rewrite K1, K2.
  1,2: destruct K1 as (a & -> & A1 & A2), K2 as (b & -> & B1 & B2);
    (assert (a = b) as ->; [|reflexivity]);
    (destruct (string_dec salt "") as [->|Ns]; [|rewrite A1, B1; auto]);
    (destruct F as [F|F]; [congruence|]); specialize (A2 eq_refl F); specialize (B2 eq_refl F); congruence.
  1,2: now rewrite K1, K2, S1, S2.
  1: congruence.
  all: rewrite K1, K2, S1, S2 by auto; destruct (String.eqb kind "public"); cbn; [reflexivity|];
    destruct (String.eqb kind "pairwise"); cbn; [reflexivity|];
    destruct (String.eqb kind "ephemeral"); [congruence|reflexivity].
Qed.

Lemma hash_inj H a b : H a = H b -> a = b \/ collides H.
Proof. intros E. destruct (string_dec a b); [auto|]. right. exists a, b; auto. Qed.

Lemma public_spec rnd H c kind w m w' u u' s s' d d' x x' :
  a_dict c -> start rnd c w = (Ok m, w') -> configured c kind = Some Public ->
  make_sub H m kind u s d = Ok x -> make_sub H m kind u' s' d' = Ok x' ->
  (u = u' -> x = x') /\ (x = x' -> u = u' \/ collides H).
Proof.
  intros N E C Hx Hx'. pose proof (sub_way _ _ _ _ _ H kind E N) as K. rewrite C in K.
  destruct K as (salt & K). rewrite K in Hx, Hx'. injection Hx as <-. injection Hx' as <-.
  split; [congruence|]. intros X. destruct (hash_inj _ _ _ X) as [Y|Y]; auto.
  left. now apply sapp_inj_r in Y.
Qed.

Lemma no_slash_cons a u : no_slash (String a u) -> a <> "/"%char /\ no_slash u.
Proof.
  intros N. split.
  - intros ->. apply (N "" u). reflexivity.
  - intros x y ->. apply (N (String a x) y). reflexivity.
Qed.
Lemma split_users : forall u u' s s', no_slash u -> no_slash u' -> a_url s -> a_url s' ->
  append u s = append u' s' -> u = u'.
Proof.
  assert (Short : forall v s s', no_slash v -> a_url s -> a_url s' -> s = append v s' -> v = "").
  { intros v s s' Nv [t ->] [t' ->] E. cbn in E.
    destruct v as [|c0 v]; [reflexivity|exfalso]. cbn in E. injection E as _ E.
    apply no_slash_cons in Nv. destruct Nv as [_ Nv].
    do 6 (destruct v as [|? v]; [cbn in E; discriminate E|]; cbn in E;
      apply no_slash_cons in Nv; destruct Nv as [? Nv]; injection E as ? E; try congruence). }
  induction u as [|a u IH]; intros [|b u'] s s' N N' U U' E; cbn in E; auto.
  - symmetry. eapply (Short (String b u') s s'); eauto.
  - eapply (Short (String a u) s' s); eauto.
  - injection E as -> E. apply no_slash_cons in N, N'. f_equal. apply (IH u' s s'); auto; tauto.
Qed.
Lemma unambiguous_split u s u' s' : unambiguous u s u' s' -> append u s = append u' s' -> u = u' /\ s = s'.
Proof.
  intros [L|(N & N' & U & U')] E.
  - assert (u = u') as ->.
    { pose proof (f_equal (take (String.length u)) E) as T. rewrite take_app in T.
      rewrite L, take_app in T. exact T. }
    split; [reflexivity|]. now apply sapp_inj_l in E.
  - pose proof (split_users _ _ _ _ N N' U U' E) as ->. split; [reflexivity|]. now apply sapp_inj_l in E.
Qed.

Lemma pairwise_spec rnd H c kind w m w' u u' s s' d d' x x' :
  a_dict c -> start rnd c w = (Ok m, w') -> configured c kind = Some Pairwise ->
  make_sub H m kind u s d = Ok x -> make_sub H m kind u' s' d' = Ok x' ->
  (u = u' /\ s = s' -> x = x') /\
  (x = x' -> unambiguous u s u' s' -> (u = u' /\ s = s') \/ collides H).
Proof.
  intros N E C Hx Hx'. pose proof (sub_way _ _ _ _ _ H kind E N) as K. rewrite C in K.
  destruct K as (salt & K). rewrite K in Hx, Hx'. injection Hx as <-. injection Hx' as <-.
  split; [intros [-> ->]; reflexivity|]. intros X A. destruct (hash_inj _ _ _ X) as [Y|Y]; auto.
  left. rewrite !sapp_assoc in Y. apply sapp_inj_r in Y. now apply unambiguous_split.
Qed.
