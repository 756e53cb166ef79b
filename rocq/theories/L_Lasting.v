(** The record of a client session stays where it is, as long as nothing is
    deleted. *)
From Verif Require Import M_Base M_Types M_Codec M_Grant M_Env M_Session M_Claims M_Handler
  M_Authz M_TokenEP M_PKCE M_AuthzEP M_Info M_Logout M_History S_Codec S_Grant S_Store S_History S_Logout
  L_Base L_Codec L_Monad L_Grant L_Claims L_Store L_Hist1 L_Hist2 L_Hist3 L_Hist4 L_Hist5 L_Hist6 L_Emit
  L_Hist7 L_Hist8 M_Dump L_Dump L_Logout.

(** ** How records grow *)
Definition obj_grows (o o' : obj) : Prop :=
  match o, o' with
  | OInfo i, OInfo i' => (forall x, In x (si_sub i) -> In x (si_sub i'))
      /\ (forall x, In x (si_sub i') -> In x (si_sub i) \/ x <> "")
  | OGrant _, OGrant _ => True
  | ONone, ONone => True
  | _, _ => False
  end.
Lemma obj_grows_refl o : obj_grows o o.
Proof. destruct o; cbn; auto. Qed.
Lemma obj_grows_trans a b c : obj_grows a b -> obj_grows b c -> obj_grows a c.
Proof.
  destruct a, b, c; cbn; try tauto. intros (A & B) (C & D). split; auto.
  intros x H. destruct (D x H); auto.
Qed.
Definition grows (s s' : st) : Prop :=
  forall l o, hp s l = Some o -> exists o', hp s' l = Some o' /\ obj_grows o o'.
Lemma grows_refl s : grows s s.
Proof. intros l o H. eauto using obj_grows_refl. Qed.
Lemma grows_trans a b c : grows a b -> grows b c -> grows a c.
Proof.
  intros A B l o H. destruct (A _ _ H) as (o1 & H1 & G1). destruct (B _ _ H1) as (o2 & H2 & G2).
  eauto using obj_grows_trans.
Qed.
Lemma grows_heap s s' : s_heap s' = s_heap s -> grows s s'.
Proof. intros E l o H. exists o. unfold hp in *. rewrite E. auto using obj_grows_refl. Qed.
Lemma grows_upd s l f d c a : (forall o, obj_grows o (f o)) ->
  grows s (mk_st (upd_nth l f (s_heap s)) d c a).
Proof.
  intros K l' o H. destruct (Nat.eq_dec l' l) as [->|N].
  - rewrite hp_upd_same, H. cbn. eauto.
  - rewrite hp_upd_other by auto. eauto using obj_grows_refl.
Qed.
Lemma grows_app s o d c a : grows s (mk_st (s_heap s ++ [o]) d c a).
Proof.
  intros l o' H. rewrite hp_app_other; [eauto using obj_grows_refl|]. apply hp_lt in H. lia.
Qed.
Definition isg (l : nat) (s : st) : Prop := exists g, hp s l = Some (OGrant g).
Lemma isg_grows l s s' : grows s s' -> isg l s -> isg l s'.
Proof.
  intros G (g & H). destruct (G _ _ H) as (o & Ho & K). destruct o as [|g'|]; cbn in K; try tauto. exists g'. auto.
Qed.

Section Lasting.
  Variables (e : env) (W : laws e) (u c : string) (l0 : nat).
  Hypothesis Sep : separable [u; c].
  (** Grants are stored under session ids as well. [alias] says that the user's
      name may be one of them. *)
  Variable alias : bool.
  Hypothesis Ali : alias = false -> forall p, dec_sid e u <> Ok p.

  Definition uok (o : obj) : Prop :=
    match o with OInfo j => In c (si_sub j) | OGrant _ => alias = true | ONone => False end.
  Definition J (s : st) : Prop :=
    dget (s_db s) (session_key [u; c]) = Some l0
    /\ (exists i, hp s l0 = Some (OInfo i) /\ ~ In "" (si_sub i))
    /\ exists lu o, dget (s_db s) u = Some lu /\ hp s lu = Some o /\ uok o.

  Lemma J_heap s s' : grows s s' ->
    dget (s_db s') (session_key [u; c]) = dget (s_db s) (session_key [u; c]) ->
    dget (s_db s') u = dget (s_db s) u -> J s -> J s'.
  Proof.
    intros G E1 E2 (A & (i & B & C) & lu & o & D & F & H). unfold J. rewrite E1, E2. split; auto. split.
    - destruct (G _ _ B) as (o' & Ho & K). destruct o' as [i'| |]; cbn in K; try tauto. exists i'. split; auto.
      destruct K as (_ & K). intros X. destruct (K _ X) as [Y|Y]; auto.
    - destruct (G _ _ F) as (o' & Ho & K). exists lu, o'. split; auto. split; auto.
      destruct o, o'; cbn in *; try tauto. apply K, H.
  Qed.
  (** The user's record may be replaced by another one that is as good. *)
  Lemma J_user s l o d ct a : d = dset (s_db s) u l -> hp s l = Some o -> uok o ->
    J s -> J (mk_st (s_heap s) d ct a).
  Proof.
    intros -> H U (A & B & _). split; [|split].
    - cbn [s_db]. rewrite dget_dset_other; auto. intros X. symmetry in X. revert X.
      apply not_eq_sym, dec_key_neq; auto. eapply sep_first; eauto.
    - exact B.
    - exists l, o. cbn [s_db]. rewrite dget_dset_same. auto.
  Qed.

  Definition kj {A} (P : st -> Prop) (m : M st A) : Prop :=
    forall s r s', J s -> P s -> m s = (r, s') -> J s' /\ grows s s'.
  Definition Mono (P : st -> Prop) : Prop := forall s s', grows s s' -> P s -> P s'.
  Definition any (s : st) : Prop := True.
  Lemma mono_any : Mono any.
  Proof. intros s s' _ H. exact H. Qed.
  Lemma mono_isg l : Mono (isg l).
  Proof. intros s s'. apply isg_grows. Qed.

  Lemma kj_weaken {A} (P : st -> Prop) (m : M st A) : kj any m -> kj P m.
  Proof. intros H s r s' Js _ E. eapply H; eauto. exact Logic.I. Qed.
  Lemma kj_quiet {A} P (m : M st A) : quietm m -> kj P m.
  Proof.
    intros H s r s' Js _ E. destruct (H _ _ _ E) as (X & Y & _). split; [|now apply grows_heap].
    eapply J_heap; [apply grows_heap; exact X| | |exact Js]; now rewrite Y.
  Qed.
  Lemma kj_reader {A} P (m : M st A) : reader m -> kj P m.
  Proof. intros H. apply kj_quiet. now apply reader_quiet. Qed.
  Lemma kj_bind' {A B} P (m : M st A) (f : A -> M st B) : Mono P -> kj P m ->
    (forall a, (exists s s', J s /\ P s /\ m s = (Ok a, s')) -> kj P (f a)) -> kj P (bind m f).
  Proof.
    intros Mo H K s r s' Js p E. apply bind_inv in E as [(a & s1 & E1 & E2)|(x & E1 & ->)].
    - destruct (H _ _ _ Js p E1) as (J1 & G1).
      destruct (K a (ex_intro _ s (ex_intro _ s1 (conj Js (conj p E1)))) _ _ _ J1 (Mo _ _ G1 p) E2) as (J2 & G2).
      split; auto. eapply grows_trans; eauto.
    - eapply H; eauto.
  Qed.
  Lemma kj_bind {A B} P (m : M st A) (f : A -> M st B) : Mono P -> kj P m ->
    (forall a, kj P (f a)) -> kj P (bind m f).
  Proof. intros Mo H K. apply kj_bind'; auto. Qed.
  Lemma kj_catch {A} P (m : M st A) h : Mono P -> kj P m ->
    (forall x k, h x = Some k -> kj P k) -> kj P (catch m h).
  Proof.
    intros Mo H K s r s' Js p E.
    apply catch_inv in E as [(a & E1 & ->)|[(x & s1 & k & E1 & E2 & E3)|(x & E1 & _ & ->)]].
    - eapply H; eauto.
    - destruct (H _ _ _ Js p E1) as (J1 & G1). destruct (K _ _ E2 _ _ _ J1 (Mo _ _ G1 p) E3) as (J2 & G2).
      split; auto. eapply grows_trans; eauto.
    - eapply H; eauto.
  Qed.
  Lemma kj_grant {B} P l (f : grant -> M st B) :
    (forall g, kj (isg l) (f g)) -> kj P (bind (grant_at l) f).
  Proof.
    intros K s r s' Js _ E. apply bind_inv in E as [(g & s1 & E1 & E2)|(x & E1 & ->)].
    - apply grant_at_ok in E1 as [-> Hl]. eapply K; eauto. exists g. exact Hl.
    - apply reader_grant_at in E1. subst. split; auto. apply grows_refl.
  Qed.

  Lemma kj_ret {A} P (a : A) : kj P (ret a).
  Proof. apply kj_reader, reader_ret. Qed.
  Lemma kj_raise {A} P x : kj P (@raise st A x).
  Proof. apply kj_reader, reader_raise. Qed.
  Lemma kj_lift {A} P (x : res A) : kj P (lift x).
  Proof. apply kj_reader, reader_lift. Qed.
  Lemma kj_need {A} P (x : option A) : kj P (need x).
  Proof. apply kj_reader, reader_need. Qed.

  Lemma kj_upd P l f : (forall o, obj_grows o (f o)) -> kj P (upd_obj l f).
  Proof.
    intros K s r s' Js _ E. unfold upd_obj in E. injection E as _ <-.
    pose proof (grows_upd s l f (s_db s) (s_ctr s) (s_always s) K) as G. split; auto.
    eapply J_heap; [exact G| | |exact Js]; reflexivity.
  Qed.
  Lemma kj_on_grant P l f : kj P (upd_obj l (on_grant f)).
  Proof. apply kj_upd. intros [i|g|]; cbn; auto. Qed.
  Lemma kj_upd_tok P l i f : kj P (upd_tok l i f).
  Proof. apply kj_on_grant. Qed.
  Lemma kj_revoke P l : kj P (upd_obj l revoke_obj).
  Proof. apply kj_upd. intros [i|g|]; cbn; auto. Qed.
  Lemma kj_add P l x : x <> "" -> kj P (upd_obj l (on_info (si_add x))).
  Proof.
    intros N. apply kj_upd. intros [i|g|]; cbn; auto. unfold si_add.
    destruct (smem x (si_sub i)); cbn; auto. split.
    - intros y H. apply in_or_app. auto.
    - intros y H. apply in_app_or in H as [H|[<-|[]]]; auto.
  Qed.
  Lemma kj_new P o : kj P (new_obj o).
  Proof.
    intros s r s' Js _ E. unfold new_obj in E. injection E as _ <-.
    pose proof (grows_app s o (s_db s) (s_ctr s) (s_always s)) as G. split; auto.
    eapply J_heap; [exact G| | |exact Js]; reflexivity.
  Qed.
  Lemma kj_on_tokens P l m : kj P (on_tokens l m).
  Proof.
    unfold on_tokens. apply kj_grant. intros g. destruct (m (g_tokens g)) as [r ts].
    apply kj_bind; [apply mono_isg|apply kj_on_grant|]. intros ?. apply kj_lift.
  Qed.
  Lemma kj_mint e' P now l sid tc b rules sc ty ia : kj P (mint e' now l sid tc b rules sc ty ia).
  Proof.
    intros s r s' Js _ E.
    apply mint_run in E as [(Q & _)|(g & t & n & H & _ & Hp & Hd & _)].
    - destruct Q as (X & Y & _). split; [|now apply grows_heap].
      eapply J_heap; [apply grows_heap; exact X| | |exact Js]; now rewrite Y.
    - assert (grows s s') as G.
      { assert (s' = mk_st (upd_nth l (add_tok t) (s_heap s)) (s_db s') (s_ctr s') (s_always s')) as Es
          by (destruct s'; cbn in *; congruence).
        rewrite Es. apply grows_upd. intros [i|g0|]; cbn; auto. }
      split; auto. eapply J_heap; [exact G| | |exact Js]; now rewrite Hd.
  Qed.

  (** ** Storing *)
  Lemma kj_put P k l : k <> session_key [u; c] -> k <> u -> kj P (db_put k l).
  Proof.
    intros N1 N2 s r s' Js _ E. unfold db_put in E. injection E as _ <-. split; [|now apply grows_heap].
    apply J_heap with (s := s); [now apply grows_heap| | |exact Js]; cbn [s_db]; apply dget_dset_other; auto.
  Qed.
  (** What may be stored under [p]. *)
  Definition okset (p : list string) (l : nat) (s : st) : Prop :=
    match p with
    | [] => True
    | [x] => x = u -> exists o, hp s l = Some o /\ uok o
    | [a; b] => a = u -> b = c -> l = l0
    | a :: b :: g :: _ => a = u -> b = c -> g <> ""
    end.
  Lemma okset_mono p l : Mono (okset p l).
  Proof.
    intros s s' G. destruct p as [|x [|b [|g p]]]; cbn; auto. intros H E.
    destruct (H E) as (o & Ho & U). destruct (G _ _ Ho) as (o' & Ho' & K). exists o'. split; auto.
    destruct o, o'; cbn in *; try tauto. apply K, U.
  Qed.

  (** The record found or made for a key: that of the client session, or one
      of another session. *)
  Lemma kj_get_or k i P : kj P (db_get_or k i).
  Proof.
    intros s r s' Js p E. unfold db_get_or in E.
    apply bind_inv in E as [(o & s1 & E1 & E2)|(x & E1 & ->)]; [|discriminate E1].
    unfold db_lookup in E1. injection E1 as <- <-. destruct (dget (s_db s) k).
    - apply ret_inv in E2 as [_ <-]. split; auto. apply grows_refl.
    - eapply (kj_new P); eauto.
  Qed.
  Lemma get_or_at k i s l s' : db_get_or k i s = (Ok l, s') ->
    dget (s_db s) k = Some l \/ dget (s_db s) k = None.
  Proof.
    unfold db_get_or, bind, db_lookup. destruct (dget (s_db s) k); auto. unfold ret. intros E. injection E as <- _. auto.
  Qed.
  Lemma key_neq_u q : separable q -> 2 <= List.length q -> session_key q <> u.
  Proof. intros. apply dec_key_neq; auto. eapply sep_first; eauto. Qed.

  Lemma put_l0 : kj any (db_put (session_key [u; c]) l0).
  Proof.
    intros s r s' Js _ E. unfold db_put in E. injection E as _ <-. split; [|now apply grows_heap].
    destruct Js as (A & B & C). split; [|split]; auto.
    - cbn [s_db]. apply dget_dset_same.
    - destruct C as (lu & o & D & F). exists lu, o. split; auto. cbn [s_db].
      rewrite dget_dset_other; auto. intros X. symmetry in X. revert X. apply key_neq_u; auto.
  Qed.
  Lemma put_user_here s lu o ct a : J s -> hp s lu = Some o -> uok o ->
    J (mk_st (s_heap s) (dset (s_db s) u lu) ct a).
  Proof. intros. eapply J_user; eauto. Qed.

  (** The part of Database.set for the client and user levels. *)
  Lemma kj_user_part a b : ~ occurs_in ";;" a -> str_true b = true -> kj any
    (ui <- db_get_or a (new_user_info "") ;;
     sub <- subordinate ui ;;
     if smem b sub then ret tt else upd_obj ui (on_info (si_add b)) ;; db_put a ui).
  Proof.
    intros Na Tb s r s' Js _ E.
    apply bind_inv in E as [(ui & s1 & E1 & E)|(x & E1 & ->)]; [|eapply kj_get_or; eauto; exact Logic.I].
    destruct (kj_get_or _ _ any _ _ _ Js Logic.I E1) as (J1 & G1).
    assert (kj (fun s => a = u -> dget (s_db s) u = Some ui)
      (sub <- subordinate ui ;; if smem b sub then ret tt else upd_obj ui (on_info (si_add b)) ;; db_put a ui)) as K.
    { clear - Na Tb Sep. intros s r s' Js Hu E.
      apply bind_inv in E as [(sub & s1 & E1 & E)|(x & E1 & ->)].
      2:{ apply reader_subordinate in E1. subst. split; auto. apply grows_refl. }
      pose proof (reader_subordinate _ _ _ _ E1). subst s1.
      destruct (smem b sub). { apply ret_inv in E as [_ <-]. split; auto. apply grows_refl. }
      apply bind_inv in E as [([] & s1 & E2 & E)|(x & E2 & ->)]; [|discriminate E2].
      assert (b <> "") as Nb by (intros ->; discriminate Tb).
      destruct (kj_add any ui b Nb _ _ _ Js Logic.I E2) as (J1 & G1).
      assert (s_db s1 = s_db s) as Ed by (unfold upd_obj in E2; injection E2 as <-; reflexivity).
      destruct (string_dec a u) as [->|N].
      - unfold db_put in E. injection E as _ <-. split; [|eapply grows_trans; [exact G1|now apply grows_heap]].
        destruct J1 as (A & B & lu & o & D & F & U). rewrite Ed, (Hu eq_refl) in D. injection D as <-.
        eapply put_user_here; eauto. split; [|split]; auto. exists ui, o. rewrite Ed. auto.
      - destruct (kj_put any a ui) with (s := s1) (r := r) (s' := s') as (J2 & G2); auto; [|exact Logic.I|].
        + intros X. symmetry in X. revert X. apply dec_key_neq; auto.
        + split; auto. eapply grows_trans; eauto. }
    destruct (K s1 r s' J1) as (J2 & G2); auto; [|split; auto; eapply grows_trans; eauto].
    intros ->. destruct (get_or_at _ _ _ _ _ E1) as [X|X].
    - unfold db_get_or, bind, db_lookup in E1. rewrite X in E1. unfold ret in E1. injection E1 as <-. exact X.
    - destruct Js as (_ & _ & lu & o & D & _). congruence.
  Qed.

  Lemma kj_client_part a b g : separable [a; b] -> g <> "" -> kj any
    (ci <- db_get_or (session_key [a; b]) (new_client_info "") ;;
     sub <- subordinate ci ;;
     if smem g sub then ret tt else upd_obj ci (on_info (si_add g)) ;; db_put (session_key [a; b]) ci).
  Proof.
    intros Sab Ng s r s' Js _ E.
    apply bind_inv in E as [(ci & s1 & E1 & E)|(x & E1 & ->)]; [|eapply kj_get_or; eauto; exact Logic.I].
    destruct (kj_get_or _ _ any _ _ _ Js Logic.I E1) as (J1 & G1).
    assert ([a; b] = [u; c] -> ci = l0) as Hc.
    { intros X. injection X as -> ->. destruct (get_or_at _ _ _ _ _ E1) as [X|X]; destruct Js as (A & _); congruence. }
    assert (kj any (sub <- subordinate ci ;;
      if smem g sub then ret tt else upd_obj ci (on_info (si_add g)) ;; db_put (session_key [a; b]) ci)) as K.
    { apply kj_bind; [apply mono_any|apply kj_reader, reader_subordinate|]. intros sub.
      destruct (smem g sub); [apply kj_ret|].
      apply kj_bind; [apply mono_any|now apply kj_add|]. intros ?.
      destruct (list_eq_dec string_dec [a; b] [u; c]) as [X|N].
      - rewrite (Hc X). injection X as -> ->. apply put_l0.
      - apply kj_put; [|now apply key_neq_u; auto].
        intros X. apply N. apply session_key_inj; auto; discriminate. }
    destruct (K s1 r s' J1 Logic.I E) as (J2 & G2). split; auto. eapply grows_trans; eauto.
  Qed.

  Lemma kj_db_set p l : separable p -> kj (okset p l) (db_set p l).
  Proof.
    intros Sp s r s' Js Ok E. unfold db_set in E.
    apply bind_inv in E as [([[a b] g] & s1 & E1 & E)|(x & E1 & ->)].
    2:{ apply reader_lift in E1. subst. split; auto. apply grows_refl. }
    apply lift_ok in E1 as [Ev <-]. revert E. revert s r s' Js Ok.
    match goal with |- forall s r s', _ -> _ -> ?m s = _ -> _ => change (kj (okset p l) m) end.
    destruct p as [|x [|y [|z p]]]; cbn in Ev; try discriminate; injection Ev as <- <- <-; cbn [ostr_true ostr].
    - (* a user *)
      pose proof (sep_first _ _ Sp) as Nx.
      intros s r s' Js Ok E. unfold bind at 1 in E. unfold ret at 1 in E. unfold bind at 1 in E. unfold ret at 1 in E.
      apply bind_inv in E as [(ui & s1 & E1 & E)|(y & E1 & ->)]; [|eapply kj_get_or; eauto; exact Logic.I].
      destruct (kj_get_or _ _ any _ _ _ Js Logic.I E1) as (J1 & G1).
      pose proof (okset_mono [x] l _ _ G1 Ok) as Ok1. cbn in Ok1.
      destruct (string_dec x u) as [->|N].
      + unfold db_put in E. injection E as _ <-. split; [|eapply grows_trans; [exact G1|now apply grows_heap]].
        destruct (Ok1 eq_refl) as (o & Ho & U). eapply put_user_here; eauto.
      + destruct (kj_put any x l) with (s := s1) (r := r) (s' := s') as (J2 & G2); auto; [|exact Logic.I|].
        * intros X. symmetry in X. revert X. now apply dec_key_neq.
        * split; auto. eapply grows_trans; eauto.
    - (* a client session *)
      pose proof (sep_first _ _ Sp) as Nx.
      intros s r s' Js Ok E. cbn in Ok.
      assert (kj any (_ <- ret tt ;;
        (_ <- (if str_true y then
           ci <- db_get_or (session_key [x; y]) (new_client_info "") ;; db_put (session_key [x; y]) l
         else ret tt) ;;
         ui <- db_get_or x (new_user_info "") ;;
         if str_true y then
           sub <- subordinate ui ;;
           if smem y sub then ret tt else upd_obj ui (on_info (si_add y)) ;; db_put x ui
         else ret tt))) as K.
      { apply kj_bind; [apply mono_any|apply kj_ret|]. intros ?.
        apply kj_bind; [apply mono_any| |].
        - destruct (str_true y); [|apply kj_ret]. apply kj_bind; [apply mono_any|apply kj_get_or|]. intros ?.
          destruct (list_eq_dec string_dec [x; y] [u; c]) as [X|N].
          + injection X as -> ->. rewrite (Ok eq_refl eq_refl). apply put_l0.
          + apply kj_put; [|now apply key_neq_u]. intros X. apply N. apply session_key_inj; auto; discriminate.
        - intros ?. destruct (str_true y) eqn:Ty; [apply kj_user_part; auto|].
          apply kj_bind; [apply mono_any|apply kj_get_or|]. intros ?. apply kj_ret. }
      eapply K; eauto. exact Logic.I.
    - (* a grant *)
      pose proof (sep_first _ _ Sp) as Nx.
      assert (separable [x; y]) as Sxy by exact (separable_prefix [x; y] (z :: p) Sp).
      assert (separable [x; y; z]) as Sxyz by exact (separable_prefix [x; y; z] p Sp).
      intros s r s' Js Ok E. cbn in Ok.
      revert E. revert s r s' Js. match goal with |- forall s r s', _ -> ?m s = _ -> _ =>
        enough (kj any m) as K by (intros s r s' Js; apply K; auto; exact Logic.I) end.
      apply kj_bind; [apply mono_any| |].
      { destruct (str_true z); [|apply kj_ret]. apply kj_put; [|apply key_neq_u; [auto|cbn; lia]].
        now apply two_three_neq. }
      intros ?. apply kj_bind; [apply mono_any| |].
      { destruct (str_true y); [|apply kj_ret]. cbv zeta. destruct (str_true z) eqn:Tz; cbn [negb].
        - apply kj_client_part; auto. intros ->. discriminate Tz.
        - apply kj_bind; [apply mono_any|apply kj_get_or|]. intros ?.
          apply kj_put; [|now apply key_neq_u; auto].
          intros X. apply session_key_inj in X; auto; try discriminate. injection X as -> ->.
          apply (Ok eq_refl eq_refl). destruct z; [reflexivity|discriminate Tz]. }
      intros ?. destruct (str_true y) eqn:Ty; [apply kj_user_part; auto|].
      apply kj_bind; [apply mono_any|apply kj_get_or|]. intros ?. apply kj_ret.
  Qed.

  (** ** The calls *)
  Lemma kj_pre {A} (P Q : st -> Prop) (m : M st A) : (forall s, J s -> P s -> Q s) -> kj Q m -> kj P m.
  Proof. intros H K s r s' Js p E. eapply K; eauto. Qed.

  Definition sid_ok (sid : string) : Prop :=
    exists a b g, dec_sid3 e sid = Ok (a, b, g) /\ (a = u -> b = c -> g <> "").
  Lemma get3_ok s a b g r l s' : J s -> db_get (a :: b :: g :: r) s = (Ok l, s') -> a = u -> b = c -> g <> "".
  Proof.
    intros Js E -> ->. rewrite db_get_long in E. pose proof (reader_db_get _ _ _ _ E). subst s'.
    apply reads_3 in E as (cl & i & R & H & Ig & _). apply reads_2 in R as (_ & _ & _ & _ & _ & K).
    destruct Js as (A & (i' & B & C) & _). rewrite A in K. injection K as <-. rewrite B in H. injection H as <-.
    intros ->. auto.
  Qed.
  Lemma session_fact s sid i s' : J s -> get_session_info e sid s = (Ok i, s') -> sid_ok (ss_sid i).
  Proof.
    intros Js E. unfold get_session_info in E.
    apply bind_ok in E as ([[a b] g] & s1 & E1 & E). apply lift_ok in E1 as [D <-].
    apply bind_ok in E as (l & s1 & E1 & E). apply ret_ok in E as [<- _]. cbn.
    exists a, b, g. split; auto. eapply get3_ok; eauto.
  Qed.
  Lemma token_fact now s v i s' : J s -> get_session_info_by_token e now v s = (Ok i, s') -> sid_ok (ss_sid i).
  Proof.
    intros Js E. unfold get_session_info_by_token in E.
    apply bind_ok in E as (ti & s1 & E1 & E). apply lift_ok in E1 as [_ <-].
    destruct (negb (str_true (ti_sid ti))); [discriminate|].
    apply bind_ok in E as (sid & s1 & E1 & E).
    eapply session_fact; [|exact E]. eapply (kj_quiet any); [apply quiet_compatible|exact Js|exact Logic.I|exact E1].
  Qed.
  Lemma grant_fact s sid l s' : J s -> get_grant e sid s = (Ok l, s') -> sid_ok sid /\ isg l s'.
  Proof.
    intros Js E. unfold get_grant in E.
    apply bind_ok in E as ([[a b] g] & s1 & E1 & E). apply lift_ok in E1 as [D <-].
    apply bind_ok in E as (l1 & s1 & E1 & E). pose proof (reader_db_get _ _ _ _ E1). subst s1.
    apply bind_ok in E as (o & s1 & E2 & E). pose proof (reader_deref _ _ _ _ E2). subst s1.
    destruct o as [|gr|]; try discriminate. apply ret_ok in E as [-> <-]. split.
    - exists a, b, g. split; auto. eapply get3_ok; eauto.
    - unfold deref in E2. fold (hp s l) in E2. destruct (hp s l) as [o|] eqn:H; [|discriminate].
      exists gr. congruence.
  Qed.
  Lemma sid_ok_dec sid : sid_ok sid -> exists p, dec_sid e sid = Ok p.
  Proof. intros (a & b & g & D & _). unfold dec_sid3 in D. apply rbind_ok in D as (p & D & _). eauto. Qed.

  (** Storing a grant under the encrypted session id. *)
  Lemma kj_alias sid l : sid_ok sid -> kj (isg l) (db_set (unpack_session_key sid) l).
  Proof.
    intros H. destruct (sid_ok_dec _ H) as (p & D). pose proof (dec_sid_plain _ _ _ W D) as Ep. rewrite Ep.
    eapply kj_pre; [|apply kj_db_set].
    - intros s _ (g & Hg) X. subst sid. exists (OGrant g). cbn. split; auto.
      destruct alias; auto. destruct (Ali eq_refl _ D).
    - split.
      + intros x [<-|[]]. unfold dec_sid, decrypt_session_id in D.
        destruct (b64d _ sid) as [y|] eqn:B; [|discriminate]. eapply (law_sid _ W); eauto.
      + intros pre a b post X. apply (f_equal (@List.length _)) in X. rewrite app_length in X. cbn in X. lia.
  Qed.
  Lemma dec3_path sid a b g : dec_sid3 e sid = Ok (a, b, g) -> dec_sid e sid = Ok [a; b; g].
  Proof.
    unfold dec_sid3. intros D. apply rbind_ok in D as (p & D & X). destruct p as [|x [|y [|z [|? ?]]]]; try discriminate.
    injection X as -> -> ->. exact D.
  Qed.
  Lemma kj_set3 P sid a b g l : sid_ok sid -> dec_sid3 e sid = Ok (a, b, g) -> kj P (db_set [a; b; g] l).
  Proof.
    intros (a' & b' & g' & D & H) D'. rewrite D in D'. injection D' as -> -> ->.
    eapply kj_pre; [|apply kj_db_set].
    - intros s _ _. exact H.
    - eapply dec_sid3_separable; eauto.
  Qed.
  Lemma kj_mgr_put P sid l : sid_ok sid -> kj P (mgr_put e sid l).
  Proof.
    intros H. pose proof H as (a & b & g & D & _). unfold mgr_put. rewrite (dec3_path _ _ _ _ D).
    intros s r s' Js p E. unfold bind at 1 in E. unfold lift in E. eapply (kj_set3 P); eauto.
  Qed.

  Ltac kj1 :=
    match goal with
    | |- Mono _ => first [apply mono_any | apply mono_isg]
    | |- kj _ (bind (grant_at _) _) => apply kj_grant
    | |- kj _ (bind (get_session_info_by_token _ _ _) _) => apply kj_bind'; [|apply kj_quiet, quiet_by_token|
        let i := fresh "i" in intros i; let Js := fresh in let F := fresh "F" in
        intros (? & ? & Js & _ & F); apply (token_fact _ _ _ _ _ Js) in F; clear Js]
    | |- kj _ (bind (get_session_info _ _) _) => apply kj_bind'; [|apply kj_reader, reader_get_session_info|
        let i := fresh "i" in intros i; let Js := fresh in let F := fresh "F" in
        intros (? & ? & Js & _ & F); apply (session_fact _ _ _ _ Js) in F; clear Js]
    | |- kj _ (bind _ _) => apply kj_bind
    | |- kj _ (catch _ _) => apply kj_catch; [| |let H := fresh in intros ? ? H; handler H]
    | |- kj _ (match ?x with _ => _ end) => destruct x
    | |- kj _ (let _ := _ in _) => cbv zeta
    | |- kj _ _ => first [apply kj_ret | apply kj_raise | apply kj_lift | apply kj_need | apply kj_on_grant
        | apply kj_upd_tok | apply kj_revoke | apply kj_new | apply kj_on_tokens | apply kj_mint
        | solve [auto with kj] | apply kj_reader; solve [auto with emr] | apply kj_quiet; solve [auto with emq]]
    | |- forall _, _ => intro
    end.
  Ltac kj := repeat kj1.
  Hint Resolve kj_alias kj_mgr_put : kj.

  Lemma kj_ep_mint P now l sid tc b sc ty : sid_ok sid -> kj P (ep_mint e now l sid tc b sc ty).
  Proof. intros H. unfold ep_mint. kj. Qed.
  Hint Resolve kj_ep_mint : kj.
  Lemma kj_mint_value P now l sid tc b sc ty : sid_ok sid -> kj P (mint_value e now l sid tc b sc ty).
  Proof. intros H. unfold mint_value. apply kj_weaken. kj. Qed.
  Lemma kj_rotated P now l sid old sc : sid_ok sid -> kj P (mint_rotated e now l sid old sc).
  Proof. intros H. unfold mint_rotated. apply kj_weaken. kj. Qed.
  Hint Resolve kj_mint_value kj_rotated : kj.
  Lemma kj_process now q issue : kj any (token_process e now q issue).
  Proof. unfold token_process, code_process, refresh_process, except_minting, except_jwe. kj. Qed.
  Lemma kj_parse now cid q : kj any (token_parse e now cid q).
  Proof. unfold token_parse, code_parse, refresh_parse. kj. Qed.
  Lemma kj_parse_all now cid q : kj any (token_parse_all e now cid q).
  Proof.
    unfold token_parse_all. apply kj_bind; [kj|apply kj_parse|]. intros r. unfold pkce_check. kj.
  Qed.

  Lemma kj_revoke_token sid v rec : kj any (mgr_revoke_token e sid v rec).
  Proof. unfold mgr_revoke_token. kj. Qed.
  Lemma kj_revoke_grants P a b gs : Mono P -> kj P (revoke_grants a b gs).
  Proof. intros Mo. induction gs; cbn [revoke_grants]; kj; auto. Qed.
  Hint Resolve kj_revoke_grants mono_any mono_isg : kj.
  Lemma kj_revoke_client sid : kj any (revoke_client_session e sid).
  Proof.
    intros s r s' Js _ E. unfold revoke_client_session in E.
    apply bind_inv in E as [(p & s1 & E1 & E)|(x & E1 & ->)].
    2:{ apply reader_lift in E1. subst. split; auto. apply grows_refl. }
    apply lift_ok in E1 as [D <-]. apply dec_sid_separable in D as [_ Sp].
    apply bind_inv in E as [([a b] & s1 & E1 & E)|(x & E1 & ->)].
    2:{ destruct p as [|? [|? [|? [|? ?]]]]; apply reader_raise in E1 || apply reader_ret in E1; subst; split; auto; apply grows_refl. }
    assert (s1 = s /\ separable [a; b]) as (-> & Sab).
    { destruct p as [|x [|y [|z [|? ?]]]]; try discriminate E1; apply ret_ok in E1 as [X <-]; injection X as -> ->;
        split; auto. eapply sep_2; eauto. }
    apply bind_inv in E as [(l & s1 & R & E)|(x & R & ->)].
    2:{ apply reader_db_get in R. subst. split; auto. apply grows_refl. }
    pose proof (reader_db_get _ _ _ _ R). subst s1.
    apply bind_inv in E as [(o & s1 & Ho & E)|(x & Ho & ->)].
    2:{ apply reader_deref in Ho. subst. split; auto. apply grows_refl. }
    pose proof (reader_deref _ _ _ _ Ho). subst s1. unfold deref in Ho. fold (hp s l) in Ho.
    destruct (hp s l) as [o'|] eqn:Hl; [|discriminate]. injection Ho as ->.
    assert (a = u -> b = c -> l = l0) as Here.
    { intros -> ->. apply reads_2 in R as (_ & _ & _ & _ & _ & K). destruct Js as (A & _). congruence. }
    assert (forall l', (a = u -> b = c -> l' = l0) -> kj any (db_set [a; b] l')) as Set2.
    { intros l' H. eapply kj_pre; [|apply kj_db_set; auto]. intros s0 _ _. exact H. }
    revert E. match goal with |- ?m s = _ -> _ => enough (kj any m) as K by (apply K; auto; exact Logic.I) end.
    destruct o as [i|g|]; kj.
    apply Set2. intros -> ->. exfalso. specialize (Here eq_refl eq_refl). subst l.
      destruct Js as (_ & (i & B & _) & _). congruence.
  Qed.
  Hint Resolve kj_revoke_client : kj.
  Lemma kj_revoke_grant sid : kj any (revoke_grant e sid).
  Proof.
    intros s r s' Js _ E. unfold revoke_grant in E.
    apply bind_inv in E as [(p & s1 & E1 & E)|(x & E1 & ->)].
    2:{ apply reader_lift in E1. subst. split; auto. apply grows_refl. }
    apply lift_ok in E1 as [D <-]. apply dec_sid_separable in D as [_ Sp].
    apply bind_inv in E as [(l & s1 & R & E)|(x & R & ->)].
    2:{ apply reader_db_get in R. subst. split; auto. apply grows_refl. }
    pose proof (reader_db_get _ _ _ _ R). subst s1.
    assert (okset p l s) as Ok.
    { destruct p as [|x [|y [|z p]]]; cbn; auto.
      - intros ->. destruct Js as (_ & _ & lu & o & A & B & U). exists o. split; auto.
        unfold db_get in R. cbn [eval_path] in R. unfold bind at 1, lift in R. rewrite db_lookup_bind, A in R.
        apply bind_ok in R as (o' & s1 & E2 & R). unfold deref in E2. fold (hp s lu) in E2. rewrite B in E2.
        injection E2 as <- <-. destruct o as [i|g|]; try discriminate; apply ret_ok in R as [-> _]; exact B.
      - intros -> ->. apply reads_2 in R as (_ & _ & _ & _ & _ & K). destruct Js as (A & _). congruence.
      - eapply get3_ok; eauto. }
    revert E. match goal with |- ?m s = _ -> _ => enough (kj (okset p l) m) as K by (apply K; auto) end.
    pose proof (okset_mono p l) as Mo.
    apply kj_bind; [auto|kj|]. intros o.
    destruct o; kj; auto; apply kj_db_set; auto.
  Qed.
  Lemma kj_clean sids : kj any (clean_sessions e sids).
  Proof. induction sids; cbn [clean_sessions]; kj; auto. Qed.
  Hint Resolve kj_clean : kj.
  Lemma kj_logout now sid alla : kj any (do_verified_logout e now sid alla).
  Proof. unfold do_verified_logout, logout_all_clients, logout_from_client. kj. Qed.

  (** Creating sessions. *)
  Lemma kj_create_grant P now ae ar a b rules sc : good_id a -> good_id b -> kj P (create_grant e now ae ar a b rules sc).
  Proof.
    intros Ga Gb. apply kj_weaken. unfold create_grant. apply kj_bind; [kj|kj|]. intros n. cbv zeta.
    apply kj_bind; [kj|kj|]. intros gl. apply kj_bind; [kj| |kj].
    destruct (law_uuid_id _ W n) as [(N1 & N2 & N3) N4].
    eapply kj_pre; [|apply kj_db_set; apply sep_good; auto]. intros s _ _ _ _. exact N1.
  Qed.
  Hint Resolve kj_create_grant : kj.
  Lemma kj_create_session P now ae ar a b rules sc : good_id a -> good_id b ->
    kj P (create_session e now ae ar a b rules sc).
  Proof.
    intros Ga Gb. apply kj_weaken. unfold create_session.
    assert (str_true b = true) as Tb. { destruct Gb as [N _]. destruct b; [congruence|reflexivity]. }
    rewrite Tb.
    apply kj_bind; [kj| |].
    { intros s r s' Js _ E.
      apply catch_inv in E as [(x & E1 & ->)|[(x & s1 & k & E1 & E2 & E3)|(x & E1 & _ & ->)]].
      - revert E1. match goal with |- ?m s = _ -> _ => enough (kj any m) as K by (apply K; auto; exact Logic.I) end. kj.
      - assert (s1 = s) as ->.
        { apply bind_inv in E1 as [(l & s2 & R & E1)|(y & R & _)]; [apply ret_inv in E1 as [E1 _]; discriminate|].
          now apply reader_db_get in R. }
        assert (a <> u) as N.
        { intros ->. destruct (is_KeyError x) eqn:Kx; [|discriminate].
          destruct Js as (_ & _ & lu & o & A & B & U). unfold db_get in E1. cbn [eval_path] in E1.
          unfold bind at 1 in E1. unfold bind at 1, lift in E1. rewrite db_lookup_bind, A in E1.
          unfold bind at 1 in E1. rewrite (deref_some _ _ _ B) in E1. destruct o; cbn in E1; try discriminate. destruct U. }
        destruct (is_KeyError x); [|discriminate]. injection E2 as <-. revert E3.
        match goal with |- ?m s = _ -> _ => enough (kj any m) as K by (apply K; auto; exact Logic.I) end.
        apply kj_bind; [kj|kj|]. intros l. eapply kj_pre; [|apply kj_db_set].
        + intros s0 _ _ X. congruence.
        + split; [intros y [<-|[]]; apply Ga|]. intros pre y z post X. apply (f_equal (@List.length _)) in X.
          rewrite app_length in X. cbn in X. lia.
      - revert E1. match goal with |- ?m s = _ -> _ => enough (kj any m) as K by (apply K; auto; exact Logic.I) end. kj. }
    intros ?. cbv zeta. apply kj_bind; [kj| |kj].
    intros s r s' Js _ E.
    apply catch_inv in E as [(x & E1 & ->)|[(x & s1 & k & E1 & E2 & E3)|(x & E1 & _ & ->)]].
    - revert E1. match goal with |- ?m s = _ -> _ => enough (kj any m) as K by (apply K; auto; exact Logic.I) end. kj.
    - assert (s1 = s) as ->.
      { apply bind_inv in E1 as [(l & s2 & R & E1)|(y & R & _)]; [apply ret_inv in E1 as [E1 _]; discriminate|].
        now apply reader_db_get in R. }
      assert (a = u -> b = c -> False) as N.
      { intros -> ->. destruct Js as (K & (i & _) & lu & o & A & B & U). unfold db_get in E1. cbn [eval_path] in E1.
        unfold bind at 1 in E1. unfold bind at 1, lift in E1. rewrite db_lookup_bind, A in E1.
        unfold bind at 1 in E1. rewrite (deref_some _ _ _ B) in E1. destruct o as [j|g|]; [| |destruct U].
        - unfold bind at 1 in E1. rewrite (subordinate_info _ _ _ B) in E1. cbn in U. apply smem_In in U.
          rewrite U in E1. cbn [negb] in E1. rewrite db_lookup_bind, K in E1. discriminate.
        - unfold bind at 1 in E1. unfold subordinate in E1. unfold bind in E1. rewrite (deref_some _ _ _ B) in E1.
          injection E1 as <-. discriminate E2. }
      assert (kj any (l <- new_obj (OInfo (new_client_info b)) ;; db_set [a; b] l)) as K.
      { apply kj_bind; [kj|kj|]. intros l. eapply kj_pre; [|apply kj_db_set].
        - intros s0 _ _ X Y. destruct (N X Y).
        - destruct (law_uuid_id _ W 0) as [(_ & N2 & _) _]. exact (sep_2 _ _ _ (sep_good a b _ Ga Gb N2)). }
      destruct x; try discriminate E2; injection E2 as <-; eapply K; eauto; exact Logic.I.
    - revert E1. match goal with |- ?m s = _ -> _ => enough (kj any m) as K by (apply K; auto; exact Logic.I) end. kj.
  Qed.
  Hint Resolve kj_create_session : kj.

  (** The authorization endpoint. *)
  Lemma kj_authz now sid ar : kj any (authz e now sid ar).
  Proof. unfold authz. kj. Qed.
  Lemma authz_fact now s sid ar l s' : J s -> authz e now sid ar s = (Ok l, s') -> sid_ok sid /\ isg l s'.
  Proof.
    intros Js E. unfold authz in E. destruct (e_implicit e).
    - apply bind_ok in E as (l1 & s1 & E1 & E). destruct (grant_fact _ _ _ _ Js E1).
      destruct (gconf_empty _); [|discriminate]. apply ret_ok in E as [-> <-]. auto.
    - apply bind_ok in E as (i & s1 & E1 & E). pose proof (session_fact _ _ _ _ Js E1) as F.
      assert (ss_sid i = sid) as Es.
      { unfold get_session_info in E1. apply bind_ok in E1 as ([[? ?] ?] & ? & _ & E1).
        apply bind_ok in E1 as (? & ? & _ & E1). apply ret_ok in E1 as [<- _]. reflexivity. }
      rewrite Es in F. split; auto. clear F.
      pose proof (reader_get_session_info _ _ _ _ _ E1). subst s1.
      cbv zeta in E. apply bind_ok in E as (g & s1 & E2 & E). apply grant_at_ok in E2 as [-> Hg].
      assert (isg (ss_grant i) s) as I0 by (exists g; exact Hg).
      assert (l = ss_grant i) as ->.
      { apply bind_ok in E as (? & ? & _ & E). apply bind_ok in E as (? & ? & _ & E).
        apply bind_ok in E as (? & ? & _ & E). apply bind_ok in E as (? & ? & _ & E).
        apply bind_ok in E as (? & ? & _ & E). now apply ret_ok in E as [-> _]. }
      eapply isg_grows; [|exact I0]. revert E.
      match goal with |- ?m s = _ -> _ => enough (kj any m) as K by (apply K; auto; exact Logic.I) end.
      clear. kj.
  Qed.
  Lemma kj_az_value P now l sid tc sc ia : sid_ok sid -> kj P (az_value e now l sid tc sc ia).
  Proof. intros H. apply kj_weaken. unfold az_value, az_mint. kj. Qed.
  Hint Resolve kj_az_value : kj.
  Lemma kj_tokens P now ar sid l sc : sid_ok sid -> kj P (authn_tokens e now ar sid l sc).
  Proof. intros H. apply kj_weaken. unfold authn_tokens, except_jwe. kj. Qed.
  Hint Resolve kj_tokens : kj.
  Lemma kj_response P now ar sid : kj P (create_authn_response e now ar sid).
  Proof.
    apply kj_weaken. unfold create_authn_response.
    assert (forall rt, kj any (i <- get_session_info e sid ;;
      let scope := match ar_scope ar with
                   | Some (x :: r) => Some (filter_scopes e (x :: r) (ss_client i))
                   | _ => None end in
      r <- authn_tokens e now ar (ss_sid i) (ss_grant i) scope ;;
      ret (r, negb (smem "code" rt && forallb (String.eqb "code") rt)))) as K by (intros; kj).
    remember (ar_response_type ar) as rt. clear Heqrt.
    repeat (match goal with |- kj _ (match ?a with _ => _ end) =>
      first [is_var a; destruct a; try exact (K _) | fail 1] end).
    apply kj_ret.
  Qed.
  Hint Resolve kj_response : kj.
  Lemma kj_post now ar sid uri : kj any (post_authentication e now ar sid uri).
  Proof.
    unfold post_authentication. apply kj_bind'; [kj|apply kj_authz|].
    intros l (s & s' & Js & _ & E). destruct (authz_fact _ _ _ _ _ _ Js E) as (F & _). clear s s' Js E.
    apply kj_grant. intros g. destruct (negb _); [apply kj_ret|].
    apply kj_bind'; [kj|kj|]. intros [[a b] gid] (s & s' & _ & _ & E). apply lift_ok in E as [D _].
    apply kj_bind; [kj| |].
    - apply kj_catch; [kj| |intros x k X; injection X as <-; kj].
      apply kj_bind; [kj| |kj]. eapply kj_set3; eauto.
    - kj.
  Qed.
  Hint Resolve kj_post : kj.
  Lemma kj_part2 now ifr ar sid uri : kj any (authz_part2 e now ifr ar sid uri).
  Proof. unfold authz_part2. kj. Qed.
  Hint Resolve kj_part2 : kj.
  Lemma kj_login now ifr ar uid acr x uri : good_id uid -> good_id (ar_client_id ar) ->
    kj any (login e now ifr ar uid acr x uri).
  Proof. intros A B. unfold login, ep_create_session. kj. Qed.
  Lemma kj_setup now ar ru acr x ans : good_id (ar_client_id ar) ->
    (forall a sid, ans = AUser a sid -> good_id a) -> kj any (setup_auth e now ar ru acr x ans).
  Proof.
    intros Gc Gu. unfold setup_auth. apply kj_bind'; [kj|kj|].
    intros id (s0 & s0' & _ & _ & Eid). cbv zeta. destruct id as [[a sid]|]; [|apply kj_ret].
    assert (good_id a) as Ga.
    { destruct ans as [|u1 sid1]; [apply ret_ok in Eid as [E _]; discriminate|].
      apply (Gu a sid1). f_equal. destruct (ostr_true sid1).
      - apply bind_inv in Eid as [(l & s1 & _ & E)|(y & _ & K)]; [|discriminate].
        apply bind_inv in E as [(g & s2 & _ & E)|(y & _ & K)]; [|discriminate].
        apply ret_ok in E as [E _]. destruct (grant_active now g); congruence.
      - apply ret_ok in Eid as [E _]. congruence. }
    unfold ep_create_session. kj.
  Qed.
  Lemma kj_authorize now deny ifr ar ru acr x ans uri : good_id (ar_client_id ar) ->
    (forall a sid, ans = AUser a sid -> good_id a) ->
    kj any (authorize e now deny ifr ar ru acr x ans uri).
  Proof. intros Gc Gu. unfold authorize. kj. apply kj_setup; auto. Qed.

  (** One call, and many. *)
  Lemma step_lasts h o ev h' : proper e o -> ~ deletes o -> (forall now, o <> OReload now) -> step e h o = (ev, h') ->
    J (h_st h) -> J (h_st h').
  Proof.
    intros Po Nd Nr E Js.
    assert (forall {A} (f : res A -> event) (m : M st A), kj any m -> on_st h f m = (ev, h') -> J (h_st h')) as K.
    { intros A f m Km Em. unfold on_st in Em. destruct (m (h_st h)) as [r s] eqn:Er. injection Em as _ <-.
      cbn [h_st]. eapply Km; eauto. exact Logic.I. }
    destruct o; cbn [step] in E; cbn [proper] in Po; cbn [deletes] in Nd.
    - eapply K; [|exact E]. apply kj_authorize; [tauto|]. intros a sid ->. tauto.
    - eapply K; [|exact E]. apply kj_login; tauto.
    - destruct (token_parse_all e now cid req (h_st h)) as [r s] eqn:Ep. injection E as _ <-. cbn [h_st].
      eapply kj_parse_all; eauto.
    - destruct (nth_error (h_parsed h) i) as [q|]; [|injection E as _ <-; exact Js].
      unfold on_st in E. destruct (token_process e now q issue (h_st h)) as [r s] eqn:Ep. injection E as _ <-.
      cbn [h_st]. eapply kj_process; eauto.
    - eapply K; [|exact E]. apply kj_quiet, quiet_introspect.
    - eapply K; [|exact E]. apply kj_quiet, quiet_userinfo.
    - eapply K; [|exact E]. apply kj_logout.
    - eapply K; [|exact E]. apply kj_revoke_token.
    - eapply K; [|exact E]. apply kj_revoke_grant.
    - eapply K; [|exact E]. apply kj_revoke_client.
    - tauto.
    - tauto.
    - exfalso. eapply Nr; reflexivity.
  Qed.
End Lasting.

(** A restart gives the session a new record, which says the same. *)
Definition marked (l : nat) (s : st) : Prop := exists i, hp s l = Some (OInfo i) /\ si_revoked i = true.
Section Lasting2.
  Variables (e : env) (W : laws e) (u c : string).
  Hypothesis Sep : separable [u; c].
  Variable alias : bool.
  Hypothesis Ali : alias = false -> forall p, dec_sid e u <> Ok p.

  Lemma reload_lasts s s' l : reloaded s s' -> J u c l alias s -> marked l s ->
    exists l', J u c l' alias s' /\ marked l' s'.
  Proof.
    intros R (A & (i & B & C) & lu & o & D & F & H) (i1 & B1 & Rv). assert (i1 = i) as -> by congruence.
    destruct (rl_get _ _ R _ _ _ A B) as (l' & A' & B' & _). destruct (rl_get _ _ R _ _ _ D F) as (lu' & D' & F' & _).
    exists l'. split; [|exists i; auto]. split; auto. split; eauto.
  Qed.
  Lemma op_reload_dec o : (exists now, o = OReload now) \/ forall now, o <> OReload now.
  Proof. destruct o; eauto; right; discriminate. Qed.
  Lemma exec_lasts ops : forall h evs h' l, HI e h -> Forall (proper e) ops -> (forall o, In o ops -> ~ deletes o) ->
    exec e h ops = (evs, h') -> J u c l alias (h_st h) -> marked l (h_st h) ->
    exists l', J u c l' alias (h_st h') /\ marked l' (h_st h').
  Proof.
    induction ops as [|o ops IH]; intros h evs h' l Hh Po Nd E Js Mk; cbn in E.
    - injection E as _ <-. eauto.
    - destruct (step e h o) as [ev h1] eqn:Es. destruct (exec e h1 ops) as [evs' h2] eqn:Ee.
      injection E as _ <-. inversion Po as [|? ? P0 P1]; subst.
      destruct (step_keeps e W _ _ _ _ Hh P0 Es) as (Hh1 & (_ & L) & _).
      assert (exists l1, J u c l1 alias (h_st h1) /\ marked l1 (h_st h1)) as (l1 & J1 & M1).
      { destruct (op_reload_dec o) as [(now & ->)|Nr].
        - cbn [step] in Es. unfold on_st in Es.
          destruct (reload_ok e now (h_st h) (hi_inv _ _ Hh)) as (s1 & E1 & R). rewrite E1 in Es.
          injection Es as _ <-. cbn [h_st]. eapply reload_lasts; eauto.
        - exists l. split.
          + eapply step_lasts; [..|exact Js]; eauto. apply Nd. now left.
          + destruct Mk as (i & Hi & Ri). destruct (L _ _ Hi) as (o' & Ho & K).
            destruct o' as [i'| |]; cbn in K; try tauto. exists i'. split; auto. apply K, Ri. }
      eapply IH; [exact Hh1|exact P1| |exact Ee|exact J1|exact M1]. intros o' I. apply Nd. now right.
  Qed.
End Lasting2.
