(** Saving and restoring the session manager loses nothing. *)
From Verif Require Import M_Base M_Types M_Codec M_Grant M_Env M_Session M_Dump S_History
  L_Base L_Codec L_Monad L_Store L_Hist1.
From Coq Require Import Lia.

Definition ticked (n : nat) (s : st) : st := mk_st (s_heap s) (s_db s) (n + s_ctr s) (s_always s).

(** ** Objects *)
Lemma token_trip g t : tok_ok g t -> exists x, dump_token t = Some x
  /\ forall e now s, load_token e now x s = (Ok t, ticked 1 s).
Proof.
  intros T. pose proof (to_class _ _ T) as C. pose proof (to_type _ _ T) as Ty. pose proof (to_sid _ _ T) as Sd.
  clear T. destruct t as [cls val bas rul iss ex nbf rev use id sc rs ty sid]. cbn [t_class t_type t_sid] in *.
  destruct C as [<-|[<-|[<-|[<-|[]]]]]; eexists.
  - destruct ty as [y|]; [exfalso; assert (CODE = ACCESS) by (apply Ty; discriminate); discriminate|].
    rewrite Sd by discriminate. split; [reflexivity|]. intros e now s. destruct bas; reflexivity.
  - destruct ty as [y|]; [|exfalso; assert ((None : option string) <> None) as X by (apply Ty; reflexivity); now apply X].
    rewrite Sd by discriminate. split; [reflexivity|]. intros e now s. destruct bas; reflexivity.
  - destruct ty as [y|]; [exfalso; assert (REFRESH = ACCESS) by (apply Ty; discriminate); discriminate|].
    rewrite Sd by discriminate. split; [reflexivity|]. intros e now s. destruct bas; reflexivity.
  - destruct ty as [y|]; [exfalso; assert (IDTOKEN = ACCESS) by (apply Ty; discriminate); discriminate|].
    split; [reflexivity|]. intros e now s. destruct bas; reflexivity.
Qed.

Lemma tokens_trip g ts : (forall t, In t ts -> tok_ok g t) -> exists xs, dump_tokens ts = Some xs
  /\ forall e now s, load_tokens e now xs s = (Ok ts, ticked (List.length ts) s).
Proof.
  induction ts as [|t ts IH]; intros T.
  - exists []. split; [reflexivity|]. intros e now s. destruct s; reflexivity.
  - destruct (token_trip g t) as (x & D & L); [now apply T; left|].
    destruct IH as (xs & Ds & Ls); [now intros; apply T; right|].
    exists (x :: xs). cbn [dump_tokens]. rewrite D, Ds. split; [reflexivity|]. intros e now s.
    cbn [load_tokens]. unfold bind at 1. rewrite L. unfold bind at 1. rewrite Ls. unfold ret, ticked. cbn.
    f_equal. f_equal. lia.
Qed.

Lemma grant_trip e0 g : ginv e0 g -> exists d, dump_obj (OGrant g) = Ok ("Grant", d)
  /\ forall e now s, load_grant e now (g_id g) d s = (Ok g, ticked (S (List.length (g_tokens g))) s).
Proof.
  intros G. destruct (tokens_trip g (g_tokens g) (gi_tok _ _ G)) as (xs & D & L).
  cbn [dump_obj]. rewrite D. eexists. split; [reflexivity|]. intros e now s.
  unfold load_grant.
  assert (dget (dump_attrs (grant_attr xs g) grant_parameter) "issued_token" = Some (VTokens xs)) as ->.
  { destruct g as [sc cl rs [ar|] [ae|] tk ru mx iss ex nbf rev use id sub xt]; reflexivity. }
  unfold bind at 1. cbn [tick]. unfold bind at 1. rewrite L. unfold lift, ticked. cbn.
  destruct g as [sc cl rs [ar|] [ae|] tk ru mx iss ex nbf rev use id sub xt]; cbn; do 2 f_equal; lia.
Qed.

Lemma info_trip i : exists d, dump_obj (OInfo i)
    = Ok (if si_client i then "ClientSessionInfo" else "UserSessionInfo", d)
  /\ load_info (si_client i) d = Ok i.
Proof. destruct i as [sub rev cl id]. destruct cl; eexists; split; reflexivity. Qed.

(** ** Entries *)
Lemma ticked_ticked a b s : ticked a (ticked b s) = ticked (a + b) s.
Proof. unfold ticked. cbn. f_equal. lia. Qed.
Lemma ticked_0 s : ticked 0 s = s.
Proof. destruct s; reflexivity. Qed.

Lemma upd_nth_same {A} l (x : A) h : nth_error h l = Some x -> upd_nth l (fun _ => x) h = h.
Proof.
  revert l. induction h as [|y h IH]; intros [|l] E; cbn in *; try congruence.
  f_equal. now apply IH.
Qed.

Lemma load_grant_entry e0 e now s k l g x : ginv e0 g -> dget (s_db s) k = Some l -> hp s l = Some (OGrant g) ->
  dump_obj (OGrant g) = Ok x -> load_entry e now k x s = (Ok tt, ticked (S (List.length (g_tokens g))) s).
Proof.
  intros G K H D. destruct (grant_trip _ _ G) as (d & D' & L). rewrite D in D'. injection D' as ->.
  unfold load_entry. cbn [String.eqb Ascii.eqb Bool.eqb].
  unfold bind at 1. unfold db_lookup. rewrite K. unfold bind at 1. unfold grant_at, bind at 1, deref.
  change (nth_error (s_heap s) l = Some (OGrant g)) in H. rewrite H. unfold ret. unfold bind at 1. rewrite L.
  unfold upd_obj, ticked. cbn [s_heap s_db s_ctr s_always]. now rewrite upd_nth_same by exact H.
Qed.

Lemma load_info_entry e now s k i x : dump_obj (OInfo i) = Ok x ->
  load_entry e now k x s
  = (Ok tt, mk_st (s_heap s ++ [OInfo i]) (dset (s_db s) k (List.length (s_heap s))) (s_ctr s) (s_always s)).
Proof.
  intros D. destruct (info_trip i) as (d & D' & L). rewrite D in D'. injection D' as ->.
  unfold load_entry. destruct (si_client i) eqn:C; cbn [String.eqb Ascii.eqb Bool.eqb];
    unfold bind at 1; unfold lift at 1; rewrite L; reflexivity.
Qed.

(** ** The database *)

(** What a restart does to the state. *)
Record reloaded (s s' : st) : Prop := {
  rl_ctr : s_ctr s <= s_ctr s';
  rl_always : s_always s' = s_always s;
  rl_heap : exists is, s_heap s' = s_heap s ++ map OInfo is;
  rl_keys : dkeys (s_db s') = dkeys (s_db s);
  rl_subs : forall l' i, hp s' l' = Some (OInfo i) -> exists l, hp s l = Some (OInfo i);
  rl_get : forall k l o, dget (s_db s) k = Some l -> hp s l = Some o ->
    exists l', dget (s_db s') k = Some l' /\ hp s' l' = Some o /\ forall g, o = OGrant g -> l' = l
}.

Lemma reloaded_refl s : reloaded s s.
Proof. constructor; eauto. exists []. now rewrite app_nil_r. Qed.
Lemma reloaded_trans a b c : reloaded a b -> reloaded b c -> reloaded a c.
Proof.
  intros [C1 A1 (i1 & H1) K1 S1 G1] [C2 A2 (i2 & H2) K2 S2 G2]. constructor; try congruence; try lia.
  - exists (i1 ++ i2). rewrite H2, H1, map_app. now rewrite app_assoc.
  - intros l i H. destruct (S2 _ _ H) as (l1 & E1). eauto.
  - intros k l o E H. destruct (G1 _ _ _ E H) as (l1 & E1 & Q1 & R1).
    destruct (G2 _ _ _ E1 Q1) as (l2 & E2 & Q2 & R2).
    exists l2. split; auto. split; auto. intros g X. rewrite (R2 g X). eauto.
Qed.

Lemma hp_app s x l o : hp s l = Some o -> nth_error (s_heap s ++ x) l = Some o.
Proof. intros H. rewrite nth_error_app1; [exact H|]. apply nth_error_Some. unfold hp in H. congruence. Qed.

Lemma reloaded_ticked n s : reloaded s (ticked n s).
Proof. constructor; cbn; auto; [lia| |eauto|]. - exists []. now rewrite app_nil_r. - intros k l o E H. exists l. auto. Qed.

Lemma dset_keys_same {A} (d : dict A) k v : In k (dkeys d) -> dkeys (dset d k v) = dkeys d.
Proof.
  induction d as [|[k' v'] d IH]; cbn; [tauto|]. intros X. destruct (String.eqb_spec k' k) as [->|N]; cbn.
  - rewrite String.eqb_refl. reflexivity.
  - destruct (String.eqb_spec k k') as [->|N']; [congruence|]. cbn. f_equal. apply IH. destruct X; [congruence|auto].
Qed.

Lemma reloaded_info s k l i : NoDup (dkeys (s_db s)) -> dget (s_db s) k = Some l -> hp s l = Some (OInfo i) ->
  reloaded s (mk_st (s_heap s ++ [OInfo i]) (dset (s_db s) k (List.length (s_heap s))) (s_ctr s) (s_always s)).
Proof.
  intros N K H. constructor; cbn; auto.
  - exists [i]. reflexivity.
  - apply dset_keys_same. eapply dget_Some_keys; eauto.
  - intros l' j E. unfold hp in E. cbn in E. destruct (Nat.lt_ge_cases l' (List.length (s_heap s))) as [L|L].
    + rewrite nth_error_app1 in E by auto. eauto.
    + rewrite nth_error_app2 in E by auto. destruct (l' - List.length (s_heap s)) as [|m]; cbn in E.
      * injection E as ->. eauto.
      * destruct m; discriminate.
  - intros k' l' o E Ho. rewrite dget_dset. destruct (String.eqb_spec k' k) as [->|M].
    + rewrite K in E. injection E as <-. exists (List.length (s_heap s)). split; auto.
      assert (o = OInfo i) as -> by congruence. split; [|discriminate].
      unfold hp. cbn. now rewrite nth_error_app2, Nat.sub_diag by lia.
    + exists l'. split; auto. split; auto. unfold hp. cbn. now apply hp_app.
Qed.

Lemma dget_of_In {A} (d : dict A) k v : NoDup (dkeys d) -> In (k, v) d -> dget d k = Some v.
Proof.
  induction d as [|[k' v'] d IH]; cbn; [tauto|]. intros N [E|H].
  - injection E as -> ->. now rewrite String.eqb_refl.
  - apply NoDup_cons_iff in N as [N0 N]. destruct (String.eqb_spec k k') as [->|M]; [|auto].
    exfalso. apply N0. apply in_map_iff. exists (k', v). auto.
Qed.

Definition entry_of (s : st) (a : string * nat) (b : string * saved) : Prop :=
  fst a = fst b /\ exists o, hp s (snd a) = Some o /\ dump_obj o = Ok (snd b).

Lemma dump_db_ok e0 s d : (forall l g, hp s l = Some (OGrant g) -> ginv e0 g) ->
  (forall k l, In (k, l) d -> stored s k l) ->
  exists xs, dump_db d s = (Ok xs, s) /\ Forall2 (entry_of s) d xs.
Proof.
  intros G. induction d as [|[k l] d IH]; intros K.
  - exists []. split; [reflexivity|constructor].
  - destruct IH as (xs & E & F); [now intros; apply K; right|].
    pose proof (K k l (or_introl eq_refl)) as T. unfold stored in T. destruct (hp s l) as [o|] eqn:Ho; [|contradiction].
    assert (exists x, dump_obj o = Ok x) as (x & D).
    { destruct o as [i|g|]; [|destruct (grant_trip e0 g) as (d0 & D & _); eauto|contradiction].
      destruct (info_trip i) as (d0 & D & _). eauto. }
    exists ((k, x) :: xs). split.
    + cbn [dump_db]. unfold bind at 1, deref. change (nth_error (s_heap s) l = Some o) in Ho. rewrite Ho.
      unfold bind at 1, lift. rewrite D. unfold bind at 1. rewrite E. reflexivity.
    + constructor; auto. split; auto. exists o. auto.
Qed.

Lemma load_db_ok e0 e now s d xs : Forall2 (entry_of s) d xs -> NoDup (map fst d) ->
  forall s1, (forall l g, hp s l = Some (OGrant g) -> ginv e0 g) ->
  NoDup (dkeys (s_db s1)) ->
  (forall k l, In (k, l) d -> dget (s_db s1) k = Some l) ->
  (forall l o, hp s l = Some o -> hp s1 l = Some o) ->
  exists s', load_db e now xs s1 = (Ok tt, s') /\ reloaded s1 s'.
Proof.
  induction 1 as [|[k l] [k' x] d xs (E & o & Ho & D) F IH]; intros Nd s1 G N K H.
  - exists s1. split; [reflexivity|apply reloaded_refl].
  - cbn [fst snd] in *. subst k'. apply NoDup_cons_iff in Nd as [Nk Nd].
    assert (exists s2, load_entry e now k x s1 = (Ok tt, s2) /\ reloaded s1 s2
              /\ forall k0 l0, k0 <> k -> dget (s_db s1) k0 = Some l0 -> dget (s_db s2) k0 = Some l0) as (s2 & E2 & R & O).
    { destruct o as [i|g|].
      - rewrite (load_info_entry e now s1 k i x D). eexists. split; [reflexivity|]. split.
        + eapply reloaded_info; eauto. apply K. now left.
        + intros k0 l0 M Hk. cbn. now rewrite dget_dset_other.
      - rewrite (load_grant_entry e0 e now s1 k l g x); auto; [|eauto|apply K; now left].
        eexists. split; [reflexivity|]. split; [apply reloaded_ticked|auto].
      - discriminate. }
    destruct (IH Nd s2 G) as (s' & E' & R').
    + now rewrite (rl_keys _ _ R).
    + intros k0 l0 I. apply O; [|apply K; now right]. intros ->. apply Nk. apply in_map_iff. exists (k, l0). auto.
    + intros l0 o0 H0. destruct (rl_heap _ _ R) as (is & Hh). unfold hp. rewrite Hh. apply hp_app. auto.
    + exists s'. split; [|eapply reloaded_trans; eauto]. cbn [load_db]. unfold bind at 1. now rewrite E2.
Qed.

(** A restart succeeds. *)
Lemma reload_ok e now s : Inv e s -> exists s', reload e now s = (Ok tt, s') /\ reloaded s s'.
Proof.
  intros I. assert (forall k l, In (k, l) (s_db s) -> dget (s_db s) k = Some l) as Gd.
  { intros k l H. apply dget_of_In; auto. apply (inv_dict _ _ I). }
  destruct (dump_db_ok e s (s_db s) (inv_grants _ _ I)) as (xs & D & F).
  { intros k l H. apply (inv_stored _ _ I). auto. }
  destruct (load_db_ok e e now s (s_db s) xs F (inv_dict _ _ I) s (inv_grants _ _ I) (inv_dict _ _ I) Gd) as (s' & L & R); auto.
  exists s'. split; auto. unfold reload, dump_all. unfold bind at 1. now rewrite D.
Qed.

(** What it does to the invariant and to the order of states. *)
Lemma reloaded_heap s s' l o : reloaded s s' -> hp s l = Some o -> hp s' l = Some o.
Proof. intros R H. destruct (rl_heap _ _ R) as (is & Hh). unfold hp. rewrite Hh. now apply hp_app. Qed.
Lemma reloaded_grants s s' l g : reloaded s s' -> hp s' l = Some (OGrant g) -> hp s l = Some (OGrant g).
Proof.
  intros R H. destruct (rl_heap _ _ R) as (is & Hh). unfold hp in *. rewrite Hh in H.
  destruct (Nat.lt_ge_cases l (List.length (s_heap s))) as [L|L].
  - now rewrite nth_error_app1 in H.
  - rewrite nth_error_app2 in H by auto. rewrite nth_error_map in H.
    destruct (nth_error is (l - List.length (s_heap s))); discriminate.
Qed.
Lemma reloaded_later now s s' : reloaded s s' -> st_later now s s'.
Proof.
  intros R. split; [apply (rl_ctr _ _ R)|]. intros l o H. exists o. split; [eapply reloaded_heap; eauto|apply obj_later_refl].
Qed.
Lemma reloaded_back s s' k l' : reloaded s s' -> (forall k l, dget (s_db s) k = Some l -> stored s k l) ->
  dget (s_db s') k = Some l' -> exists l o, dget (s_db s) k = Some l /\ hp s l = Some o /\ hp s' l' = Some o
    /\ forall g, o = OGrant g -> l' = l.
Proof.
  intros R T E. pose proof (dget_Some_keys _ _ _ E) as X. rewrite (rl_keys _ _ R) in X.
  destruct (dget (s_db s) k) as [l|] eqn:El; [|apply dget_None_keys in El; contradiction].
  pose proof (T _ _ El) as S. unfold stored in S. destruct (hp s l) as [o|] eqn:Ho; [|contradiction].
  destruct (rl_get _ _ R _ _ _ El Ho) as (l2 & E2 & H2 & G2). assert (l2 = l') as -> by congruence. eauto 8.
Qed.
Lemma reloaded_inv e s s' : Inv e s -> reloaded s s' -> Inv e s'.
Proof.
  intros I R.
  assert (forall l g, hp s' l = Some (OGrant g) -> hp s l = Some (OGrant g)) as Hb by (intros; eapply reloaded_grants; eauto).
  constructor.
  - intros l g H. destruct (inv_ids _ _ I _ _ (Hb _ _ H)) as (n & A & B). exists n. split; auto.
    pose proof (rl_ctr _ _ R). lia.
  - intros l l' g g' H H'. eapply inv_uniq; eauto.
  - intros u c g l S E. destruct (reloaded_back _ _ _ _ R (inv_stored _ _ I) E) as (l0 & o & E0 & H0 & H1 & Q).
    pose proof (inv_keys _ _ I _ _ _ _ S E0) as (gr & X & Id & B). assert (o = OGrant gr) as -> by congruence.
    exists gr. rewrite (Q _ eq_refl). split; [|auto]. eapply reloaded_heap; eauto.
  - intros l g H. eapply inv_grants; eauto.
  - intros l g t H T. destruct (inv_made _ _ I _ _ _ (Hb _ _ H) T) as (n & A & B). exists n. split; auto.
    pose proof (rl_ctr _ _ R). lia.
  - intros l l' g g' i i' t t' H H'. eapply (inv_vals _ _ I); eauto.
  - rewrite (rl_keys _ _ R). apply (inv_dict _ _ I).
  - intros l i x H X. destruct (rl_subs _ _ R _ _ H) as (l0 & H0). eapply inv_sub; eauto.
  - intros k l E. destruct (reloaded_back _ _ _ _ R (inv_stored _ _ I) E) as (l0 & o & E0 & H0 & H1 & Q).
    pose proof (inv_stored _ _ I _ _ E0) as S. unfold stored in *. rewrite H0 in S. now rewrite H1.
Qed.
