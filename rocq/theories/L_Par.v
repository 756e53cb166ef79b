(** Lemmas on histories of pushed requests. *)
From Verif Require Import M_Base M_Uri M_Redirect S_Codec S_Redirect L_Base L_Uri L_Redirect.

Lemma prun_app c uuid a b : forall s,
  prun c uuid (a ++ b) s =
  (fst (prun c uuid a s) ++ fst (prun c uuid b (snd (prun c uuid a s))), snd (prun c uuid b (snd (prun c uuid a s)))).
Proof.
  induction a as [|o a IH]; intros s; cbn [app prun].
  - cbn. now destruct (prun c uuid b s).
  - destruct (pstep c uuid o s) as [ev s1]. rewrite IH. destruct (prun c uuid a s1) as [e1 s2]. cbn.
    destruct (prun c uuid b s2). reflexivity.
Qed.
Lemma prun_length c uuid a : forall s, List.length (fst (prun c uuid a s)) = List.length a.
Proof.
  induction a as [|o a IH]; intros s; [reflexivity|]. cbn. destruct (pstep c uuid o s) as [ev s1].
  specialize (IH s1). destruct (prun c uuid a s1). cbn in *. now rewrite IH.
Qed.

Definition at_state c uuid (ops : list pop) (i : nat) : par_db * nat := snd (prun c uuid (firstn i ops) ([], 0)).

Lemma firstn_snoc {X} (l : list X) i x : nth_error l i = Some x -> firstn (S i) l = firstn i l ++ [x].
Proof.
  revert i. induction l as [|y l IH]; intros [|i] H; try discriminate.
  - cbn in H. injection H as ->. reflexivity.
  - cbn in H. cbn [firstn app]. f_equal. apply IH, H.
Qed.
Lemma at_next c uuid ops i o : nth_error ops i = Some o ->
  at_state c uuid ops (S i) = snd (pstep c uuid o (at_state c uuid ops i)).
Proof.
  intros H. unfold at_state. rewrite (firstn_snoc _ _ _ H), prun_app. cbn.
  destruct (pstep c uuid o (snd (prun c uuid (firstn i ops) ([], 0)))) as [ev s1]. reflexivity.
Qed.
Lemma ev_at c uuid ops evs i o : phistory c uuid ops evs -> nth_error ops i = Some o ->
  nth_error evs i = Some (fst (pstep c uuid o (at_state c uuid ops i))).
Proof.
  intros <- H. destruct (nth_error_split _ _ H) as (l1 & l2 & -> & Hl).
  rewrite prun_app. cbn [fst]. unfold at_state. rewrite <- Hl.
  assert (firstn (List.length l1) (l1 ++ o :: l2) = l1) as ->.
  { rewrite firstn_app, Nat.sub_diag. cbn. rewrite firstn_all, app_nil_r. reflexivity. }
  rewrite nth_error_app2; rewrite prun_length; [|lia]. rewrite Nat.sub_diag. cbn.
  destruct (pstep c uuid o (snd (prun c uuid l1 ([], 0)))) as [ev s1]. destruct (prun c uuid l2 s1). reflexivity.
Qed.
Lemma op_at c uuid ops evs i ev : phistory c uuid ops evs -> nth_error evs i = Some ev ->
  exists o, nth_error ops i = Some o.
Proof.
  intros H E. destruct (nth_error ops i) as [o|] eqn:Eo; [eauto|]. exfalso. apply nth_error_None in Eo.
  assert (nth_error evs i <> None) as N by congruence. apply nth_error_Some in N. unfold phistory in H. subst evs.
  rewrite prun_length in N. lia.
Qed.
Lemma during c uuid ops i j (P : par_db * nat -> Prop) :
  (forall k o, i <= k < j -> nth_error ops k = Some o -> P (at_state c uuid ops k) -> P (snd (pstep c uuid o (at_state c uuid ops k)))) ->
  i <= j -> j <= List.length ops -> P (at_state c uuid ops i) -> P (at_state c uuid ops j).
Proof.
  intros St. induction j as [|j IH]; intros Hij Hj Pi.
  - assert (i = 0) as -> by lia. exact Pi.
  - destruct (Nat.eq_dec i (S j)) as [->|N]; [exact Pi|].
    destruct (nth_error ops j) as [o|] eqn:E; [|apply nth_error_None in E; lia].
    rewrite (at_next _ _ _ _ _ E). apply St; [lia|exact E|]. apply IH; try lia; [|exact Pi].
    intros k o' Hk. apply St. lia.
Qed.

(** What the chain does to the pushed requests. *)
Definition shrinks (db db' : par_db) : Prop :=
  (NoDup (dkeys db) -> NoDup (dkeys db')) /\ (forall k v, dget db' k = Some v -> dget db k = Some v) /\
  (forall k, In k (dkeys db') -> In k (dkeys db)).
Definition gone (urn : string) (db : par_db) : Prop := dget db urn = None \/ dget db urn = Some [].

Lemma shrinks_refl db : shrinks db db. Proof. repeat split; auto. Qed.
Lemma shrinks_trans a b d : shrinks a b -> shrinks b d -> shrinks a d.
Proof. intros (A1 & A2 & A3) (B1 & B2 & B3). repeat split; auto. Qed.
Lemma gone_shrinks urn a b : shrinks a b -> gone urn a -> gone urn b.
Proof.
  intros (_ & S & _) G. unfold gone in *. destruct (dget b urn) as [v|] eqn:E; [|now left].
  apply S in E. right. destruct G; congruence.
Qed.

Lemma del_shrinks db k : NoDup (dkeys db) -> shrinks db (ddel db k).
Proof.
  intros N. split; [intros _; now apply ddel_keys_nodup|]. split.
  - intros k' v H. destruct (String.eqb k' k) eqn:E.
    + apply seqb_eq in E. subst. rewrite dget_ddel_same in H by exact N. discriminate.
    + apply seqb_neq in E. now rewrite dget_ddel_other in H by exact E.
  - intros k' H. eapply ddel_keys_incl, H.
Qed.

Ltac hget H x v Ed :=
  match type of H with context [match ?m with Some _ => _ | None => _ end] =>
    match m with @dget _ ?d ?k => change m with (@dget request d k) in H; destruct (@dget request d k) as [[|x v]|] eqn:Ed end end.
Lemma dru_shrinks c cid rq db r db' : NoDup (dkeys db) -> do_request_uri c cid rq db = (r, db') -> shrinks db db'.
Proof.
  intros N H. unfold do_request_uri in H.
  destruct (dget rq "request_uri") as [[|a u]|]; try (unfold ret in H; injection H as _ <-; apply shrinks_refl).
  unfold bind, get_st in H. destruct (pc_par c && _).
  - hget H x v Ed; try (unfold raise in H; injection H as _ <-; apply shrinks_refl).
    unfold put_st, ret in H. cbn in H. injection H as _ <-. now apply del_shrinks.
  - destruct (negb _); [unfold raise in H; injection H as _ <-; apply shrinks_refl|].
    destruct (dget (pc_cdb c) cid); [|unfold raise in H; injection H as _ <-; apply shrinks_refl].
    match type of H with context [if negb ?b then _ else _] => destruct b end;
      cbn [negb] in H; [|unfold raise in H; injection H as _ <-; apply shrinks_refl].
    unfold lift in H. destruct (pc_fetch c cid _); unfold ret in H; injection H as _ <-; apply shrinks_refl.
Qed.
Lemma chain_shrinks c cid ms : forall p db r db', NoDup (dkeys db) -> run_chain c cid ms p db = (r, db') -> shrinks db db'.
Proof.
  induction ms as [|m ms IH]; intros p db r db' N H; cbn [run_chain] in H.
  - unfold ret in H. injection H as _ <-. apply shrinks_refl.
  - destruct p as [rq|x]; [|unfold ret in H; injection H as _ <-; apply shrinks_refl].
    unfold bind at 1 in H. destruct m.
    + unfold bind at 1 in H. destruct (do_request_uri c cid rq db) as [[q|x] db1] eqn:D.
      * unfold ret in H at 1. pose proof (dru_shrinks _ _ _ _ _ _ N D) as S1. eapply shrinks_trans; [exact S1|].
        eapply IH, H. apply S1, N.
      * injection H as _ <-. eapply dru_shrinks, D. exact N.
    + unfold lift in H. destruct (post_parse_request _ _ _) as [p'|x]; [eapply IH, H; exact N|].
      injection H as _ <-. apply shrinks_refl.
Qed.

(** Naming a URN removes it, and an absent one raises. *)
Lemma starts_urn s : starts_with "urn:uuid:" (append "urn:uuid:" s) = true.
Proof. apply starts_with_spec. eauto. Qed.

Lemma dru_names c cid rq db urn r db' : pc_par c = true -> starts_with "urn:uuid:" urn = true ->
  NoDup (dkeys db) -> dget rq "request_uri" = Some urn -> do_request_uri c cid rq db = (r, db') ->
  gone urn db' /\ (gone urn db -> r = Raise ValueError /\ db' = db) /\
  (forall v, dget db urn = Some v -> v <> [] -> r = Ok v /\ db' = ddel db urn).
Proof.
  intros Pc Su N E H. unfold do_request_uri in H. rewrite E in H.
  destruct urn as [|a u]; [discriminate|]. unfold bind, get_st in H. rewrite Pc, Su in H. cbn [andb] in H.
  hget H x v Ed.
  - unfold raise in H. injection H as <- <-. split; [right; exact Ed|]. split; [auto|]. intros w Ew W. congruence.
  - unfold put_st, ret in H. cbn in H. injection H as <- <-. split; [left; now apply dget_ddel_same|]. split.
    + intros [G|G]; congruence.
    + intros w Ew _. assert (w = x :: v) as -> by congruence. auto.
  - unfold raise in H. injection H as <- <-. split; [left; exact Ed|]. split; [auto|]. intros w Ew. congruence.
Qed.

Lemma first_names c cid ms rq db urn r db' : pc_par c = true -> starts_with "urn:uuid:" urn = true ->
  NoDup (dkeys db) -> dget rq "request_uri" = Some urn -> run_chain c cid (MRequestUri :: ms) (PGood rq) db = (r, db') ->
  gone urn db' /\ (gone urn db -> r = Raise ValueError /\ db' = db) /\
  (forall v, dget db urn = Some v -> v <> [] -> run_chain c cid ms (PGood v) (ddel db urn) = (r, db')).
Proof.
  intros Pc Su N E H. cbn [run_chain] in H. unfold bind at 1 2 in H.
  destruct (do_request_uri c cid rq db) as [q db1] eqn:D.
  destruct (dru_names _ _ _ _ _ _ _ Pc Su N E D) as (G & Gr & Gs).
  pose proof (dru_shrinks _ _ _ _ _ _ N D) as S1. destruct q as [q|x].
  - unfold ret in H at 1. split; [|split].
    + eapply gone_shrinks; [|exact G]. eapply chain_shrinks; [|exact H]. apply S1, N.
    + intros K. destruct (Gr K). discriminate.
    + intros v Ev Nv. destruct (Gs v Ev Nv) as [[= <-] ->]. exact H.
  - injection H as <- <-. split; [exact G|]. split.
    + intros K. destruct (Gr K) as [[= ->] ->]. auto.
    + intros v Ev Nv. destruct (Gs v Ev Nv). discriminate.
Qed.

(** The invariant of all histories. *)
Definition pinv (uuid : nat -> string) (s : par_db * nat) : Prop :=
  NoDup (dkeys (fst s)) /\ forall k, In k (dkeys (fst s)) -> exists m, m < snd s /\ k = urn_of uuid m.

Lemma process_db urn p db r db' : par_process urn p db = (r, db') ->
  exists v, db' = dset db urn v /\ (p = PGood v \/ exists code, v = [("error", code)] /\ p = PErr code /\ r = Raise KeyError) /\
    (r = Ok urn \/ r = Raise KeyError).
Proof.
  unfold par_process, bind, get_st. destruct p as [rq|code].
  - unfold put_st. destruct (dget rq "redirect_uri"); intros H; injection H as <- <-; (exists rq; auto).
  - unfold put_st, raise. intros H; injection H as <- <-. exists [("error", code)]. split; [reflexivity|]. split; [right; eauto|auto].
Qed.
Lemma push_db c urn cid rq db r db' : par_push c urn cid rq db = (r, db') ->
  (exists x, run_chain c cid chain_par (PGood rq) db = (Raise x, db') /\ r = Raise x) \/
  (exists p db1, run_chain c cid chain_par (PGood rq) db = (Ok p, db1) /\ par_process urn p db1 = (r, db')).
Proof.
  unfold par_push, bind at 1. destruct (run_chain c cid chain_par (PGood rq) db) as [[p|x] db1].
  - intros H. right. eauto.
  - intros H. injection H as <- <-. left. eauto.
Qed.

Lemma dset_keys {V} (d : dict V) k v x : In x (dkeys (dset d k v)) -> x = k \/ In x (dkeys d).
Proof.
  intros H. destruct (String.eqb x k) eqn:E; [left; now apply seqb_eq|right]. apply seqb_neq in E.
  destruct (dget (dset d k v) x) as [y|] eqn:G; [|apply dget_None_keys in G; contradiction].
  rewrite dget_dset_other in G by exact E. eapply dget_Some_keys, G.
Qed.

Lemma pstep_inv c uuid o s : pinv uuid s -> pinv uuid (snd (pstep c uuid o s)).
Proof.
  destruct s as [db n]. intros [N K]. cbn [fst snd] in *. destruct o as [cid rq|oidc cid rq]; cbn [pstep fst snd].
  - destruct (par_push c (urn_of uuid n) cid rq db) as [r db'] eqn:P. cbn [snd fst].
    apply push_db in P as [(x & C & _)|(p & db1 & C & P)].
    + apply chain_shrinks in C as (S1 & S2 & S3); [|exact N]. split; [exact (S1 N)|]. cbn [fst snd].
      intros k I. destruct (K k (S3 _ I)) as (m & Hm & ->). exists m. split; [lia|reflexivity].
    + apply chain_shrinks in C as (S1 & S2 & S3); [|exact N]. apply process_db in P as (v & -> & _).
      split; [apply dset_keys_nodup; auto|]. cbn [fst snd]. intros k I. apply dset_keys in I as [->|I].
      * exists n. split; [lia|reflexivity].
      * destruct (K k (S3 _ I)) as (m & Hm & ->). exists m. split; [lia|reflexivity].
  - destruct (authz_parse c oidc cid rq db) as [r db'] eqn:P. cbn [snd fst]. unfold authz_parse in P.
    apply chain_shrinks in P as (S1 & S2 & S3); [|exact N]. split; [exact (S1 N)|]. cbn [fst snd]. auto.
Qed.
Lemma at_inv c uuid ops i : pinv uuid (at_state c uuid ops i).
Proof.
  unfold at_state. generalize (firstn i ops). clear.
  assert (G : forall l s, pinv uuid s -> pinv uuid (snd (prun c uuid l s))).
  { induction l as [|o l IH]; intros s I; [exact I|]. cbn [prun]. pose proof (pstep_inv c uuid o s I) as I1.
    destruct (pstep c uuid o s) as [ev s1]. specialize (IH s1 I1). destruct (prun c uuid l s1). exact IH. }
  intros l. apply G. split; [constructor|intros k []].
Qed.

(** The counter grows. *)
Lemma count_mono c uuid ops i j : i <= j -> j <= List.length ops ->
  snd (at_state c uuid ops i) <= snd (at_state c uuid ops j).
Proof.
  intros Hij Hj. apply (during c uuid ops i j (fun s => snd (at_state c uuid ops i) <= snd s)); auto.
  intros k o _ _ H. destruct o; cbn [pstep].
  - destruct (par_push _ _ _ _ _). cbn. lia.
  - destruct (authz_parse _ _ _ _ _). exact H.
Qed.

(** Once an issued URN is gone, it stays gone. *)
Lemma step_gone c uuid o s n : (forall a b, uuid a = uuid b -> a = b) -> pinv uuid s -> n < snd s ->
  gone (urn_of uuid n) (fst s) -> gone (urn_of uuid n) (fst (snd (pstep c uuid o s))).
Proof.
  intros Inj [N K] Hn G. destruct s as [db m]. cbn [fst snd] in *. destruct o as [cid rq|oidc cid rq]; cbn [pstep fst snd].
  - destruct (par_push c (urn_of uuid m) cid rq db) as [r db'] eqn:P. cbn [fst snd].
    apply push_db in P as [(x & C & _)|(p & db1 & C & P)].
    + eapply gone_shrinks; [eapply chain_shrinks; [exact N|exact C]|exact G].
    + apply chain_shrinks in C as S1; [|exact N]. apply process_db in P as (v & -> & _).
      assert (urn_of uuid n <> urn_of uuid m) as Ne.
      { unfold urn_of. intros E. apply sapp_inj_l in E. apply Inj in E. lia. }
      pose proof (gone_shrinks _ _ _ S1 G) as G1. unfold gone in *. now rewrite dget_dset_other.
  - destruct (authz_parse c oidc cid rq db) as [r db'] eqn:P. cbn [snd fst]. unfold authz_parse in P.
    eapply gone_shrinks; [eapply chain_shrinks; [exact N|exact P]|exact G].
Qed.

Lemma step_names c uuid o s urn : pc_par c = true -> starts_with "urn:uuid:" urn = true -> pinv uuid s -> 
  (forall n, urn_of uuid n = urn -> n < snd s) ->
  names o urn -> gone urn (fst (snd (pstep c uuid o s))) /\
    (gone urn (fst s) -> unresolved (fst (pstep c uuid o s))).
Proof.
  intros Pc Su [N K] Hn Nm. destruct s as [db m]. cbn [fst snd] in *. unfold names in Nm.
  destruct o as [cid rq|oidc cid rq]; cbn [pstep fst snd req_of] in *.
  - destruct (par_push c (urn_of uuid m) cid rq db) as [r db'] eqn:P. cbn [fst snd].
    apply push_db in P as [(x & C & ->)|(p & db1 & C & P)].
    + destruct (first_names _ _ _ _ _ _ _ _ Pc Su N Nm C) as (G & Gr & _). split; [exact G|].
      intros Gd. destruct (Gr Gd) as [[= ->] _]. now left.
    + destruct (first_names _ _ _ _ _ _ _ _ Pc Su N Nm C) as (G & Gr & _). split.
      * apply process_db in P as (v & -> & _).
        assert (urn <> urn_of uuid m) as Ne by (intros E; symmetry in E; apply Hn in E; lia).
        unfold gone in *. now rewrite dget_dset_other.
      * intros Gd. destruct (Gr Gd). discriminate.
  - destruct (authz_parse c oidc cid rq db) as [r db'] eqn:P. cbn [snd fst]. unfold authz_parse in P.
    assert (X : exists ms, (if oidc then chain_oidc else chain_oauth2) = MRequestUri :: ms) by (destruct oidc; eexists; reflexivity).
    destruct X as [ms X]. rewrite X in P.
    destruct (first_names _ _ _ _ _ _ _ _ Pc Su N Nm P) as (G & Gr & _). split; [exact G|].
    intros Gd. destruct (Gr Gd) as [-> _]. now right.
Qed.

(** What a push hands out. *)
Lemma push_urn c urn0 cid rq db urn db' : par_push c urn0 cid rq db = (Ok urn, db') ->
  urn = urn0 /\ exists r db1, run_chain c cid chain_par (PGood rq) db = (Ok (PGood r), db1) /\ db' = dset db1 urn r.
Proof.
  intros P. apply push_db in P as [(x & _ & E)|(p & db1 & C & P)]; [discriminate|].
  apply process_db in P as (v & -> & H & R). destruct R as [[= ->]|]; [|discriminate].
  destruct H as [->|(code & _ & _ & E)]; [|discriminate]. eauto.
Qed.

Lemma issued_at c uuid ops evs i urn : phistory c uuid ops evs -> nth_error evs i = Some (EvPush (Ok urn)) ->
  exists cid rq r db1, nth_error ops i = Some (PPush cid rq) /\ urn = urn_of uuid (snd (at_state c uuid ops i)) /\
    run_chain c cid chain_par (PGood rq) (fst (at_state c uuid ops i)) = (Ok (PGood r), db1) /\
    at_state c uuid ops (S i) = (dset db1 urn r, S (snd (at_state c uuid ops i))).
Proof.
  intros H E. destruct (op_at _ _ _ _ _ _ H E) as [o Eo]. pose proof (ev_at _ _ _ _ _ _ H Eo) as Ev.
  pose proof (at_next c uuid _ _ _ Eo) as Nx. rewrite E in Ev. destruct o as [cid rq|oidc cid rq]; cbn [pstep] in Ev, Nx.
  - destruct (par_push c _ cid rq _) as [r db'] eqn:P. cbn [fst snd] in Ev, Nx. injection Ev as <-.
    apply push_urn in P as (-> & r & db1 & C & ->). exists cid, rq, r, db1. auto.
  - destruct (authz_parse _ _ _ _ _). discriminate.
Qed.

Theorem used_once c uuid ops evs i j k urn oj ok' : pc_par c = true -> (forall a b, uuid a = uuid b -> a = b) ->
  phistory c uuid ops evs -> nth_error evs i = Some (EvPush (Ok urn)) -> i < j < k ->
  nth_error ops j = Some oj -> names oj urn -> nth_error ops k = Some ok' -> names ok' urn ->
  exists ev, nth_error evs k = Some ev /\ unresolved ev.
Proof.
  intros Pc Inj H E Hijk Ej Nj Ek Nk. destruct (issued_at _ _ _ _ _ _ H E) as (cid & rq & r & db1 & Ei & Eu & C & Nx).
  set (n := snd (at_state c uuid ops i)) in *.
  assert (Lk : k < List.length ops) by (apply nth_error_Some; congruence).
  assert (Hn : forall q, i < q -> q <= List.length ops -> n < snd (at_state c uuid ops q)).
  { intros q H1 H2. pose proof (count_mono c uuid ops (S i) q ltac:(lia) H2) as M1. rewrite Nx in M1. cbn in M1. lia. }
  assert (Su : starts_with "urn:uuid:" urn = true) by (rewrite Eu; apply starts_urn).
  assert (Hu : forall q, i < q -> q <= List.length ops -> forall a, urn_of uuid a = urn -> a < snd (at_state c uuid ops q)).
  { intros q H1 H2 a Ea. rewrite Eu in Ea. unfold urn_of in Ea. apply sapp_inj_l, Inj in Ea. subst a. auto. }
  assert (G : gone urn (fst (at_state c uuid ops (S j)))).
  { rewrite (at_next _ _ _ _ _ Ej). apply step_names; auto. - apply at_inv. - apply Hu; lia. }
  assert (Gk : gone urn (fst (at_state c uuid ops k))).
  { apply (during c uuid ops (S j) k (fun s => gone urn (fst s))); try lia; [|exact G].
    intros q o Hq Eo Gq. rewrite Eu in *. apply step_gone; auto; [apply at_inv|]. apply Hn; lia. }
  eexists. split; [apply (ev_at _ _ _ _ _ _ H Ek)|]. apply (step_names c uuid ok' _ urn); auto; [apply at_inv|apply Hu; lia].
Qed.

(** ** Exactly the request that was pushed *)
Definition tame (rq : request) : Prop :=
  forall u, dget rq "request_uri" = Some u -> starts_with "urn:uuid:" u = false.
Definition stored_tame (db : par_db) : Prop := forall k r, dget db k = Some r -> tame r.

Lemma dget_dupdate_none {V} (v : dict V) k : forall d, dget v k = None -> dget (dupdate d v) k = dget d k.
Proof.
  unfold dupdate. induction v as [|[k' x] v IH]; intros d H; [reflexivity|]. cbn in H. cbn [fold_left fst snd].
  destruct (String.eqb k k') eqn:E; [discriminate|]. rewrite IH by exact H. apply dget_dset_other. now apply seqb_neq.
Qed.

(** A chain touches only the URN its request names. *)
Lemma dru_keeps c cid rq db r db' urn : pc_par c = true -> no_nesting c -> stored_tame db -> NoDup (dkeys db) ->
  starts_with "urn:uuid:" urn = true -> dget rq "request_uri" <> Some urn -> do_request_uri c cid rq db = (r, db') ->
  dget db' urn = dget db urn /\ (forall q, r = Ok q -> tame q).
Proof.
  intros Pc Nn St N Su Nm H. unfold do_request_uri in H.
  destruct (dget rq "request_uri") as [[|a u]|] eqn:E;
    [unfold ret in H; injection H as <- <-; split; [reflexivity|]; intros q [= <-] w Ew; rewrite E in Ew; injection Ew as <-; reflexivity
    | |unfold ret in H; injection H as <- <-; split; [reflexivity|]; intros q [= <-] w Ew; congruence].
  unfold bind, get_st in H. rewrite Pc in H. cbn [andb] in H. destruct (starts_with "urn:uuid:" (String a u)) eqn:Es.
  - hget H x v Ed;
      try (unfold raise in H; injection H as <- <-; split; [reflexivity|discriminate]).
    unfold put_st, ret in H. cbn in H. injection H as <- <-. split; [apply dget_ddel_other; congruence|]. intros q [= <-]. eapply St, Ed.
  - destruct (negb _); [unfold raise in H; injection H as <- <-; split; [reflexivity|discriminate]|].
    destruct (dget (pc_cdb c) cid); [|unfold raise in H; injection H as <- <-; split; [reflexivity|discriminate]].
    match type of H with context [if negb ?b then _ else _] => destruct b end;
      cbn [negb] in H; [|unfold raise in H; injection H as <- <-; split; [reflexivity|discriminate]].
    unfold lift in H. destruct (pc_fetch c cid _) as [v|x] eqn:Ef; unfold ret in H; injection H as <- <-; split; try reflexivity; try discriminate.
    intros q [= <-] w Ew. rewrite dget_dupdate_none in Ew by (eapply Nn, Ef). rewrite E in Ew. injection Ew as <-. exact Es.
Qed.

Lemma tame_set rq u : tame rq -> tame (dset rq "redirect_uri" u).
Proof. intros T w E. rewrite dget_dset_other in E by discriminate. auto. Qed.

Lemma shrinks_tame a b : shrinks a b -> stored_tame a -> stored_tame b.
Proof. intros (_ & S & _) T k r E. eapply T, S, E. Qed.

Lemma tame_not rq urn : tame rq -> starts_with "urn:uuid:" urn = true -> dget rq "request_uri" <> Some urn.
Proof. intros T S E. apply T in E. congruence. Qed.

Lemma chain_keeps c cid ms urn : pc_par c = true -> no_nesting c -> starts_with "urn:uuid:" urn = true ->
  forall rq db r db', stored_tame db -> NoDup (dkeys db) -> dget rq "request_uri" <> Some urn ->
  run_chain c cid ms (PGood rq) db = (r, db') ->
  dget db' urn = dget db urn /\ (forall q, r = Ok (PGood q) -> (tame rq \/ exists ms', ms = MRequestUri :: ms') -> tame q).
Proof.
  intros Pc Nn Su. induction ms as [|m ms IH]; intros rq db r db' St N Nm H; cbn [run_chain] in H.
  - unfold ret in H. injection H as <- <-. split; [reflexivity|]. intros q [= <-] [T|[ms' X]]; [exact T|discriminate].
  - unfold bind at 1 in H. destruct m.
    + unfold bind at 1 in H. destruct (do_request_uri c cid rq db) as [[q|x] db1] eqn:D.
      * destruct (dru_keeps _ _ _ _ _ _ _ Pc Nn St N Su Nm D) as [K T]. specialize (T q eq_refl).
        pose proof (dru_shrinks _ _ _ _ _ _ N D) as S1. unfold ret in H at 1.
        destruct (IH q db1 r db') as [K2 T2]; auto.
        { eapply shrinks_tame; eauto. } { apply S1, N. } { now apply tame_not. }
        split; [congruence|]. intros q' E' _. apply T2; auto.
      * destruct (dru_keeps _ _ _ _ _ _ _ Pc Nn St N Su Nm D) as [K _]. injection H as <- <-. split; [exact K|discriminate].
    + unfold lift in H. destruct (post_parse_request (pc_cdb c) cid rq) as [[q|x]|x] eqn:E.
      * apply post_parse_good in E as (info & rt & u & _ & _ & _ & _ & ->).
        destruct (IH (dset rq "redirect_uri" u) db r db') as [K T]; auto.
        { rewrite dget_dset_other by discriminate. exact Nm. }
        split; [exact K|]. intros q' E' [T0|[ms' X]]; [|discriminate]. apply T; auto. left. now apply tame_set.
      * assert (r = Ok (PErr x) /\ db' = db) as [-> ->] by (destruct ms; unfold run_chain, ret in H; injection H; auto).
        split; [reflexivity|discriminate].
      * injection H as <- <-. split; [reflexivity|discriminate].
Qed.

Lemma pstep_tame c uuid o s : pc_par c = true -> no_nesting c -> pinv uuid s -> stored_tame (fst s) ->
  stored_tame (fst (snd (pstep c uuid o s))).
Proof.
  intros Pc Nn [N K] St. destruct s as [db n]. cbn [fst snd] in *. destruct o as [cid rq|oidc cid rq]; cbn [pstep fst snd].
  - destruct (par_push c (urn_of uuid n) cid rq db) as [r db'] eqn:P. cbn [fst snd].
    apply push_db in P as [(x & C & _)|(p & db1 & C & P)].
    + eapply shrinks_tame; [eapply chain_shrinks; [exact N|exact C]|exact St].
    + pose proof (chain_shrinks _ _ _ _ _ _ _ N C) as S1. apply process_db in P as (v & -> & Hp & _).
      assert (Tv : tame v).
      { destruct Hp as [->|(code & -> & _)].
        - (* some URN the request does not name *)
          assert (X : exists w, starts_with "urn:uuid:" w = true /\ dget rq "request_uri" <> Some w).
          { destruct (dget rq "request_uri") as [u|]; [|exists "urn:uuid:"; split; [reflexivity|discriminate]].
            exists (append "urn:uuid:" u). split; [apply starts_urn|]. intros [= E]. 
            assert (String.length u = 9 + String.length u) as L by (rewrite E at 1; reflexivity). lia. }
          destruct X as (w & Sw & Nw).
          destruct (chain_keeps c cid chain_par w Pc Nn Sw rq db (Ok (PGood v)) db1) as [_ T]; auto.
          apply T; auto. right. eexists. reflexivity.
        - intros u E. discriminate. }
      intros k r0 E. destruct (String.eqb k (urn_of uuid n)) eqn:Ek.
      * apply seqb_eq in Ek. subst k. rewrite dget_dset_same in E. injection E as <-. exact Tv.
      * apply seqb_neq in Ek. rewrite dget_dset_other in E by exact Ek. eapply shrinks_tame; eauto.
  - destruct (authz_parse c oidc cid rq db) as [r db'] eqn:P. cbn [snd fst]. unfold authz_parse in P.
    eapply shrinks_tame; [eapply chain_shrinks; [exact N|exact P]|exact St].
Qed.
Lemma at_tame c uuid ops i : pc_par c = true -> no_nesting c -> i <= List.length ops -> stored_tame (fst (at_state c uuid ops i)).
Proof.
  intros Pc Nn Hi. apply (during c uuid ops 0 i (fun s => stored_tame (fst s))); try lia.
  - intros k o _ _ T. apply pstep_tame; auto. apply at_inv.
  - intros k r E. discriminate.
Qed.

Lemma step_keeps c uuid o s urn : pc_par c = true -> no_nesting c -> pinv uuid s -> stored_tame (fst s) ->
  starts_with "urn:uuid:" urn = true -> (forall n, urn_of uuid n = urn -> n < snd s) -> ~ names o urn ->
  dget (fst (snd (pstep c uuid o s))) urn = dget (fst s) urn.
Proof.
  intros Pc Nn [N K] St Su Hn Nm. destruct s as [db m]. cbn [fst snd] in *. unfold names in Nm.
  destruct o as [cid rq|oidc cid rq]; cbn [pstep fst snd req_of] in *.
  - destruct (par_push c (urn_of uuid m) cid rq db) as [r db'] eqn:P. cbn [fst snd].
    apply push_db in P as [(x & C & ->)|(p & db1 & C & P)].
    + eapply chain_keeps in C as [C _]; eauto.
    + eapply chain_keeps in C as [C _]; eauto. apply process_db in P as (v & -> & _).
      rewrite dget_dset_other; [exact C|]. intros E. symmetry in E. apply Hn in E. lia.
  - destruct (authz_parse c oidc cid rq db) as [r db'] eqn:P. cbn [snd fst]. unfold authz_parse in P.
    eapply chain_keeps in P as [P _]; eauto.
Qed.

(** A request without a request URI is treated the same in every state. *)
Lemma chain_indep c cid ms : forall rq db db2, dget rq "request_uri" = None ->
  fst (run_chain c cid ms (PGood rq) db) = fst (run_chain c cid ms (PGood rq) db2).
Proof.
  induction ms as [|m ms IH]; intros rq db db2 N; cbn [run_chain]; [reflexivity|].
  unfold bind. destruct m.
  - rewrite !dru_none by exact N. unfold ret. apply IH, N.
  - unfold lift. destruct (post_parse_request (pc_cdb c) cid rq) as [[q|x]|x] eqn:E; [| |reflexivity].
    + apply IH. apply post_parse_good in E as (info & rt & u & _ & _ & _ & _ & ->).
      rewrite dget_dset_other by discriminate. exact N.
    + destruct ms; reflexivity.
Qed.

Lemma dset_same {V} (d : dict V) k v : dget d k = Some v -> dset d k v = d.
Proof.
  induction d as [|[k' v'] d IH]; cbn; [discriminate|]. destruct (String.eqb k k') eqn:E.
  - intros [= ->]. apply seqb_eq in E. now subst.
  - intros H. now rewrite IH.
Qed.
Lemma post_parse_same cdb cid rq r u : post_parse_request cdb cid rq = Ok (PGood r) -> dget rq "redirect_uri" = Some u -> r = rq.
Proof.
  intros H E. apply post_parse_good in H as (info & rt & v & _ & _ & _ & G & ->). unfold get_uri in G. rewrite E in G.
  destruct (verify_uri cdb rq "redirect_uri" None); [|discriminate]. injection G as ->. now apply dset_same.
Qed.
Lemma chain_same c cid ms u : forall rq db r db', dget rq "request_uri" = None -> dget rq "redirect_uri" = Some u ->
  run_chain c cid ms (PGood rq) db = (Ok (PGood r), db') -> r = rq.
Proof.
  induction ms as [|m ms IH]; intros rq db r db' N E H; cbn [run_chain] in H.
  - unfold ret in H. now injection H.
  - unfold bind at 1 in H. destruct m.
    + unfold bind at 1 in H. rewrite dru_none in H by exact N. unfold ret in H at 1. eapply IH, H; auto.
    + unfold lift in H. destruct (post_parse_request (pc_cdb c) cid rq) as [[q|x]|x] eqn:Ep; [| |discriminate].
      * pose proof (post_parse_same _ _ _ _ _ Ep E) as ->. eapply IH, H; auto.
      * destruct ms; unfold run_chain, ret in H; discriminate.
Qed.

Theorem stands_for c uuid ops evs i j urn cid rq oidc cid' rq' :
  pc_par c = true -> no_nesting c -> (forall a b, uuid a = uuid b -> a = b) -> phistory c uuid ops evs ->
  nth_error ops i = Some (PPush cid rq) -> nth_error evs i = Some (EvPush (Ok urn)) -> dget rq "request_uri" = None ->
  i < j -> nth_error ops j = Some (PUse oidc cid' rq') -> dget rq' "request_uri" = Some urn ->
  (forall k o, i < k < j -> nth_error ops k = Some o -> ~ names o urn) ->
  exists r, (forall k, k <> "redirect_uri" -> dget r k = dget rq k) /\
    (dget rq "redirect_uri" <> None -> r = rq) /\
    nth_error evs j = Some (EvUse (fst (authz_parse c oidc cid' r []))).
Proof.
  intros Pc Nn Inj H Eo E Nr Hij Ej Nj Btw.
  destruct (issued_at _ _ _ _ _ _ H E) as (cid0 & rq0 & r & db1 & Ei & Eu & C & Nx).
  assert (cid0 = cid) as -> by congruence. assert (rq0 = rq) as -> by congruence.
  set (n := snd (at_state c uuid ops i)) in *.
  assert (Lj : j < List.length ops) by (apply nth_error_Some; congruence).
  assert (Su : starts_with "urn:uuid:" urn = true) by (rewrite Eu; apply starts_urn).
  assert (Hu : forall q, i < q -> q <= List.length ops -> forall a, urn_of uuid a = urn -> a < snd (at_state c uuid ops q)).
  { intros q H1 H2 a Ea. rewrite Eu in Ea. unfold urn_of in Ea. apply sapp_inj_l, Inj in Ea. subst a.
    pose proof (count_mono c uuid ops (S i) q ltac:(lia) H2) as M1. rewrite Nx in M1. cbn in M1. lia. }
  destruct (chain_own _ _ _ _ _ _ _ Nr C) as [-> Own].
  assert (G : dget (fst (at_state c uuid ops j)) urn = Some r).
  { apply (during c uuid ops (S i) j (fun s => dget (fst s) urn = Some r)); try lia.
    - intros k o Hk Ek Pk. rewrite step_keeps; auto; [apply at_inv|apply at_tame; auto; lia|apply Hu; lia|eapply Btw; [|exact Ek]; lia].
    - rewrite Nx. apply dget_dset_same. }
  exists r. split; [exact Own|]. split.
  { intros D. destruct (dget rq "redirect_uri") as [u|] eqn:Ed; [|congruence]. eapply chain_same, C; eauto. }
  rewrite (ev_at _ _ _ _ _ _ H Ej). f_equal. cbn [pstep]. destruct (at_inv c uuid ops j) as [Nd _].
  destruct (at_state c uuid ops j) as [db m]. cbn [fst snd] in *.
  destruct (authz_parse c oidc cid' rq' db) as [x db'] eqn:P. cbn [fst]. f_equal. unfold authz_parse in *.
  assert (X : exists ms, (if oidc then chain_oidc else chain_oauth2) = MRequestUri :: ms) by (destruct oidc; eexists; reflexivity).
  destruct X as [ms X]. rewrite X in *.
  assert (Nr' : dget r "request_uri" = None) by (rewrite Own by discriminate; exact Nr).
  assert (Ne : r <> []).
  { unfold chain_par in C. intros ->. apply (chain_last c cid [MRequestUri; MPostParse]) in C as [q C].
    apply post_parse_good in C as (? & ? & u & _ & _ & _ & _ & C).
    assert (dget (dset q "redirect_uri" u) "redirect_uri" = Some u) as K by apply dget_dset_same. rewrite <- C in K. discriminate. }
  destruct (first_names _ _ _ _ _ _ _ _ Pc Su Nd Nj P) as (_ & _ & F). specialize (F r G Ne).
  cbn [run_chain]. unfold bind at 1 2. rewrite dru_none by exact Nr'. unfold ret at 1.
  rewrite (chain_indep c cid' ms r [] (ddel db urn) Nr'). now rewrite F.
Qed.

(** ** Unknown URNs *)
Definition issued (evs : list pev) (j : nat) (urn : string) : Prop :=
  exists i, i < j /\ nth_error evs i = Some (EvPush (Ok urn)).
Definition junk (r : request) : Prop := exists code, r = [("error", code)].

(** Everything stored was handed out or is an error message. *)
Lemma stored_issued c uuid ops evs j : phistory c uuid ops evs -> j <= List.length ops ->
  forall urn r, dget (fst (at_state c uuid ops j)) urn = Some r -> issued evs j urn \/ junk r.
Proof.
  intros H. induction j as [|j IH]; intros Hj urn r E; [discriminate|].
  destruct (nth_error ops j) as [o|] eqn:Eo; [|apply nth_error_None in Eo; lia].
  pose proof (ev_at _ _ _ _ _ _ H Eo) as Ev. rewrite (at_next _ _ _ _ _ Eo) in E. pose proof (at_inv c uuid ops j) as [N _].
  assert (Up : issued evs j urn -> issued evs (S j) urn) by (intros (i & Hi & Ei); exists i; split; [lia|exact Ei]).
  specialize (IH ltac:(lia)). destruct (at_state c uuid ops j) as [db m]. cbn [fst snd] in *.
  destruct o as [cid rq|oidc cid rq]; cbn [pstep fst snd] in *.
  - destruct (par_push c (urn_of uuid m) cid rq db) as [x db'] eqn:P. cbn [fst snd] in *.
    apply push_db in P as [(y & C & ->)|(p & db1 & C & P)].
    + apply chain_shrinks in C as (_ & S2 & _); [|exact N]. destruct (IH _ _ (S2 _ _ E)); auto.
    + pose proof C as C0. pose proof P as P0.
      apply chain_shrinks in C as (_ & S2 & _); [|exact N]. apply process_db in P as (v & -> & Hp & Hr).
      destruct (String.eqb urn (urn_of uuid m)) eqn:Ek.
      * apply seqb_eq in Ek. subst urn. rewrite dget_dset_same in E. injection E as ->.
        destruct Hp as [->|(code & -> & _)]; [|right; eexists; reflexivity].
        destruct Hr as [->|Hr]; [left; exists j; split; [lia|exact Ev]|].
        (* a good request always has a redirect URI *)
        exfalso. apply (chain_last c cid [MRequestUri; MPostParse]) in C0 as [q C0].
        apply post_parse_good in C0 as (? & ? & u & _ & _ & _ & _ & ->). unfold par_process, bind, get_st, put_st in P0.
        cbn in P0. rewrite dget_dset_same in P0. unfold ret in P0. congruence.
      * apply seqb_neq in Ek. rewrite dget_dset_other in E by exact Ek. destruct (IH _ _ (S2 _ _ E)); auto.
  - destruct (authz_parse c oidc cid rq db) as [x db'] eqn:P. cbn [snd fst] in *. unfold authz_parse in P.
    apply chain_shrinks in P as (_ & S2 & _); [|exact N]. destruct (IH _ _ (S2 _ _ E)); auto.
Qed.

Theorem unknown_refused c uuid ops evs j o urn : pc_par c = true -> phistory c uuid ops evs ->
  nth_error ops j = Some o -> names o urn -> starts_with "urn:uuid:" urn = true ->
  (forall i, i < j -> nth_error evs i <> Some (EvPush (Ok urn))) ->
  exists ev, nth_error evs j = Some ev /\ refused ev.
Proof.
  intros Pc H Eo Nm Su Un. assert (Lj : j < List.length ops) by (apply nth_error_Some; congruence).
  eexists. split; [apply (ev_at _ _ _ _ _ _ H Eo)|].
  pose proof (stored_issued _ _ _ _ j H ltac:(lia)) as St. destruct (at_inv c uuid ops j) as [N _].
  destruct (at_state c uuid ops j) as [db m]. cbn [fst snd] in *.
  assert (R : forall cid rq ms r db', dget rq "request_uri" = Some urn ->
    run_chain c cid (MRequestUri :: MPostParse :: ms) (PGood rq) db = (r, db') -> exists x, r = Raise x).
  { intros cid rq ms r db' E C. destruct (first_names _ _ _ _ _ _ _ _ Pc Su N E C) as (_ & G & F).
    destruct (dget db urn) as [v|] eqn:Ed.
    - destruct (St _ _ Ed) as [(i & Hi & Ei)|[code ->]]; [exfalso; eapply Un; eauto|].
      specialize (F _ eq_refl ltac:(discriminate)). cbn [run_chain] in F. unfold bind, lift in F.
      unfold post_parse_request in F. cbn in F. destruct (dget (pc_cdb c) cid); injection F as <- _; eauto.
    - destruct (G (or_introl Ed)) as [-> _]. eauto. }
  unfold names in Nm. destruct o as [cid rq|oidc cid rq]; cbn [pstep fst snd req_of] in *.
  - destruct (par_push c (urn_of uuid m) cid rq db) as [r db'] eqn:P. cbn [fst].
    apply push_db in P as [(x & C & ->)|(p & db1 & C & P)]; [left; eauto|].
    destruct (R _ _ _ _ _ Nm C). discriminate.
  - destruct (authz_parse c oidc cid rq db) as [r db'] eqn:P. cbn [fst]. unfold authz_parse in P. right.
    destruct oidc; destruct (R _ _ _ _ _ Nm P) as [x ->]; eauto.
Qed.
