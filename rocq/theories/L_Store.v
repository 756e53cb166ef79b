(** Proofs about the session store. *)
From Verif Require Import M_Base M_Types M_Codec M_Grant M_Env M_Session
  S_Codec S_Store L_Base L_Monad L_Codec L_Grant.

Notation key := session_key.

Definition hp (s : st) (l : nat) : option obj := nth_error (s_heap s) l.
Definition dbk (s : st) (p : list string) : option nat := dget (s_db s) (key p).

Lemma str_true_ne' s : str_true s = true <-> s <> "".
Proof. destruct s; cbn; split; congruence. Qed.

Lemma valid_key_inj p q : valid_path p -> valid_path q -> key p = key q -> p = q.
Proof. intros [A [_ [_ B]]] [C [_ [_ D]]]. now apply session_key_inj. Qed.

Lemma key1 u : key [u] = u.
Proof. reflexivity. Qed.

Lemma separable_prefix p r : separable (p ++ r) -> separable p.
Proof.
  intros [A B]. split.
  - intros x Hx. apply A, in_or_app. now left.
  - intros pre x y post E. apply (B pre x y (post ++ r)). rewrite E, <- app_assoc. reflexivity.
Qed.

Lemma valid_prefix p r : p <> [] -> valid_path (p ++ r) -> valid_path p.
Proof.
  intros N [_ [L [E S]]]. split; [exact N|]. split; [rewrite app_length in L; lia|].
  split; [intros H; apply E, in_or_app; now left|]. now apply separable_prefix in S.
Qed.

Lemma valid_2 u c g : valid_path [u; c; g] -> valid_path [u; c].
Proof. intros H. now apply (valid_prefix [u; c] [g]). Qed.
Lemma valid_1 u c : valid_path [u; c] -> valid_path [u].
Proof. intros H. now apply (valid_prefix [u] [c]). Qed.

(** The cases of a valid path. *)
Lemma valid_cases p : valid_path p ->
  (exists u, p = [u] /\ u <> "")
  \/ (exists u c, p = [u; c] /\ u <> "" /\ c <> "")
  \/ (exists u c g, p = [u; c; g] /\ u <> "" /\ c <> "" /\ g <> "").
Proof.
  intros [N [L [E _]]]. destruct p as [|u [|c [|g [|? ?]]]]; cbn in *; try congruence; try lia.
  - left. exists u. intuition congruence.
  - right; left. exists u, c. intuition congruence.
  - right; right. exists u, c, g. intuition congruence.
Qed.

(** ** The invariant *)
Record tree_ok (isuser : string -> Prop) (s : st) : Prop := {
  tk_nodup : NoDup (dkeys (s_db s));
  (* what is stored exists, and is not None *)
  tk_some : forall p l, valid_path p -> dbk s p = Some l ->
    exists o, hp s l = Some o /\ o <> ONone;
  (* users and clients have infos, the rest are grants *)
  tk_user : forall u l, valid_path [u] -> isuser u -> dbk s [u] = Some l ->
    exists i, hp s l = Some (OInfo i);
  tk_client : forall u c l, valid_path [u; c] -> dbk s [u; c] = Some l ->
    isuser u /\ exists i, hp s l = Some (OInfo i);
  tk_grant : forall u c g l, valid_path [u; c; g] -> dbk s [u; c; g] = Some l ->
    exists gr, hp s l = Some (OGrant gr);
  (* children are listed, and only children *)
  tk_sub1 : forall u c l, valid_path [u; c] -> dbk s [u; c] = Some l ->
    exists lu i, dbk s [u] = Some lu /\ hp s lu = Some (OInfo i) /\ In c (si_sub i);
  tk_sub2 : forall u c g l, valid_path [u; c; g] -> dbk s [u; c; g] = Some l ->
    exists lc i, dbk s [u; c] = Some lc /\ hp s lc = Some (OInfo i) /\ In g (si_sub i);
  tk_list1 : forall u lu i c, valid_path [u] -> isuser u -> dbk s [u] = Some lu ->
    hp s lu = Some (OInfo i) -> In c (si_sub i) ->
    valid_path [u; c] /\ exists l, dbk s [u; c] = Some l;
  tk_list2 : forall u c lc i g, valid_path [u; c] -> dbk s [u; c] = Some lc ->
    hp s lc = Some (OInfo i) -> In g (si_sub i) ->
    valid_path [u; c; g] /\ exists l, dbk s [u; c; g] = Some l;
  (* no two user paths share a record *)
  tk_inj : forall p q l, user_path isuser p -> user_path isuser q ->
    dbk s p = Some l -> dbk s q = Some l -> p = q;
  (* children are listed once *)
  tk_subnd : forall p l i, user_path isuser p -> dbk s p = Some l -> hp s l = Some (OInfo i) ->
    NoDup (si_sub i)
}.

(** ** Reading *)
Lemma db_lookup_run k s : db_lookup k s = (Ok (dget (s_db s) k), s).
Proof. reflexivity. Qed.

Lemma deref_run l s o : hp s l = Some o -> deref l s = (Ok o, s).
Proof. unfold hp, deref. now intros ->. Qed.

Lemma subordinate_run l s i : hp s l = Some (OInfo i) -> subordinate l s = (Ok (si_sub i), s).
Proof. intros H. unfold subordinate, bind. rewrite (deref_run _ _ _ H). reflexivity. Qed.

(** Reading never changes the state. *)
Lemma deref_state l s : snd (deref l s) = s.
Proof. unfold deref. destruct (nth_error _ _); reflexivity. Qed.
Lemma subordinate_state l s : snd (subordinate l s) = s.
Proof.
  unfold subordinate, bind. pose proof (deref_state l s). destruct (deref l s) as [[o|x] s1]; cbn in *; subst.
  - destruct o; reflexivity.
  - reflexivity.
Qed.

Lemma bind_state {S A B} (m : M S A) (f : A -> M S B) s :
  snd (m s) = s -> (forall a s0, snd (f a s0) = s0) -> snd (bind m f s) = s.
Proof.
  intros H F. unfold bind. destruct (m s) as [[a|x] s1] eqn:E; cbn in *; subst; [apply F|reflexivity].
Qed.

Lemma db_get_state p s : snd (db_get p s) = s.
Proof.
  unfold db_get. apply bind_state; [reflexivity|]. clear s. intros [[u c] g] s.
  apply bind_state; [reflexivity|]. clear s. intros [ul|] s; [|reflexivity].
  apply bind_state; [apply deref_state|]. clear s. intros o s.
  assert (X : forall s, snd ((match c with
          | None => ret ul
          | Some c0 =>
              sub <- subordinate ul ;;
              if negb (smem c0 sub) then raise ValueError
              else
                oc <- db_lookup (session_key [u; c0]) ;;
                match oc with
                | None => raise NoSuchClientSession
                | Some cl =>
                    match g with
                    | None => ret cl
                    | Some g0 =>
                        csub <- subordinate cl ;;
                        if negb (smem g0 csub) then raise ValueError
                        else
                          og <- db_lookup (session_key [u; c0; g0]) ;;
                          match og with
                          | None => raise NoSuchGrant
                          | Some gl => ret gl
                          end
                    end
                end
          end) s) = s).
  { clear s. intros s. destruct c as [c|]; [|reflexivity].
    apply bind_state; [apply subordinate_state|]. clear s. intros sub s.
    destruct (negb (smem c sub)); [reflexivity|].
    apply bind_state; [reflexivity|]. clear s. intros [cl|] s; [|reflexivity].
    destruct g as [g|]; [|reflexivity].
    apply bind_state; [apply subordinate_state|]. clear s. intros csub s.
    destruct (negb (smem g csub)); [reflexivity|].
    apply bind_state; [reflexivity|]. clear s. intros [gl|] s; reflexivity. }
  destruct o; [apply X|apply X|reflexivity].
Qed.

Lemma db_get_cases p s : (exists l, reads s p l) \/ absent s p.
Proof.
  unfold reads, absent. pose proof (db_get_state p s). destruct (db_get p s) as [[l|x] s1]; cbn in *; subst.
  - left. eauto.
  - right. eauto.
Qed.

Section Tree.
  Variable isuser : string -> Prop.

  Lemma db_get_iff s p l : tree_ok isuser s -> valid_path p -> (reads s p l <-> dbk s p = Some l).
  Proof.
    intros T V. unfold reads. destruct (valid_cases p V) as [[u [-> Hu]]|[[u [c [-> [Hu Hc]]]]|[u [c [g [-> [Hu [Hc Hg]]]]]]]].
    - unfold db_get, dbk. cbn [eval_path]. unfold bind at 1, lift. unfold bind, db_lookup. cbn [session_key].
      rewrite key1. destruct (dget (s_db s) u) as [ul|] eqn:D; [|split; discriminate].
      destruct (tk_some _ _ T [u] ul V D) as [o [Ho No]]. rewrite (deref_run _ _ _ Ho).
      destruct o; try congruence; unfold ret; split; congruence.
    - unfold db_get, dbk. cbn [eval_path]. unfold bind at 1, lift. unfold bind at 1, db_lookup at 1.
      pose proof (valid_1 _ _ V) as V1.
      split.
      + destruct (dget (s_db s) u) as [ul|] eqn:D; [|discriminate].
        destruct (tk_some _ _ T [u] ul V1 D) as [o [Ho No]]. unfold bind at 1. rewrite (deref_run _ _ _ Ho).
        destruct o as [i|g|]; try congruence.
        * unfold bind at 1. rewrite (subordinate_run _ _ _ Ho).
          destruct (negb (smem c (si_sub i))); [discriminate|]. unfold bind, db_lookup.
          destruct (dget (s_db s) (key [u; c])); [|discriminate]. unfold ret. congruence.
        * unfold bind, subordinate, bind. rewrite (deref_run _ _ _ Ho). discriminate.
      + intros D. destruct (tk_sub1 _ _ T u c l V D) as [lu [i [D1 [H1 I]]]].
        unfold dbk in D1. rewrite key1 in D1. rewrite D1. unfold bind at 1.
        rewrite (deref_run _ _ _ H1). unfold bind at 1. rewrite (subordinate_run _ _ _ H1).
        apply smem_In in I. rewrite I. cbn [negb]. unfold bind, db_lookup. rewrite D. reflexivity.
    - unfold db_get, dbk. cbn [eval_path]. unfold bind at 1, lift. unfold bind at 1, db_lookup at 1.
      pose proof (valid_2 _ _ _ V) as V2. pose proof (valid_1 _ _ V2) as V1.
      split.
      + destruct (dget (s_db s) u) as [ul|] eqn:D; [|discriminate].
        destruct (tk_some _ _ T [u] ul V1 D) as [o [Ho No]]. unfold bind at 1. rewrite (deref_run _ _ _ Ho).
        destruct o as [i|g0|]; try congruence.
        * unfold bind at 1. rewrite (subordinate_run _ _ _ Ho).
          destruct (negb (smem c (si_sub i))); [discriminate|]. unfold bind at 1, db_lookup at 1.
          destruct (dget (s_db s) (key [u; c])) as [cl|] eqn:D2; [|discriminate].
          destruct (tk_client _ _ T u c cl V2 D2) as [_ [i2 H2]].
          unfold bind at 1. rewrite (subordinate_run _ _ _ H2).
          destruct (negb (smem g (si_sub i2))); [discriminate|]. unfold bind, db_lookup.
          destruct (dget (s_db s) (key [u; c; g])); [|discriminate]. unfold ret. congruence.
        * unfold bind, subordinate, bind. rewrite (deref_run _ _ _ Ho). discriminate.
      + intros D. destruct (tk_sub2 _ _ T u c g l V D) as [lc [i2 [D2 [H2 I2]]]].
        destruct (tk_sub1 _ _ T u c lc V2 D2) as [lu [i [D1 [H1 I]]]].
        unfold dbk in D1, D2. rewrite key1 in D1. rewrite D1. unfold bind at 1.
        rewrite (deref_run _ _ _ H1). unfold bind at 1. rewrite (subordinate_run _ _ _ H1).
        apply smem_In in I. rewrite I. cbn [negb]. unfold bind at 1, db_lookup at 1. rewrite D2.
        unfold bind at 1. rewrite (subordinate_run _ _ _ H2).
        apply smem_In in I2. rewrite I2. cbn [negb]. unfold bind, db_lookup. rewrite D. reflexivity.
  Qed.

  Lemma absent_iff s p : tree_ok isuser s -> valid_path p -> (absent s p <-> dbk s p = None).
  Proof.
    intros T V. split.
    - intros [x H]. destruct (dbk s p) as [l|] eqn:D; [|reflexivity].
      apply (db_get_iff s p l T V) in D. unfold reads in D. congruence.
    - intros D. destruct (db_get_cases p s) as [[l H]|H]; [|exact H].
      apply (db_get_iff s p l T V) in H. congruence.
  Qed.
End Tree.

(** ** Writing *)

Lemma si_add_sub x i y : In y (si_sub (si_add x i)) <-> y = x \/ In y (si_sub i).
Proof.
  unfold si_add. destruct (smem x (si_sub i)) eqn:E.
  - apply smem_In in E. intuition congruence.
  - cbn. rewrite in_app_iff. cbn. intuition congruence.
Qed.

Lemma si_add_nodup x i : NoDup (si_sub i) -> NoDup (si_sub (si_add x i)).
Proof.
  unfold si_add. destruct (smem x (si_sub i)) eqn:E; [auto|]. apply smem_false in E. cbn.
  intros N. apply NoDup_Add with (a := x) (l := si_sub i).
  - rewrite <- (app_nil_r (si_sub i)) at 1. apply Add_app.
  - now split.
Qed.

(** The effect of making sure that the info under key [k] exists and lists
    [x]. *)
Definition ensure (k x : string) (i : sinfo) : M st unit :=
  ci <- db_get_or k i ;;
  sub <- subordinate ci ;;
  if smem x sub then ret tt else upd_obj ci (on_info (si_add x)) ;; db_put k ci.

Record ensured (k x : string) (i : sinfo) (s s' : st) (l : nat) (i0 : sinfo) : Prop := {
  en_key : dget (s_db s') k = Some l;
  en_other : forall k', k' <> k -> dget (s_db s') k' = dget (s_db s) k';
  en_old : (dget (s_db s) k = Some l /\ hp s l = Some (OInfo i0))
           \/ (dget (s_db s) k = None /\ l = List.length (s_heap s) /\ i0 = i);
  en_new : hp s' l = Some (OInfo (si_add x i0));
  en_frame : forall l', l' <> l -> hp s' l' = hp s l';
  en_nodup : NoDup (dkeys (s_db s)) -> NoDup (dkeys (s_db s'));
  en_len : List.length (s_heap s) <= List.length (s_heap s');
  en_rest : s_ctr s' = s_ctr s /\ s_always s' = s_always s
}.

Lemma hp_upd_same s l f d c a : hp (mk_st (upd_nth l f (s_heap s)) d c a) l = option_map f (hp s l).
Proof. unfold hp. cbn. apply nth_upd_nth_same. Qed.
Lemma hp_upd_other s l l' f d c a : l' <> l -> hp (mk_st (upd_nth l f (s_heap s)) d c a) l' = hp s l'.
Proof. intros N. unfold hp. cbn. apply nth_upd_nth_other. congruence. Qed.
Lemma hp_app_same s o d c a : hp (mk_st (s_heap s ++ [o]) d c a) (List.length (s_heap s)) = Some o.
Proof. unfold hp. cbn. rewrite nth_error_app2, Nat.sub_diag by lia. reflexivity. Qed.
Lemma hp_app_other s o d c a l : l <> List.length (s_heap s) ->
  hp (mk_st (s_heap s ++ [o]) d c a) l = hp s l.
Proof.
  intros N. unfold hp. cbn. destruct (Nat.lt_ge_cases l (List.length (s_heap s))).
  - now apply nth_error_app1.
  - rewrite nth_error_app2 by lia. destruct (l - List.length (s_heap s)) eqn:E; [lia|]. cbn.
    destruct n; symmetry; apply nth_error_None; lia.
Qed.
Lemma hp_lt s l o : hp s l = Some o -> l < List.length (s_heap s).
Proof. intros H. apply nth_error_Some. unfold hp in H. congruence. Qed.

Lemma dset_self {V} (d : dict V) k v : dget d k = Some v -> dset d k v = d.
Proof.
  induction d as [|[k' v'] r IH]; cbn; [discriminate|].
  destruct (String.eqb k k') eqn:E.
  - now intros [= ->].
  - intros H. now rewrite IH.
Qed.

Lemma ensure_run k x i s :
  (forall l, dget (s_db s) k = Some l -> exists i0, hp s l = Some (OInfo i0)) -> si_sub i = [] ->
  exists s' l i0, ensure k x i s = (Ok tt, s') /\ ensured k x i s s' l i0.
Proof.
  intros Hk Hi. unfold ensure, db_get_or, db_lookup. unfold bind at 1. unfold bind at 1.
  destruct (dget (s_db s) k) as [l|] eqn:D.
  - destruct (Hk l eq_refl) as [i0 H0]. cbn [ret]. unfold bind at 1. unfold ret at 1.
    rewrite (subordinate_run _ _ _ H0). destruct (smem x (si_sub i0)) eqn:S.
    + exists s, l, i0. split; [reflexivity|]. split; auto. unfold si_add. now rewrite S.
    + eexists _, l, i0. split; [reflexivity|]. split; cbn.
      * apply dget_dset_same.
      * intros k' N. now apply dget_dset_other.
      * now left.
      * rewrite hp_upd_same, H0. reflexivity.
      * intros l' N. now apply hp_upd_other.
      * apply dset_keys_nodup.
      * rewrite upd_nth_length. lia.
      * auto.
  - unfold new_obj. set (s1 := mk_st (s_heap s ++ [OInfo i]) (s_db s) (s_ctr s) (s_always s)).
    assert (H1 : hp s1 (List.length (s_heap s)) = Some (OInfo i)) by apply hp_app_same.
    unfold bind at 1. rewrite (subordinate_run _ _ _ H1). rewrite Hi. cbn [smem existsb].
    eexists _, (List.length (s_heap s)), i. split; [reflexivity|]. split; cbn.
    + apply dget_dset_same.
    + intros k' N. now apply dget_dset_other.
    + now right.
    + change (s_heap s ++ [OInfo i]) with (s_heap s1). rewrite hp_upd_same, H1. reflexivity.
    + intros l' N. change (s_heap s ++ [OInfo i]) with (s_heap s1). rewrite hp_upd_other by exact N.
      now apply hp_app_other.
    + apply dset_keys_nodup.
    + rewrite upd_nth_length, app_length. lia.
    + auto.
Qed.

Lemma db_set1_run u v s :
  exists s', db_set [u] v s = (Ok tt, s') /\ s_db s' = dset (s_db s) u v
    /\ (forall l, l < List.length (s_heap s) -> hp s' l = hp s l)
    /\ List.length (s_heap s) <= List.length (s_heap s')
    /\ s_ctr s' = s_ctr s /\ s_always s' = s_always s.
Proof.
  unfold db_set. cbn [eval_path]. unfold bind at 1, lift. cbn [ostr_true]. unfold bind at 1, ret at 1.
  unfold bind at 1, ret at 1. unfold bind at 1. unfold db_get_or, bind at 1, db_lookup.
  destruct (dget (s_db s) u) as [l|] eqn:D.
  - unfold ret, db_put. eexists. split; [reflexivity|]. cbn. repeat split; auto.
  - unfold new_obj, db_put. eexists. split; [reflexivity|]. cbn. repeat split.
    + intros l Hl. unfold hp. cbn. now rewrite nth_error_app1.
    + rewrite app_length. lia.
Qed.

Lemma db_set2_eq u c v s : c <> "" ->
  db_set [u; c] v s =
  bind (db_get_or (key [u; c]) (new_client_info ""))
    (fun _ => db_put (key [u; c]) v ;; ensure u c (new_user_info "")) s.
Proof.
  intros Hc. unfold db_set. cbn [eval_path]. unfold bind at 1, lift. cbn [ostr_true ostr].
  unfold bind at 1, ret at 1. apply str_true_ne' in Hc. rewrite Hc. cbn [negb].
  unfold bind. destruct (db_get_or (key [u; c]) (new_client_info "") s) as [[ci|x] s1]; [|reflexivity].
  unfold db_put, ensure, bind. cbv beta. reflexivity.
Qed.

Lemma db_set3_eq u c g v s : c <> "" -> g <> "" ->
  db_set [u; c; g] v s =
  (db_put (key [u; c; g]) v ;; ensure (key [u; c]) g (new_client_info "") ;;
   ensure u c (new_user_info "")) s.
Proof.
  intros Hc Hg. unfold db_set. cbn [eval_path]. unfold bind at 1, lift. cbn [ostr_true ostr].
  apply str_true_ne' in Hc, Hg. rewrite Hc, Hg. cbn [negb].
  unfold ensure, bind, db_put. set (s1 := mk_st _ _ _ _).
  destruct (db_get_or (key [u; c]) (new_client_info "") s1) as [[ci|x] s2]; [|reflexivity].
  destruct (subordinate ci s2) as [[sub|x] s3]; [|reflexivity].
  destruct (smem g sub); [reflexivity|].
  destruct (upd_obj ci (on_info (si_add g)) s3) as [[[]|x] s4]; reflexivity.
Qed.

(** ** The invariant, seen through paths and locations only *)
Section Abs.
  Variable isuser : string -> Prop.

  Record abs_ok (D : list string -> option nat) (H : nat -> option obj) : Prop := {
    ak_some : forall p l, valid_path p -> D p = Some l ->
      exists o, H l = Some o /\ o <> ONone;
    ak_user : forall u l, valid_path [u] -> isuser u -> D [u] = Some l ->
      exists i, H l = Some (OInfo i);
    ak_client : forall u c l, valid_path [u; c] -> D [u; c] = Some l ->
      isuser u /\ exists i, H l = Some (OInfo i);
    ak_grant : forall u c g l, valid_path [u; c; g] -> D [u; c; g] = Some l ->
      exists gr, H l = Some (OGrant gr);
    ak_sub1 : forall u c l, valid_path [u; c] -> D [u; c] = Some l ->
      exists lu i, D [u] = Some lu /\ H lu = Some (OInfo i) /\ In c (si_sub i);
    ak_sub2 : forall u c g l, valid_path [u; c; g] -> D [u; c; g] = Some l ->
      exists lc i, D [u; c] = Some lc /\ H lc = Some (OInfo i) /\ In g (si_sub i);
    ak_list1 : forall u lu i c, valid_path [u] -> isuser u -> D [u] = Some lu ->
      H lu = Some (OInfo i) -> In c (si_sub i) ->
      valid_path [u; c] /\ exists l, D [u; c] = Some l;
    ak_list2 : forall u c lc i g, valid_path [u; c] -> D [u; c] = Some lc ->
      H lc = Some (OInfo i) -> In g (si_sub i) ->
      valid_path [u; c; g] /\ exists l, D [u; c; g] = Some l;
    ak_inj : forall p q l, user_path isuser p -> user_path isuser q ->
      D p = Some l -> D q = Some l -> p = q;
    ak_subnd : forall p l i, user_path isuser p -> D p = Some l -> H l = Some (OInfo i) ->
      NoDup (si_sub i)
  }.

  Lemma tree_abs s : tree_ok isuser s <-> NoDup (dkeys (s_db s)) /\ abs_ok (dbk s) (hp s).
  Proof.
    split.
    - intros []. split; [assumption|]. constructor; assumption.
    - intros [N []]. constructor; assumption.
  Qed.

  (** A stored client or grant is a user's. *)
  Lemma ak_root2 D H u c l : abs_ok D H -> valid_path [u; c] -> D [u; c] = Some l ->
    user_path isuser [u; c].
  Proof. intros A V E. split; [exact V|]. cbn. now destruct (ak_client _ _ A u c l V E). Qed.
  Lemma ak_root3 D H u c g l : abs_ok D H -> valid_path [u; c; g] -> D [u; c; g] = Some l ->
    user_path isuser [u; c; g].
  Proof.
    intros A V E. split; [exact V|]. cbn. destruct (ak_sub2 _ _ A u c g l V E) as [lc [i [X _]]].
    now destruct (ak_client _ _ A u c lc (valid_2 _ _ _ V) X).
  Qed.

  (** Changing the contents of records, not their children. *)
  Lemma abs_same D H D' H' : abs_ok D H -> (forall p, valid_path p -> D' p = D p) ->
    (forall p l o, valid_path p -> D p = Some l -> H l = Some o ->
       exists o', H' l = Some o' /\ same_children o o') ->
    abs_ok D' H'.
  Proof.
    intros A ED EH.
    assert (HI : forall p l i, valid_path p -> D p = Some l -> H l = Some (OInfo i) ->
              exists i', H' l = Some (OInfo i') /\ si_sub i' = si_sub i).
    { intros p l i V E0 E. destruct (EH p l _ V E0 E) as [[i'| |] [E' S]]; cbn in S; try contradiction. eauto. }
    assert (HG : forall p l g, valid_path p -> D p = Some l -> H l = Some (OGrant g) ->
              exists g', H' l = Some (OGrant g')).
    { intros p l g V E0 E. destruct (EH p l _ V E0 E) as [[i'|g'|] [E' S]]; cbn in S; try contradiction. eauto. }
    assert (HB : forall p l i', valid_path p -> D p = Some l -> H' l = Some (OInfo i') ->
              exists i, H l = Some (OInfo i) /\ si_sub i' = si_sub i).
    { intros p l i' V E E'. destruct (ak_some _ _ A p l V E) as [o [Ho No]].
      destruct (EH p l o V E Ho) as [o' [E2 S]]. rewrite E2 in E'. injection E' as ->.
      destruct o as [i| |]; cbn in S; try contradiction. eauto. }
    constructor.
    - intros p l V E. rewrite (ED _ V) in E. destruct (ak_some _ _ A p l V E) as [o [Ho No]].
      destruct (EH p l o V E Ho) as [o' [E' S]]. exists o'. split; [exact E'|].
      destruct o, o'; cbn in S; try contradiction; congruence.
    - intros u l V U E. rewrite (ED _ V) in E. destruct (ak_user _ _ A u l V U E) as [i Hi].
      destruct (HI _ _ _ V E Hi) as [i' [X _]]. eauto.
    - intros u c l V E. rewrite (ED _ V) in E. destruct (ak_client _ _ A u c l V E) as [U [i Hi]].
      split; [exact U|]. destruct (HI _ _ _ V E Hi) as [i' [X _]]. eauto.
    - intros u c g l V E. rewrite (ED _ V) in E. destruct (ak_grant _ _ A u c g l V E) as [gr Hg]. eauto.
    - intros u c l V E. rewrite (ED _ V) in E. destruct (ak_sub1 _ _ A u c l V E) as [lu [i [X [Y Z]]]].
      destruct (HI _ _ _ (valid_1 _ _ V) X Y) as [i' [Y' S]]. exists lu, i'. rewrite (ED _ (valid_1 _ _ V)), S. auto.
    - intros u c g l V E. rewrite (ED _ V) in E. destruct (ak_sub2 _ _ A u c g l V E) as [lu [i [X [Y Z]]]].
      destruct (HI _ _ _ (valid_2 _ _ _ V) X Y) as [i' [Y' S]]. exists lu, i'. rewrite (ED _ (valid_2 _ _ _ V)), S. auto.
    - intros u lu i c V U E E' I. rewrite (ED _ V) in E. destruct (HB _ _ _ V E E') as [i0 [E0 S]].
      rewrite S in I. destruct (ak_list1 _ _ A u lu i0 c V U E E0 I) as [W [l L]].
      split; [exact W|]. exists l. now rewrite (ED _ W).
    - intros u c lc i g V E E' I. rewrite (ED _ V) in E. destruct (HB _ _ _ V E E') as [i0 [E0 S]].
      rewrite S in I. destruct (ak_list2 _ _ A u c lc i0 g V E E0 I) as [W [l L]].
      split; [exact W|]. exists l. now rewrite (ED _ W).
    - intros p q l Vp Vq E1 E2. rewrite (ED _ (proj1 Vp)) in E1. rewrite (ED _ (proj1 Vq)) in E2.
      exact (ak_inj _ _ A p q l Vp Vq E1 E2).
    - intros p l i V E E'. rewrite (ED _ (proj1 V)) in E. destruct (HB _ _ _ (proj1 V) E E') as [i0 [E0 S]].
      rewrite S. exact (ak_subnd _ _ A p l i0 V E E0).
  Qed.

  Definition pupd (D : list string -> option nat) (p : list string) (l : nat) (q : list string)
    : option nat := if list_eq_dec string_dec q p then Some l else D q.
  Definition hupd (H : nat -> option obj) (l : nat) (o : obj) (l' : nat) : option obj :=
    if Nat.eq_dec l' l then Some o else H l'.

  Lemma pupd_same D p l : pupd D p l p = Some l.
  Proof. unfold pupd. destruct (list_eq_dec string_dec p p); congruence. Qed.
  Lemma pupd_other D p l q : q <> p -> pupd D p l q = D q.
  Proof. unfold pupd. destruct (list_eq_dec string_dec q p); congruence. Qed.
  Lemma hupd_same H l o : hupd H l o l = Some o.
  Proof. unfold hupd. destruct (Nat.eq_dec l l); congruence. Qed.
  Lemma hupd_other H l o l' : l' <> l -> hupd H l o l' = H l'.
  Proof. unfold hupd. destruct (Nat.eq_dec l' l); congruence. Qed.

  Definition unused (D : list string -> option nat) (l : nat) : Prop :=
    forall p, valid_path p -> D p <> Some l.

  Ltac pcase q p E :=
    destruct (list_eq_dec string_dec q p) as [E|E];
    [ try discriminate E | rewrite (pupd_other _ _ _ _ E) in * ].

  (** A first record for a user. *)
  Lemma abs_root D H u l i : abs_ok D H -> valid_path [u] -> isuser u -> D [u] = None ->
    unused D l -> si_sub i = [] ->
    abs_ok (pupd D [u] l) (hupd H l (OInfo i)).
  Proof.
    intros A V U N F S.
    assert (K : forall p l', valid_path p -> D p = Some l' -> hupd H l (OInfo i) l' = H l').
    { intros p l' Vp E. apply hupd_other. intros ->. exact (F p Vp E). }
    assert (NC : forall c l', valid_path [u; c] -> D [u; c] = Some l' -> False).
    { intros c l' Vc E. destruct (ak_sub1 _ _ A _ _ _ Vc E) as [? [? [X _]]]. congruence. }
    constructor.
    - intros p l' Vp E. pcase p [u] Ep.
      + subst. rewrite pupd_same in E. injection E as <-. rewrite hupd_same. eexists. split; [reflexivity|discriminate].
      + rewrite (K p l' Vp E). exact (ak_some _ _ A p l' Vp E).
    - intros x l' Vx Ux E. pcase [x] [u] Ep.
      + rewrite Ep, pupd_same in E. injection E as <-. rewrite hupd_same. eauto.
      + rewrite (K _ l' Vx E). exact (ak_user _ _ A x l' Vx Ux E).
    - intros x c l' Vx E. pcase [x; c] [u] Ep.
      rewrite (K _ l' Vx E). exact (ak_client _ _ A x c l' Vx E).
    - intros x c g l' Vx E. pcase [x; c; g] [u] Ep.
      rewrite (K _ l' Vx E). exact (ak_grant _ _ A x c g l' Vx E).
    - intros x c l' Vx E. pcase [x; c] [u] Ep.
      pcase [x] [u] Eqq.
      + injection Eqq as ->. destruct (NC _ _ Vx E).
      + destruct (ak_sub1 _ _ A x c l' Vx E) as [lu [j [X [Y Z]]]]. exists lu, j.
        rewrite (K _ _ (valid_1 _ _ Vx) X). auto.
    - intros x c g l' Vx E. pcase [x; c; g] [u] Ep. pcase [x; c] [u] Eqq.
      destruct (ak_sub2 _ _ A x c g l' Vx E) as [lu [j [X [Y Z]]]]. exists lu, j.
      rewrite (K _ _ (valid_2 _ _ _ Vx) X). auto.
    - intros x lx j c Vx Ux E Ej I. pcase [x] [u] Ep.
      + rewrite Ep, pupd_same in E. injection E as <-. rewrite hupd_same in Ej. injection Ej as <-.
        rewrite S in I. destruct I.
      + rewrite (K _ _ Vx E) in Ej.
        destruct (ak_list1 _ _ A x lx j c Vx Ux E Ej I) as [W [l' L]]. split; [exact W|].
        exists l'. rewrite pupd_other by discriminate. exact L.
    - intros x c lx j g Vx E Ej I. pcase [x; c] [u] Ep.
      rewrite (K _ _ Vx E) in Ej.
      destruct (ak_list2 _ _ A x c lx j g Vx E Ej I) as [W [l' L]]. split; [exact W|].
      exists l'. rewrite pupd_other by discriminate. exact L.
    - intros p q l' Vp Vq Ep Eqq.
      pcase p [u] Xp; pcase q [u] Xq; try congruence.
      + subst. rewrite pupd_same in Ep. injection Ep as <-. destruct (F q (proj1 Vq) Eqq).
      + subst. rewrite pupd_same in Eqq. injection Eqq as <-. destruct (F p (proj1 Vp) Ep).
      + exact (ak_inj _ _ A p q l' Vp Vq Ep Eqq).
    - intros p l' j Vp Ep Ej. pcase p [u] Xp.
      + subst. rewrite pupd_same in Ep. injection Ep as <-. rewrite hupd_same in Ej.
        injection Ej as <-. rewrite S. constructor.
      + rewrite (K _ _ (proj1 Vp) Ep) in Ej. exact (ak_subnd _ _ A p l' j Vp Ep Ej).
  Qed.

  (** A record under a key that is not a user's. *)
  Lemma abs_alias D H x l o : abs_ok D H -> valid_path [x] -> ~ isuser x ->
    H l = Some o -> o <> ONone -> abs_ok (pupd D [x] l) H.
  Proof.
    intros A V U G No.
    assert (NC : forall c l', valid_path [x; c] -> D [x; c] = Some l' -> False).
    { intros c l' Vc E. destruct (ak_client _ _ A _ _ _ Vc E) as [X _]. contradiction. }
    assert (NX : forall p, user_path isuser p -> p <> [x]).
    { intros p [_ Up] ->. contradiction. }
    constructor.
    - intros p l' Vp E. pcase p [x] Ep.
      + subst. rewrite pupd_same in E. injection E as <-. eauto.
      + exact (ak_some _ _ A p l' Vp E).
    - intros y l' Vx Ux E. pcase [y] [x] Ep; [congruence|]. exact (ak_user _ _ A y l' Vx Ux E).
    - intros y c l' Vx E. pcase [y; c] [x] Ep. exact (ak_client _ _ A y c l' Vx E).
    - intros y c g' l' Vx E. pcase [y; c; g'] [x] Ep. exact (ak_grant _ _ A y c g' l' Vx E).
    - intros y c l' Vx E. pcase [y; c] [x] Ep. pcase [y] [x] Eqq.
      + injection Eqq as ->. destruct (NC _ _ Vx E).
      + exact (ak_sub1 _ _ A y c l' Vx E).
    - intros y c g' l' Vx E. pcase [y; c; g'] [x] Ep. pcase [y; c] [x] Eqq.
      exact (ak_sub2 _ _ A y c g' l' Vx E).
    - intros y lx j c Vx Ux E Ej I. pcase [y] [x] Ep; [congruence|].
      destruct (ak_list1 _ _ A y lx j c Vx Ux E Ej I) as [W [l' L]]. split; [exact W|].
      exists l'. rewrite pupd_other by discriminate. exact L.
    - intros y c lx j g' Vx E Ej I. pcase [y; c] [x] Ep.
      destruct (ak_list2 _ _ A y c lx j g' Vx E Ej I) as [W [l' L]]. split; [exact W|].
      exists l'. rewrite pupd_other by discriminate. exact L.
    - intros p q l' Vp Vq Ep Eqq. rewrite pupd_other in Ep, Eqq by auto.
      exact (ak_inj _ _ A p q l' Vp Vq Ep Eqq).
    - intros p l' j Vp Ep Ej. rewrite pupd_other in Ep by auto.
      exact (ak_subnd _ _ A p l' j Vp Ep Ej).
  Qed.

  (** A first record of a client under an existing user. *)
  Lemma abs_client D H u c lu iu l i : abs_ok D H -> valid_path [u; c] -> isuser u ->
    D [u] = Some lu -> H lu = Some (OInfo iu) -> D [u; c] = None ->
    unused D l -> si_sub i = [] ->
    abs_ok (pupd D [u; c] l) (hupd (hupd H l (OInfo i)) lu (OInfo (si_add c iu))).
  Proof.
    intros A V U Du Hu N F S. pose proof (valid_1 _ _ V) as V1.
    assert (R1 : user_path isuser [u]) by (split; auto).
    assert (Nl : l <> lu) by (intros ->; exact (F _ V1 Du)).
    set (H' := hupd (hupd H l (OInfo i)) lu (OInfo (si_add c iu))).
    assert (Hlu : H' lu = Some (OInfo (si_add c iu))) by apply hupd_same.
    assert (Hl : H' l = Some (OInfo i)).
    { unfold H'. rewrite hupd_other by congruence. apply hupd_same. }
    assert (K0 : forall p l', valid_path p -> D p = Some l' -> l' <> lu -> H' l' = H l').
    { intros p l' Vp E Nn. unfold H'. rewrite hupd_other by exact Nn.
      apply hupd_other. intros ->. exact (F p Vp E). }
    assert (K : forall p l', user_path isuser p -> p <> [u] -> D p = Some l' -> H' l' = H l').
    { intros p l' Vp Np E. apply (K0 p); auto; [apply Vp|].
      intros ->. apply Np. exact (ak_inj _ _ A p [u] lu Vp R1 E Du). }
    assert (NG : forall g l', valid_path [u; c; g] -> D [u; c; g] = Some l' -> False).
    { intros g l' Vc E. destruct (ak_sub2 _ _ A _ _ _ _ Vc E) as [? [? [X _]]]. congruence. }
    constructor.
    - intros p l' Vp E. pcase p [u; c] Ep.
      + subst. rewrite pupd_same in E. injection E as <-. rewrite Hl. eexists. split; [reflexivity|discriminate].
      + destruct (Nat.eq_dec l' lu) as [->|Nu].
        * rewrite Hlu. eexists. split; [reflexivity|discriminate].
        * rewrite (K0 p l' Vp E Nu). exact (ak_some _ _ A p l' Vp E).
    - intros x l' Vx Ux E. pcase [x] [u; c] Ep. destruct (string_dec x u) as [->|Nu].
      + assert (l' = lu) by congruence. subst. eauto.
      + rewrite (K _ l' (conj Vx Ux) ltac:(congruence) E). exact (ak_user _ _ A x l' Vx Ux E).
    - intros x d l' Vx E. pcase [x; d] [u; c] Ep.
      + injection Ep as -> ->. rewrite pupd_same in E. injection E as <-. split; [exact U|eauto].
      + rewrite (K _ l' (ak_root2 _ _ _ _ _ A Vx E) ltac:(congruence) E). exact (ak_client _ _ A x d l' Vx E).
    - intros x d g l' Vx E. pcase [x; d; g] [u; c] Ep.
      rewrite (K _ l' (ak_root3 _ _ _ _ _ _ A Vx E) ltac:(congruence) E). exact (ak_grant _ _ A x d g l' Vx E).
    - intros x d l' Vx E. rewrite (pupd_other D [u; c] l [x]) by discriminate. pcase [x; d] [u; c] Ep.
      + injection Ep as -> ->. exists lu, (si_add c iu). rewrite si_add_sub. auto.
      + destruct (ak_sub1 _ _ A x d l' Vx E) as [lx [j [X [Y Z]]]].
        destruct (string_dec x u) as [->|Nu].
        * assert (lx = lu) by congruence. subst. assert (j = iu) by congruence. subst.
          exists lu, (si_add c iu). rewrite si_add_sub. auto.
        * destruct (ak_client _ _ A x d l' Vx E) as [Ux _].
          exists lx, j. rewrite (K _ _ (conj (valid_1 _ _ Vx) Ux) ltac:(congruence) X). auto.
    - intros x d g l' Vx E. pcase [x; d; g] [u; c] Ep. pcase [x; d] [u; c] Eqq.
      + injection Eqq as -> ->. destruct (NG _ _ Vx E).
      + destruct (ak_sub2 _ _ A x d g l' Vx E) as [lx [j [X [Y Z]]]]. exists lx, j.
        rewrite (K _ _ (ak_root2 _ _ _ _ _ A (valid_2 _ _ _ Vx) X) ltac:(congruence) X). auto.
    - intros x lx j d Vx Ux E Ej I. pcase [x] [u; c] Ep. destruct (string_dec x u) as [->|Nu].
      + assert (lx = lu) by congruence. subst. rewrite Hlu in Ej. injection Ej as <-.
        apply si_add_sub in I. destruct I as [->|I].
        * split; [exact V|]. exists l. apply pupd_same.
        * destruct (ak_list1 _ _ A u lu iu d Vx Ux Du Hu I) as [W [l' L]]. split; [exact W|].
          pcase [u; d] [u; c] Eqq; [|eauto]. injection Eqq as ->. exists l. apply pupd_same.
      + rewrite (K _ _ (conj Vx Ux) ltac:(congruence) E) in Ej.
        destruct (ak_list1 _ _ A x lx j d Vx Ux E Ej I) as [W [l' L]]. split; [exact W|].
        exists l'. rewrite pupd_other by congruence. exact L.
    - intros x d lx j g Vx E Ej I. pcase [x; d] [u; c] Ep.
      + injection Ep as -> ->. rewrite pupd_same in E. injection E as <-. rewrite Hl in Ej.
        injection Ej as <-. rewrite S in I. destruct I.
      + rewrite (K _ _ (ak_root2 _ _ _ _ _ A Vx E) ltac:(congruence) E) in Ej.
        destruct (ak_list2 _ _ A x d lx j g Vx E Ej I) as [W [l' L]]. split; [exact W|].
        exists l'. rewrite pupd_other by congruence. exact L.
    - intros p q l' Vp Vq Ep Eqq.
      pcase p [u; c] Xp; pcase q [u; c] Xq; try congruence.
      + subst. rewrite pupd_same in Ep. injection Ep as <-. destruct (F q (proj1 Vq) Eqq).
      + subst. rewrite pupd_same in Eqq. injection Eqq as <-. destruct (F p (proj1 Vp) Ep).
      + exact (ak_inj _ _ A p q l' Vp Vq Ep Eqq).
    - intros p l' j Vp Ep Ej. pcase p [u; c] Xp.
      + subst. rewrite pupd_same in Ep. injection Ep as <-. rewrite Hl in Ej.
        injection Ej as <-. rewrite S. constructor.
      + destruct (list_eq_dec string_dec p [u]) as [->|Nu].
        * assert (l' = lu) by congruence. subst. rewrite Hlu in Ej. injection Ej as <-.
          apply si_add_nodup. exact (ak_subnd _ _ A [u] lu iu R1 Du Hu).
        * rewrite (K _ _ Vp Nu Ep) in Ej. exact (ak_subnd _ _ A p l' j Vp Ep Ej).
  Qed.

  (** A grant under an existing client session. *)
  Lemma abs_grant D H u c g lc ic l gr : abs_ok D H -> valid_path [u; c; g] ->
    D [u; c] = Some lc -> H lc = Some (OInfo ic) -> unused D l ->
    abs_ok (pupd D [u; c; g] l) (hupd (hupd H l (OGrant gr)) lc (OInfo (si_add g ic))).
  Proof.
    intros A V Dc Hc F. pose proof (valid_2 _ _ _ V) as V2.
    pose proof (ak_root2 _ _ _ _ _ A V2 Dc) as R2.
    assert (Nl : l <> lc) by (intros ->; exact (F _ V2 Dc)).
    set (H' := hupd (hupd H l (OGrant gr)) lc (OInfo (si_add g ic))).
    assert (Hlc : H' lc = Some (OInfo (si_add g ic))) by apply hupd_same.
    assert (Hl : H' l = Some (OGrant gr)).
    { unfold H'. rewrite hupd_other by congruence. apply hupd_same. }
    assert (K0 : forall p l', valid_path p -> D p = Some l' -> l' <> lc -> H' l' = H l').
    { intros p l' Vp E Nn. unfold H'. rewrite hupd_other by exact Nn.
      apply hupd_other. intros ->. exact (F p Vp E). }
    assert (K : forall p l', user_path isuser p -> p <> [u; c] -> D p = Some l' -> H' l' = H l').
    { intros p l' Vp Np E. apply (K0 p); auto; [apply Vp|].
      intros ->. apply Np. exact (ak_inj _ _ A p [u; c] lc Vp R2 E Dc). }
    destruct (ak_client _ _ A u c lc V2 Dc) as [Uu _].
    constructor.
    - intros p l' Vp E. pcase p [u; c; g] Ep.
      + subst. rewrite pupd_same in E. injection E as <-. rewrite Hl. eexists. split; [reflexivity|discriminate].
      + destruct (Nat.eq_dec l' lc) as [->|Nu].
        * rewrite Hlc. eexists. split; [reflexivity|discriminate].
        * rewrite (K0 p l' Vp E Nu). exact (ak_some _ _ A p l' Vp E).
    - intros x l' Vx Ux E. pcase [x] [u; c; g] Ep.
      rewrite (K _ l' (conj Vx Ux) ltac:(congruence) E). exact (ak_user _ _ A x l' Vx Ux E).
    - intros x d l' Vx E. pcase [x; d] [u; c; g] Ep.
      destruct (list_eq_dec string_dec [x; d] [u; c]) as [Eqq|Nu].
      + injection Eqq as -> ->. assert (l' = lc) by congruence. subst. split; [exact Uu|eauto].
      + rewrite (K _ l' (ak_root2 _ _ _ _ _ A Vx E) Nu E). exact (ak_client _ _ A x d l' Vx E).
    - intros x d h l' Vx E. pcase [x; d; h] [u; c; g] Ep.
      + rewrite Ep, pupd_same in E. injection E as <-. eauto.
      + rewrite (K _ l' (ak_root3 _ _ _ _ _ _ A Vx E) ltac:(congruence) E). exact (ak_grant _ _ A x d h l' Vx E).
    - intros x d l' Vx E. pcase [x; d] [u; c; g] Ep. pcase [x] [u; c; g] Eqq.
      destruct (ak_sub1 _ _ A x d l' Vx E) as [lx [j [X [Y Z]]]]. exists lx, j.
      destruct (ak_client _ _ A x d l' Vx E) as [Ux _].
      rewrite (K _ _ (conj (valid_1 _ _ Vx) Ux) ltac:(congruence) X). auto.
    - intros x d h l' Vx E. rewrite (pupd_other D [u; c; g] l [x; d]) by discriminate.
      pcase [x; d; h] [u; c; g] Ep.
      + injection Ep as -> -> ->. exists lc, (si_add g ic). rewrite si_add_sub. auto.
      + destruct (ak_sub2 _ _ A x d h l' Vx E) as [lx [j [X [Y Z]]]].
        destruct (list_eq_dec string_dec [x; d] [u; c]) as [Eqq|Nu].
        * injection Eqq as -> ->. assert (lx = lc) by congruence. subst. assert (j = ic) by congruence. subst.
          exists lc, (si_add g ic). rewrite si_add_sub. auto.
        * exists lx, j. rewrite (K _ _ (ak_root2 _ _ _ _ _ A (valid_2 _ _ _ Vx) X) Nu X). auto.
    - intros x lx j d Vx Ux E Ej I. pcase [x] [u; c; g] Ep.
      rewrite (K _ _ (conj Vx Ux) ltac:(congruence) E) in Ej.
      destruct (ak_list1 _ _ A x lx j d Vx Ux E Ej I) as [W [l' L]]. split; [exact W|].
      exists l'. rewrite pupd_other by congruence. exact L.
    - intros x d lx j h Vx E Ej I. pcase [x; d] [u; c; g] Ep.
      destruct (list_eq_dec string_dec [x; d] [u; c]) as [Eqq|Nu].
      + injection Eqq as -> ->. assert (lx = lc) by congruence. subst. rewrite Hlc in Ej. injection Ej as <-.
        apply si_add_sub in I. destruct I as [->|I].
        * split; [exact V|]. exists l. apply pupd_same.
        * destruct (ak_list2 _ _ A u c lc ic h Vx Dc Hc I) as [W [l' L]]. split; [exact W|].
          pcase [u; c; h] [u; c; g] Eqq; [|eauto]. injection Eqq as ->. exists l. apply pupd_same.
      + rewrite (K _ _ (ak_root2 _ _ _ _ _ A Vx E) Nu E) in Ej.
        destruct (ak_list2 _ _ A x d lx j h Vx E Ej I) as [W [l' L]]. split; [exact W|].
        exists l'. rewrite pupd_other by congruence. exact L.
    - intros p q l' Vp Vq Ep Eqq.
      pcase p [u; c; g] Xp; pcase q [u; c; g] Xq; try congruence.
      + subst. rewrite pupd_same in Ep. injection Ep as <-. destruct (F q (proj1 Vq) Eqq).
      + subst. rewrite pupd_same in Eqq. injection Eqq as <-. destruct (F p (proj1 Vp) Ep).
      + exact (ak_inj _ _ A p q l' Vp Vq Ep Eqq).
    - intros p l' j Vp Ep Ej. pcase p [u; c; g] Xp.
      + subst. rewrite pupd_same in Ep. congruence.
      + destruct (list_eq_dec string_dec p [u; c]) as [->|Nu].
        * assert (l' = lc) by congruence. subst. rewrite Hlc in Ej. injection Ej as <-.
          apply si_add_nodup. exact (ak_subnd _ _ A [u; c] lc ic R2 Dc Hc).
        * rewrite (K _ _ Vp Nu Ep) in Ej. exact (ak_subnd _ _ A p l' j Vp Ep Ej).
  Qed.
  (** *** Removal *)
  Definition prem (D : list string -> option nat) (p : list string) (q : list string)
    : option nat := if list_eq_dec string_dec q p then None else D q.
  Lemma prem_same D p : prem D p p = None.
  Proof. unfold prem. destruct (list_eq_dec string_dec p p); congruence. Qed.
  Lemma prem_other D p q : q <> p -> prem D p q = D q.
  Proof. unfold prem. destruct (list_eq_dec string_dec q p); congruence. Qed.
  Lemma prem_some D p q l : prem D p q = Some l -> q <> p /\ D q = Some l.
  Proof. unfold prem. destruct (list_eq_dec string_dec q p); [discriminate|auto]. Qed.

  Definition si_rem (x : string) (i : sinfo) : sinfo := si_set_sub (sremove x (si_sub i)) i.

  Lemma abs_del_grant D H u c g lc ic : abs_ok D H -> valid_path [u; c; g] ->
    D [u; c] = Some lc -> H lc = Some (OInfo ic) ->
    abs_ok (prem D [u; c; g]) (hupd H lc (OInfo (si_rem g ic))).
  Proof.
    intros A V Dc Hc. pose proof (valid_2 _ _ _ V) as V2.
    pose proof (ak_root2 _ _ _ _ _ A V2 Dc) as R2.
    pose proof (ak_subnd _ _ A _ _ _ R2 Dc Hc) as ND.
    set (H' := hupd H lc (OInfo (si_rem g ic))).
    assert (Hlc : H' lc = Some (OInfo (si_rem g ic))) by apply hupd_same.
    assert (K : forall p l', user_path isuser p -> p <> [u; c] -> D p = Some l' -> H' l' = H l').
    { intros p l' Vp Np E. apply hupd_other. intros ->. apply Np.
      exact (ak_inj _ _ A p [u; c] lc Vp R2 E Dc). }
    destruct (ak_client _ _ A u c lc V2 Dc) as [Uu _].
    constructor.
    - intros p l' Vp E. apply prem_some in E. destruct E as [Np E].
      destruct (Nat.eq_dec l' lc) as [->|Nu].
      + rewrite Hlc. eexists. split; [reflexivity|discriminate].
      + unfold H'. rewrite hupd_other by exact Nu. exact (ak_some _ _ A p l' Vp E).
    - intros x l' Vx Ux E. apply prem_some in E. destruct E as [Np E].
      rewrite (K _ l' (conj Vx Ux) ltac:(congruence) E). exact (ak_user _ _ A x l' Vx Ux E).
    - intros x d l' Vx E. apply prem_some in E. destruct E as [Np E].
      destruct (list_eq_dec string_dec [x; d] [u; c]) as [Eqq|Nu].
      + injection Eqq as -> ->. assert (l' = lc) by congruence. subst. split; [exact Uu|eauto].
      + rewrite (K _ l' (ak_root2 _ _ _ _ _ A Vx E) Nu E). exact (ak_client _ _ A x d l' Vx E).
    - intros x d h l' Vx E. apply prem_some in E. destruct E as [Np E].
      rewrite (K _ l' (ak_root3 _ _ _ _ _ _ A Vx E) ltac:(congruence) E). exact (ak_grant _ _ A x d h l' Vx E).
    - intros x d l' Vx E. apply prem_some in E. destruct E as [Np E]. rewrite prem_other by discriminate.
      destruct (ak_sub1 _ _ A x d l' Vx E) as [lx [j [X [Y Z]]]]. exists lx, j.
      destruct (ak_client _ _ A x d l' Vx E) as [Ux _].
      rewrite (K _ _ (conj (valid_1 _ _ Vx) Ux) ltac:(congruence) X). auto.
    - intros x d h l' Vx E. apply prem_some in E. destruct E as [Np E]. rewrite prem_other by discriminate.
      destruct (ak_sub2 _ _ A x d h l' Vx E) as [lx [j [X [Y Z]]]].
      destruct (list_eq_dec string_dec [x; d] [u; c]) as [Eqq|Nu].
      + injection Eqq as -> ->. assert (lx = lc) by congruence. subst. assert (j = ic) by congruence. subst.
        exists lc, (si_rem g ic). split; [exact X|]. split; [exact Hlc|]. cbn.
        apply sremove_In_other; [congruence|exact Z].
      + exists lx, j. rewrite (K _ _ (ak_root2 _ _ _ _ _ A (valid_2 _ _ _ Vx) X) Nu X). auto.
    - intros x lx j d Vx Ux E Ej I. apply prem_some in E. destruct E as [Np E].
      rewrite (K _ _ (conj Vx Ux) ltac:(congruence) E) in Ej.
      destruct (ak_list1 _ _ A x lx j d Vx Ux E Ej I) as [W [l' L]]. split; [exact W|].
      exists l'. rewrite prem_other by congruence. exact L.
    - intros x d lx j h Vx E Ej I. apply prem_some in E. destruct E as [Np E].
      destruct (list_eq_dec string_dec [x; d] [u; c]) as [Eqq|Nu].
      + injection Eqq as -> ->. assert (lx = lc) by congruence. subst. rewrite Hlc in Ej. injection Ej as <-.
        cbn in I. assert (Nh : h <> g) by (intros ->; exact (sremove_nodup_notin g _ ND I)).
        apply sremove_In in I.
        destruct (ak_list2 _ _ A u c lc ic h Vx Dc Hc I) as [W [l' L]]. split; [exact W|].
        exists l'. rewrite prem_other by congruence. exact L.
      + rewrite (K _ _ (ak_root2 _ _ _ _ _ A Vx E) Nu E) in Ej.
        destruct (ak_list2 _ _ A x d lx j h Vx E Ej I) as [W [l' L]]. split; [exact W|].
        exists l'. rewrite prem_other by congruence. exact L.
    - intros p q l' Vp Vq Ep Eqq. apply prem_some in Ep, Eqq.
      exact (ak_inj _ _ A p q l' Vp Vq (proj2 Ep) (proj2 Eqq)).
    - intros p l' j Vp Ep Ej. apply prem_some in Ep. destruct Ep as [Np Ep].
      destruct (list_eq_dec string_dec p [u; c]) as [->|Nu].
      + assert (l' = lc) by congruence. subst. rewrite Hlc in Ej. injection Ej as <-.
        cbn. now apply sremove_nodup.
      + rewrite (K _ _ Vp Nu Ep) in Ej. exact (ak_subnd _ _ A p l' j Vp Ep Ej).
  Qed.

  Lemma abs_del_client D H u c lc ic lu iu : abs_ok D H -> valid_path [u; c] -> isuser u ->
    D [u; c] = Some lc -> H lc = Some (OInfo ic) -> si_sub ic = [] ->
    D [u] = Some lu -> H lu = Some (OInfo iu) ->
    abs_ok (prem D [u; c]) (hupd H lu (OInfo (si_rem c iu))).
  Proof.
    intros A V U Dc Hc Sc Du Hu. pose proof (valid_1 _ _ V) as V1.
    assert (R1 : user_path isuser [u]) by (split; auto).
    pose proof (ak_subnd _ _ A _ _ _ R1 Du Hu) as ND.
    set (H' := hupd H lu (OInfo (si_rem c iu))).
    assert (Hlu : H' lu = Some (OInfo (si_rem c iu))) by apply hupd_same.
    assert (K : forall p l', user_path isuser p -> p <> [u] -> D p = Some l' -> H' l' = H l').
    { intros p l' Vp Np E. apply hupd_other. intros ->. apply Np.
      exact (ak_inj _ _ A p [u] lu Vp R1 E Du). }
    assert (NG : forall g l', valid_path [u; c; g] -> D [u; c; g] = Some l' -> False).
    { intros g l' Vg E. destruct (ak_sub2 _ _ A _ _ _ _ Vg E) as [lx [j [X [Y Z]]]].
      assert (lx = lc) by congruence. subst. assert (j = ic) by congruence. subst. now rewrite Sc in Z. }
    constructor.
    - intros p l' Vp E. apply prem_some in E. destruct E as [Np E].
      destruct (Nat.eq_dec l' lu) as [->|Nu].
      + rewrite Hlu. eexists. split; [reflexivity|discriminate].
      + unfold H'. rewrite hupd_other by exact Nu. exact (ak_some _ _ A p l' Vp E).
    - intros x l' Vx Ux E. apply prem_some in E. destruct E as [Np E].
      destruct (string_dec x u) as [->|Nu].
      + assert (l' = lu) by congruence. subst. eauto.
      + rewrite (K _ l' (conj Vx Ux) ltac:(congruence) E). exact (ak_user _ _ A x l' Vx Ux E).
    - intros x d l' Vx E. apply prem_some in E. destruct E as [Np E].
      rewrite (K _ l' (ak_root2 _ _ _ _ _ A Vx E) ltac:(congruence) E). exact (ak_client _ _ A x d l' Vx E).
    - intros x d h l' Vx E. apply prem_some in E. destruct E as [Np E].
      rewrite (K _ l' (ak_root3 _ _ _ _ _ _ A Vx E) ltac:(congruence) E). exact (ak_grant _ _ A x d h l' Vx E).
    - intros x d l' Vx E. apply prem_some in E. destruct E as [Np E]. rewrite prem_other by discriminate.
      destruct (ak_sub1 _ _ A x d l' Vx E) as [lx [j [X [Y Z]]]].
      destruct (ak_client _ _ A x d l' Vx E) as [Ux _].
      destruct (string_dec x u) as [->|Nu].
      + assert (lx = lu) by congruence. subst. assert (j = iu) by congruence. subst.
        exists lu, (si_rem c iu). split; [exact X|]. split; [exact Hlu|]. cbn.
        apply sremove_In_other; [congruence|exact Z].
      + exists lx, j. rewrite (K _ _ (conj (valid_1 _ _ Vx) Ux) ltac:(congruence) X). auto.
    - intros x d h l' Vx E. apply prem_some in E. destruct E as [Np E].
      destruct (ak_sub2 _ _ A x d h l' Vx E) as [lx [j [X [Y Z]]]]. exists lx, j.
      rewrite prem_other.
      2:{ intros Eqq. injection Eqq as -> ->. exact (NG _ _ Vx E). }
      rewrite (K _ _ (ak_root2 _ _ _ _ _ A (valid_2 _ _ _ Vx) X) ltac:(congruence) X). auto.
    - intros x lx j d Vx Ux E Ej I. apply prem_some in E. destruct E as [Np E].
      destruct (string_dec x u) as [->|Nu].
      + assert (lx = lu) by congruence. subst. rewrite Hlu in Ej. injection Ej as <-.
        cbn in I. assert (Nh : d <> c) by (intros ->; exact (sremove_nodup_notin c _ ND I)).
        apply sremove_In in I.
        destruct (ak_list1 _ _ A u lu iu d Vx Ux Du Hu I) as [W [l' L]]. split; [exact W|].
        exists l'. rewrite prem_other by congruence. exact L.
      + rewrite (K _ _ (conj Vx Ux) ltac:(congruence) E) in Ej.
        destruct (ak_list1 _ _ A x lx j d Vx Ux E Ej I) as [W [l' L]]. split; [exact W|].
        exists l'. rewrite prem_other by congruence. exact L.
    - intros x d lx j h Vx E Ej I. apply prem_some in E. destruct E as [Np E].
      rewrite (K _ _ (ak_root2 _ _ _ _ _ A Vx E) ltac:(congruence) E) in Ej.
      destruct (ak_list2 _ _ A x d lx j h Vx E Ej I) as [W [l' L]]. split; [exact W|].
      exists l'. rewrite prem_other by congruence. exact L.
    - intros p q l' Vp Vq Ep Eqq. apply prem_some in Ep, Eqq.
      exact (ak_inj _ _ A p q l' Vp Vq (proj2 Ep) (proj2 Eqq)).
    - intros p l' j Vp Ep Ej. apply prem_some in Ep. destruct Ep as [Np Ep].
      destruct (list_eq_dec string_dec p [u]) as [->|Nu].
      + assert (l' = lu) by congruence. subst. rewrite Hlu in Ej. injection Ej as <-.
        cbn. now apply sremove_nodup.
      + rewrite (K _ _ Vp Nu Ep) in Ej. exact (ak_subnd _ _ A p l' j Vp Ep Ej).
  Qed.

  Lemma abs_del_user D H u lu iu : abs_ok D H -> valid_path [u] -> isuser u ->
    D [u] = Some lu -> H lu = Some (OInfo iu) -> si_sub iu = [] ->
    abs_ok (prem D [u]) H.
  Proof.
    intros A V U Du Hu Su.
    assert (NC : forall c l', valid_path [u; c] -> D [u; c] = Some l' -> False).
    { intros c l' Vg E. destruct (ak_sub1 _ _ A _ _ _ Vg E) as [lx [j [X [Y Z]]]].
      assert (lx = lu) by congruence. subst. assert (j = iu) by congruence. subst. now rewrite Su in Z. }
    constructor.
    - intros p l' Vp E. apply prem_some in E. exact (ak_some _ _ A p l' Vp (proj2 E)).
    - intros x l' Vx Ux E. apply prem_some in E. exact (ak_user _ _ A x l' Vx Ux (proj2 E)).
    - intros x d l' Vx E. apply prem_some in E. exact (ak_client _ _ A x d l' Vx (proj2 E)).
    - intros x d h l' Vx E. apply prem_some in E. exact (ak_grant _ _ A x d h l' Vx (proj2 E)).
    - intros x d l' Vx E. apply prem_some in E. destruct E as [Np E].
      rewrite prem_other.
      2:{ intros Eqq. injection Eqq as ->. exact (NC _ _ Vx E). }
      exact (ak_sub1 _ _ A x d l' Vx E).
    - intros x d h l' Vx E. apply prem_some in E. destruct E as [Np E].
      rewrite prem_other by discriminate. exact (ak_sub2 _ _ A x d h l' Vx E).
    - intros x lx j d Vx Ux E Ej I. apply prem_some in E. destruct E as [Np E].
      destruct (ak_list1 _ _ A x lx j d Vx Ux E Ej I) as [W [l' L]]. split; [exact W|].
      exists l'. rewrite prem_other by congruence. exact L.
    - intros x d lx j h Vx E Ej I. apply prem_some in E. destruct E as [Np E].
      destruct (ak_list2 _ _ A x d lx j h Vx E Ej I) as [W [l' L]]. split; [exact W|].
      exists l'. rewrite prem_other by congruence. exact L.
    - intros p q l' Vp Vq Ep Eqq. apply prem_some in Ep, Eqq.
      exact (ak_inj _ _ A p q l' Vp Vq (proj2 Ep) (proj2 Eqq)).
    - intros p l' j Vp Ep Ej. apply prem_some in Ep. exact (ak_subnd _ _ A p l' j Vp (proj2 Ep) Ej).
  Qed.
End Abs.

Lemma same_children_refl o : same_children o o.
Proof. destruct o; cbn; auto. Qed.

Lemma sub_in_add x i : In x (si_sub i) -> si_add x i = i.
Proof. intros H. unfold si_add. apply smem_In in H. now rewrite H. Qed.

Lemma neq_key p q : valid_path p -> valid_path q -> p <> q -> key p <> key q.
Proof. intros V W N E. apply N. now apply valid_key_inj. Qed.

Section Sets.
  Variable isuser : string -> Prop.

  Lemma tree_loc s p l : tree_ok isuser s -> valid_path p -> dbk s p = Some l ->
    l < List.length (s_heap s).
  Proof. intros T V E. destruct (tk_some _ _ T p l V E) as [o [H _]]. exact (hp_lt _ _ _ H). Qed.

  (** Allocation does not disturb anything. *)
  Lemma tree_alloc s o d c a : d = s_db s -> tree_ok isuser s ->
    tree_ok isuser (mk_st (s_heap s ++ [o]) d c a).
  Proof.
    intros -> T. apply tree_abs in T. apply tree_abs. destruct T as [N A]. split; [exact N|].
    apply (abs_same isuser _ _ _ _ A); [reflexivity|]. intros p l x _ _ Hx.
    exists x. split; [|apply same_children_refl]. rewrite <- Hx. apply hp_app_other.
    apply hp_lt in Hx. lia.
  Qed.

  Definition set_grant_spec (u c g : string) (l : nat) (s s' : st) (lu lc : nat) (iu ic : sinfo) : Prop :=
    NoDup (dkeys (s_db s'))
    /\ (forall q, valid_path q -> dbk s' q =
          if list_eq_dec string_dec q [u; c; g] then Some l
          else if list_eq_dec string_dec q [u; c] then Some lc
          else if list_eq_dec string_dec q [u] then Some lu else dbk s q)
    /\ ((dbk s [u; c] = Some lc /\ hp s lc = Some (OInfo ic))
        \/ (dbk s [u; c] = None /\ lc >= List.length (s_heap s) /\ ic = new_client_info ""))
    /\ ((dbk s [u] = Some lu /\ hp s lu = Some (OInfo iu))
        \/ (dbk s [u] = None /\ lu >= List.length (s_heap s) /\ iu = new_user_info ""))
    /\ lc <> lu /\ lc <> l /\ lu <> l
    /\ hp s' lc = Some (OInfo (si_add g ic)) /\ hp s' lu = Some (OInfo (si_add c iu))
    /\ (forall l', l' <> lc -> l' <> lu -> hp s' l' = hp s l')
    /\ List.length (s_heap s) <= List.length (s_heap s')
    /\ s_ctr s' = s_ctr s /\ s_always s' = s_always s.

  Lemma set_grant_run s u c g l gr : tree_ok isuser s -> valid_path [u; c; g] -> isuser u ->
    hp s l = Some (OGrant gr) ->
    exists s' lu lc iu ic, db_set [u; c; g] l s = (Ok tt, s')
      /\ set_grant_spec u c g l s s' lu lc iu ic.
  Proof.
    intros T V U Hl. pose proof (valid_2 _ _ _ V) as V2. pose proof (valid_1 _ _ V2) as V1.
    assert (N32 : key [u; c; g] <> key [u; c]) by (apply neq_key; auto; discriminate).
    assert (N31 : key [u; c; g] <> key [u]) by (apply neq_key; auto; discriminate).
    assert (N21 : key [u; c] <> key [u]) by (apply neq_key; auto; discriminate).
    destruct (valid_cases _ V) as [[? [X _]]|[[? [? [X _]]]|[? [? [? [X [Nu [Nc Ng]]]]]]]]; try discriminate.
    injection X as <- <- <-.
    rewrite (db_set3_eq u c g l s Nc Ng). unfold bind at 1. unfold db_put at 1.
    set (s1 := mk_st (s_heap s) (dset (s_db s) (key [u; c; g]) l) (s_ctr s) (s_always s)).
    assert (E1 : forall k, k <> key [u; c; g] -> dget (s_db s1) k = dget (s_db s) k).
    { intros k Nk. cbn. now apply dget_dset_other. }
    assert (D1 : dget (s_db s1) (key [u; c; g]) = Some l) by apply dget_dset_same.
    assert (H1 : forall x, hp s1 x = hp s x) by reflexivity.
    destruct (ensure_run (key [u; c]) g (new_client_info "") s1) as [s2 [lc [ic [R2 E2]]]]; [|reflexivity|].
    { intros x Dx. rewrite E1 in Dx by congruence. rewrite H1.
      destruct (tk_client _ _ T u c x V2 Dx) as [_ Y]. exact Y. }
    rewrite (bind_run _ _ _ _ _ R2).
    assert (Hlc : (dbk s [u; c] = Some lc /\ hp s lc = Some (OInfo ic))
        \/ (dbk s [u; c] = None /\ lc = List.length (s_heap s) /\ ic = new_client_info "")).
    { destruct (en_old _ _ _ _ _ _ _ E2) as [[X Y]|[X [Y Z]]]; rewrite E1 in X by congruence.
      - left. auto.
      - right. auto. }
    assert (Nlc : lc <> l).
    { intros ->. destruct Hlc as [[_ X]|[_ [X _]]]; [congruence|]. apply hp_lt in Hl. lia. }
    destruct (ensure_run u c (new_user_info "") s2) as [s3 [lu [iu [R3 E3]]]]; [|reflexivity|].
    { intros x Dx. rewrite <- (key1 u) in Dx.
      rewrite (en_other _ _ _ _ _ _ _ E2) in Dx by congruence. rewrite E1 in Dx by congruence.
      destruct (tk_user _ _ T u x V1 U Dx) as [i0 Hi0].
      rewrite (en_frame _ _ _ _ _ _ _ E2); [eauto|]. intros ->.
      destruct Hlc as [[X Y]|[_ [X _]]].
      - pose proof (tk_inj _ _ T [u] [u; c] lc (conj V1 U) (conj V2 U) Dx X). discriminate.
      - apply hp_lt in Hi0. lia. }
    exists s3, lu, lc, iu, ic. split; [exact R3|].
    assert (Hlu : (dbk s [u] = Some lu /\ hp s2 lu = Some (OInfo iu))
        \/ (dbk s [u] = None /\ lu = List.length (s_heap s2) /\ iu = new_user_info "")).
    { destruct (en_old _ _ _ _ _ _ _ E3) as [[X Y]|[X [Y Z]]]; rewrite <- (key1 u) in X;
      rewrite (en_other _ _ _ _ _ _ _ E2) in X by congruence; rewrite E1 in X by congruence.
      - left. auto.
      - right. auto. }
    assert (L2 : List.length (s_heap s) <= List.length (s_heap s2)) by exact (en_len _ _ _ _ _ _ _ E2).
    assert (L3 : List.length (s_heap s2) <= List.length (s_heap s3)) by exact (en_len _ _ _ _ _ _ _ E3).
    assert (Lc : lc < List.length (s_heap s2)) by exact (hp_lt _ _ _ (en_new _ _ _ _ _ _ _ E2)).
    assert (Ncu : lc <> lu).
    { intros ->. destruct Hlu as [[X Y]|[_ [X _]]]; [|lia].
      destruct (tk_user _ _ T u lu V1 U X) as [i0 Hi0].
      destruct Hlc as [[X' Y']|[_ [X' _]]].
      - pose proof (tk_inj _ _ T [u] [u; c] lu (conj V1 U) (conj V2 U) X X'). discriminate.
      - apply hp_lt in Hi0. lia. }
    assert (Nul : lu <> l).
    { intros ->. destruct Hlu as [[X Y]|[_ [X _]]].
      - destruct (tk_user _ _ T u l V1 U X) as [i0 Hi0]. congruence.
      - apply hp_lt in Hl. lia. }
    pose proof (en_rest _ _ _ _ _ _ _ E2) as [Rc2 Ra2]. pose proof (en_rest _ _ _ _ _ _ _ E3) as [Rc3 Ra3].
    unfold set_grant_spec.
    split; [apply (en_nodup _ _ _ _ _ _ _ E3), (en_nodup _ _ _ _ _ _ _ E2), dset_keys_nodup, (tk_nodup _ _ T)|].
    split.
    { intros q Vq. unfold dbk.
      destruct (list_eq_dec string_dec q [u; c; g]) as [->|N3].
      { rewrite (en_other _ _ _ _ _ _ _ E3) by (rewrite <- (key1 u) at 2; congruence).
        rewrite (en_other _ _ _ _ _ _ _ E2) by congruence. exact D1. }
      destruct (list_eq_dec string_dec q [u; c]) as [->|N2].
      { rewrite (en_other _ _ _ _ _ _ _ E3) by (rewrite <- (key1 u) at 2; congruence).
        exact (en_key _ _ _ _ _ _ _ E2). }
      destruct (list_eq_dec string_dec q [u]) as [->|N1].
      { exact (en_key _ _ _ _ _ _ _ E3). }
      rewrite (en_other _ _ _ _ _ _ _ E3).
      2:{ rewrite <- (key1 u). apply neq_key; auto. }
      rewrite (en_other _ _ _ _ _ _ _ E2) by (apply neq_key; auto).
      apply E1. apply neq_key; auto. }
    split. { destruct Hlc as [X|[X [-> Y]]]; [now left|right; auto with arith]. }
    split. { destruct Hlu as [[X Y]|[X [-> Y]]]; [|right; split; [auto|split; [lia|auto]]].
      left. split; [exact X|]. rewrite (en_frame _ _ _ _ _ _ _ E2) in Y by congruence. exact Y. }
    split; [exact Ncu|]. split; [exact Nlc|]. split; [exact Nul|].
    split. { rewrite (en_frame _ _ _ _ _ _ _ E3) by congruence. exact (en_new _ _ _ _ _ _ _ E2). }
    split. { exact (en_new _ _ _ _ _ _ _ E3). }
    split. { intros l' N2 N1. rewrite (en_frame _ _ _ _ _ _ _ E3) by exact N1.
      rewrite (en_frame _ _ _ _ _ _ _ E2) by exact N2. apply H1. }
    split; [lia|]. cbn in Rc2, Ra2. split; congruence.
  Qed.

  Ltac ldec := repeat match goal with
    | |- context [list_eq_dec string_dec ?a ?b] => destruct (list_eq_dec string_dec a b)
    | |- context [Nat.eq_dec ?a ?b] => destruct (Nat.eq_dec a b)
    end; subst; try congruence; try discriminate.

  Lemma set_grant_tree s u c g l gr s' lu lc iu ic : tree_ok isuser s -> valid_path [u; c; g] -> isuser u ->
    hp s l = Some (OGrant gr) -> unused (dbk s) l ->
    set_grant_spec u c g l s s' lu lc iu ic -> tree_ok isuser s'.
  Proof.
    intros T V U Hl F [N' [D' [Hc [Hu [Ncu [Nc [Nu [H2 [H1 [Hf [Ln _]]]]]]]]]]].
    pose proof (valid_2 _ _ _ V) as V2. pose proof (valid_1 _ _ V2) as V1.
    pose proof (proj1 (tree_abs _ _) T) as [ND A]. apply tree_abs. split; [exact N'|].
    assert (Fresh : forall x, x >= List.length (s_heap s) -> unused (dbk s) x).
    { intros x Hx p Vp E. apply (tree_loc _ _ _ T Vp) in E. lia. }
    (* after making sure that the user and the client session exist *)
    assert (P : exists D1 H1, abs_ok isuser D1 H1
      /\ (forall q, valid_path q -> D1 q =
            if list_eq_dec string_dec q [u; c] then Some lc
            else if list_eq_dec string_dec q [u] then Some lu else dbk s q)
      /\ H1 lc = Some (OInfo ic) /\ H1 lu = Some (OInfo (si_add c iu))
      /\ (forall x, x <> lc -> x <> lu -> H1 x = hp s x)).
    { destruct Hc as [[Dc Hc]|[Dc [Gc Ic]]].
      - destruct (tk_sub1 _ _ T u c lc V2 Dc) as [lu0 [iu0 [Du0 [Hu0 In0]]]].
        destruct Hu as [[Du Hu]|[Du _]]; [|congruence].
        assert (lu0 = lu) by congruence. subst lu0. assert (iu0 = iu) by congruence. subst iu0.
        exists (dbk s), (hp s). split; [exact A|]. split; [|split; [exact Hc|split]].
        + intros q Vq. ldec.
        + rewrite sub_in_add; auto.
        + auto.
      - destruct Hu as [[Du Hu]|[Du [Gu Iu]]].
        + exists (pupd (dbk s) [u; c] lc), (hupd (hupd (hp s) lc (OInfo ic)) lu (OInfo (si_add c iu))).
          split. { apply abs_client; auto. now subst ic. }
          split; [intros q Vq; unfold pupd; ldec|].
          unfold hupd. split; [ldec|]. split; [ldec|]. intros; ldec.
        + exists (pupd (pupd (dbk s) [u] lu) [u; c] lc),
            (hupd (hupd (hupd (hp s) lu (OInfo iu)) lc (OInfo ic)) lu (OInfo (si_add c iu))).
          assert (B : abs_ok isuser (pupd (dbk s) [u] lu) (hupd (hp s) lu (OInfo iu))).
          { apply abs_root; auto. now subst iu. }
          split.
          { apply abs_client; auto.
            - apply pupd_same.
            - apply hupd_same.
            - rewrite pupd_other by discriminate. exact Dc.
            - intros p Vp. unfold pupd. ldec. now apply Fresh.
            - now subst ic. }
          split; [intros q Vq; unfold pupd; ldec|].
          unfold hupd. split; [ldec|]. split; [ldec|]. intros; ldec. }
    destruct P as [D1 [G1 [A1 [ED [X1 [X2 X3]]]]]].
    assert (A2 : abs_ok isuser (pupd D1 [u; c; g] l)
                   (hupd (hupd G1 l (OGrant gr)) lc (OInfo (si_add g ic)))).
    { apply abs_grant; auto.
      - rewrite ED by exact V2. ldec.
      - intros p Vp. rewrite ED by exact Vp. ldec. now apply F. }
    apply (abs_same isuser _ _ _ _ A2).
    - intros p Vp. rewrite D' by exact Vp. unfold pupd. rewrite ED by exact Vp. reflexivity.
    - intros p x o _ _ Hx. exists o. split; [|apply same_children_refl]. rewrite <- Hx.
      unfold hupd. ldec.
      + rewrite (Hf l) by congruence. exact Hl.
      + destruct (Nat.eq_dec x lu) as [->|Nx]; [congruence|]. rewrite Hf, X3 by auto. reflexivity.
  Qed.

  Definition set_client_spec (u c : string) (l : nat) (s s' : st) (lu : nat) (iu : sinfo) : Prop :=
    NoDup (dkeys (s_db s'))
    /\ (forall q, valid_path q -> dbk s' q =
          if list_eq_dec string_dec q [u; c] then Some l
          else if list_eq_dec string_dec q [u] then Some lu else dbk s q)
    /\ ((dbk s [u] = Some lu /\ hp s lu = Some (OInfo iu))
        \/ (dbk s [u] = None /\ lu >= List.length (s_heap s) /\ iu = new_user_info ""))
    /\ lu <> l
    /\ hp s' lu = Some (OInfo (si_add c iu))
    /\ (forall l' o, l' <> lu -> hp s l' = Some o -> hp s' l' = Some o)
    /\ List.length (s_heap s) <= List.length (s_heap s')
    /\ s_ctr s' = s_ctr s /\ s_always s' = s_always s.

  Lemma set_client_run s u c l : tree_ok isuser s -> valid_path [u; c] -> isuser u ->
    l < List.length (s_heap s) -> dbk s [u] <> Some l ->
    exists s' lu iu, db_set [u; c] l s = (Ok tt, s') /\ set_client_spec u c l s s' lu iu.
  Proof.
    intros T V2 U Hl Nl. pose proof (valid_1 _ _ V2) as V1.
    assert (N21 : key [u; c] <> key [u]) by (apply neq_key; auto; discriminate).
    destruct (valid_cases _ V2) as [[? [X _]]|[[? [? [X [Nu Nc]]]]|[? [? [? [X _]]]]]]; try discriminate.
    injection X as <- <-.
    rewrite (db_set2_eq u c l s Nc).
    assert (G : exists s0 x, db_get_or (key [u; c]) (new_client_info "") s = (Ok x, s0)
       /\ s_db s0 = s_db s /\ s_ctr s0 = s_ctr s /\ s_always s0 = s_always s
       /\ (forall y o, hp s y = Some o -> hp s0 y = Some o)
       /\ List.length (s_heap s) <= List.length (s_heap s0)).
    { unfold db_get_or, bind, db_lookup. destruct (dget (s_db s) (key [u; c])) as [x|].
      - exists s, x. repeat split; auto.
      - unfold new_obj. eexists _, _. split; [reflexivity|]. cbn. repeat split; auto.
        + intros y o Hy. rewrite hp_app_other; [exact Hy|]. apply hp_lt in Hy. lia.
        + rewrite app_length. lia. }
    destruct G as [s0 [x [R0 [Db0 [Ct0 [Al0 [Hp0 Ln0]]]]]]].
    rewrite (bind_run _ _ _ _ _ R0). unfold bind at 1. unfold db_put at 1.
    set (s1 := mk_st (s_heap s0) (dset (s_db s0) (key [u; c]) l) (s_ctr s0) (s_always s0)).
    assert (E1 : forall k, k <> key [u; c] -> dget (s_db s1) k = dget (s_db s) k).
    { intros k Nk. cbn. rewrite dget_dset_other by exact Nk. now rewrite Db0. }
    assert (D1 : dget (s_db s1) (key [u; c]) = Some l) by apply dget_dset_same.
    destruct (ensure_run u c (new_user_info "") s1) as [s3 [lu [iu [R3 E3]]]]; [|reflexivity|].
    { intros y Dy. rewrite <- (key1 u) in Dy. rewrite E1 in Dy by congruence.
      destruct (tk_user _ _ T u y V1 U Dy) as [i0 Hi0]. exists i0. now apply Hp0. }
    exists s3, lu, iu. split; [exact R3|].
    assert (Hlu : (dbk s [u] = Some lu /\ hp s lu = Some (OInfo iu))
        \/ (dbk s [u] = None /\ lu = List.length (s_heap s0) /\ iu = new_user_info "")).
    { destruct (en_old _ _ _ _ _ _ _ E3) as [[X Y]|[X [Y Z]]]; rewrite <- (key1 u) in X;
      rewrite E1 in X by congruence.
      - left. split; [exact X|]. destruct (tk_user _ _ T u lu V1 U X) as [i0 Hi0].
        pose proof (Hp0 _ _ Hi0). change (hp s0 lu = Some (OInfo iu)) in Y. congruence.
      - right. auto. }
    pose proof (en_rest _ _ _ _ _ _ _ E3) as [Rc3 Ra3]. cbn in Rc3, Ra3.
    pose proof (en_len _ _ _ _ _ _ _ E3) as Ln3. cbn in Ln3.
    unfold set_client_spec.
    split. { apply (en_nodup _ _ _ _ _ _ _ E3). cbn. apply dset_keys_nodup. rewrite Db0. apply (tk_nodup _ _ T). }
    split.
    { intros q Vq. unfold dbk.
      destruct (list_eq_dec string_dec q [u; c]) as [->|N2].
      { rewrite (en_other _ _ _ _ _ _ _ E3) by (rewrite <- (key1 u) at 2; congruence). exact D1. }
      destruct (list_eq_dec string_dec q [u]) as [->|N1].
      { exact (en_key _ _ _ _ _ _ _ E3). }
      rewrite (en_other _ _ _ _ _ _ _ E3).
      2:{ rewrite <- (key1 u). apply neq_key; auto. }
      apply E1. apply neq_key; auto. }
    split. { destruct Hlu as [X|[X [-> Y]]]; [now left|right; auto]. }
    split. { destruct Hlu as [[X _]|[_ [X _]]]; [congruence|lia]. }
    split; [exact (en_new _ _ _ _ _ _ _ E3)|].
    split. { intros l' o N1 Ho. rewrite (en_frame _ _ _ _ _ _ _ E3) by exact N1. now apply Hp0. }
    split; [lia|]. split; congruence.
  Qed.

  Lemma set_client_tree s u c l i s' lu iu : tree_ok isuser s -> valid_path [u; c] -> isuser u ->
    hp s l = Some (OInfo i) -> si_sub i = [] -> unused (dbk s) l -> dbk s [u; c] = None ->
    set_client_spec u c l s s' lu iu -> tree_ok isuser s'.
  Proof.
    intros T V2 U Hl Si F Dc [N' [D' [Hu [Nu [H1 [Hf [Ln _]]]]]]].
    pose proof (valid_1 _ _ V2) as V1.
    pose proof (proj1 (tree_abs _ _) T) as [ND A]. apply tree_abs. split; [exact N'|].
    assert (Fresh : forall x, x >= List.length (s_heap s) -> unused (dbk s) x).
    { intros x Hx p Vp E. apply (tree_loc _ _ _ T Vp) in E. lia. }
    destruct Hu as [[Du Hu]|[Du [Gu Iu]]].
    - assert (A2 : abs_ok isuser (pupd (dbk s) [u; c] l)
                    (hupd (hupd (hp s) l (OInfo i)) lu (OInfo (si_add c iu)))).
      { now apply abs_client. }
      apply (abs_same isuser _ _ _ _ A2).
      + intros p Vp. rewrite D' by exact Vp. unfold pupd. ldec.
      + intros p x o _ _ Hx. exists o. split; [|apply same_children_refl].
        unfold hupd in Hx. destruct (Nat.eq_dec x lu) as [->|Nx]; [congruence|].
        destruct (Nat.eq_dec x l) as [->|Ny].
        * injection Hx as <-. now apply Hf.
        * now apply Hf.
    - assert (B : abs_ok isuser (pupd (dbk s) [u] lu) (hupd (hp s) lu (OInfo iu))).
      { apply abs_root; auto. now subst iu. }
      assert (A2 : abs_ok isuser (pupd (pupd (dbk s) [u] lu) [u; c] l)
                    (hupd (hupd (hupd (hp s) lu (OInfo iu)) l (OInfo i)) lu (OInfo (si_add c iu)))).
      { apply abs_client; auto.
        - apply pupd_same.
        - apply hupd_same.
        - rewrite pupd_other by discriminate. exact Dc.
        - intros p Vp. unfold pupd. ldec. now apply F. }
      apply (abs_same isuser _ _ _ _ A2).
      + intros p Vp. rewrite D' by exact Vp. unfold pupd. ldec.
      + intros p x o _ _ Hx. exists o. split; [|apply same_children_refl].
        unfold hupd in Hx. destruct (Nat.eq_dec x lu) as [->|Nx]; [congruence|].
        destruct (Nat.eq_dec x l) as [->|Ny].
        * injection Hx as <-. now apply Hf.
        * now apply Hf.
  Qed.

  Definition set_one_spec (x : string) (l : nat) (s s' : st) : Prop :=
    NoDup (dkeys (s_db s'))
    /\ (forall q, valid_path q -> dbk s' q = if list_eq_dec string_dec q [x] then Some l else dbk s q)
    /\ (forall l' o, hp s l' = Some o -> hp s' l' = Some o)
    /\ List.length (s_heap s) <= List.length (s_heap s')
    /\ s_ctr s' = s_ctr s /\ s_always s' = s_always s.

  Lemma set_one_run s x l : NoDup (dkeys (s_db s)) -> valid_path [x] ->
    exists s', db_set [x] l s = (Ok tt, s') /\ set_one_spec x l s s'.
  Proof.
    intros N V. destruct (db_set1_run x l s) as [s' [R [Db [Hh [Ln [Ct Al]]]]]].
    exists s'. split; [exact R|]. unfold set_one_spec. rewrite Db.
    split; [now apply dset_keys_nodup|]. split.
    - intros q Vq. unfold dbk. rewrite Db. destruct (list_eq_dec string_dec q [x]) as [->|Nq].
      + rewrite key1. apply dget_dset_same.
      + apply dget_dset_other. rewrite <- (key1 x). apply neq_key; auto.
    - split; [|auto]. intros l' o Ho. rewrite Hh; [exact Ho|]. exact (hp_lt _ _ _ Ho).
  Qed.

  Lemma set_user_tree s u l i s' : tree_ok isuser s -> valid_path [u] -> isuser u ->
    hp s l = Some (OInfo i) -> si_sub i = [] -> unused (dbk s) l -> dbk s [u] = None ->
    set_one_spec u l s s' -> tree_ok isuser s'.
  Proof.
    intros T V U Hl Si F D0 [N' [D' [Hf _]]].
    pose proof (proj1 (tree_abs _ _) T) as [ND A]. apply tree_abs. split; [exact N'|].
    pose proof (abs_root isuser _ _ u l i A V U D0 F Si) as A2.
    apply (abs_same isuser _ _ _ _ A2).
    - intros p Vp. now rewrite D'.
    - intros p x o _ _ Hx. exists o. split; [|apply same_children_refl]. unfold hupd in Hx.
      destruct (Nat.eq_dec x l) as [->|Nx]; [injection Hx as <-|]; now apply Hf.
  Qed.

  Lemma set_alias_tree s x l o s' : tree_ok isuser s -> valid_path [x] -> ~ isuser x ->
    hp s l = Some o -> o <> ONone -> set_one_spec x l s s' -> tree_ok isuser s'.
  Proof.
    intros T V U Hl No [N' [D' [Hf _]]].
    pose proof (proj1 (tree_abs _ _) T) as [ND A]. apply tree_abs. split; [exact N'|].
    pose proof (abs_alias isuser _ _ x l o A V U Hl No) as A2.
    apply (abs_same isuser _ _ _ _ A2).
    - intros p Vp. now rewrite D'.
    - intros p y o' _ _ Hx. exists o'. split; [|apply same_children_refl]. now apply Hf.
  Qed.

  (** Storing a record again where it is changes nothing. *)
  Lemma put_self k l s : dget (s_db s) k = Some l -> db_put k l s = (Ok tt, s).
  Proof. intros D. unfold db_put. rewrite (dset_self _ _ _ D). destruct s; reflexivity. Qed.

  Lemma get_or_self k i l s : dget (s_db s) k = Some l -> db_get_or k i s = (Ok l, s).
  Proof. intros D. unfold db_get_or, bind, db_lookup. now rewrite D. Qed.

  Lemma ensure_noop k x i l i0 s : dget (s_db s) k = Some l -> hp s l = Some (OInfo i0) ->
    In x (si_sub i0) -> ensure k x i s = (Ok tt, s).
  Proof.
    intros D Hl I. unfold ensure. rewrite (bind_run _ _ _ _ _ (get_or_self _ i _ _ D)).
    unfold bind. rewrite (subordinate_run _ _ _ Hl). apply smem_In in I. now rewrite I.
  Qed.

  Lemma set_again s p l : tree_ok isuser s -> valid_path p -> reads s p l ->
    db_set p l s = (Ok tt, s).
  Proof.
    intros T V R. apply (db_get_iff isuser s p l T V) in R.
    destruct (valid_cases p V) as [[u [-> Hu]]|[[u [c [-> [Hu Hc]]]]|[u [c [g [-> [Hu [Hc Hg]]]]]]]].
    - unfold db_set. cbn [eval_path]. unfold bind at 1, lift. cbn [ostr_true]. unfold bind at 1, ret at 1.
      unfold bind at 1, ret at 1. rewrite <- (key1 u) at 1.
      rewrite (bind_run _ _ _ _ _ (get_or_self _ (new_user_info "") _ _ R)). now apply put_self.
    - rewrite (db_set2_eq u c l s Hc).
      rewrite (bind_run _ _ _ _ _ (get_or_self _ (new_client_info "") _ _ R)).
      rewrite (bind_run _ _ _ _ _ (put_self _ _ _ R)).
      destruct (tk_sub1 _ _ T u c l V R) as [lu [i [D [H I]]]].
      now apply (ensure_noop u c _ lu i).
    - rewrite (db_set3_eq u c g l s Hc Hg).
      rewrite (bind_run _ _ _ _ _ (put_self _ _ _ R)).
      destruct (tk_sub2 _ _ T u c g l V R) as [lc [i2 [D2 [H2 I2]]]].
      rewrite (bind_run _ _ _ _ _ (ensure_noop (key [u; c]) g _ lc i2 s D2 H2 I2)).
      destruct (tk_sub1 _ _ T u c lc (valid_2 _ _ _ V) D2) as [lu [i [D [H I]]]].
      now apply (ensure_noop u c _ lu i).
  Qed.

  Lemma fresh_unused s o d c a : tree_ok isuser s -> d = s_db s ->
    unused (dbk (mk_st (s_heap s ++ [o]) d c a)) (List.length (s_heap s)).
  Proof. intros T -> p Vp E. apply (tree_loc s p _ T Vp) in E. lia. Qed.

  (** *** Deletion of a session *)
  Definition delete_spec (u c g : string) (s s' : st) (lu lc : nat) (iu ic : sinfo) : Prop :=
    let last := list_true (sremove g (si_sub ic)) in
    let lastc := list_true (sremove c (si_sub iu)) in
    NoDup (dkeys (s_db s'))
    /\ dbk s [u] = Some lu /\ hp s lu = Some (OInfo iu)
    /\ dbk s [u; c] = Some lc /\ hp s lc = Some (OInfo ic)
    /\ In g (si_sub ic) /\ In c (si_sub iu) /\ lc <> lu
    /\ (forall q, valid_path q -> dbk s' q =
          if list_eq_dec string_dec q [u; c; g] then None
          else if last
          then if list_eq_dec string_dec q [c] then Some lc else dbk s q
          else if list_eq_dec string_dec q [u; c] then None
          else if lastc then dbk s q
          else if list_eq_dec string_dec q [u] then None else dbk s q)
    /\ hp s' lc = Some (OInfo (si_rem g ic))
    /\ hp s' lu = Some (OInfo (if last then iu else si_rem c iu))
    /\ (forall l', l' <> lc -> l' <> lu -> hp s' l' = hp s l')
    /\ List.length (s_heap s') = List.length (s_heap s)
    /\ s_ctr s' = s_ctr s /\ s_always s' = s_always s.

  Lemma db_lookup_bind {B} k (f : option nat -> M st B) s :
    bind (db_lookup k) f s = f (dget (s_db s) k) s.
  Proof. reflexivity. Qed.

  Lemma db_del_run k l s : dget (s_db s) k = Some l ->
    db_del k s = (Ok tt, mk_st (s_heap s) (ddel (s_db s) k) (s_ctr s) (s_always s)).
  Proof. intros H. unfold db_del. now rewrite H. Qed.

  Definition del_inner (u c g : string) (lu : nat) : M st unit :=
    oc <- db_lookup (key [u; c]) ;;
    match oc with
    | None => ret tt
    | Some cl =>
        (db_discard (key [u; c; g]) ;;
         csub <- subordinate cl ;;
         if smem g csub
         then upd_obj cl (on_info (fun i => si_set_sub (sremove g (si_sub i)) i))
         else ret tt) ;;
        csub <- subordinate cl ;;
        match csub with
        | [] => db_del (key [u; c]) ;;
                upd_obj lu (on_info (fun i => si_set_sub (sremove c (si_sub i)) i))
        | _ => db_put c cl
        end
    end.
  Definition del_rest (u : string) (lu : nat) : M st unit :=
    sub <- subordinate lu ;;
    match sub with
    | [] => db_del u
    | _ => db_put u lu
    end.
  Lemma db_delete_eq s u c g lu iu : c <> "" -> g <> "" -> dget (s_db s) u = Some lu ->
    hp s lu = Some (OInfo iu) -> In c (si_sub iu) ->
    db_delete [u; c; g] s = bind (del_inner u c g lu) (fun _ => del_rest u lu) s.
  Proof.
    intros Nc Ng Du Hu Ic. unfold db_delete. cbn [eval_path].
    unfold bind at 1, lift. rewrite db_lookup_bind, Du. cbn [ostr_true ostr].
    apply str_true_ne' in Nc, Ng. rewrite Nc. cbn [negb].
    rewrite (bind_run _ _ _ _ _ (subordinate_run _ _ _ Hu)).
    apply smem_In in Ic. rewrite Ic. cbn [negb].
    unfold del_inner. rewrite Ng. reflexivity.
  Qed.

  Lemma delete_spec_run s u c g l : tree_ok isuser s -> valid_path [u; c; g] -> isuser u ->
    c <> u -> dbk s [u; c; g] = Some l ->
    exists s' lu lc iu ic, db_delete [u; c; g] s = (Ok tt, s') /\ delete_spec u c g s s' lu lc iu ic.
  Proof.
    intros T V U Ncu Dg. pose proof (valid_2 _ _ _ V) as V2. pose proof (valid_1 _ _ V2) as V1.
    assert (N32 : key [u; c; g] <> key [u; c]) by (apply neq_key; auto; discriminate).
    assert (N31 : key [u; c; g] <> key [u]) by (apply neq_key; auto; discriminate).
    assert (N21 : key [u; c] <> key [u]) by (apply neq_key; auto; discriminate).
    destruct (valid_cases _ V) as [[? [X _]]|[[? [? [X _]]]|[? [? [? [X [Nu [Nc Ng]]]]]]]]; try discriminate.
    injection X as <- <- <-.
    assert (Vc : valid_path [c]).
    { destruct V as [_ [_ [E S]]]. split; [discriminate|]. split; [cbn; lia|]. split.
      - intros [X|[]]. apply E. right. left. auto.
      - split.
        + intros x [<-|[]]. apply (proj1 S). cbn; auto.
        + intros pre x y post Eq1. destruct pre as [|? [|? ?]]; discriminate. }
    destruct (tk_sub2 _ _ T u c g l V Dg) as [lc [ic [Dc [Hc Ig]]]].
    destruct (tk_sub1 _ _ T u c lc V2 Dc) as [lu [iu [Du [Hu Ic]]]].
    assert (Nlcu : lc <> lu).
    { intros ->. pose proof (tk_inj _ _ T [u] [u; c] lu (conj V1 U) (conj V2 U) Du Dc). discriminate. }
    pose proof (tk_nodup _ _ T) as ND.
    exists (snd (db_delete [u; c; g] s)), lu, lc, iu, ic.
    assert (Du' := Du). unfold dbk in Du'. rewrite key1 in Du'.
    rewrite (db_delete_eq s u c g lu iu Nc Ng Du' Hu Ic).
    (* the inner part *)
    set (s1 := mk_st (s_heap s) (ddel (s_db s) (key [u; c; g])) (s_ctr s) (s_always s)).
    set (s2 := mk_st (upd_nth lc (on_info (fun i => si_set_sub (sremove g (si_sub i)) i)) (s_heap s))
                 (s_db s1) (s_ctr s) (s_always s)).
    assert (Hc2 : hp s2 lc = Some (OInfo (si_rem g ic))).
    { unfold s2. rewrite hp_upd_same, Hc. reflexivity. }
    assert (Hu2 : hp s2 lu = Some (OInfo iu)).
    { unfold s2. rewrite hp_upd_other by congruence. exact Hu. }
    assert (Hf2 : forall x, x <> lc -> hp s2 x = hp s x).
    { intros x Nx. unfold s2. now apply hp_upd_other. }
    assert (In1 : del_inner u c g lu s =
       match sremove g (si_sub ic) with
       | [] => (db_del (key [u; c]) ;;
                upd_obj lu (on_info (fun i => si_set_sub (sremove c (si_sub i)) i))) s2
       | _ => db_put c lc s2 end).
    { unfold del_inner. rewrite db_lookup_bind. unfold dbk in Dc. rewrite Dc.
      assert (R1 : db_discard (key [u; c; g]) s = (Ok tt, s1)).
      { unfold db_discard. rewrite db_lookup_bind. unfold dbk in Dg. rewrite Dg.
        now apply (db_del_run _ l). }
      match goal with |- bind ?m ?f s = _ => assert (R2 : m s = (Ok tt, s2)) end.
      { rewrite (bind_run _ _ _ _ _ R1).
        rewrite (bind_run _ _ s1 _ _ (subordinate_run lc s1 ic Hc)).
        apply smem_In in Ig. rewrite Ig. reflexivity. }
      rewrite (bind_run _ _ _ _ _ R2).
      rewrite (bind_run _ _ s2 _ _ (subordinate_run lc s2 _ Hc2)). unfold si_rem, si_set_sub; cbn [si_sub]; now destruct (sremove g (si_sub ic)). }
    assert (D1 : forall q, valid_path q -> dbk s2 q =
        if list_eq_dec string_dec q [u; c; g] then None else dbk s q).
    { intros q Vq. unfold dbk. unfold s2, s1. cbn [s_db]. destruct (list_eq_dec string_dec q [u; c; g]) as [->|Nq].
      - now apply dget_ddel_same.
      - apply dget_ddel_other. apply neq_key; auto. }
    assert (ND2 : NoDup (dkeys (s_db s2))) by (cbn; now apply ddel_keys_nodup).
    destruct (sremove g (si_sub ic)) as [|g0 gs] eqn:Sg.
    - (* last grant of the client session *)
      set (s3 := mk_st (upd_nth lu (on_info (fun i => si_set_sub (sremove c (si_sub i)) i)) (s_heap s2))
                   (ddel (s_db s2) (key [u; c])) (s_ctr s) (s_always s)).
      assert (R3 : del_inner u c g lu s = (Ok tt, s3)).
      { rewrite In1. assert (Dc2 : dget (s_db s2) (key [u; c]) = Some lc).
        { pose proof (D1 [u; c] V2) as X. unfold dbk in X. rewrite X. destruct (list_eq_dec string_dec [u; c] [u; c; g]); [discriminate|exact Dc]. }
        rewrite (bind_run _ _ _ _ _ (db_del_run _ _ _ Dc2)). reflexivity. }
      assert (Hu3 : hp s3 lu = Some (OInfo (si_rem c iu))).
      { unfold s3. rewrite hp_upd_same, Hu2. reflexivity. }
      assert (Hf3 : forall x, x <> lu -> hp s3 x = hp s2 x).
      { intros x Nx. unfold s3. now apply hp_upd_other. }
      assert (D3 : forall q, valid_path q -> dbk s3 q =
          if list_eq_dec string_dec q [u; c; g] then None
          else if list_eq_dec string_dec q [u; c] then None else dbk s q).
      { intros q Vq. unfold dbk. unfold s3. cbn [s_db].
        destruct (list_eq_dec string_dec q [u; c]) as [->|Nq].
        - rewrite dget_ddel_same by exact ND2. ldec.
        - rewrite dget_ddel_other by (apply neq_key; auto). exact (D1 q Vq). }
      assert (ND3 : NoDup (dkeys (s_db s3))) by (unfold s3; cbn [s_db]; now apply ddel_keys_nodup).
      assert (Du3 : dget (s_db s3) u = Some lu).
      { pose proof (D3 [u] V1) as X. unfold dbk in X. rewrite key1 in X. rewrite X. ldec. }
      rewrite (bind_run _ _ _ _ _ R3). unfold del_rest.
      rewrite (bind_run _ _ s3 _ _ (subordinate_run lu s3 _ Hu3)).
      change (si_sub (si_rem c iu)) with (sremove c (si_sub iu)).
      destruct (sremove c (si_sub iu)) as [|c0 cs] eqn:Sc.
      + rewrite (db_del_run _ _ _ Du3). cbn [snd]. split; [reflexivity|].
        unfold delete_spec. rewrite Sg, Sc. cbn [list_true].
        split; [cbn [s_db]; now apply ddel_keys_nodup|]. repeat (split; [assumption|]).
        split.
        { intros q Vq. unfold dbk. cbn [s_db]. rewrite <- (key1 u) at 1.
          destruct (list_eq_dec string_dec q [u]) as [->|Nq].
          - rewrite dget_ddel_same by exact ND3. ldec.
          - rewrite dget_ddel_other by (apply neq_key; auto). exact (D3 q Vq). }
        split. { change (hp s3 lc = Some (OInfo (si_rem g ic))). rewrite Hf3 by congruence. exact Hc2. }
        split; [exact Hu3|].
        split. { intros x N1 N2. change (hp s3 x = hp s x). rewrite Hf3, Hf2 by auto. reflexivity. }
        cbn. rewrite !upd_nth_length. auto.
      + rewrite (put_self _ _ _ Du3). cbn [snd]. split; [reflexivity|].
        unfold delete_spec. rewrite Sg, Sc. cbn [list_true].
        split; [assumption|]. repeat (split; [assumption|]).
        split. { rewrite Hf3 by congruence. exact Hc2. }
        split; [exact Hu3|].
        split. { intros x N1 N2. rewrite Hf3, Hf2 by auto. reflexivity. }
        cbn. rewrite !upd_nth_length. auto.
    - (* other grants remain *)
      set (s3 := mk_st (s_heap s2) (dset (s_db s2) c lc) (s_ctr s) (s_always s)).
      assert (R3 : del_inner u c g lu s = (Ok tt, s3)) by (rewrite In1; reflexivity).
      assert (D3 : forall q, valid_path q -> dbk s3 q =
          if list_eq_dec string_dec q [u; c; g] then None
          else if list_eq_dec string_dec q [c] then Some lc else dbk s q).
      { intros q Vq. unfold dbk. unfold s3. cbn [s_db]. rewrite <- (key1 c) at 1.
        destruct (list_eq_dec string_dec q [c]) as [->|Nq].
        - rewrite dget_dset_same. ldec.
        - rewrite dget_dset_other by (apply neq_key; auto). exact (D1 q Vq). }
      assert (ND3 : NoDup (dkeys (s_db s3))) by (unfold s3; cbn [s_db]; now apply dset_keys_nodup).
      assert (Du3 : dget (s_db s3) u = Some lu).
      { pose proof (D3 [u] V1) as X. unfold dbk in X. rewrite key1 in X. rewrite X. ldec. }
      rewrite (bind_run _ _ _ _ _ R3). unfold del_rest.
      rewrite (bind_run _ _ s3 _ _ (subordinate_run lu s3 _ Hu2)).
      destruct (si_sub iu) as [|c0 cs] eqn:Sc; [destruct Ic|].
      rewrite (put_self _ _ _ Du3). cbn [snd]. split; [reflexivity|].
      unfold delete_spec. rewrite Sg, Sc. cbn [list_true].
      split; [assumption|]. repeat (split; [assumption|]).
      split. { intros x N1 N2. change (hp s2 x = hp s x). now rewrite Hf2. }
      cbn. rewrite !upd_nth_length. auto.
  Qed.

  Lemma delete_tree s u c g l s' lu lc iu ic : tree_ok isuser s -> valid_path [u; c; g] -> isuser u ->
    ~ isuser c -> dbk s [u; c; g] = Some l -> delete_spec u c g s s' lu lc iu ic -> tree_ok isuser s'.
  Proof.
    intros T V U NU Dg [ND [Du [Hu [Dc [Hc [Ig [Ic [Ncu [D' [Hc' [Hu' [Hf _]]]]]]]]]]]].
    pose proof (valid_2 _ _ _ V) as V2. pose proof (valid_1 _ _ V2) as V1.
    assert (Vc : valid_path [c]).
    { destruct V as [_ [_ [E S]]]. split; [discriminate|]. split; [cbn; lia|]. split.
      - intros [X|[]]. apply E. right. left. auto.
      - split.
        + intros x [<-|[]]. apply (proj1 S). cbn; auto.
        + intros pre x y post Eq1. destruct pre as [|? [|? ?]]; discriminate. }
    pose proof (proj1 (tree_abs _ _) T) as [_ A]. apply tree_abs. split; [exact ND|].
    pose proof (abs_del_grant isuser _ _ u c g lc ic A V Dc Hc) as A1.
    destruct (list_true (sremove g (si_sub ic))) eqn:Lg.
    - assert (A2 : abs_ok isuser (pupd (prem (dbk s) [u; c; g]) [c] lc) (hupd (hp s) lc (OInfo (si_rem g ic)))).
      { apply (abs_alias isuser _ _ c lc (OInfo (si_rem g ic))); auto; [apply hupd_same|discriminate]. }
      apply (abs_same isuser _ _ _ _ A2).
      + intros q Vq. rewrite D' by exact Vq. unfold pupd, prem. ldec.
      + intros q x o _ _ Hx. exists o. split; [|apply same_children_refl].
        unfold hupd in Hx. destruct (Nat.eq_dec x lc) as [->|N1]; [congruence|].
        destruct (Nat.eq_dec x lu) as [->|N2]; [congruence|]. now rewrite Hf.
    - assert (Sg : sremove g (si_sub ic) = []) by (destruct (sremove g (si_sub ic)); [auto|discriminate]).
      assert (A2 : abs_ok isuser (prem (prem (dbk s) [u; c; g]) [u; c])
                    (hupd (hupd (hp s) lc (OInfo (si_rem g ic))) lu (OInfo (si_rem c iu)))).
      { apply (abs_del_client isuser _ _ u c lc (si_rem g ic) lu iu); auto.
        - rewrite prem_other by discriminate. exact Dc.
        - apply hupd_same.
        - rewrite prem_other by discriminate. exact Du.
        - rewrite hupd_other by congruence. exact Hu. }
      destruct (list_true (sremove c (si_sub iu))) eqn:Lc.
      + apply (abs_same isuser _ _ _ _ A2).
        * intros q Vq. rewrite D' by exact Vq. unfold prem. ldec.
        * intros q x o _ _ Hx. exists o. split; [|apply same_children_refl].
          unfold hupd in Hx. destruct (Nat.eq_dec x lu) as [->|N2]; [congruence|].
          destruct (Nat.eq_dec x lc) as [->|N1]; [congruence|]. now rewrite Hf.
      + assert (Sc : sremove c (si_sub iu) = []) by (destruct (sremove c (si_sub iu)); [auto|discriminate]).
        assert (A3 : abs_ok isuser (prem (prem (prem (dbk s) [u; c; g]) [u; c]) [u])
                    (hupd (hupd (hp s) lc (OInfo (si_rem g ic))) lu (OInfo (si_rem c iu)))).
        { apply (abs_del_user isuser _ _ u lu (si_rem c iu)); auto.
          - rewrite !prem_other by discriminate. exact Du.
          - apply hupd_same. }
        apply (abs_same isuser _ _ _ _ A3).
        * intros q Vq. rewrite D' by exact Vq. unfold prem. ldec.
        * intros q x o _ _ Hx. exists o. split; [|apply same_children_refl].
          unfold hupd in Hx. destruct (Nat.eq_dec x lu) as [->|N2]; [congruence|].
          destruct (Nat.eq_dec x lc) as [->|N1]; [congruence|]. now rewrite Hf.
  Qed.

  Lemma delete_run s u c g l : tree_ok isuser s -> valid_path [u; c; g] -> isuser u -> ~ isuser c ->
    dbk s [u; c; g] = Some l ->
    exists s', db_delete [u; c; g] s = (Ok tt, s') /\ tree_ok isuser s'
      /\ exists lu lc iu ic, delete_spec u c g s s' lu lc iu ic.
  Proof.
    intros T V U NU Dg.
    destruct (delete_spec_run s u c g l T V U ltac:(congruence) Dg) as [s' [lu [lc [iu [ic [R S]]]]]].
    exists s'. split; [exact R|]. split; [|eauto].
    exact (delete_tree s u c g l s' lu lc iu ic T V U NU Dg S).
  Qed.

  Lemma storing_tree s s' : tree_ok isuser s -> storing isuser s s' -> tree_ok isuser s'.
  Proof.
    intros T St. destruct St.
    - rename H into V, H0 into U, H1 into Ab, H2 into R.
      apply (absent_iff isuser) in Ab; auto. unfold bind, new_obj in R.
      set (s1 := mk_st _ _ _ _) in R.
      assert (T1 : tree_ok isuser s1) by (apply tree_alloc; auto).
      destruct (set_one_run s1 u (List.length (s_heap s)) (tk_nodup _ _ T1) V) as [s2 [R2 S2]].
      rewrite R2 in R. injection R as <-.
      apply (set_user_tree s1 u (List.length (s_heap s)) (new_user_info u) s2 T1 V U); auto.
      + apply hp_app_same.
      + apply fresh_unused; auto.
    - rename H into V, H0 into U, H1 into Rd, H2 into Ab, H3 into R.
      apply (absent_iff isuser) in Ab; auto. unfold bind, new_obj in R.
      set (s1 := mk_st _ _ _ _) in R.
      assert (T1 : tree_ok isuser s1) by (apply tree_alloc; auto).
      assert (F1 : unused (dbk s1) (List.length (s_heap s))) by (apply fresh_unused; auto).
      destruct (set_client_run s1 u c (List.length (s_heap s)) T1 V U) as [s2 [lu [iu [R2 S2]]]].
      { cbn. rewrite app_length. cbn. lia. }
      { apply F1. now apply valid_1 in V. }
      rewrite R2 in R. injection R as <-.
      apply (set_client_tree s1 u c (List.length (s_heap s)) (new_client_info c) s2 lu iu T1 V U); auto.
      apply hp_app_same.
    - rename H into V, H0 into U, H1 into R. unfold bind, new_obj in R.
      set (s1 := mk_st _ _ _ _) in R.
      assert (T1 : tree_ok isuser s1) by (apply tree_alloc; auto).
      assert (F1 : unused (dbk s1) (List.length (s_heap s))) by (apply fresh_unused; auto).
      assert (Hl : hp s1 (List.length (s_heap s)) = Some (OGrant gr)) by apply hp_app_same.
      destruct (set_grant_run s1 u c g (List.length (s_heap s)) gr T1 V U Hl)
        as [s2 [lu [lc [iu [ic [R2 S2]]]]]].
      rewrite R2 in R. injection R as <- <-.
      exact (set_grant_tree s1 u c g (List.length (s_heap s)) gr s2 lu lc iu ic T1 V U Hl F1 S2).
    - rename H into V, H0 into U, H1 into Rd, H2 into R. rewrite (set_again s p l T V Rd) in R.
      injection R as <- <-. exact T.
    - rename H into V, H0 into NU, H1 into Vp, H2 into Rd, H3 into R.
      apply (db_get_iff isuser s p l T Vp) in Rd.
      destruct (tk_some _ _ T p l Vp Rd) as [o [Ho No]].
      destruct (set_one_run s x l (tk_nodup _ _ T) V) as [s2 [R2 S2]].
      rewrite R2 in R. injection R as <- <-.
      exact (set_alias_tree s x l o s2 T V NU Ho No S2).
    - rename H into V, H0 into U, H1 into NU, H2 into Rd, H3 into R.
      apply (db_get_iff isuser s _ l T V) in Rd.
      destruct (delete_run s u c g l T V U NU Rd) as [s2 [R2 [T2 _]]].
      rewrite R2 in R. injection R as <- <-. exact T2.
    - unfold flush in H. injection H as <- <-. apply tree_abs. split; [constructor|].
      constructor; intros; unfold dbk in *; cbn in *; discriminate.
    - rename H into Db, H0 into Ln, H1 into Hs.
      apply tree_abs in T. destruct T as [ND A]. apply tree_abs. split; [now rewrite Db|].
      apply (abs_same isuser _ _ _ _ A).
      + intros p Vp. unfold dbk. now rewrite Db.
      + intros p l o _ _ Ho. exact (Hs l o Ho).
  Qed.

  Lemma built_tree s : built isuser s -> tree_ok isuser s.
  Proof.
    induction 1 as [always|s s' _ IH St].
    - apply tree_abs. split; [constructor|].
      constructor; intros; cbn in *; unfold dbk in *; cbn in *; discriminate.
    - exact (storing_tree s s' IH St).
  Qed.
End Sets.
