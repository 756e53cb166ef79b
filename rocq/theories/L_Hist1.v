(** Histories, part 1: the later-than relations, the invariant of the store,
    and a small program logic for calls. *)
From Verif Require Import M_Base M_Types M_Codec M_Grant M_Env M_Session M_Claims M_Handler
  M_Authz M_TokenEP M_PKCE M_AuthzEP M_Info M_Logout M_History S_Codec S_Grant S_History
  L_Base L_Codec L_Monad L_Grant L_Store.

(** ** Later tokens and grants *)
Lemma token_later_refl t : token_later t t.
Proof. unfold token_later; intuition lia. Qed.
Lemma token_later_trans a b c : token_later a b -> token_later b c -> token_later a c.
Proof. unfold token_later; intuition (try congruence; lia). Qed.

Lemma tokens_later_refl ts : tokens_later ts ts.
Proof. intros i t H; exists t; split; auto using token_later_refl. Qed.
Lemma tokens_later_trans a b c : tokens_later a b -> tokens_later b c -> tokens_later a c.
Proof.
  intros H K i t N. destruct (H i t N) as (t1 & N1 & L1). destruct (K i t1 N1) as (t2 & N2 & L2).
  exists t2; split; auto. eapply token_later_trans; eauto.
Qed.
Lemma tokens_later_app ts x : tokens_later ts (ts ++ x).
Proof.
  intros i t H. exists t; split; [|apply token_later_refl].
  rewrite nth_error_app1; auto. apply nth_error_Some. congruence.
Qed.
Lemma tokens_later_len a b : tokens_later a b -> List.length a <= List.length b.
Proof.
  intros H. destruct (Nat.le_gt_cases (List.length a) (List.length b)) as [L|L]; auto.
  destruct (nth_error a (List.length b)) as [t|] eqn:E.
  - destruct (H _ _ E) as (t' & E' & _).
    assert (nth_error b (List.length b) <> None) by congruence. apply nth_error_Some in H0. lia.
  - apply nth_error_None in E. lia.
Qed.

Lemma grant_later_refl now g : grant_later now g g.
Proof. unfold grant_later; intuition (auto using tokens_later_refl; lia). Qed.

Lemma grant_later_dead now g g' : grant_later now g g' ->
  grant_active now g = false -> grant_active now g' = false.
Proof.
  intros (_ & _ & _ & _ & _ & Nb & Mx & Rv & Us & _ & Dx & _) D.
  destruct (grant_active now g') eqn:E; auto. exfalso.
  rewrite <- not_true_iff_false, grant_active_live in D. apply D. clear D.
  apply grant_active_live in E. unfold grant_live, live in *.
  destruct E as (R & M & N & X). rewrite Nb, Mx in *.
  split; [|split; [|split]]; auto.
  - destruct (g_revoked g); auto. now rewrite Rv in R.
  - intros m Hm. specialize (M m Hm). lia.
  - destruct (grant_active now g) eqn:A.
    + apply grant_active_live in A. apply A.
    + destruct (Dx eq_refl) as [Ex _]. now rewrite <- Ex.
Qed.

Lemma grant_later_trans now a b c :
  grant_later now a b -> grant_later now b c -> grant_later now a c.
Proof.
  intros H K. pose proof (grant_later_dead _ _ _ H) as D.
  destruct H as (A1 & A2 & A3 & A4 & A5 & A6 & A7 & A8 & A9 & A10 & A11 & A12).
  destruct K as (B1 & B2 & B3 & B4 & B5 & B6 & B7 & B8 & B9 & B10 & B11 & B12).
  unfold grant_later. repeat split; try congruence; auto; try lia.
  - eapply tokens_later_trans; eauto.
  - intuition congruence.
  - intuition congruence.
  - intros N. rewrite B12, A12; auto. now rewrite A12.
Qed.

Definition info_later (i i' : sinfo) : Prop :=
  si_client i' = si_client i /\ si_id i' = si_id i /\ (si_revoked i = true -> si_revoked i' = true).

Definition obj_later (now : Z) (o o' : obj) : Prop :=
  match o, o' with
  | OInfo i, OInfo i' => info_later i i'
  | OGrant g, OGrant g' => grant_later now g g'
  | ONone, ONone => True
  | _, _ => False
  end.
Lemma obj_later_refl now o : obj_later now o o.
Proof. destruct o; cbn; auto using grant_later_refl. unfold info_later; auto. Qed.
Lemma obj_later_trans now a b c : obj_later now a b -> obj_later now b c -> obj_later now a c.
Proof.
  destruct a, b, c; cbn; try tauto; try apply grant_later_trans.
  unfold info_later; intuition congruence.
Qed.

Definition st_later (now : Z) (s s' : st) : Prop :=
  s_ctr s <= s_ctr s'
  /\ forall l o, hp s l = Some o -> exists o', hp s' l = Some o' /\ obj_later now o o'.
Lemma st_later_refl now s : st_later now s s.
Proof. split; [lia|]. intros l o H. eauto using obj_later_refl. Qed.
Lemma st_later_trans now a b c : st_later now a b -> st_later now b c -> st_later now a c.
Proof.
  intros [C1 H] [C2 K]. split; [lia|]. intros l o E.
  destruct (H l o E) as (o1 & E1 & L1). destruct (K l o1 E1) as (o2 & E2 & L2).
  exists o2; split; auto. eapply obj_later_trans; eauto.
Qed.
Lemma st_later_grant now s s' l g : st_later now s s' -> hp s l = Some (OGrant g) ->
  exists g', hp s' l = Some (OGrant g') /\ grant_later now g g'.
Proof.
  intros [_ H] E. destruct (H _ _ E) as (o & E' & L). destruct o; cbn in L; try tauto. eauto.
Qed.

(** ** The invariant *)

(** The scope a grant gets from the authorization policy. *)
Definition authz_scope (e : env) (g : grant) : list string :=
  if e_implicit e then []
  else match gc_scope (e_authz e) with
       | Some (x :: r) => x :: r
       | _ => match g_areq g with
              | Some a => match ar_scope a with Some s => s | None => [] end
              | None => []
              end
       end.

Record tok_ok (g : grant) (t : token) : Prop := {
  to_used : (0 <= t_used t)%Z;
  to_nbf : t_nbf t = 0%Z;
  to_code : t_class t = CODE -> r_max (t_rules t) = Some 1%Z;
  to_scope : t_class t <> IDTOKEN -> incl (t_scope t) (g_scope g);
  to_class : In (t_class t) [CODE; ACCESS; REFRESH; IDTOKEN];
  to_full : t_class t = CODE -> t_scope t = g_scope g;
  to_type : t_type t <> None <-> t_class t = ACCESS;
  to_sid : t_class t <> IDTOKEN -> t_sid t = EmptyString
}.

(** The session id [sid] names the grant [g]. *)
Definition sid_of (e : env) (g : grant) (sid : string) : Prop :=
  exists u c, dec_sid3 e sid = Ok (u, c, g_id g) /\ belongs e g u c.
Lemma sid_of_same e g g' sid : g_id g' = g_id g -> g_areq g' = g_areq g -> g_aevent g' = g_aevent g ->
  g_sub g' = g_sub g -> sid_of e g sid -> sid_of e g' sid.
Proof.
  intros A B C D (u & c & E & ar & ae & F). exists u, c. rewrite A. split; auto.
  exists ar, ae. now rewrite B, C, D.
Qed.

Record ginv (e : env) (g : grant) : Prop := {
  gi_max : g_max g = None;
  gi_nbf : g_nbf g = 0%Z;
  gi_tok : forall t, In t (g_tokens g) -> tok_ok g t;
  gi_parent : forall i t v, nth_error (g_tokens g) i = Some t -> t_based t = Some v ->
    exists j p, j < i /\ nth_error (g_tokens g) j = Some p /\ t_value p = v
      /\ (t_class p = CODE \/ t_class p = REFRESH);
  gi_scope : g_scope g = [] \/ g_scope g = authz_scope e g;
  gi_final : g_tokens g <> [] -> g_scope g = authz_scope e g;
  gi_sid : forall t, In t (g_tokens g) -> t_class t = IDTOKEN -> sid_of e g (t_sid t)
}.

(** The record at [l] is the grant [g] of user [u] and client [c]. *)
Definition owns (e : env) (s : st) (l : nat) (u c g : string) : Prop :=
  exists gr, hp s l = Some (OGrant gr) /\ g_id gr = g /\ belongs e gr u c.

(** What the key [k] can refer to: a session info, or a grant, whose own key it
    is, or that was stored under a session id. *)
Definition stored (s : st) (k : string) (l : nat) : Prop :=
  match hp s l with
  | Some (OInfo _) => True
  | Some (OGrant g) => (exists u c, separable [u; c; g_id g] /\ k = session_key [u; c; g_id g])
                       \/ ~ occurs_in ";;" k
  | _ => False
  end.

(** A name that a stored path can hold. *)
Definition clean (x : string) : Prop := x <> "" /\ ~ occurs_in ";;" x.

Record Inv (e : env) (s : st) : Prop := {
  inv_ids : forall l g, hp s l = Some (OGrant g) -> exists n, g_id g = e_uuid e n /\ n < s_ctr s;
  inv_uniq : forall l l' g g', hp s l = Some (OGrant g) -> hp s l' = Some (OGrant g') ->
    g_id g = g_id g' -> l = l';
  inv_keys : forall u c g l, separable [u; c; g] ->
    dget (s_db s) (session_key [u; c; g]) = Some l -> owns e s l u c g;
  inv_grants : forall l g, hp s l = Some (OGrant g) -> ginv e g;
  inv_made : forall l g t, hp s l = Some (OGrant g) -> In t (g_tokens g) ->
    exists n, made e n (t_value t) /\ n < s_ctr s;
  inv_vals : forall l l' g g' i i' t t', hp s l = Some (OGrant g) -> hp s l' = Some (OGrant g') ->
    nth_error (g_tokens g) i = Some t -> nth_error (g_tokens g') i' = Some t' ->
    t_value t = t_value t' -> l = l' /\ i = i';
  inv_dict : NoDup (dkeys (s_db s));
  inv_sub : forall l i x, hp s l = Some (OInfo i) -> In x (si_sub i) -> clean x;
  inv_stored : forall k l, dget (s_db s) k = Some l -> stored s k l
}.

(** [belongs] depends only on parts of a grant that never change. *)
Lemma belongs_later e now g g' u c : grant_later now g g' -> belongs e g u c -> belongs e g' u c.
Proof.
  intros (_ & A & B & C & _) (ar & ae & E1 & E2 & E3 & E4 & E5). exists ar, ae.
  rewrite A, B, C. auto.
Qed.
Lemma owns_later e now s s' l u c g : st_later now s s' -> owns e s l u c g -> owns e s' l u c g.
Proof.
  intros L (gr & H & I & B). destruct (st_later_grant _ _ _ _ _ L H) as (g' & H' & G).
  exists g'. split; [auto|]. split; [destruct G; congruence|]. eapply belongs_later; eauto.
Qed.

(** ** Changes that keep the invariant *)

(** Same heap and database: only draws and the client's lists may differ. *)
Definition quiet (s s' : st) : Prop :=
  s_heap s' = s_heap s /\ s_db s' = s_db s /\ s_ctr s <= s_ctr s'.
Lemma quiet_refl s : quiet s s.
Proof. unfold quiet; auto. Qed.
Lemma quiet_trans a b c : quiet a b -> quiet b c -> quiet a c.
Proof. unfold quiet; intuition (try congruence; lia). Qed.
Lemma quiet_later now s s' : quiet s s' -> st_later now s s'.
Proof.
  intros (H & _ & C). split; auto. intros l o E. exists o. unfold hp in *. rewrite H.
  auto using obj_later_refl.
Qed.
Lemma quiet_inv e s s' : quiet s s' -> Inv e s -> Inv e s'.
Proof.
  intros (H & D & C) I.
  assert (forall l, hp s' l = hp s l) as Hp by (intros; unfold hp; now rewrite H).
  constructor.
  - intros l g E. rewrite Hp in E. destruct (inv_ids _ _ I _ _ E) as (n & A & B). exists n; split; auto; lia.
  - intros l l' g g' E E'. rewrite Hp in *. eapply inv_uniq; eauto.
  - intros u c g l S E. rewrite D in E. destruct (inv_keys _ _ I _ _ _ _ S E) as (gr & A & B).
    exists gr. rewrite Hp. auto.
  - intros l g E. rewrite Hp in E. eapply inv_grants; eauto.
  - intros l g t E T. rewrite Hp in E. destruct (inv_made _ _ I _ _ _ E T) as (n & A & B).
    exists n; split; auto; lia.
  - intros l l' g g' i i' t t' E E'. rewrite Hp in *. eapply inv_vals; eauto.
  - rewrite D. apply I.
  - intros l i x E. rewrite Hp in E. eapply inv_sub; eauto.
  - intros k l E. rewrite D in E. unfold stored. rewrite Hp. exact (inv_stored _ _ I k l E).
Qed.

(** Changes inside records that keep what identifies grants and tokens. *)
Definition obj_change (e : env) (o o' : obj) : Prop :=
  match o, o' with
  | OInfo i, OInfo i' => forall x, In x (si_sub i') -> In x (si_sub i) \/ clean x
  | ONone, ONone => True
  | OGrant g, OGrant g' =>
      g_id g' = g_id g /\ g_areq g' = g_areq g /\ g_aevent g' = g_aevent g /\ g_sub g' = g_sub g
      /\ map t_value (g_tokens g') = map t_value (g_tokens g) /\ (ginv e g -> ginv e g')
  | _, _ => False
  end.
Lemma obj_change_refl e o : obj_change e o o.
Proof. destruct o; cbn; intuition. Qed.

Lemma nth_map_value ts ts' i t : map t_value ts' = map t_value ts -> nth_error ts' i = Some t ->
  exists t0, nth_error ts i = Some t0 /\ t_value t0 = t_value t.
Proof.
  intros E N. apply (map_nth_error t_value) in N. rewrite E in N.
  rewrite nth_error_map in N. destruct (nth_error ts i) as [t0|]; [|discriminate].
  cbn in N. injection N as N. eauto.
Qed.

Lemma inv_change e s s' : Inv e s -> s_db s' = s_db s -> s_ctr s <= s_ctr s' ->
  (forall l o', hp s' l = Some o' -> exists o, hp s l = Some o /\ obj_change e o o') ->
  (forall l o, hp s l = Some o -> exists o', hp s' l = Some o' /\ obj_change e o o') ->
  Inv e s'.
Proof.
  intros I D C Hb Hf.
  assert (forall l g', hp s' l = Some (OGrant g') ->
            exists g, hp s l = Some (OGrant g) /\ obj_change e (OGrant g) (OGrant g')) as Hg.
  { intros l g' E. destruct (Hb _ _ E) as (o & E0 & K). destruct o; cbn in K; try tauto. eauto. }
  constructor.
  - intros l g E. destruct (Hg _ _ E) as (g0 & E0 & K). destruct (inv_ids _ _ I _ _ E0) as (n & A & B).
    exists n. destruct K as (K & _). split; [congruence|lia].
  - intros l l' g g' E E' X. destruct (Hg _ _ E) as (g0 & E0 & K & _). destruct (Hg _ _ E') as (g1 & E1 & K' & _).
    eapply (inv_uniq _ _ I _ _ _ _ E0 E1). congruence.
  - intros u c g l S E. rewrite D in E. destruct (inv_keys _ _ I _ _ _ _ S E) as (gr & A & B & Bl).
    destruct (Hf _ _ A) as (o' & A' & K). destruct o' as [|gr'|]; cbn in K; try tauto.
    exists gr'. destruct K as (K1 & K2 & K3 & K4 & _). split; [auto|]. split; [congruence|].
    destruct Bl as (ar & ae & X). exists ar, ae. rewrite K2, K3, K4. auto.
  - intros l g E. destruct (Hg _ _ E) as (g0 & E0 & K). apply K. eapply inv_grants; eauto.
  - intros l g t E T. destruct (Hg _ _ E) as (g0 & E0 & K). apply In_nth_error in T as [i T].
    destruct K as (_ & _ & _ & _ & V & _).
    destruct (nth_map_value _ _ _ _ V T) as (t0 & T0 & V0).
    destruct (inv_made _ _ I _ _ t0 E0) as (n & A & B); [eapply nth_error_In; eauto|].
    exists n. rewrite <- V0. split; auto. lia.
  - intros l l' g g' i i' t t' E E' T T' V.
    destruct (Hg _ _ E) as (g0 & E0 & K). destruct (Hg _ _ E') as (g1 & E1 & K').
    destruct K as (_ & _ & _ & _ & W & _). destruct K' as (_ & _ & _ & _ & W' & _).
    destruct (nth_map_value _ _ _ _ W T) as (t0 & T0 & V0).
    destruct (nth_map_value _ _ _ _ W' T') as (t1 & T1 & V1).
    eapply (inv_vals _ _ I _ _ _ _ _ _ _ _ E0 E1 T0 T1). congruence.
  - rewrite D. apply I.
  - intros l i x E X. destruct (Hb _ _ E) as (o & E0 & K). destruct o as [i0| |]; cbn in K; try tauto.
    destruct (K x X) as [Y|Y]; auto. eapply inv_sub; eauto.
  - intros k l E. rewrite D in E. pose proof (inv_stored _ _ I k l E) as S. unfold stored in *.
    destruct (hp s l) as [o|] eqn:H; [|destruct S]. destruct (Hf _ _ H) as (o' & -> & K).
    destruct o, o'; cbn in K; try tauto. destruct K as (-> & _). exact S.
Qed.

(** A reference stays one of the same kind. *)
Lemma stored_later now s s' k l : st_later now s s' -> stored s k l -> stored s' k l.
Proof.
  intros [_ H]. unfold stored. destruct (hp s l) as [o|] eqn:E; [|tauto].
  destruct (H _ _ E) as (o' & -> & L). destruct o, o'; cbn in L; try tauto. destruct L as (-> & _). auto.
Qed.

(** One record changed in place. *)
Lemma inv_upd e s l f d c a : Inv e s -> d = s_db s -> s_ctr s <= c ->
  (forall o, hp s l = Some o -> obj_change e o (f o)) ->
  Inv e (mk_st (upd_nth l f (s_heap s)) d c a).
Proof.
  intros I -> C K. apply inv_change with s; auto.
  - intros l' o' E. destruct (Nat.eq_dec l' l) as [->|N].
    + rewrite hp_upd_same in E. destruct (hp s l) as [o|] eqn:H; cbn in E; [|discriminate].
      exists o; split; auto. assert (o' = f o) as -> by congruence. auto.
    + rewrite hp_upd_other in E by auto. eauto using obj_change_refl.
  - intros l' o E. destruct (Nat.eq_dec l' l) as [->|N].
    + rewrite hp_upd_same, E. cbn. eauto.
    + rewrite hp_upd_other by auto. eauto using obj_change_refl.
Qed.
Lemma later_upd now s l f d c a : s_ctr s <= c ->
  (forall o, hp s l = Some o -> obj_later now o (f o)) ->
  st_later now s (mk_st (upd_nth l f (s_heap s)) d c a).
Proof.
  intros C K. split; auto. intros l' o E. destruct (Nat.eq_dec l' l) as [->|N].
  - rewrite hp_upd_same, E. cbn. eauto.
  - rewrite hp_upd_other by auto. eauto using obj_later_refl.
Qed.

(** A new record. *)
Lemma later_app now s o d c a : s_ctr s <= c -> st_later now s (mk_st (s_heap s ++ [o]) d c a).
Proof.
  intros C. split; auto. intros l o' E. rewrite hp_app_other.
  - eauto using obj_later_refl.
  - apply hp_lt in E. lia.
Qed.
Lemma inv_app e s o d c a : Inv e s -> d = s_db s -> s_ctr s <= c ->
  (match o with OGrant _ => False | OInfo i => si_sub i = [] | ONone => True end) ->
  Inv e (mk_st (s_heap s ++ [o]) d c a).
Proof.
  intros I -> C N.
  assert (forall l g, hp (mk_st (s_heap s ++ [o]) (s_db s) c a) l = Some (OGrant g) ->
            hp s l = Some (OGrant g)) as Hg.
  { intros l g E. destruct (Nat.eq_dec l (List.length (s_heap s))) as [->|M].
    - rewrite hp_app_same in E. injection E as ->. tauto.
    - now rewrite hp_app_other in E by auto. }
  constructor.
  - intros l g E. apply Hg in E. destruct (inv_ids _ _ I _ _ E) as (n & A & B). exists n; split; auto. cbn; lia.
  - intros l l' g g' E E'. apply Hg in E, E'. eapply inv_uniq; eauto.
  - intros u c0 g l S E. cbn in E. destruct (inv_keys _ _ I _ _ _ _ S E) as (gr & A & B).
    exists gr. rewrite hp_app_other; auto. apply hp_lt in A. lia.
  - intros l g E. apply Hg in E. eapply inv_grants; eauto.
  - intros l g t E T. apply Hg in E. destruct (inv_made _ _ I _ _ _ E T) as (n & A & B).
    exists n; split; auto. cbn; lia.
  - intros l l' g g' i i' t t' E E'. apply Hg in E, E'. eapply inv_vals; eauto.
  - apply I.
  - intros l i x E X. destruct (Nat.eq_dec l (List.length (s_heap s))) as [->|M].
    + rewrite hp_app_same in E. injection E as ->. rewrite N in X. destruct X.
    + rewrite hp_app_other in E by auto. eapply inv_sub; eauto.
  - intros k l E. apply (stored_later 0 s); [apply later_app; auto|]. exact (inv_stored _ _ I k l E).
Qed.
(** A new grant, with a fresh id. *)
Lemma inv_app_grant e s g n d c a : laws e -> Inv e s -> d = s_db s -> s_ctr s <= n -> n < c ->
  g_id g = e_uuid e n -> g_tokens g = [] -> ginv e g ->
  Inv e (mk_st (s_heap s ++ [OGrant g]) d c a).
Proof.
  intros W I -> C1 C2 Id Tk Gi.
  assert (forall l gr, hp (mk_st (s_heap s ++ [OGrant g]) (s_db s) c a) l = Some (OGrant gr) ->
            hp s l = Some (OGrant gr) \/ (l = List.length (s_heap s) /\ gr = g)) as Hg.
  { intros l gr E. destruct (Nat.eq_dec l (List.length (s_heap s))) as [->|M].
    - rewrite hp_app_same in E. right. split; congruence.
    - rewrite hp_app_other in E by auto. auto. }
  assert (forall l gr, hp s l = Some (OGrant gr) -> g_id gr <> g_id g) as Fr.
  { intros l gr E X. destruct (inv_ids _ _ I _ _ E) as (m & A & B).
    assert (m = n) by (apply (law_uuid _ W); congruence). lia. }
  constructor.
  - intros l gr E. apply Hg in E as [E|[_ ->]].
    + destruct (inv_ids _ _ I _ _ E) as (m & A & B). exists m; split; auto. cbn; lia.
    + exists n; auto.
  - intros l l' gr gr' E E' X. apply Hg in E as [E|[-> ->]]; apply Hg in E' as [E'|[-> ->]]; auto.
    + eapply inv_uniq; eauto.
    + exfalso; eapply Fr; eauto.
    + exfalso; eapply Fr; eauto.
  - intros u c0 gid l S E. cbn in E. destruct (inv_keys _ _ I _ _ _ _ S E) as (gr & A & B).
    exists gr. rewrite hp_app_other; auto. apply hp_lt in A. lia.
  - intros l gr E. apply Hg in E as [E|[_ ->]]; auto. eapply inv_grants; eauto.
  - intros l gr t E T. apply Hg in E as [E|[_ ->]].
    + destruct (inv_made _ _ I _ _ _ E T) as (m & A & B). exists m; split; auto. cbn; lia.
    + rewrite Tk in T. destruct T.
  - intros l l' gr gr' i i' t t' E E' T T' V.
    apply Hg in E as [E|[_ ->]]; [|rewrite Tk in T; destruct i; discriminate].
    apply Hg in E' as [E'|[_ ->]]; [|rewrite Tk in T'; destruct i'; discriminate].
    eapply inv_vals; eauto.
  - apply I.
  - intros l i x E X. destruct (Nat.eq_dec l (List.length (s_heap s))) as [->|M].
    + rewrite hp_app_same in E. discriminate.
    + rewrite hp_app_other in E by auto. eapply inv_sub; eauto.
  - intros k l E. apply (stored_later 0 s); [apply later_app; lia|]. exact (inv_stored _ _ I k l E).
Qed.

(** Database writes. *)
Lemma later_db now s d c a : s_ctr s <= c -> st_later now s (mk_st (s_heap s) d c a).
Proof. intros C. split; auto. intros l o E. unfold hp in *. cbn. eauto using obj_later_refl. Qed.
Lemma inv_db e s d c a : Inv e s -> s_ctr s <= c -> NoDup (dkeys d) ->
  (forall u cl g l, separable [u; cl; g] -> dget d (session_key [u; cl; g]) = Some l ->
     dget (s_db s) (session_key [u; cl; g]) = Some l \/ owns e s l u cl g) ->
  (forall k l, dget d k = Some l -> dget (s_db s) k = Some l \/ stored s k l) ->
  Inv e (mk_st (s_heap s) d c a).
Proof.
  intros I C Nd K Kd. constructor; try (unfold hp; cbn; fold (hp s)); auto.
  - intros l g E. destruct (inv_ids _ _ I l g E) as (n & A & B). exists n; split; auto; lia.
  - intros l l' g g' E E'. eapply (inv_uniq _ _ I l l'); eauto.
  - intros u c0 g l S E. cbn in E. destruct (K _ _ _ _ S E) as [E'|O]; [|exact O].
    exact (inv_keys _ _ I _ _ _ _ S E').
  - intros l g E. eapply (inv_grants _ _ I l); eauto.
  - intros l g t E T. destruct (inv_made _ _ I l _ _ E T) as (n & A & B). exists n; split; auto; lia.
  - intros l l' g g' i i' t t' E E'. eapply (inv_vals _ _ I l l'); eauto.
  - intros l i x E. eapply (inv_sub _ _ I l); eauto.
  - intros k l E. destruct (Kd k l E) as [E'|X]; [|exact X]. exact (inv_stored _ _ I k l E').
Qed.

(** A token appended to a grant. *)
Definition add_tok (t : token) : obj -> obj := on_grant (g_add_token t).

Lemma later_add_tok now s l g t d c a : s_ctr s <= c -> hp s l = Some (OGrant g) ->
  grant_active now g = true ->
  st_later now s (mk_st (upd_nth l (add_tok t) (s_heap s)) d c a).
Proof.
  intros C H A. apply later_upd; auto. intros o E. rewrite H in E. injection E as <-. cbn.
  unfold grant_later; cbn. repeat split; auto; try lia; try congruence.
  apply tokens_later_app.
Qed.
Lemma inv_add_tok e s l g t n d c a : laws e -> Inv e s -> hp s l = Some (OGrant g) ->
  d = s_db s -> s_ctr s <= n -> n < c -> made e n (t_value t) -> tok_ok g t ->
  (forall v, t_based t = Some v -> exists p, In p (g_tokens g) /\ t_value p = v
      /\ (t_class p = CODE \/ t_class p = REFRESH)) ->
  g_scope g = authz_scope e g -> (t_class t = IDTOKEN -> sid_of e g (t_sid t)) ->
  Inv e (mk_st (upd_nth l (add_tok t) (s_heap s)) d c a).
Proof.
  intros W I H -> C1 C2 Md Tk Pa Fi Si.
  set (s' := mk_st _ _ _ _).
  assert (hp s' l = Some (OGrant (g_add_token t g))) as Hl.
  { unfold s'. rewrite hp_upd_same, H. reflexivity. }
  assert (forall l', l' <> l -> hp s' l' = hp s l') as Ho by (intros; apply hp_upd_other; auto).
  assert (forall l' gr', hp s' l' = Some (OGrant gr') -> exists gr, hp s l' = Some (OGrant gr)
            /\ g_id gr' = g_id gr /\ g_areq gr' = g_areq gr /\ g_aevent gr' = g_aevent gr
            /\ g_sub gr' = g_sub gr
            /\ (gr' = gr \/ (l' = l /\ gr = g /\ gr' = g_add_token t g))) as Hg.
  { intros l' gr' E. destruct (Nat.eq_dec l' l) as [->|N].
    - rewrite Hl in E. injection E as <-. exists g. cbn. intuition.
    - rewrite Ho in E by auto. exists gr'. intuition. }
  assert (forall l' gr u, hp s l' = Some (OGrant gr) -> In u (g_tokens gr) -> t_value u <> t_value t) as Fr.
  { intros l' gr u E T X. destruct (inv_made _ _ I _ _ _ E T) as (m & A & B). rewrite X in A.
    assert (m = n) by (eapply (law_made _ W); eauto). lia. }
  constructor.
  - intros l' gr' E. destruct (Hg _ _ E) as (gr & E0 & K & _). destruct (inv_ids _ _ I _ _ E0) as (m & A & B).
    exists m; split; [congruence|]. cbn; lia.
  - intros l1 l2 g1 g2 E1 E2 X. destruct (Hg _ _ E1) as (h1 & F1 & K1 & _). destruct (Hg _ _ E2) as (h2 & F2 & K2 & _).
    eapply (inv_uniq _ _ I _ _ _ _ F1 F2). congruence.
  - intros u c0 gid l' S E. cbn in E. destruct (inv_keys _ _ I _ _ _ _ S E) as (gr & A & B).
    destruct (Nat.eq_dec l' l) as [->|N].
    + exists (g_add_token t g). rewrite Hl. split; auto. rewrite H in A. injection A as <-. cbn.
      destruct B as (B1 & ar & ae & B2). split; auto.
      exists ar, ae. auto.
    + exists gr. rewrite Ho; auto.
  - intros l' gr' E. destruct (Hg _ _ E) as (gr & E0 & _ & _ & _ & _ & [->|(-> & -> & ->)]).
    + eapply inv_grants; eauto.
    + pose proof (inv_grants _ _ I _ _ H) as G. constructor; cbn; try apply G.
      * intros u Hu. apply in_app_or in Hu as [Hu|[<-|[]]].
        -- destruct (gi_tok _ _ G u Hu). constructor; auto.
        -- destruct Tk. constructor; auto.
      * intros i u v Hi B. destruct (Nat.lt_ge_cases i (List.length (g_tokens g))) as [L|L].
        -- rewrite nth_error_app1 in Hi by auto. destruct (gi_parent _ _ G i u v Hi B) as (j & p & Lj & Hj & V).
           exists j, p. split; auto. split; auto. rewrite nth_error_app1; auto. lia.
        -- rewrite nth_error_app2 in Hi by auto. destruct (i - List.length (g_tokens g)) as [|k] eqn:D;
             [|destruct k; discriminate]. injection Hi as <-.
           destruct (Pa v B) as (p & Ip & V). apply In_nth_error in Ip as [j Hj]. exists j, p.
           assert (j < List.length (g_tokens g)) by (apply nth_error_Some; congruence).
           split; [lia|]. split; auto. rewrite nth_error_app1; auto.
      * intros _. exact Fi.
      * intros u Hu Cu. apply (sid_of_same e g); auto. apply in_app_or in Hu as [Hu|[<-|[]]]; auto. apply (gi_sid _ _ G); auto.
  - intros l' gr' u E T. destruct (Hg _ _ E) as (gr & E0 & _ & _ & _ & _ & [->|(-> & -> & ->)]).
    + destruct (inv_made _ _ I _ _ _ E0 T) as (m & A & B). exists m; split; auto. cbn; lia.
    + cbn in T. apply in_app_or in T as [T|[<-|[]]].
      * destruct (inv_made _ _ I _ _ _ H T) as (m & A & B). exists m; split; auto. cbn; lia.
      * exists n; auto.
  - assert (forall l' gr' i u, hp s' l' = Some (OGrant gr') -> nth_error (g_tokens gr') i = Some u ->
              (exists gr, hp s l' = Some (OGrant gr) /\ nth_error (g_tokens gr) i = Some u)
              \/ (l' = l /\ i = List.length (g_tokens g) /\ u = t)) as Hn.
    { intros l' gr' i u E N. destruct (Hg _ _ E) as (gr & E0 & _ & _ & _ & _ & [->|(-> & -> & ->)]); eauto.
      cbn in N. destruct (Nat.lt_ge_cases i (List.length (g_tokens g))) as [L|L].
      - rewrite nth_error_app1 in N by auto. eauto.
      - rewrite nth_error_app2 in N by auto. destruct (i - List.length (g_tokens g)) as [|k] eqn:D;
          [|destruct k; discriminate]. injection N as <-. right. repeat split; auto. lia. }
    intros l1 l2 g1 g2 i1 i2 t1 t2 E1 E2 N1 N2 V.
    destruct (Hn _ _ _ _ E1 N1) as [(h1 & F1 & M1)|(-> & -> & ->)];
      destruct (Hn _ _ _ _ E2 N2) as [(h2 & F2 & M2)|(-> & -> & ->)]; auto.
    + eapply (inv_vals _ _ I _ _ _ _ _ _ _ _ F1 F2); eauto.
    + exfalso. eapply Fr; [exact F1| |exact V]. eapply nth_error_In; eauto.
    + exfalso. eapply Fr; [exact F2| |symmetry; exact V]. eapply nth_error_In; eauto.
  - apply I.
  - intros l' i x E. destruct (Nat.eq_dec l' l) as [->|N]; [rewrite Hl in E; discriminate|].
    rewrite Ho in E by auto. eapply (inv_sub _ _ I l'); eauto.
  - intros k l' E. pose proof (inv_stored _ _ I k l' E) as S. unfold stored in *.
    destruct (Nat.eq_dec l' l) as [->|N].
    + rewrite Hl. rewrite H in S. exact S.
    + rewrite Ho; auto.
Qed.
