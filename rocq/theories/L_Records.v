(** The session database has records of users and client sessions where they
    belong, whatever happens. *)
From Verif Require Import M_Base M_Types M_Codec M_Grant M_Env M_Session M_Claims M_Handler
  M_Authz M_TokenEP M_PKCE M_AuthzEP M_Info M_Logout M_History S_Codec S_Grant S_Store S_History
  L_Base L_Codec L_Monad L_Grant L_Claims L_Store L_Hist1 L_Hist2 L_Hist3 L_Hist4 L_Hist5 L_Hist6 L_Emit
  L_Hist7 L_Hist8 M_Dump L_Dump L_Logout.

(** ** How objects change: they keep their kind, and records get no empty name. *)
Definition obj_keeps (o o' : obj) : Prop :=
  match o, o' with
  | OInfo i, OInfo i' => forall x, In x (si_sub i') -> In x (si_sub i) \/ x <> ""
  | OGrant _, OGrant _ => True
  | ONone, ONone => True
  | _, _ => False
  end.
Lemma obj_keeps_refl o : obj_keeps o o.
Proof. destruct o; cbn; auto. Qed.
Lemma obj_keeps_trans a b c : obj_keeps a b -> obj_keeps b c -> obj_keeps a c.
Proof. destruct a, b, c; cbn; try tauto. intros A B x H. destruct (B x H); auto. Qed.
Definition grows (s s' : st) : Prop :=
  forall l o, hp s l = Some o -> exists o', hp s' l = Some o' /\ obj_keeps o o'.
Lemma grows_refl s : grows s s.
Proof. intros l o H. eauto using obj_keeps_refl. Qed.
Lemma grows_trans a b c : grows a b -> grows b c -> grows a c.
Proof.
  intros A B l o H. destruct (A _ _ H) as (o1 & H1 & G1). destruct (B _ _ H1) as (o2 & H2 & G2).
  eauto using obj_keeps_trans.
Qed.
Lemma grows_heap s s' : s_heap s' = s_heap s -> grows s s'.
Proof. intros E l o H. exists o. unfold hp in *. rewrite E. auto using obj_keeps_refl. Qed.
Lemma grows_upd s l f d c a : (forall o, obj_keeps o (f o)) ->
  grows s (mk_st (upd_nth l f (s_heap s)) d c a).
Proof.
  intros K l' o H. destruct (Nat.eq_dec l' l) as [->|N].
  - rewrite hp_upd_same, H. cbn. eauto.
  - rewrite hp_upd_other by auto. eauto using obj_keeps_refl.
Qed.
Lemma grows_app s o d c a : grows s (mk_st (s_heap s ++ [o]) d c a).
Proof.
  intros l o' H. rewrite hp_app_other; [eauto using obj_keeps_refl|]. apply hp_lt in H. lia.
Qed.
Definition isg (l : nat) (s : st) : Prop := exists g, hp s l = Some (OGrant g).
Lemma isg_grows l s s' : grows s s' -> isg l s -> isg l s'.
Proof.
  intros G (g & H). destruct (G _ _ H) as (o & Ho & K). destruct o as [|g'|]; cbn in K; try tauto. exists g'. auto.
Qed.
Definition isi (l : nat) (s : st) : Prop := exists i, hp s l = Some (OInfo i).
Lemma isi_grows l s s' : grows s s' -> isi l s -> isi l s'.
Proof.
  intros G (i & H). destruct (G _ _ H) as (o & Ho & K). destruct o as [i'| |]; cbn in K; try tauto. exists i'. auto.
Qed.

Lemma dset_In {A} (d : dict A) k v k' v' : In (k', v') (dset d k v) -> In (k', v') d \/ k' = k /\ v' = v.
Proof.
  induction d as [|[k2 v2] r IH]; cbn.
  - intros [E|[]]. injection E as <- <-. auto.
  - destruct (String.eqb k k2) eqn:X; cbn.
    + intros [E|I]; auto. injection E as <- <-. apply seqb_eq in X. subst. auto.
    + intros [E|I]; auto. destruct (IH I); auto.
Qed.
Lemma ddel_In {A} (d : dict A) k k' v' : In (k', v') (ddel d k) -> In (k', v') d.
Proof.
  induction d as [|[k2 v2] r IH]; cbn; auto.
  destruct (String.eqb k k2); cbn; auto. intros [E|I]; auto.
Qed.

Section Records.
  Variables (e : env) (W : laws e) (u c : string).
  Hypothesis Sep : separable [u; c].
  Hypothesis Nu : forall p, dec_sid e u <> Ok p.

  Definition plain_sub (s : st) : Prop := forall l i, hp s l = Some (OInfo i) -> ~ In "" (si_sub i).
  Definition J (s : st) : Prop :=
    plain_sub s /\ forall k l, In (k, l) (s_db s) -> k = u \/ k = session_key [u; c] -> isi l s.

  Lemma J_same s s' : s_heap s' = s_heap s -> s_db s' = s_db s -> J s -> J s'.
  Proof. unfold J, plain_sub, isi, hp. intros -> ->. auto. Qed.

  Definition kj {A} (P : st -> Prop) (m : M st A) : Prop :=
    forall s r s', J s -> P s -> m s = (r, s') -> J s' /\ grows s s'.
  Definition Mono (P : st -> Prop) : Prop := forall s s', grows s s' -> P s -> P s'.
  Definition any (s : st) : Prop := True.
  Lemma mono_any : Mono any.
  Proof. intros s s' _ H. exact H. Qed.
  Lemma mono_isg l : Mono (isg l).
  Proof. intros s s'. apply isg_grows. Qed.
  Lemma mono_and P l : Mono P -> Mono (fun s => P s /\ isi l s).
  Proof. intros H s s' G [A B]. split; [eapply H; eauto|eapply isi_grows; eauto]. Qed.

  Lemma kj_weaken {A} (P : st -> Prop) (m : M st A) : kj any m -> kj P m.
  Proof. intros H s r s' Js _ E. eapply H; eauto. exact Logic.I. Qed.
  Lemma kj_quiet {A} P (m : M st A) : quietm m -> kj P m.
  Proof.
    intros H s r s' Js _ E. destruct (H _ _ _ E) as (X & Y & _). split; [|now apply grows_heap].
    eapply J_same; eauto.
  Qed.
  Lemma kj_reader {A} P (m : M st A) : reader m -> kj P m.
  Proof. intros H. apply kj_quiet. now apply reader_quiet. Qed.
  Lemma kj_bind' {A B} P (m : M st A) (f : A -> M st B) : Mono P -> kj P m ->
    (forall a, (exists s s', J s /\ P s /\ m s = (Ok a, s')) -> kj P (f a)) -> kj P (bind m f).
  Proof.
    intros Mo H K s r s' Js p E. apply bind_inv in E as [(a & s1 & E1 & E2)|(x & E1 & ->)].
    - destruct (H _ _ _ Js p E1) as (J1 & G1).
      destruct (K a (ex_intro _ s (ex_intro _ s1 (conj Js (conj p E1)))) _ _ _ J1 (Mo _ _ G1 p) E2) as (J2 & G2).
      split; auto. eapply grows_trans; eauto.
    - eapply H; eauto.
  Qed.
  Lemma kj_bind {A B} P (m : M st A) (f : A -> M st B) : Mono P -> kj P m ->
    (forall a, kj P (f a)) -> kj P (bind m f).
  Proof. intros Mo H K. apply kj_bind'; auto. Qed.
  Lemma kj_catch {A} P (m : M st A) h : Mono P -> kj P m ->
    (forall x k, h x = Some k -> kj P k) -> kj P (catch m h).
  Proof.
    intros Mo H K s r s' Js p E.
    apply catch_inv in E as [(a & E1 & ->)|[(x & s1 & k & E1 & E2 & E3)|(x & E1 & _ & ->)]].
    - eapply H; eauto.
    - destruct (H _ _ _ Js p E1) as (J1 & G1). destruct (K _ _ E2 _ _ _ J1 (Mo _ _ G1 p) E3) as (J2 & G2).
      split; auto. eapply grows_trans; eauto.
    - eapply H; eauto.
  Qed.
  Lemma kj_grant {B} P l (f : grant -> M st B) :
    (forall g, kj (isg l) (f g)) -> kj P (bind (grant_at l) f).
  Proof.
    intros K s r s' Js _ E. apply bind_inv in E as [(g & s1 & E1 & E2)|(x & E1 & ->)].
    - apply grant_at_ok in E1 as [-> Hl]. eapply K; eauto. exists g. exact Hl.
    - apply reader_grant_at in E1. subst. split; auto. apply grows_refl.
  Qed.

  Lemma kj_ret {A} P (a : A) : kj P (ret a).
  Proof. apply kj_reader, reader_ret. Qed.
  Lemma kj_raise {A} P x : kj P (@raise st A x).
  Proof. apply kj_reader, reader_raise. Qed.
  Lemma kj_lift {A} P (x : res A) : kj P (lift x).
  Proof. apply kj_reader, reader_lift. Qed.
  Lemma kj_need {A} P (x : option A) : kj P (need x).
  Proof. apply kj_reader, reader_need. Qed.

  Lemma kj_sub {B} P l (f : list string -> M st B) :
    (forall x, kj (fun s => P s /\ isi l s) (f x)) -> kj P (bind (subordinate l) f).
  Proof.
    intros K s r s' Js p E. apply bind_inv in E as [(x & s1 & E1 & E2)|(x & E1 & ->)].
    - apply subordinate_ok in E1 as (-> & i & Hi & _). eapply K; eauto. split; auto. exists i. exact Hi.
    - apply reader_subordinate in E1. subst. split; auto. apply grows_refl.
  Qed.

  Lemma kj_upd P l f : (forall o, obj_keeps o (f o)) -> kj P (upd_obj l f).
  Proof.
    intros K s r s' [A B] _ E. unfold upd_obj in E. injection E as _ <-.
    pose proof (grows_upd s l f (s_db s) (s_ctr s) (s_always s) K) as G. split; auto. split.
    - intros l' i H. destruct (Nat.eq_dec l' l) as [->|N].
      + rewrite hp_upd_same in H. destruct (hp s l) as [o|] eqn:Ho; [|discriminate]. cbn in H. injection H as H.
        specialize (K o). rewrite H in K. destruct o as [i'| |]; cbn in K; try tauto.
        intros X. destruct (K _ X) as [Y|Y]; [|congruence]. eapply A; eauto.
      + rewrite hp_upd_other in H by auto. eauto.
    - intros k l' I Hk. cbn [s_db] in I. eapply isi_grows; [exact G|]. eauto.
  Qed.
  Lemma kj_on_grant P l f : kj P (upd_obj l (on_grant f)).
  Proof. apply kj_upd. intros [i|g|]; cbn; auto. Qed.
  Lemma kj_upd_tok P l i f : kj P (upd_tok l i f).
  Proof. apply kj_on_grant. Qed.
  Lemma kj_revoke P l : kj P (upd_obj l revoke_obj).
  Proof. apply kj_upd. intros [i|g|]; cbn; auto. Qed.
  Lemma kj_add P l x : x <> "" -> kj P (upd_obj l (on_info (si_add x))).
  Proof.
    intros N. apply kj_upd. intros [i|g|]; cbn; auto. unfold si_add.
    destruct (smem x (si_sub i)); cbn; auto.
    intros y H. apply in_app_or in H as [H|[<-|[]]]; auto.
  Qed.
  Lemma kj_less P l x : kj P (upd_obj l (on_info (fun i => si_set_sub (sremove x (si_sub i)) i))).
  Proof. apply kj_upd. intros [i|g|]; cbn; auto. intros y H. left. eapply sremove_In; eauto. Qed.
  Lemma kj_none P l : kj P (upd_obj l (on_info (si_set_sub []))).
  Proof. apply kj_upd. intros [i|g|]; cbn; tauto. Qed.
  Definition plain_obj (o : obj) : Prop := match o with OInfo i => ~ In "" (si_sub i) | _ => True end.
  Lemma J_app s o ct a : plain_obj o -> J s -> J (mk_st (s_heap s ++ [o]) (s_db s) ct a).
  Proof.
    intros N [A B]. split.
    - intros l i H. destruct (Nat.eq_dec l (List.length (s_heap s))) as [->|X].
      + rewrite hp_app_same in H. injection H as ->. exact N.
      + rewrite hp_app_other in H by auto. eauto.
    - intros k l I Hk. eapply isi_grows; [apply grows_app|]. eauto.
  Qed.
  Lemma kj_new P o : plain_obj o -> kj P (new_obj o).
  Proof.
    intros N s r s' Js _ E. unfold new_obj in E. injection E as _ <-.
    split; [now apply J_app|apply grows_app].
  Qed.
  Lemma kj_on_tokens P l m : kj P (on_tokens l m).
  Proof.
    unfold on_tokens. apply kj_grant. intros g. destruct (m (g_tokens g)) as [r ts].
    apply kj_bind; [apply mono_isg|apply kj_on_grant|]. intros ?. apply kj_lift.
  Qed.
  Lemma kj_mint e' P now l sid tc b rules sc ty ia : kj P (mint e' now l sid tc b rules sc ty ia).
  Proof.
    intros s r s' Js p E.
    apply mint_run in E as [(Q & _)|(g & t & n & H & _ & Hp & Hd & _)].
    - destruct Q as (X & Y & _). split; [|now apply grows_heap]. eapply J_same; eauto.
    - destruct (kj_upd P l (add_tok t)) with (s := s) (r := @Ok unit tt)
        (s' := mk_st (upd_nth l (add_tok t) (s_heap s)) (s_db s) (s_ctr s) (s_always s)) as (J1 & G1); auto.
      { intros [i|g0|]; cbn; auto. }
      split; [eapply J_same; [| |exact J1]; auto|eapply grows_trans; [exact G1|now apply grows_heap]].
  Qed.

  (** ** Storing *)
  Lemma kj_put P k l : k <> session_key [u; c] -> k <> u -> kj P (db_put k l).
  Proof.
    intros N1 N2 s r s' [A B] _ E. unfold db_put in E. injection E as _ <-. split; [|now apply grows_heap].
    split; [exact A|]. intros k' l' I Hk. cbn [s_db] in I. apply dset_In in I as [I|(-> & ->)]; [eapply B; eauto|].
    destruct Hk; congruence.
  Qed.
  Lemma kj_put_info (P : st -> Prop) k l : (forall s, P s -> isi l s) -> kj P (db_put k l).
  Proof.
    intros K s r s' [A B] p E. unfold db_put in E. injection E as _ <-. split; [|now apply grows_heap].
    split; [exact A|]. intros k' l' I Hk. cbn [s_db] in I. apply dset_In in I as [I|(-> & ->)]; [eapply B; eauto|].
    apply K in p. exact p.
  Qed.
  Lemma kj_del P k : kj P (db_del k).
  Proof.
    intros s r s' [A B] _ E. unfold db_del in E. destruct (dget (s_db s) k); injection E as _ <-.
    - split; [|now apply grows_heap]. split; [exact A|]. intros k' l' I Hk. cbn [s_db] in I. apply ddel_In in I.
      eapply B; eauto.
    - split; [split; auto|apply grows_refl].
  Qed.
  (** What may be stored under [p]. *)
  Definition okset (p : list string) (l : nat) (s : st) : Prop :=
    match p with
    | [] => True
    | [x] => x = u -> isi l s
    | [a; b] => a = u -> b = c -> isi l s
    | a :: b :: g :: _ => g <> ""
    end.
  Lemma okset_mono p l : Mono (okset p l).
  Proof.
    intros s s' G. destruct p as [|x [|b [|g p]]]; cbn; auto; intros; eapply isi_grows; eauto.
  Qed.

  Lemma kj_get_or k i P : plain_obj (OInfo i) -> kj P (db_get_or k i).
  Proof.
    intros N s r s' Js p E. unfold db_get_or in E.
    apply bind_inv in E as [(o & s1 & E1 & E2)|(x & E1 & ->)]; [|discriminate E1].
    unfold db_lookup in E1. injection E1 as <- <-. destruct (dget (s_db s) k).
    - apply ret_inv in E2 as [_ <-]. split; auto. apply grows_refl.
    - eapply (kj_new P); eauto.
  Qed.
  Lemma key_neq_u q : separable q -> 2 <= List.length q -> session_key q <> u.
  Proof. intros. apply dec_key_neq; auto. eapply sep_first; eauto. Qed.

  (** A name is added to the record under a key. *)
  Lemma kj_add_part P k i b : Mono P -> plain_obj (OInfo i) -> b <> "" -> kj P
    (ui <- db_get_or k i ;;
     sub <- subordinate ui ;;
     if smem b sub then ret tt else upd_obj ui (on_info (si_add b)) ;; db_put k ui).
  Proof.
    intros Mo N Nb. apply kj_bind; [auto|now apply kj_get_or|]. intros ui. apply kj_sub. intros sub.
    destruct (smem b sub); [apply kj_ret|]. apply kj_bind; [now apply mono_and|now apply kj_add|].
    intros ?. apply kj_put_info. intros s [_ H]. exact H.
  Qed.
  Lemma str_ne b : str_true b = true -> b <> "".
  Proof. intros H ->. discriminate H. Qed.
  Lemma new_plain x y z w : plain_obj (OInfo (mk_sinfo x y z w)) <-> ~ In "" x.
  Proof. reflexivity. Qed.

  Lemma kj_db_set p l : separable p -> kj (okset p l) (db_set p l).
  Proof.
    intros Sp s r s' Js Ok E. unfold db_set in E.
    apply bind_inv in E as [([[a b] g] & s1 & E1 & E)|(x & E1 & ->)].
    2:{ apply reader_lift in E1. subst. split; auto. apply grows_refl. }
    apply lift_ok in E1 as [Ev <-]. revert E. revert s r s' Js Ok.
    match goal with |- forall s r s', _ -> _ -> ?m s = _ -> _ => change (kj (okset p l) m) end.
    pose proof (okset_mono p l) as Mo.
    destruct p as [|x [|y [|z p]]]; cbn in Ev; try discriminate; injection Ev as <- <- <-; cbn [ostr_true ostr].
    - (* a user *)
      pose proof (sep_first _ _ Sp) as Nx.
      apply kj_bind; [auto|apply kj_ret|]. intros ?. apply kj_bind; [auto|apply kj_ret|]. intros ?.
      apply kj_bind; [auto|apply kj_get_or; intros []|]. intros ui.
      destruct (string_dec x u) as [->|N].
      + apply kj_put_info. intros s H. now apply H.
      + apply kj_put; auto. intros X. symmetry in X. revert X. now apply dec_key_neq.
    - (* a client session *)
      pose proof (sep_first _ _ Sp) as Nx.
      apply kj_bind; [auto|apply kj_ret|]. intros ?. apply kj_bind; [auto| |].
      + destruct (str_true y); [|apply kj_ret]. cbv zeta. cbn [negb].
        apply kj_bind; [auto|apply kj_get_or; intros []|]. intros ?.
        destruct (list_eq_dec string_dec [x; y] [u; c]) as [X|N].
        * injection X as -> ->. apply kj_put_info. intros s H. now apply H.
        * apply kj_put; [|now apply key_neq_u]. intros X. apply N. apply session_key_inj; auto; discriminate.
      + intros ?. destruct (str_true y) eqn:Ty.
        * apply kj_add_part; [auto|intros []|now apply str_ne].
        * apply kj_bind; [auto|apply kj_get_or; intros []|]. intros ?. apply kj_ret.
    - (* a grant *)
      pose proof (sep_first _ _ Sp) as Nx.
      assert (separable [x; y]) as Sxy by exact (separable_prefix [x; y] (z :: p) Sp).
      assert (separable [x; y; z]) as Sxyz by exact (separable_prefix [x; y; z] p Sp).
      intros s r s' Js Ok E. cbn in Ok.
      assert (str_true z = true) as Tz by (apply str_true_iff; exact Ok).
      revert E. revert s r s' Js. match goal with |- forall s r s', _ -> ?m s = _ -> _ =>
        enough (kj any m) as K by (intros s r s' Js; apply K; auto; exact Logic.I) end.
      rewrite Tz. cbn [negb].
      apply kj_bind; [apply mono_any| |].
      { apply kj_put; [|apply key_neq_u; [auto|cbn; lia]]. now apply two_three_neq. }
      intros ?. apply kj_bind; [apply mono_any| |].
      { destruct (str_true y); [|apply kj_ret]. cbv zeta. apply kj_add_part; [apply mono_any|intros []|exact Ok]. }
      intros ?. destruct (str_true y) eqn:Ty.
      + apply kj_add_part; [apply mono_any|intros []|now apply str_ne].
      + apply kj_bind; [apply mono_any|apply kj_get_or; intros []|]. intros ?. apply kj_ret.
  Qed.

  (** ** The calls *)
  Lemma kj_pre {A} (P Q : st -> Prop) (m : M st A) : (forall s, J s -> P s -> Q s) -> kj Q m -> kj P m.
  Proof. intros H K s r s' Js p E. eapply K; eauto. Qed.

  Definition sid_ok (sid : string) : Prop :=
    exists a b g, dec_sid3 e sid = Ok (a, b, g) /\ g <> "".
  Lemma get3_ok s a b g r l s' : J s -> db_get (a :: b :: g :: r) s = (Ok l, s') -> g <> "".
  Proof.
    intros Js E. rewrite db_get_long in E. pose proof (reader_db_get _ _ _ _ E). subst s'.
    apply reads_3 in E as (cl & i & R & H & Ig & _). intros ->. destruct Js as (A & _). eapply A; eauto.
  Qed.
  Lemma session_fact s sid i s' : J s -> get_session_info e sid s = (Ok i, s') -> sid_ok (ss_sid i).
  Proof.
    intros Js E. unfold get_session_info in E.
    apply bind_ok in E as ([[a b] g] & s1 & E1 & E). apply lift_ok in E1 as [D <-].
    apply bind_ok in E as (l & s1 & E1 & E). apply ret_ok in E as [<- _]. cbn.
    exists a, b, g. split; auto. eapply get3_ok; eauto.
  Qed.
  Lemma token_fact now s v i s' : J s -> get_session_info_by_token e now v s = (Ok i, s') -> sid_ok (ss_sid i).
  Proof.
    intros Js E. unfold get_session_info_by_token in E.
    apply bind_ok in E as (ti & s1 & E1 & E). apply lift_ok in E1 as [_ <-].
    destruct (negb (str_true (ti_sid ti))); [discriminate|].
    apply bind_ok in E as (sid & s1 & E1 & E).
    eapply session_fact; [|exact E]. eapply (kj_quiet any); [apply quiet_compatible|exact Js|exact Logic.I|exact E1].
  Qed.
  Lemma grant_fact s sid l s' : J s -> get_grant e sid s = (Ok l, s') -> sid_ok sid /\ isg l s'.
  Proof.
    intros Js E. unfold get_grant in E.
    apply bind_ok in E as ([[a b] g] & s1 & E1 & E). apply lift_ok in E1 as [D <-].
    apply bind_ok in E as (l1 & s1 & E1 & E). pose proof (reader_db_get _ _ _ _ E1). subst s1.
    apply bind_ok in E as (o & s1 & E2 & E). pose proof (reader_deref _ _ _ _ E2). subst s1.
    destruct o as [|gr|]; try discriminate. apply ret_ok in E as [-> <-]. split.
    - exists a, b, g. split; auto. eapply get3_ok; eauto.
    - unfold deref in E2. fold (hp s l) in E2. destruct (hp s l) as [o|] eqn:H; [|discriminate].
      exists gr. congruence.
  Qed.
  Lemma sid_ok_dec sid : sid_ok sid -> exists p, dec_sid e sid = Ok p.
  Proof. intros (a & b & g & D & _). unfold dec_sid3 in D. apply rbind_ok in D as (p & D & _). eauto. Qed.

  (** Storing a grant under the encrypted session id. *)
  Lemma kj_alias P sid l : sid_ok sid -> kj P (db_set (unpack_session_key sid) l).
  Proof.
    intros H. destruct (sid_ok_dec _ H) as (p & D). pose proof (dec_sid_plain _ _ _ W D) as Ep. rewrite Ep.
    eapply kj_pre; [|apply kj_db_set].
    - intros s _ _ X. subst sid. destruct (Nu _ D).
    - split.
      + intros x [<-|[]]. unfold dec_sid, decrypt_session_id in D.
        destruct (b64d _ sid) as [y|] eqn:B; [|discriminate]. eapply (law_sid _ W); eauto.
      + intros pre a b post X. apply (f_equal (@List.length _)) in X. rewrite app_length in X. cbn in X. lia.
  Qed.
  Lemma dec3_path sid a b g : dec_sid3 e sid = Ok (a, b, g) -> dec_sid e sid = Ok [a; b; g].
  Proof.
    unfold dec_sid3. intros D. apply rbind_ok in D as (p & D & X). destruct p as [|x [|y [|z [|? ?]]]]; try discriminate.
    injection X as -> -> ->. exact D.
  Qed.
  Lemma kj_set3 P sid a b g l : sid_ok sid -> dec_sid3 e sid = Ok (a, b, g) -> kj P (db_set [a; b; g] l).
  Proof.
    intros (a' & b' & g' & D & H) D'. rewrite D in D'. injection D' as -> -> ->.
    eapply kj_pre; [|apply kj_db_set].
    - intros s _ _. exact H.
    - eapply dec_sid3_separable; eauto.
  Qed.
  Lemma kj_mgr_put P sid l : sid_ok sid -> kj P (mgr_put e sid l).
  Proof.
    intros H. pose proof H as (a & b & g & D & _). unfold mgr_put. rewrite (dec3_path _ _ _ _ D).
    intros s r s' Js p E. unfold bind at 1 in E. unfold lift in E. eapply (kj_set3 P); eauto.
  Qed.

  Ltac kj1 :=
    match goal with
    | |- Mono _ => first [apply mono_any | apply mono_isg]
    | |- kj _ (bind (grant_at _) _) => apply kj_grant
    | |- kj _ (bind (get_session_info_by_token _ _ _) _) => apply kj_bind'; [|apply kj_quiet, quiet_by_token|
        let i := fresh "i" in intros i; let Js := fresh in let F := fresh "F" in
        intros (? & ? & Js & _ & F); apply (token_fact _ _ _ _ _ Js) in F; clear Js]
    | |- kj _ (bind (get_session_info _ _) _) => apply kj_bind'; [|apply kj_reader, reader_get_session_info|
        let i := fresh "i" in intros i; let Js := fresh in let F := fresh "F" in
        intros (? & ? & Js & _ & F); apply (session_fact _ _ _ _ Js) in F; clear Js]
    | |- kj _ (bind _ _) => apply kj_bind
    | |- kj _ (catch _ _) => apply kj_catch; [| |let H := fresh in intros ? ? H; handler H]
    | |- kj _ (match ?x with _ => _ end) => destruct x
    | |- kj _ (let _ := _ in _) => cbv zeta
    | |- kj _ _ => first [apply kj_ret | apply kj_raise | apply kj_lift | apply kj_need | apply kj_on_grant
        | apply kj_upd_tok | apply kj_revoke | apply kj_new; solve [exact Logic.I | intros []] | apply kj_on_tokens | apply kj_mint
        | solve [auto with kj] | apply kj_reader; solve [auto with emr] | apply kj_quiet; solve [auto with emq]]
    | |- forall _, _ => intro
    end.
  Ltac kj := repeat kj1.
  Hint Resolve kj_alias kj_mgr_put : kj.

  Lemma kj_ep_mint P now l sid tc b sc ty : sid_ok sid -> kj P (ep_mint e now l sid tc b sc ty).
  Proof. intros H. unfold ep_mint. kj. Qed.
  Hint Resolve kj_ep_mint : kj.
  Lemma kj_mint_value P now l sid tc b sc ty : sid_ok sid -> kj P (mint_value e now l sid tc b sc ty).
  Proof. intros H. unfold mint_value. apply kj_weaken. kj. Qed.
  Lemma kj_rotated P now l sid old sc : sid_ok sid -> kj P (mint_rotated e now l sid old sc).
  Proof. intros H. unfold mint_rotated. apply kj_weaken. kj. Qed.
  Hint Resolve kj_mint_value kj_rotated : kj.
  Lemma kj_process now q issue : kj any (token_process e now q issue).
  Proof. unfold token_process, code_process, refresh_process, except_minting, except_jwe. kj. Qed.
  Lemma kj_parse now cid q : kj any (token_parse e now cid q).
  Proof. unfold token_parse, code_parse, refresh_parse. kj. Qed.
  Lemma kj_parse_all now cid q : kj any (token_parse_all e now cid q).
  Proof.
    unfold token_parse_all. apply kj_bind; [kj|apply kj_parse|]. intros r. unfold pkce_check. kj.
  Qed.

  Lemma kj_revoke_token sid v rec : kj any (mgr_revoke_token e sid v rec).
  Proof. unfold mgr_revoke_token. kj. Qed.
  Lemma kj_revoke_grants P a b gs : Mono P -> kj P (revoke_grants a b gs).
  Proof. intros Mo. induction gs; cbn [revoke_grants]; kj; auto. Qed.
  Hint Resolve kj_revoke_grants mono_any mono_isg : kj.
  Lemma kj_revoke_client sid : kj any (revoke_client_session e sid).
  Proof.
    intros s r s' Js _ E. unfold revoke_client_session in E.
    apply bind_inv in E as [(p & s1 & E1 & E)|(x & E1 & ->)].
    2:{ apply reader_lift in E1. subst. split; auto. apply grows_refl. }
    apply lift_ok in E1 as [D <-]. apply dec_sid_separable in D as [_ Sp].
    apply bind_inv in E as [([a b] & s1 & E1 & E)|(x & E1 & ->)].
    2:{ destruct p as [|? [|? [|? [|? ?]]]]; apply reader_raise in E1 || apply reader_ret in E1; subst; split; auto; apply grows_refl. }
    assert (s1 = s /\ separable [a; b]) as (-> & Sab).
    { destruct p as [|x [|y [|z [|? ?]]]]; try discriminate E1; apply ret_ok in E1 as [X <-]; injection X as -> ->;
        split; auto. eapply sep_2; eauto. }
    apply bind_inv in E as [(l & s1 & R & E)|(x & R & ->)].
    2:{ apply reader_db_get in R. subst. split; auto. apply grows_refl. }
    pose proof (reader_db_get _ _ _ _ R). subst s1.
    apply bind_inv in E as [(o & s1 & Ho & E)|(x & Ho & ->)].
    2:{ apply reader_deref in Ho. subst. split; auto. apply grows_refl. }
    pose proof (reader_deref _ _ _ _ Ho). subst s1. unfold deref in Ho. fold (hp s l) in Ho.
    destruct (hp s l) as [o'|] eqn:Hl; [|discriminate]. injection Ho as ->.
    assert (a = u -> b = c -> isi l s) as Here.
    { intros -> ->. apply reads_2 in R as (_ & _ & _ & _ & _ & K). destruct Js as (_ & A).
      eapply A; [apply dget_In; exact K|now right]. }
    revert E. match goal with |- ?m s = _ -> _ => enough (kj (okset [a; b] l) m) as K by (apply K; auto) end.
    pose proof (okset_mono [a; b] l) as Mo.
    destruct o as [i|g|].
    - apply kj_bind; [auto|kj|]. intros ?. apply kj_bind; [auto|apply kj_db_set; auto|]. intros ?.
      apply kj_bind; [auto|kj|]. intros ?. now apply kj_revoke_grants.
    - assert (~ (a = u /\ b = c)) as Nn.
      { intros [-> ->]. destruct (Here eq_refl eq_refl) as (i & X). congruence. }
      apply kj_bind; [auto|kj|]. intros ?. apply kj_bind; [auto|kj|]. intros n.
      apply kj_bind; [auto| |kj]. eapply kj_pre; [|apply kj_db_set; auto]. intros s0 _ _ X Y. destruct (Nn (conj X Y)).
    - kj.
  Qed.
  Hint Resolve kj_revoke_client : kj.
  Lemma kj_revoke_grant sid : kj any (revoke_grant e sid).
  Proof.
    intros s r s' Js _ E. unfold revoke_grant in E.
    apply bind_inv in E as [(p & s1 & E1 & E)|(x & E1 & ->)].
    2:{ apply reader_lift in E1. subst. split; auto. apply grows_refl. }
    apply lift_ok in E1 as [D <-]. apply dec_sid_separable in D as [_ Sp].
    apply bind_inv in E as [(l & s1 & R & E)|(x & R & ->)].
    2:{ apply reader_db_get in R. subst. split; auto. apply grows_refl. }
    pose proof (reader_db_get _ _ _ _ R). subst s1.
    assert (okset p l s) as Ok.
    { destruct p as [|x [|y [|z p]]]; cbn; auto.
      - intros ->. unfold db_get in R. cbn [eval_path] in R. unfold bind at 1, lift in R. rewrite db_lookup_bind in R.
        destruct (dget (s_db s) u) as [lu|] eqn:A; [|discriminate].
        apply bind_ok in R as (o' & s1 & E2 & R). destruct Js as (_ & Jr). pose proof (Jr _ _ (dget_In _ _ _ A) (or_introl eq_refl)) as Hi.
        destruct o' as [i|g|]; try discriminate; apply ret_ok in R as [-> _]; exact Hi.
      - intros -> ->. apply reads_2 in R as (_ & _ & _ & _ & _ & K). destruct Js as (_ & A).
        eapply A; [apply dget_In; exact K|now right].
      - eapply get3_ok; eauto. }
    revert E. match goal with |- ?m s = _ -> _ => enough (kj (okset p l) m) as K by (apply K; auto) end.
    pose proof (okset_mono p l) as Mo.
    apply kj_bind; [auto|kj|]. intros o.
    destruct o; kj; auto; apply kj_db_set; auto.
  Qed.
  Lemma kj_clean sids : kj any (clean_sessions e sids).
  Proof. induction sids; cbn [clean_sessions]; kj; auto. Qed.
  Hint Resolve kj_clean : kj.
  Lemma kj_logout now sid alla : kj any (do_verified_logout e now sid alla).
  Proof. unfold do_verified_logout, logout_all_clients, logout_from_client. kj. Qed.

  (** Creating sessions. *)
  Lemma kj_create_grant P now ae ar a b rules sc : good_id a -> good_id b -> kj P (create_grant e now ae ar a b rules sc).
  Proof.
    intros Ga Gb. apply kj_weaken. unfold create_grant. apply kj_bind; [kj|kj|]. intros n. cbv zeta.
    apply kj_bind; [kj|kj|]. intros gl. apply kj_bind; [kj| |kj].
    destruct (law_uuid_id _ W n) as [(N1 & N2 & N3) N4].
    eapply kj_pre; [|apply kj_db_set; apply sep_good; auto]. intros s _ _. exact N1.
  Qed.
  Hint Resolve kj_create_grant : kj.
  Lemma kj_set_new P i p : plain_obj (OInfo i) -> separable p -> List.length p <= 2 ->
    kj P (l <- new_obj (OInfo i) ;; db_set p l).
  Proof.
    intros N Sp Lp s r s' Js _ E. unfold bind at 1 in E. unfold new_obj at 1 in E.
    set (s1 := mk_st _ _ _ _) in E. assert (J s1) as J1 by (now apply J_app).
    assert (isi (List.length (s_heap s)) s1) as Hi by (exists i; apply (hp_app_same s)).
    destruct (kj_db_set p (List.length (s_heap s)) Sp s1 r s' J1) as (J2 & G2); auto.
    - destruct p as [|x [|y [|z p]]]; cbn; auto. cbn in Lp. lia.
    - split; auto. eapply grows_trans; [apply grows_app|exact G2].
  Qed.
  Lemma kj_create_session P now ae ar a b rules sc : good_id a -> good_id b ->
    kj P (create_session e now ae ar a b rules sc).
  Proof.
    intros Ga Gb. apply kj_weaken. unfold create_session.
    assert (str_true b = true) as Tb. { destruct Gb as [N _]. destruct b; [congruence|reflexivity]. }
    rewrite Tb.
    apply kj_bind; [kj| |].
    { apply kj_catch; [kj|kj|]. intros x k H. destruct (is_KeyError x); [|discriminate]. injection H as <-.
      apply kj_set_new; [intros []| |cbn; lia].
      split; [intros y [<-|[]]; apply Ga|]. intros pre y z post X. apply (f_equal (@List.length _)) in X.
      rewrite app_length in X. cbn in X. lia. }
    intros ?. cbv zeta. apply kj_bind; [kj| |kj].
    assert (kj any (l <- new_obj (OInfo (new_client_info b)) ;; db_set [a; b] l)) as K.
    { apply kj_set_new; [intros []| |cbn; lia].
      destruct (law_uuid_id _ W 0) as [(_ & N2 & _) _]. exact (sep_2 _ _ _ (sep_good a b _ Ga Gb N2)). }
    apply kj_catch; [kj|kj|]. intros x k H. destruct x; try discriminate H; injection H as <-; exact K.
  Qed.
  Hint Resolve kj_create_session : kj.
  (** The authorization endpoint. *)
  Lemma kj_authz now sid ar : kj any (authz e now sid ar).
  Proof. unfold authz. kj. Qed.
  Lemma authz_fact now s sid ar l s' : J s -> authz e now sid ar s = (Ok l, s') -> sid_ok sid /\ isg l s'.
  Proof.
    intros Js E. unfold authz in E. destruct (e_implicit e).
    - apply bind_ok in E as (l1 & s1 & E1 & E). destruct (grant_fact _ _ _ _ Js E1).
      destruct (gconf_empty _); [|discriminate]. apply ret_ok in E as [-> <-]. auto.
    - apply bind_ok in E as (i & s1 & E1 & E). pose proof (session_fact _ _ _ _ Js E1) as F.
      assert (ss_sid i = sid) as Es.
      { unfold get_session_info in E1. apply bind_ok in E1 as ([[? ?] ?] & ? & _ & E1).
        apply bind_ok in E1 as (? & ? & _ & E1). apply ret_ok in E1 as [<- _]. reflexivity. }
      rewrite Es in F. split; auto. clear F.
      pose proof (reader_get_session_info _ _ _ _ _ E1). subst s1.
      cbv zeta in E. apply bind_ok in E as (g & s1 & E2 & E). apply grant_at_ok in E2 as [-> Hg].
      assert (isg (ss_grant i) s) as I0 by (exists g; exact Hg).
      assert (l = ss_grant i) as ->.
      { apply bind_ok in E as (? & ? & _ & E). apply bind_ok in E as (? & ? & _ & E).
        apply bind_ok in E as (? & ? & _ & E). apply bind_ok in E as (? & ? & _ & E).
        apply bind_ok in E as (? & ? & _ & E). now apply ret_ok in E as [-> _]. }
      eapply isg_grows; [|exact I0]. revert E.
      match goal with |- ?m s = _ -> _ => enough (kj any m) as K by (apply K; auto; exact Logic.I) end.
      clear. kj.
  Qed.
  Lemma kj_az_value P now l sid tc sc ia : sid_ok sid -> kj P (az_value e now l sid tc sc ia).
  Proof. intros H. apply kj_weaken. unfold az_value, az_mint. kj. Qed.
  Hint Resolve kj_az_value : kj.
  Lemma kj_tokens P now ar sid l sc : sid_ok sid -> kj P (authn_tokens e now ar sid l sc).
  Proof. intros H. apply kj_weaken. unfold authn_tokens, except_jwe. kj. Qed.
  Hint Resolve kj_tokens : kj.
  Lemma kj_response P now ar sid : kj P (create_authn_response e now ar sid).
  Proof.
    apply kj_weaken. unfold create_authn_response.
    assert (forall rt, kj any (i <- get_session_info e sid ;;
      let scope := match ar_scope ar with
                   | Some (x :: r) => Some (filter_scopes e (x :: r) (ss_client i))
                   | _ => None end in
      r <- authn_tokens e now ar (ss_sid i) (ss_grant i) scope ;;
      ret (r, negb (smem "code" rt && forallb (String.eqb "code") rt)))) as K by (intros; kj).
    remember (ar_response_type ar) as rt. clear Heqrt.
    repeat (match goal with |- kj _ (match ?a with _ => _ end) =>
      first [is_var a; destruct a; try exact (K _) | fail 1] end).
    apply kj_ret.
  Qed.
  Hint Resolve kj_response : kj.
  Lemma kj_post now ar sid uri : kj any (post_authentication e now ar sid uri).
  Proof.
    unfold post_authentication. apply kj_bind'; [kj|apply kj_authz|].
    intros l (s & s' & Js & _ & E). destruct (authz_fact _ _ _ _ _ _ Js E) as (F & _). clear s s' Js E.
    apply kj_grant. intros g. destruct (negb _); [apply kj_ret|].
    apply kj_bind'; [kj|kj|]. intros [[a b] gid] (s & s' & _ & _ & E). apply lift_ok in E as [D _].
    apply kj_bind; [kj| |].
    - apply kj_catch; [kj| |intros x k X; injection X as <-; kj].
      apply kj_bind; [kj| |kj]. eapply kj_set3; eauto.
    - kj.
  Qed.
  Hint Resolve kj_post : kj.
  Lemma kj_part2 now ifr ar sid uri : kj any (authz_part2 e now ifr ar sid uri).
  Proof. unfold authz_part2. kj. Qed.
  Hint Resolve kj_part2 : kj.
  Lemma kj_login now ifr ar uid acr x uri : good_id uid -> good_id (ar_client_id ar) ->
    kj any (login e now ifr ar uid acr x uri).
  Proof. intros A B. unfold login, ep_create_session. kj. Qed.
  Lemma kj_setup now ar ru acr x ans : good_id (ar_client_id ar) ->
    (forall a sid, ans = AUser a sid -> good_id a) -> kj any (setup_auth e now ar ru acr x ans).
  Proof.
    intros Gc Gu. unfold setup_auth. apply kj_bind'; [kj|kj|].
    intros id (s0 & s0' & _ & _ & Eid). cbv zeta. destruct id as [[a sid]|]; [|apply kj_ret].
    assert (good_id a) as Ga.
    { destruct ans as [|u1 sid1]; [apply ret_ok in Eid as [E _]; discriminate|].
      apply (Gu a sid1). f_equal. destruct (ostr_true sid1).
      - apply bind_inv in Eid as [(l & s1 & _ & E)|(y & _ & K)]; [|discriminate].
        apply bind_inv in E as [(g & s2 & _ & E)|(y & _ & K)]; [|discriminate].
        apply ret_ok in E as [E _]. destruct (grant_active now g); congruence.
      - apply ret_ok in Eid as [E _]. congruence. }
    unfold ep_create_session. kj.
  Qed.
  Lemma kj_authorize now deny ifr ar ru acr x ans uri : good_id (ar_client_id ar) ->
    (forall a sid, ans = AUser a sid -> good_id a) ->
    kj any (authorize e now deny ifr ar ru acr x ans uri).
  Proof. intros Gc Gu. unfold authorize. kj. apply kj_setup; auto. Qed.

  (** Deleting. *)
  Lemma kj_discard P k : Mono P -> kj P (db_discard k).
  Proof.
    intros Mo. unfold db_discard. apply kj_bind; [auto|kj|]. intros [x|]; [apply kj_del|apply kj_ret].
  Qed.
  Lemma kj_delete p : kj any (db_delete p).
  Proof.
    unfold db_delete. apply kj_bind; [kj|kj|]. intros [[a b] g].
    apply kj_bind; [kj|kj|]. intros [ul|]; [|apply kj_ret].
    destruct (negb (ostr_true b)); [apply kj_del|]. cbv zeta. apply kj_sub. intros sub.
    set (P := fun s => any s /\ isi ul s). assert (Mono P) as Mo by (apply mono_and, mono_any).
    destruct (negb (smem (ostr b) sub)); [apply kj_del|].
    apply kj_bind; [auto|kj|]. intros oc.
    apply kj_bind; [auto| |].
    - destruct oc as [cl|]; [|apply kj_ret].
      apply kj_bind; [auto| |].
      + destruct (ostr_true g).
        * apply kj_bind; [auto|now apply kj_discard|]. intros ?. apply kj_bind; [auto|kj|]. intros x.
          destruct (smem _ x); [apply kj_less|apply kj_ret].
        * apply kj_bind; [auto|kj|]. intros x. apply kj_bind; [auto| |intros ?; apply kj_none].
          destruct x; [apply kj_ret|now apply kj_discard].
      + intros ?. apply kj_sub. intros x. destruct x.
        * apply kj_bind; [now apply mono_and|apply kj_del|]. intros ?. apply kj_less.
        * apply kj_put_info. intros s0 [_ H]. exact H.
    - intros ?. apply kj_sub. intros x. destruct x; [apply kj_del|]. apply kj_put_info. intros s0 [_ H]. exact H.
  Qed.
  Lemma kj_remove sid : kj any (remove_session e sid).
  Proof. unfold remove_session. apply kj_bind; [kj|kj|]. intros [[a b] g]. apply kj_delete. Qed.
  Lemma kj_flush : kj any flush.
  Proof.
    intros s r s' [A B] _ E. unfold flush in E. injection E as _ <-. split; [|now apply grows_heap].
    split; [exact A|]. intros k l [].
  Qed.

  (** A restart. *)
  Lemma reload_J s s' : NoDup (dkeys (s_db s)) -> reloaded s s' -> J s -> J s'.
  Proof.
    intros Nd R (A & B). split.
    - intros l i H. destruct (rl_subs _ _ R _ _ H) as (l1 & H1). eauto.
    - intros k l' I Hk. assert (dget (s_db s') k = Some l') as G'.
      { apply dget_of_In; auto. now rewrite (rl_keys _ _ R). }
      assert (exists l, dget (s_db s) k = Some l) as (l & G).
      { apply (in_map fst) in I. change (map fst (s_db s')) with (dkeys (s_db s')) in I. rewrite (rl_keys _ _ R) in I.
        apply in_map_iff in I as ([k1 l1] & E & I). cbn in E. subst k1. exists l1. now apply dget_of_In. }
      destruct (B _ _ (dget_In _ _ _ G) Hk) as (i & Hi). destruct (rl_get _ _ R _ _ _ G Hi) as (l2 & G2 & H2 & _).
      exists i. congruence.
  Qed.

  Lemma step_J h o ev h' : Inv e (h_st h) -> proper e o -> step e h o = (ev, h') -> J (h_st h) -> J (h_st h').
  Proof.
    intros Iv Po E Js.
    assert (forall {A} (f : res A -> event) (m : M st A), kj any m -> on_st h f m = (ev, h') -> J (h_st h')) as K.
    { intros A f m Km Em. unfold on_st in Em. destruct (m (h_st h)) as [r s] eqn:Er. injection Em as _ <-.
      cbn [h_st]. eapply Km; eauto. exact Logic.I. }
    destruct o; cbn [step] in E; cbn [proper] in Po.
    - eapply K; [|exact E]. apply kj_authorize; [tauto|]. intros a sid ->. tauto.
    - eapply K; [|exact E]. apply kj_login; tauto.
    - destruct (token_parse_all e now cid req (h_st h)) as [r s] eqn:Ep. injection E as _ <-. cbn [h_st].
      eapply kj_parse_all; eauto.
    - destruct (nth_error (h_parsed h) i) as [q|]; [|injection E as _ <-; exact Js].
      unfold on_st in E. destruct (token_process e now q issue (h_st h)) as [r s] eqn:Ep. injection E as _ <-.
      cbn [h_st]. eapply kj_process; eauto.
    - eapply K; [|exact E]. apply kj_quiet, quiet_introspect.
    - eapply K; [|exact E]. apply kj_quiet, quiet_userinfo.
    - eapply K; [|exact E]. apply kj_logout.
    - eapply K; [|exact E]. apply kj_revoke_token.
    - eapply K; [|exact E]. apply kj_revoke_grant.
    - eapply K; [|exact E]. apply kj_revoke_client.
    - eapply K; [|exact E]. apply kj_remove.
    - eapply K; [|exact E]. apply kj_flush.
    - unfold on_st in E. destruct (reload_ok e now (h_st h) Iv) as (s1 & E1 & R). rewrite E1 in E.
      injection E as _ <-. cbn [h_st]. eapply reload_J; eauto. apply (inv_dict _ _ Iv).
  Qed.
  Lemma exec_J ops : forall h evs h', HI e h -> Forall (proper e) ops ->
    exec e h ops = (evs, h') -> J (h_st h) -> J (h_st h').
  Proof.
    induction ops as [|o ops IH]; intros h evs h' Hh Po E Js; cbn in E.
    - injection E as _ <-. exact Js.
    - destruct (step e h o) as [ev h1] eqn:Es. destruct (exec e h1 ops) as [evs' h2] eqn:Ee.
      injection E as _ <-. inversion Po as [|? ? P0 P1]; subst.
      destruct (step_keeps e W _ _ _ _ Hh P0 Es) as (Hh1 & _).
      eapply IH; [exact Hh1|exact P1|exact Ee|]. eapply step_J; eauto. apply (hi_inv _ _ Hh).
  Qed.
  Lemma history_J ops evs h : history e ops evs h -> J (h_st h).
  Proof.
    intros (Po & always & E). eapply exec_J; [|exact Po|exact E|].
    - eapply history_hi; [exact W|]. split; [constructor|]. exists always. reflexivity.
    - split; [intros l i H; destruct l; discriminate H|intros k l []].
  Qed.
End Records.
