(** Histories, part 9: where tokens, grants and log-ins come from; what never
    changes. *)
From Verif Require Import M_Base M_Types M_Codec M_Grant M_Env M_Session M_Claims M_Handler
  M_Authz M_TokenEP M_PKCE M_AuthzEP M_Info M_Logout M_History S_Codec S_Grant S_Store S_History
  L_Base L_Codec L_Monad L_Grant L_Claims L_Store L_Hist1 L_Hist2 L_Hist3 L_Hist4 L_Hist5 L_Hist6
  L_Hist7 L_Hist8 L_Emit M_Dump L_Dump.

Definition op_T (o : op) (c : string) : Prop :=
  match o with
  | OAuthorize _ _ _ _ _ _ _ _ _ | OLogin _ _ _ _ _ _ _ => c = CODE \/ c = ACCESS \/ c = IDTOKEN
  | OProcess _ _ _ => c = ACCESS \/ c = REFRESH \/ c = IDTOKEN
  | _ => False
  end.
Definition op_G (o : op) (a : option areq) : Prop := exists ar, a = Some ar /\ authorizes o ar.
Definition op_U (o : op) (a : option aevent) : Prop := exists ae, a = Some ae /\ by_user o (ae_uid ae).

Lemma step_emits e h o ev h' l g' : HI e h -> step e h o = (ev, h') -> hp (h_st h') l = Some (OGrant g') ->
  from (op_T o) (op_G o) (op_U o) (h_st h) l g'.
Proof.
  intros Hh.
  assert (forall A (f : res A -> event) (m : M st A), emits (op_T o) (op_G o) (op_U o) m ->
    on_st h f m = (ev, h') -> hp (h_st h') l = Some (OGrant g') -> from (op_T o) (op_G o) (op_U o) (h_st h) l g') as K.
  { intros A f m H E X. unfold on_st in E. destruct (m (h_st h)) as [r s] eqn:Em. injection E as _ <-. eapply H; eauto. }
  intros E X. destruct o; cbn [step] in E.
  - eapply K; [|exact E|exact X]. apply em_authorize; cbn; auto.
    + exists ar. cbn. auto.
    + intros u sid ->. exists (new_event now u acr exp_in). cbn. auto.
  - eapply K; [|exact E|exact X]. apply em_login; cbn; auto.
    + exists ar. cbn. auto.
    + exists (new_event now uid acr exp_in). cbn. auto.
  - destruct (token_parse_all e now cid req (h_st h)) as [r s] eqn:Ep. injection E as _ <-. cbn in X.
    eapply em_parse_all; eauto.
  - destruct (nth_error (h_parsed h) i) as [q|].
    + eapply K; [|exact E|exact X]. apply em_process; cbn; auto.
    + injection E as _ <-. now apply from_here.
  - eapply K; [|exact E|exact X]. apply em_quiet, quiet_introspect.
  - eapply K; [|exact E|exact X]. apply em_quiet, quiet_userinfo.
  - eapply K; [|exact E|exact X]. apply em_logout.
  - eapply K; [|exact E|exact X]. apply em_mgr_revoke_token.
  - eapply K; [|exact E|exact X]. apply em_revoke_grant.
  - eapply K; [|exact E|exact X]. apply em_revoke_client.
  - eapply K; [|exact E|exact X]. apply em_remove.
  - eapply K; [|exact E|exact X]. apply em_flush.
  - unfold on_st in E. destruct (reload_ok e now (h_st h) (hi_inv _ _ Hh)) as (s1 & E1 & R). rewrite E1 in E.
    injection E as _ <-. apply from_here. eapply reloaded_grants; eauto.
Qed.

(** ** Held tokens *)
Definition held (h : hst) (v tc : string) : Prop :=
  exists l g t, hp (h_st h) l = Some (OGrant g) /\ In t (g_tokens g) /\ t_value t = v /\ t_class t = tc.
Lemma held_holds h v tc : held h v tc <-> holds h v tc.
Proof.
  split.
  - intros (l & g & t & H & K). exists (g_id g), g, t. split; auto. exists l. split; auto.
  - intros (gid & g & t & (l & H & _) & K). exists l, g, t. auto.
Qed.

Definition knows (h : hst) (v : string) : bool :=
  existsb (fun o => match o with OGrant g => existsb (fun t => String.eqb (t_value t) v) (g_tokens g)
                               | _ => false end) (s_heap (h_st h)).
Lemma knows_known h v : knows h v = true <-> known h v.
Proof.
  unfold knows. rewrite existsb_exists. split.
  - intros (o & I & K). destruct o as [|g|]; try discriminate. apply existsb_exists in K as (t & It & V).
    apply seqb_eq in V. exists (t_class t). apply held_holds. apply In_nth_error in I as [l I].
    exists l, g, t. auto.
  - intros (tc & K). apply held_holds in K as (l & g & t & H & I & V & _). exists (OGrant g).
    split; [eapply nth_error_In; exact H|]. apply existsb_exists. exists t. split; auto. now apply seqb_eq.
Qed.
Lemma knows_dec h v : known h v \/ ~ known h v.
Proof. destruct (knows h v) eqn:E; [left; now apply knows_known|right; rewrite <- knows_known; congruence]. Qed.

Lemma st_held_tok now s s' l i t : st_later now s s' -> has l i t s -> has l i t s'.
Proof. apply (st_has now). Qed.

Lemma held_has h v tc : held h v tc <-> exists l i t, has l i t (h_st h) /\ t_value t = v /\ t_class t = tc.
Proof.
  split.
  - intros (l & g & t & H & I & V & C). apply In_nth_error in I as [i I]. exists l, i, t.
    split; auto. eapply has_here; eauto.
  - intros (l & i & t & (g & u & H & N & L) & V & C). exists l, g, u. split; auto.
    split; [eapply nth_error_In; eauto|]. destruct L as (X & Y & _). split; congruence.
Qed.

Section Prov.
  Variables (e : env) (W : laws e).

  Lemma held_unique h v tc tc' : HI e h -> held h v tc -> held h v tc' -> tc = tc'.
  Proof.
    intros [I _] A B. destruct A as (l & g & t & H & It & V & C), B as (l' & g' & t' & H' & It' & V' & C').
    apply In_nth_error in It as [i N]. apply In_nth_error in It' as [i' N'].
    destruct (inv_vals _ _ I _ _ _ _ _ _ _ _ H H' N N') as [<- <-]; congruence.
  Qed.
  Lemma held_later ops h evs h' v tc : HI e h -> Forall (proper e) ops -> exec e h ops = (evs, h') ->
    held h v tc -> held h' v tc.
  Proof.
    intros Hh Po E K. apply held_has in K as (l & i & t & K & V). apply held_has. exists l, i, t. split; auto.
    eapply (exec_stable e W (has l i t)); eauto. intros n. apply (st_has n).
  Qed.

  (** The call that made a token. *)
  Lemma minted_at ops : forall h evs h' v tc, HI e h -> Forall (proper e) ops -> exec e h ops = (evs, h') ->
    ~ known h v -> held h' v tc ->
    exists j o h1 ev h2, nth_error ops j = Some o /\ exec e h (firstn j ops) = (firstn j evs, h1)
      /\ step e h1 o = (ev, h2) /\ ~ known h1 v /\ held h2 v tc /\ op_T o tc.
  Proof.
    induction ops as [|o ops IH]; intros h evs h' v tc Hh Po E N K; cbn in E.
    - injection E as _ <-. exfalso. apply N. exists tc. now apply held_holds.
    - destruct (step e h o) as [ev h1] eqn:Es. destruct (exec e h1 ops) as [evs' h2] eqn:Ee.
      injection E as <- <-. inversion Po; subst. destruct (step_keeps e W _ _ _ _ Hh H1 Es) as (Hh1 & L & _).
      destruct (knows_dec h1 v) as [(tc1 & Kn)|Kn].
      + apply held_holds in Kn. assert (tc1 = tc) as ->.
        { eapply held_unique; [|eapply held_later; [exact Hh1|exact H2|exact Ee|exact Kn]|exact K].
          eapply exec_hi; eauto. }
        exists 0, o, h, ev, h1. cbn. do 5 (split; auto).
        destruct Kn as (l & g & t & H & It & V & C). 
        destruct (step_emits _ _ _ _ _ _ _ Hh Es H) as [(g0 & H0 & _ & _ & Kt)|(_ & _ & Kt)].
        * destruct (Kt t It) as [(t0 & I0 & V0 & _)|X]; [|congruence]. exfalso. apply N.
          exists (t_class t0). apply held_holds. exists l, g0, t0. split; auto. split; auto. split; auto. congruence.
        * rewrite <- C. auto.
      + destruct (IH _ _ _ _ _ Hh1 H2 Ee Kn K) as (j & o' & h3 & ev3 & h4 & A & B & C & D & F & G).
        exists (S j), o', h3, ev3, h4. cbn. rewrite Es, B. auto 10.
  Qed.

  (** The call that made a grant. *)
  Lemma grant_from ops : forall h evs h' l g', HI e h -> Forall (proper e) ops -> exec e h ops = (evs, h') -> hp (h_st h') l = Some (OGrant g') ->
    (exists g, hp (h_st h) l = Some (OGrant g) /\ g_areq g' = g_areq g)
    \/ exists j o, nth_error ops j = Some o /\ op_G o (g_areq g').
  Proof.
    induction ops as [|o ops IH]; intros h evs h' l g' Hh Po E H; cbn in E.
    - injection E as _ <-. left. eauto.
    - destruct (step e h o) as [ev h1] eqn:Es. destruct (exec e h1 ops) as [evs' h2] eqn:Ee. injection E as _ <-.
      inversion Po as [|? ? P0 P1]; subst. destruct (step_keeps e W _ _ _ _ Hh P0 Es) as (Hh1 & _).
      destruct (IH _ _ _ _ _ Hh1 P1 Ee H) as [(g & Hg & A)|(j & o' & A & B)].
      + destruct (step_emits _ _ _ _ _ _ _ Hh Es Hg) as [(g0 & H0 & A0 & _)|(A0 & _)].
        * left. exists g0. split; auto. congruence.
        * right. exists 0, o. split; auto. congruence.
      + right. exists (S j), o'. auto.
  Qed.
  Lemma event_from ops : forall h evs h' l g', HI e h -> Forall (proper e) ops -> exec e h ops = (evs, h') -> hp (h_st h') l = Some (OGrant g') ->
    (exists l0 g, hp (h_st h) l0 = Some (OGrant g) /\ g_aevent g' = g_aevent g)
    \/ exists j o, nth_error ops j = Some o /\ op_U o (g_aevent g').
  Proof.
    induction ops as [|o ops IH]; intros h evs h' l g' Hh Po E H; cbn in E.
    - injection E as _ <-. left. eauto.
    - destruct (step e h o) as [ev h1] eqn:Es. destruct (exec e h1 ops) as [evs' h2] eqn:Ee. injection E as _ <-.
      inversion Po as [|? ? P0 P1]; subst. destruct (step_keeps e W _ _ _ _ Hh P0 Es) as (Hh1 & _).
      destruct (IH _ _ _ _ _ Hh1 P1 Ee H) as [(l0 & g & Hg & A)|(j & o' & A & B)].
      + destruct (from_event _ _ _ _ _ _ (step_emits _ _ _ _ _ _ _ Hh Es Hg)) as [A0|(l1 & g0 & H0 & A0)].
        * right. exists 0, o. split; auto. congruence.
        * left. exists l1, g0. split; auto. congruence.
      + right. exists (S j), o'. auto.
  Qed.

  Lemma init_empty al l : hp (h_st (h_init al)) l = None.
  Proof. unfold hp. cbn. now destruct l. Qed.

  Lemma firstn_firstn_lt {A} i j (xs : list A) : i < j -> firstn i (firstn j xs) = firstn i xs.
  Proof. intros. rewrite firstn_firstn. f_equal. lia. Qed.
  Lemma nth_firstn {A} i j (xs : list A) x : nth_error (firstn j xs) i = Some x -> i < j /\ nth_error xs i = Some x.
  Proof.
    revert i xs. induction j as [|j IH]; intros i xs H; cbn in H; [now destruct i|].
    destruct xs as [|y xs]; [now destruct i|]. destruct i as [|i]; cbn in *; [split; auto; lia|].
    apply IH in H as [H1 H2]. split; auto. lia.
  Qed.

  (** ** What a token answer rests on *)

  (** In the grant at [l] there is a token with text [v] and class [tc] made from
      the one with text [p]. *)
  Definition born (l : nat) (p : string) (tc v : string) (s : st) : Prop :=
    exists j t, has l j t s /\ t_value t = v /\ t_class t = tc /\ t_based t = Some p.
  Lemma st_born n l p tc v : Stable n (born l p tc v).
  Proof.
    intros s s' L (j & t & H & K). exists j, t. split; auto. eapply (st_has n); eauto.
  Qed.
  Lemma child_born now l m t tc sc v s : child e now l m t tc sc v s -> born l (t_value t) tc v s.
  Proof.
    intros (b & u & Lb & Hb & -> & (i & g & t0 & _ & Hu & L0 & _ & _ & M)).
    destruct M as (_ & C & _ & B & _). exists i, u. split; auto. split; auto.
    destruct L0 as (C0 & _ & B0 & _). destruct Lb as (_ & Vb & _). cbn in B. split; congruence.
  Qed.

  (** The answer [a] to [q], given by the [i]-th call, rests on the token [t] at
      [(l, m)], of user [u] and client [c]; [h1] is the state before the call. *)
  Lemma answer_grant ops evs h i q a : history e ops evs h ->
    nth_error evs i = Some (EvToken q (Ok (Good a))) ->
    exists al now k issue h1 s2 l m t u c gid,
      exec e (h_init al) (firstn i ops) = (firstn i evs, h1)
      /\ Forall (proper e) (firstn i ops)
      /\ nth_error ops i = Some (OProcess now k issue)
      /\ HI e h1 /\ Inv e s2 /\ HI e h
      /\ token_process e now q issue (h_st h1) = (Ok (Good a), s2)
      /\ st_later now (h_st h1) s2
      /\ has l m t (h_st h1) /\ has l m t (h_st h) /\ owns e (h_st h) l u c gid /\ tr_client q = Some c
      /\ (forall P : st -> Prop, (forall n, Stable n P) -> P s2 -> P (h_st h))
      /\ (forall v, rs_access a = Some v -> born l (t_value t) ACCESS v (h_st h))
      /\ (forall v, rs_refresh a = Some v -> born l (t_value t) REFRESH v (h_st h))
      /\ (forall v, rs_id a = Some v -> born l (t_value t) IDTOKEN v (h_st h))
      /\ ((tr_grant_type q = CODE /\ t_class t = CODE /\ tr_code q = Some (t_value t)
           /\ rs_access a <> None /\ served e now q l m t None a s2 /\ code_extra e now q l a s2)
          \/ (tr_grant_type q = REFRESH /\ t_class t = REFRESH /\ tr_refresh q = Some (t_value t)
              /\ served e now q l m t (Some (rs_scope a)) a s2 /\ refresh_extra e q l m t a s2)).
  Proof.
    intros Hi Ni. pose proof (history_hi e W _ _ _ Hi) as Hh. destruct Hi as (Po & al & E).
    destruct (event_at e W _ _ _ _ _ _ (hi_init e al) Po E Ni) as (o & h1 & h2 & No & E1 & H1 & Pp & S1 & H2 & P2 & E2).
    pose proof (step_keeps e W _ _ _ _ H1 Pp S1) as (_ & Lt & _).
    apply token_step in S1 as (now & k & issue & s' & -> & Nq & Ep & ->). cbn in Lt.
    pose proof (proj1 (Forall_forall _ _) (hi_parsed _ _ H1) q (nth_error_In _ _ Nq)) as (Pc & Pr).
    assert (forall P : st -> Prop, (forall n, Stable n P) -> P s' -> P (h_st h)) as St.
    { intros P Sp p. eapply (exec_stable e W P); [exact Sp|exact H2|exact P2|exact E2|exact p]. }
    assert (forall l m t, has l m t (h_st h1) -> has l m t (h_st h)) as Hs.
    { intros l m t K. apply St; [intros n; apply (st_has n)|]. eapply (st_has now); eauto. }
    assert (forall l m t sc, served e now q l m t sc a s' ->
      (exists u c gid, owns e (h_st h) l u c gid /\ tr_client q = Some c)
      /\ (forall v, rs_access a = Some v -> born l (t_value t) ACCESS v (h_st h))
      /\ (forall v, rs_refresh a = Some v -> born l (t_value t) REFRESH v (h_st h))
      /\ (forall v, rs_id a = Some v -> born l (t_value t) IDTOKEN v (h_st h))) as Sv.
    { intros l m t sc ((u & c & gid & O & Ec) & A & R & D & _). split; [|split; [|split]].
      - exists u, c, gid. split; auto. apply (St (fun s => owns e s l u c gid)); auto. intros n. apply (st_owns e n).
      - intros v V. apply (St (born l (t_value t) ACCESS v)); [intros n; apply st_born|]. eapply child_born; eauto.
      - intros v V. apply (St (born l (t_value t) REFRESH v)); [intros n; apply st_born|]. eapply child_born; eauto.
      - intros v V. apply (St (born l (t_value t) IDTOKEN v)); [intros n; apply st_born|]. eapply child_born; eauto. }
    destruct (token_process_type e now q issue _ _ _ Ep) as [G|G].
    - destruct (Pc G) as (v & l & m & t & Ev & Ht & Vt & Ct).
      destruct (token_event_code e W now h1 q issue l m t a s' v) as (Na & Se & Ex); auto.
      destruct (Sv _ _ _ _ Se) as ((u & c & gid & O & Ec) & A & R & D).
      exists al, now, k, issue, h1, s', l, m, t, u, c, gid.
      split; [exact E1|]. split; [now apply Forall_firstn'|]. split; [exact No|]. split; [exact H1|].
      split; [apply H2|]. split; [exact Hh|]. split; [exact Ep|]. split; [exact Lt|]. split; [exact Ht|].
      split; [auto|]. split; [exact O|]. split; [exact Ec|]. split; [exact St|]. split; [exact A|].
      split; [exact R|]. split; [exact D|]. left. subst v. auto 10.
    - destruct (Pr G) as (v & l & m & t & Ev & Ht & Vt & Ct & Wi).
      destruct (token_event_refresh e W now h1 q issue l m t a s' v) as (Se & Ex); auto.
      destruct (Sv _ _ _ _ Se) as ((u & c & gid & O & Ec) & A & R & D).
      exists al, now, k, issue, h1, s', l, m, t, u, c, gid.
      split; [exact E1|]. split; [now apply Forall_firstn'|]. split; [exact No|]. split; [exact H1|].
      split; [apply H2|]. split; [exact Hh|]. split; [exact Ep|]. split; [exact Lt|]. split; [exact Ht|].
      split; [auto|]. split; [exact O|]. split; [exact Ec|]. split; [exact St|]. split; [exact A|].
      split; [exact R|]. split; [exact D|]. right. subst v. auto 10.
  Qed.
End Prov.
