(** How long tokens live: proofs. *)
From Verif Require Import M_Base M_Types M_Codec M_Grant M_Env M_Session M_Claims M_Handler
  M_Authz M_TokenEP M_PKCE M_AuthzEP M_Info M_Logout M_History S_Codec S_Grant S_Store S_History S_Lifetime
  S_AuthzResp S_TokenResp
  L_Base L_Codec L_Monad L_Grant L_Claims L_Store L_Hist1 L_Hist2 L_Hist3 L_Hist4 L_Hist5 L_Hist6 L_Emit
  L_Hist7 L_Hist8 L_Hist10 M_Dump L_Dump L_TokenResp L_Pass.

Lemma ep_life r : rule_lifetime half_an_hour r (ep_lifetime r).
Proof.
  destruct r as [[m x y]|]; cbn; [|apply life_no_rule].
  destruct m, x, y as [y|]; cbn; try (destruct (Z.eqb y 0) eqn:Z; [apply Z.eqb_eq in Z; subst|apply Z.eqb_neq in Z]);
    try apply life_empty_rule; try (apply life_given; assumption);
    (apply life_for_ever; [|auto]); solve [left; discriminate | right; left; discriminate | right; right; discriminate].
Qed.
Lemma az_life r : rule_lifetime None r (az_lifetime r).
Proof.
  destruct r as [[m x y]|]; cbn; [|apply life_no_rule].
  destruct m, x, y as [y|]; cbn; try (destruct (Z.eqb y 0) eqn:Z; [apply Z.eqb_eq in Z; subst|apply Z.eqb_neq in Z]);
    try apply life_empty_rule; try (apply life_given; assumption);
    (apply life_for_ever; [|auto]); solve [left; discriminate | right; left; discriminate | right; right; discriminate].
Qed.

(** ** How long grants live *)
Section Expiry.
  Variables (e : env) (now x : Z) (W : laws e) (Im : e_implicit e = false) (Gx : gc_exp (e_authz e) = Some x).

  (** The response [a] comes from a grant that expires when it should. *)
  Definition expires_due (a : aresp) (s : st) : Prop :=
    forall v, ap_code a = Some v \/ ap_access a = Some v \/ ap_id a = Some v ->
      exists l g t, hp s l = Some (OGrant g) /\ In t (g_tokens g) /\ t_value t = v /\ g_exp g = (now + x)%Z.

  Lemma authz_expiry u ar sid s l s' : Inv e s -> ready e now u ar sid s -> authz e now sid ar s = (Ok l, s') ->
    exists g, hp s' l = Some (OGrant g) /\ g_exp g = (now + x)%Z.
  Proof.
    intros Is R E. destruct (authz_effect _ _ _ _ _ _ _ _ Is R E) as (l0 & g & g' & _ & _ & Hg' & _ & _ & _ & _ & _ & Ef & El).
    rewrite (El l eq_refl). exists g'. split; auto.
    destruct Ef as [(_ & [(y & X)|X])|(_ & _ & Ex & _)]; [discriminate|congruence|]. rewrite Ex, Gx. reflexivity.
  Qed.
  Lemma post_expiry u ar sid uri s o s' : Inv e s -> ready e now u ar sid s ->
    post_authentication e now ar sid uri s = (Ok o, s') ->
    exists l gid g, dec_sid3 e sid = Ok (u, ar_client_id ar, gid) /\ hp s' l = Some (OGrant g) /\ g_id g = gid
      /\ g_exp g = (now + x)%Z.
  Proof.
    intros Is R E. change (bind (authz e now sid ar) (post_tail e now ar sid uri) s = (Ok o, s')) in E.
    apply bind_ok in E as (l & s1 & E1 & E).
    destruct (authz_spec e now u ar sid _ _ _ Is R E1) as (I1 & _ & X). destruct (X l eq_refl) as (_ & gid & D & O).
    destruct (authz_expiry _ _ _ _ _ _ Is R E1) as (g & Hg & Eg).
    assert (g_id g = gid) as Id by (destruct O as (g0 & H0 & Id & _); congruence).
    pose (Q := fun g => g_id g = gid /\ g_exp g = (now + x)%Z).
    assert (isq Q l s') as (g' & Hg' & Id' & Ex').
    { eapply (kpi_post_tail e now (fun _ => True) (fun _ => True) Q); eauto.
      - intros g1 g2 (_ & _ & _ & _ & A & _ & B & _) (C1 & C2). split; congruence.
      - split; [exact Logic.I|]. intros; exact Logic.I.
      - split; [exists g; split; [auto|split; auto]|exact O].
      - exists g. split; [auto|split; auto]. }
    exists l, gid, g'. auto.
  Qed.
  Lemma part2_expiry u iframe ar sid uri s o a s' : Inv e s -> ready e now u ar sid s ->
    authz_part2 e now iframe ar sid uri s = (Ok o, s') -> ao_args o = Good a -> expires_due a s'.
  Proof.
    intros Is R E Ga v Hv.
    destruct (authz_part2_spec e now W u iframe ar sid uri _ _ _ Is R E) as (I' & _ & An).
    destruct (An o eq_refl a Ga) as [(_ & N1 & N2 & N3 & _)|(l & gid & D & (g & Hg & Id & _) & P & _)].
    { rewrite N1, N2, N3 in Hv. destruct Hv as [Hv|[Hv|Hv]]; discriminate. }
    assert (exists l gid g, dec_sid3 e sid = Ok (u, ar_client_id ar, gid) /\ hp s' l = Some (OGrant g) /\ g_id g = gid
      /\ g_exp g = (now + x)%Z) as (l1 & gid1 & g1 & D1 & H1 & Id1 & Ex1).
    { unfold authz_part2 in E. apply bind_ok in E as (r & s1 & E1 & E).
      destruct r as [r|].
      2:{ apply lift_ok in E as [E _]. apply ebrm_err in E. congruence. }
      assert (s' = s1) as ->.
      { destruct iframe; [|apply ret_ok in E as [_ <-]; reflexivity].
        apply bind_ok in E as (ev & s2 & E2 & E).
        assert (s2 = s1) as ->.
        { revert E2. apply reader_catch; [apply reader_bind; [apply reader_get_event|intros; apply reader_ret]|].
          intros y k X. destruct (is_KeyError y); [|discriminate]. injection X as <-. apply reader_ret. }
        destruct ev as [ev|]; [|apply lift_ok in E as [E _]; apply ebrm_err in E; congruence].
        apply bind_ok in E as (ev1 & s3 & E3 & E). apply reader_need in E3. subst s3.
        destruct (negb (event_valid now ev1)); [apply lift_ok in E as [E _]; apply ebrm_err in E; congruence|].
        apply ret_ok in E as [_ <-]. reflexivity. }
      apply catch_inv in E1 as [(y & E1 & X)|[(y & s2 & k & E1 & E2 & E3)|(y & _ & _ & X)]]; [| |discriminate X].
      - injection X as <-. apply bind_ok in E1 as (o1 & s2 & E1 & E2). apply ret_ok in E2 as [_ <-].
        exact (post_expiry u ar sid uri _ _ _ Is R E1).
      - injection E2 as <-. apply ret_ok in E3 as [E3 _]. discriminate E3. }
    rewrite D in D1. injection D1 as <-.
    assert (l1 = l) as -> by (eapply (inv_uniq _ _ I'); eauto; congruence).
    rewrite Hg in H1. injection H1 as <-.
    assert (forall tc sc b ot, told e now l tc sc b ot s' -> ot = Some v -> exists t, In t (g_tokens g) /\ t_value t = v) as K.
    { intros tc sc b ot T ->. destruct b; cbn in T; [|discriminate].
      destruct T as (t & X & i & g0 & t0 & _ & (g2 & t2 & H2 & N2 & T2) & _).
      rewrite Hg in H2. injection H2 as <-. exists t2. split; [eapply nth_error_In; eauto|].
      destruct T2 as (_ & V2 & _). injection X as ->. exact V2. }
    destruct P as (Pc & Pa & Pi & _).
    assert (exists t, In t (g_tokens g) /\ t_value t = v) as (t & It & Vt).
    { destruct Hv as [Hv|[Hv|Hv]]; eauto. }
    exists l, g, t. auto.
  Qed.
  Lemma step_expiry h o ev h' out a : HI e h -> proper e o -> op_time o = now -> step e h o = (ev, h') ->
    ev = EvLogin (Ok out) \/ ev = EvAuthorize (Ok (ROut out)) -> ao_args out = Good a -> expires_due a (h_st h').
  Proof.
    intros Hi P To E Ev Ga. pose proof (hi_inv _ _ Hi) as Is.
    destruct o; cbn [step] in E; cbn [proper] in P; cbn [op_time] in To; try rewrite To in E;
      try (unfold on_st in E;
           repeat match type of E with context [match ?m with _ => _ end] => destruct m end;
           injection E as <- _; destruct Ev as [Ev|Ev]; discriminate Ev).
    - unfold on_st in E. destruct (authorize _ _ _ _ _ _ _ _ _ _ (h_st h)) as [r s] eqn:Ea. injection E as <- <-. cbn [h_st].
      destruct Ev as [Ev|Ev]; [discriminate|]. injection Ev as ->.
      destruct P as [Gc Pa]. unfold authorize in Ea. destruct (dget (e_clients e) (ar_client_id ar)); [|discriminate].
      apply bind_ok in Ea as (? & s1 & E1 & Ea). apply lift_ok in E1 as [_ <-].
      apply bind_ok in Ea as (z & s1 & E1 & Ea).
      assert (match ans with
              | ANobody => True
              | AUser u sid => good_id u /\ forall s u' c g, sid = Some s -> dec_sid3 e s = Ok (u', c, g) -> u' = u
              end) as Pa' by (destruct ans; tauto).
      destruct (setup_auth_spec e now W ar req_user acr exp_in ans Gc Pa' _ _ _ Is Logic.I E1) as (I1 & _ & K).
      destruct z as [| |sid u].
      + apply ret_ok in Ea as [X _]. discriminate X.
      + destruct (ar_response_mode ar); [apply bind_ok in Ea as (? & ? & _ & Ea)|]; apply ret_ok in Ea as [X _]; discriminate X.
      + apply bind_ok in Ea as (o1 & s2 & E2 & Ea). apply ret_ok in Ea as [X <-]. injection X as ->.
        eapply part2_expiry; eauto.
    - unfold on_st in E. destruct (login _ _ _ _ _ _ _ _ (h_st h)) as [r s] eqn:Ea. injection E as <- <-. cbn [h_st].
      destruct Ev as [Ev|Ev]; [|discriminate]. injection Ev as ->. destruct P as [Gc Gu].
      unfold login in Ea. apply bind_ok in Ea as (sid & s1 & E1 & Ea).
      destruct (ep_create_session_spec e now W ar uid acr exp_in Gu Gc _ _ _ Is Logic.I E1) as (I1 & _ & K).
      eapply part2_expiry; eauto.
  Qed.
End Expiry.

(** In every state the grants with tokens expire at a time that an authorization
    has set. *)
Section Stamps.
  Variables (e : env) (x : Z) (W : laws e) (Im : e_implicit e = false) (Gx : gc_exp (e_authz e) = Some x).
  Variable times : list Z.
  Definition eQ (g : grant) : Prop := exists t, In t times /\ g_exp g = (t + x)%Z.
  Definition eG (g : grant) : Prop := g_tokens g = [] \/ eQ g.
  Definition eA (_ : dict (dict (list string))) : Prop := True.

  Lemma e_frameq g g' : framed g g' -> eQ g -> eQ g'.
  Proof. intros (_ & _ & _ & _ & _ & _ & X & _) (t & I & E). exists t. rewrite X. auto. Qed.
  Lemma e_frame g g' : framed g g' -> eG g -> eG g'.
  Proof.
    intros F [Q|Q]; [left|right; eapply e_frameq; eauto]. destruct F as (_ & _ & _ & _ & _ & _ & _ & Tk).
    destruct (g_tokens g') as [|t ts] eqn:E; [reflexivity|].
    destruct (Tk t) as (t' & I & _); [now left|]. rewrite Q in I. destruct I.
  Qed.
  Lemma e_gq g : eG g -> g_tokens g <> [] -> eQ g.
  Proof. intros [H|H] N; [congruence|auto]. Qed.
  Lemma e_add now : forall g tc b sc t, eG g -> eQ g -> minted_from e now g tc b sc t -> t_exp t = 0%Z ->
    (b = None -> tc <> REFRESH) ->
    let g' := g_add_token (set_life now (lifetime g tc b) t) g in eG g' /\ eQ g'.
  Proof. intros g tc b sc t _ q _ _ _ g'. assert (eQ g') by exact q. split; [right|]; auto. Qed.
  Lemma ex_new now ar ae sub gid rules : eG (new_grant now ar ae sub gid rules None).
  Proof. left. reflexivity. Qed.
  Lemma ex_authz now : In now times -> forall u ar sid s r s', Inv e s -> ready e now u ar sid s -> J eA eG s ->
    authz e now sid ar s = (r, s') -> J eA eG s' /\ up eQ s s' /\ forall l, r = Ok l -> isq eQ l s'.
  Proof.
    intros It u ar sid s r s' Is R (_ & Jg) E.
    destruct (authz_effect _ _ _ _ _ _ _ _ Is R E) as (l & g & g' & Hg & A & Hg' & Ot & Tk & Ar & _ & _ & Ef & El).
    assert (eG g' /\ (eQ g -> eQ g') /\ ((exists l0, r = Ok l0) -> eQ g')) as (G' & Q1 & Q2).
    { destruct Ef as [(-> & Or)|(_ & _ & Ex & _)].
      - assert (g' = g) as -> by congruence. split; [eapply Jg; eauto|]. split; auto.
        intros (l0 & ->). destruct Or as [(? & ?)|?]; congruence.
      - assert (eQ g') as q. { exists now. split; auto. rewrite Ex, Gx. reflexivity. }
        split; [right|]; auto. }
    split; [|split].
    - split; [exact Logic.I|]. intros l' g0 H. destruct (Nat.eq_dec l' l) as [->|N]; [|rewrite Ot in H by auto; eauto].
      rewrite Hg' in H. injection H as <-. auto.
    - intros l' (g0 & H & q). destruct (Nat.eq_dec l' l) as [->|N].
      + exists g'. split; auto. apply Q1. assert (g = g0) as -> by congruence. exact q.
      + exists g0. rewrite Ot by auto. auto.
    - intros l0 E0. rewrite (El _ E0). exists g'. eauto.
  Qed.
  Lemma step_stamp h o ev h' : Inv e (h_st h) -> proper e o -> In (op_time o) times -> step e h o = (ev, h') ->
    J eA eG (h_st h) -> J eA eG (h_st h').
  Proof.
    intros Is P It E Jh.
    eapply (step_pass e (op_time o) eA eG eQ); eauto using e_frame, e_frameq, e_gq, e_add, ex_new, ex_authz.
  Qed.
End Stamps.

Section Life.
  Variables (e : env) (W : laws e) (times : list Z).

  Definition governed : Prop := e_implicit e = false /\ gc_rules (e_authz e) <> None.
  Definition lQ (g : grant) : Prop :=
    governed -> exists ar, g_areq g = Some ar /\ g_rules g = env_rules e (ar_client_id ar).
  Definition ltok (rules : dict rule) (t : token) : Prop :=
    lives_by (dget rules (t_class t)) t /\ In (t_issued t) times /\ (t_class t = REFRESH -> t_based t <> None).
  Definition lG (g : grant) : Prop :=
    (g_tokens g = [] \/ lQ g) /\ forall t, In t (g_tokens g) -> ltok (g_rules g) t.
  Definition lA (_ : dict (dict (list string))) : Prop := True.

  Lemma l_frame g g' : framed g g' -> lG g -> lG g'.
  Proof.
    intros (Ar & _ & Ru & _ & _ & _ & _ & Tk) (Q & Lt). split.
    - destruct Q as [Q|Q].
      + left. destruct (g_tokens g') as [|t ts] eqn:E; [reflexivity|].
        destruct (Tk t) as (t' & I & _); [rewrite ?E; now left|]. rewrite Q in I. destruct I.
      + right. intros Gv. destruct (Q Gv) as (ar & A & R). exists ar. rewrite Ar, Ru. auto.
    - intros t I. destruct (Tk _ I) as (t' & I' & C & _ & X & Is & B). specialize (Lt _ I').
      unfold ltok, lives_by, expires_after in *. rewrite Ru, C, Is, B, X. exact Lt.
  Qed.
  Lemma l_frameq g g' : framed g g' -> lQ g -> lQ g'.
  Proof. intros (Ar & _ & Ru & _) Q Gv. destruct (Q Gv) as (ar & A & R). exists ar. rewrite Ar, Ru. auto. Qed.
  Lemma l_gq g : lG g -> g_tokens g <> [] -> lQ g.
  Proof. intros ([H|H] & _) N; [congruence|auto]. Qed.
  Lemma l_add now : In now times -> forall g tc b sc t, lG g -> lQ g -> minted_from e now g tc b sc t -> t_exp t = 0%Z ->
    (b = None -> tc <> REFRESH) ->
    let g' := g_add_token (set_life now (lifetime g tc b) t) g in lG g' /\ lQ g'.
  Proof.
    intros It g tc b sc t (_ & Lt) q Mf X Nr g'.
    assert (lQ g') as q' by (intros Gv; destruct (q Gv) as (ar & A & R); exists ar; auto).
    split; auto. split; [auto|]. intros t' I. cbn in I. apply in_app_or in I as [I|[<-|[]]]; [now apply Lt|].
    destruct Mf as (_ & C & _ & B & _ & _ & _ & _ & Is & _). cbn [g_rules g_add_token g'].
    assert (t_class (set_life now (lifetime g tc b) t) = tc /\ t_issued (set_life now (lifetime g tc b) t) = now
      /\ t_based (set_life now (lifetime g tc b) t) = option_map t_value b
      /\ t_exp (set_life now (lifetime g tc b) t) = match lifetime g tc b with Some x => (now + x)%Z | None => 0%Z end)
      as (C' & I' & B' & X').
    { unfold set_life. destruct (lifetime g tc b); cbn; auto. }
    unfold ltok, lives_by, expires_after. rewrite C', I', B', X'. split.
    - exists (lifetime g tc b). split; [destruct (lifetime g tc b); reflexivity|].
      unfold lifetime. destruct b; cbn; [apply ep_life|apply az_life].
    - split; auto. intros -> E. destruct b; [discriminate|]. now apply Nr.
  Qed.
  Lemma l_new now ar ae sub gid rules : lG (new_grant now ar ae sub gid rules None).
  Proof. split; [left; reflexivity|]. intros t []. Qed.
  Lemma l_authz now u ar sid s r s' : Inv e s -> ready e now u ar sid s -> J lA lG s -> authz e now sid ar s = (r, s') ->
    J lA lG s' /\ up lQ s s' /\ forall l, r = Ok l -> isq lQ l s'.
  Proof.
    intros Is R (_ & Jg) E.
    destruct (authz_effect _ _ _ _ _ _ _ _ Is R E) as (l & g & g' & Hg & A & Hg' & Ot & Tk & Ar & _ & _ & Ef & El).
    assert (lG g' /\ (lQ g -> lQ g') /\ ((exists l0, r = Ok l0) -> lQ g')) as (G' & Q1 & Q2).
    { destruct Ef as [(-> & Or)|(Ni & Ru & _)].
      - assert (g' = g) as -> by congruence. split; [eapply Jg; eauto|]. split; auto.
        intros (l0 & ->) (Gv & _). destruct Or as [(? & ?)|?]; congruence.
      - assert (lQ g') as q.
        { intros (_ & Gv). exists ar. rewrite Ar, Ru. destruct (gc_rules (e_authz e)); [auto|congruence]. }
        split; [|auto]. split; [auto|]. rewrite Tk. intros t I.
        destruct (Jg _ _ Hg) as ([Z|q0] & Lt); [rewrite Z in I; destruct I|]. specialize (Lt _ I).
        assert (g_rules g' = g_rules g) as ->; [|exact Lt]. rewrite Ru. destruct (gc_rules (e_authz e)) eqn:Gr; [|reflexivity].
        destruct q0 as (ar' & A' & R'); [split; [auto|congruence]|]. congruence. }
    split; [|split].
    - split; [exact Logic.I|]. intros l' g0 H. destruct (Nat.eq_dec l' l) as [->|N]; [|rewrite Ot in H by auto; eauto].
      rewrite Hg' in H. injection H as <-. auto.
    - intros l' (g0 & H & q). destruct (Nat.eq_dec l' l) as [->|N].
      + exists g'. split; auto. apply Q1. assert (g = g0) as -> by congruence. exact q.
      + exists g0. rewrite Ot by auto. auto.
    - intros l0 E0. rewrite (El _ E0). exists g'. eauto.
  Qed.

  Lemma step_life h o ev h' : Inv e (h_st h) -> proper e o -> In (op_time o) times -> step e h o = (ev, h') ->
    J lA lG (h_st h) -> J lA lG (h_st h').
  Proof.
    intros Is P It E Jh.
    eapply (step_pass e (op_time o) lA lG lQ); eauto using l_frame, l_frameq, l_gq, l_add, l_new, l_authz.
  Qed.
End Life.

Section Histories.
  Variables (e : env) (W : laws e).

  Lemma exec_life ops : forall h evs h' times, HI e h -> Forall (proper e) ops -> exec e h ops = (evs, h') ->
    incl (map op_time ops) times -> J lA (lG e times) (h_st h) -> J lA (lG e times) (h_st h').
  Proof.
    intros h evs h' times Hh Po E Inc Jh.
    eapply (exec_keeps e W (fun h => J lA (lG e times) (h_st h)) ops); [|exact Hh|exact Po|exact E|exact Jh].
    intros h1 o ev h2 Io Hh1 Es _ J1. rewrite Forall_forall in Po.
    eapply step_life; eauto using (hi_inv e h1 Hh1). apply Inc. now apply in_map.
  Qed.
  Lemma history_life ops evs h : history e ops evs h -> J lA (lG e (map op_time ops)) (h_st h).
  Proof.
    intros (Po & a & E). eapply exec_life; eauto using hi_init, incl_refl.
    split; [exact Logic.I|]. intros l g H. unfold hp in H. cbn in H. destruct l; discriminate H.
  Qed.

  Lemma history_stamps x ops evs h gid g t : history e ops evs h -> grant_of h gid g -> In t (g_tokens g) ->
    e_implicit e = false -> gc_exp (e_authz e) = Some x -> exists o, In o ops /\ g_exp g = (op_time o + x)%Z.
  Proof.
    intros (Po & a & E) (l & Hg & _) I Im Gx. change (hp (h_st h) l = Some (OGrant g)) in Hg.
    assert (J eA (eG x (map op_time ops)) (h_st h)) as (_ & Jg).
    { eapply (exec_keeps e W (fun h => J eA (eG x (map op_time ops)) (h_st h)) ops); [|apply (hi_init e a)|exact Po|exact E|].
      - intros h1 o ev h2 Io Hh1 Es _ J1. rewrite Forall_forall in Po.
        eapply step_stamp; eauto using (hi_inv e h1 Hh1). now apply in_map.
      - split; [exact Logic.I|]. intros l0 g0 H. unfold hp in H. cbn in H. destruct l0; discriminate H. }
    destruct (Jg _ _ Hg) as [Z|(t0 & It & Ex)]; [rewrite Z in I; destruct I|].
    apply in_map_iff in It as (o & <- & Io). eauto.
  Qed.
  Lemma grant_expiry x ops evs h o ev h' out a v : history e ops evs h -> proper e o -> step e h o = (ev, h') ->
    ev = EvLogin (Ok out) \/ ev = EvAuthorize (Ok (ROut out)) -> ao_args out = Good a ->
    ap_code a = Some v \/ ap_access a = Some v \/ ap_id a = Some v ->
    e_implicit e = false -> gc_exp (e_authz e) = Some x ->
    exists gid g t, grant_of h' gid g /\ In t (g_tokens g) /\ t_value t = v /\ g_exp g = (op_time o + x)%Z.
  Proof.
    intros H P E Ev Ga Hv Im Gx.
    destruct (step_expiry e (op_time o) x W Im Gx h o ev h' out a (history_hi e W _ _ _ H) P eq_refl E Ev Ga v Hv)
      as (l & g & t & Hg & It & Vt & Ex).
    exists (g_id g), g, t. split; [exists l; auto|auto].
  Qed.

  Lemma life_times ops evs h gid g t : history e ops evs h -> grant_of h gid g -> In t (g_tokens g) ->
    lives_by (dget (g_rules g) (t_class t)) t
    /\ (exists o, In o ops /\ t_issued t = op_time o)
    /\ (t_class t = "refresh_token" -> t_based t <> None).
  Proof.
    intros H (l & Hg & _) I. change (hp (h_st h) l = Some (OGrant g)) in Hg.
    destruct (proj2 (history_life _ _ _ H) _ _ Hg) as (_ & Lt). destruct (Lt _ I) as (A & B & C).
    split; auto. split; auto. apply in_map_iff in B as (o & Eo & Io). eauto.
  Qed.
  Lemma life_rules ops evs h gid g t : history e ops evs h -> grant_of h gid g -> In t (g_tokens g) ->
    e_implicit e = false -> gc_rules (e_authz e) <> None ->
    exists ar, g_areq g = Some ar /\ g_rules g = env_rules e (ar_client_id ar).
  Proof.
    intros H (l & Hg & _) I Im Gr. change (hp (h_st h) l = Some (OGrant g)) in Hg.
    destruct (proj2 (history_life _ _ _ H) _ _ Hg) as (Q & _).
    destruct Q as [Q|Q]; [rewrite Q in I; destruct I|]. apply Q. split; auto.
  Qed.

  (** A grant that is dead gives nothing any more. *)
  Lemma dead_gives_nothing ops evs h ops2 evs2 h' gid g now k q a p pc :
    history e ops evs h -> grant_of h gid g -> ~ grant_live g now ->
    Forall (proper e) ops2 -> Forall (fun o => now <= op_time o)%Z ops2 -> exec e h ops2 = (evs2, h') ->
    in_grant g p pc -> answer_at evs2 k q a -> ~ presents q p pc.
  Proof.
    intros H G D Po2 Tm E2 (t & It & Vt & Ct) An Pr.
    pose proof (history_hi e W _ _ _ H) as Hh.
    destruct (event_at e W _ _ _ _ _ _ Hh Po2 E2 An) as (o & h1 & h2 & No & E1 & Hh1 & Pro & Es & Hh2 & _).
    destruct (token_step e _ _ _ _ _ Es) as (n & i & issue & s' & -> & Nq & Ep & ->).
    assert (forall x, In x (firstn k ops2) -> In x ops2) as Fi.
    { intros x Ix. rewrite <- (firstn_skipn k ops2). apply in_or_app. auto. }
    assert (Forall (proper e) (firstn k ops2)) as Po1.
    { apply Forall_forall. intros x Ix. rewrite Forall_forall in Po2. auto. }
    assert (now <= n)%Z as Le by exact (proj1 (Forall_forall _ _) Tm _ (nth_error_In _ _ No)).
    assert (Forall (fun o => now <= op_time o)%Z (firstn k ops2)) as Tm1.
    { apply Forall_forall. intros x Ix. rewrite Forall_forall in Tm. auto. }
    destruct (grant_dead_stays e W _ _ _ _ _ _ _ _ _ n H Po1 Tm1 E1 G D Le) as (g1 & G1 & D1 & V1).
    assert (history e (ops ++ firstn k ops2) (evs ++ firstn k evs2) h1) as H1.
    { destruct H as (Po & al & E). split; [apply Forall_app; auto|]. exists al. now rewrite exec_app, E, E1. }
    destruct (token_response e W _ _ _ _ _ _ _ _ _ H1 Es) as (gid2 & g2 & u & ar & p2 & G2 & Ta & (g0 & G0 & L0) & _).
    destruct Ta as (_ & _ & _ & (pc2 & Pr2 & (t2 & It2 & Vt2 & _)) & _).
    destruct (presents_fun _ _ _ _ _ Pr Pr2) as [-> ->].
    assert (history e ((ops ++ firstn k ops2) ++ [OProcess n i issue]) ((evs ++ firstn k evs2) ++ [EvToken q (Ok (Good a))])
              (mk_hst s' (h_parsed h1))) as H2.
    { destruct H1 as (Po & al & E). split; [apply Forall_app; split; [exact Po|constructor; [exact Logic.I|constructor]]|].
      exists al. rewrite exec_app, E. cbn [exec]. now rewrite Es. }
    assert (Forall (proper e) [OProcess n i issue]) as Pn by (constructor; [exact Logic.I|constructor]).
    destruct (grant_dead_stays e W _ _ _ [OProcess n i issue] [EvToken q (Ok (Good a))] (mk_hst s' (h_parsed h1)) gid g1 n n H1 Pn)
      as (g3 & G3 & _ & V3);
      [constructor; [cbn; lia|constructor]|cbn [exec]; now rewrite Es|exact G1|exact D1|lia|].
    assert (In p2 (map t_value (g_tokens g3))) as Ip.
    { rewrite V3, V1, <- Vt. now apply in_map. }
    apply in_map_iff in Ip as (t3 & E3 & It3).
    assert (t_value t3 = t_value t2) as Ev by congruence.
    destruct (one_owner e W _ _ _ _ _ _ _ _ _ H2 G3 G2 It3 It2 Ev) as (Eg & _). subst gid2.
    assert (g0 = g1) as ->.
    { destruct G0 as (la & Ha & Ia), G1 as (lb & Hb & Ib).
      assert (la = lb) as -> by (eapply (inv_uniq _ _ (hi_inv _ _ Hh1)); eauto; congruence). congruence. }
    now apply D1.
  Qed.

  Lemma life_used ops evs h k q a v c r x :
    history e ops evs h -> in_order ops -> answer_at evs k q a -> presents q v "refresh_token" ->
    tr_client q = Some c -> e_implicit e = false -> gc_rules (e_authz e) <> None ->
    dget (env_rules e c) "refresh_token" = Some r -> r_exp r = Some x -> (x < 0)%Z ->
    (forall o, In o ops -> op_time o + x <> 0)%Z -> False.
  Proof.
    intros (Po & al & E) Ord An Pr Cq Im Gr Ru Rx Neg Nz.
    destruct (event_at e W _ _ _ _ _ _ (hi_init e al) Po E An) as (o & h1 & h2 & No & E1 & Hh1 & Pro & Es & Hh2 & _).
    destruct Pr as [(X & _)|(_ & Gt & Rv)]; [discriminate X|].
    destruct (token_step e _ _ _ _ _ Es) as (now & i & issue & s' & -> & Nq & Ep & ->).
    pose proof (hi_parsed _ _ Hh1) as Fp. rewrite Forall_forall in Fp.
    destruct (Fp _ (nth_error_In _ _ Nq)) as (_ & Pe).
    destruct (Pe Gt) as (v' & l & m & t & Rv' & Ht & Vt & Ct & Wi). assert (v' = v) as -> by congruence.
    assert (history e (firstn k ops) (firstn k evs) h1) as Hist.
    { split; [|eauto]. apply Forall_forall. intros o Io. rewrite Forall_forall in Po. apply Po.
      rewrite <- (firstn_skipn k ops). apply in_or_app. auto. }
    destruct (token_response e W _ _ _ _ _ _ _ _ _ Hist Es) as (gid & g & u & ar & p & _ & Ta & _).
    destruct Ta as (_ & _ & _ & _ & (ta & _ & Acc & _) & _).
    destruct (token_event_refresh e W _ _ _ _ _ _ _ _ _ _ Hh1 Ep Gt Rv' Ht Vt Ct Wi) as (((u1 & c1 & gid1 & Ow & Cc) & Sa & _) & _).
    assert (c1 = c) as -> by congruence.
    destruct (Sa _ Acc) as (b & t1 & Lb & (gb & b' & Hgb & Nb & Lb') & _ & (j & g1 & t2 & _ & _ & _ & _ & _ & Mf)).
    destruct Mf as (_ & _ & _ & _ & Bs & _). destruct (Bs b eq_refl) as (_ & Act).
    assert (t_class b' = REFRESH /\ t_exp b' = t_exp b) as (Cb & Xb).
    { destruct Lb as (C1 & _ & _ & _ & _ & _ & _). destruct Lb' as (C2 & _ & _ & _ & _ & X2 & _). split; congruence. }
    assert (exec e (h_init al) (firstn (S k) ops) = (firstn (S k) evs, mk_hst s' (h_parsed h1))) as E2.
    { assert (forall {T} (l : list T) n y, nth_error l n = Some y -> firstn (S n) l = firstn n l ++ [y]) as Fs.
      { clear. induction l as [|z l IH]; intros [|n] y N; try discriminate; cbn in *; [congruence|]. f_equal. auto. }
      rewrite (Fs _ _ _ _ No), (Fs _ _ _ _ An), exec_app, E1. cbn [exec]. rewrite Es. reflexivity. }
    assert (J lA (lG e (map op_time (firstn (S k) ops))) s') as J2.
    { eapply (exec_life (firstn (S k) ops) _ _ (mk_hst s' (h_parsed h1))); [apply (hi_init e al)| |exact E2|apply incl_refl|].
      - apply Forall_forall. intros o Io. rewrite Forall_forall in Po. apply Po.
        rewrite <- (firstn_skipn (S k) ops). apply in_or_app. auto.
      - split; [exact Logic.I|]. intros l0 g0 H. unfold hp in H. cbn in H. destruct l0; discriminate H. }
    destruct (proj2 J2 _ _ Hgb) as (Q & Lt). destruct (Lt _ (nth_error_In _ _ Nb)) as ((y & Ex & Li) & Is & Bd).
    destruct Q as [Q|Q]; [rewrite Q in Nb; now destruct m|].
    destruct Q as (ar' & Aq & Rules); [split; auto|].
    assert (ar_client_id ar' = c) as Ec.
    { destruct Ow as (g3 & H3 & _ & B3). assert (g3 = gb) as -> by congruence.
      destruct B3 as (ar3 & ae & A3 & C3 & _). congruence. }
    rewrite Cb, Rules, Ec in Li. change (dget (env_rules e c) REFRESH) with (dget (env_rules e c) "refresh_token") in Li.
    rewrite Ru in Li. destruct r as [rm rx re]. cbn in Rx. subst re.
    assert (y = Some x) as ->.
    { assert (x <> 0%Z) as Nx by lia. inversion Li; subst; auto. exfalso.
      match goal with H : _ = None \/ _ = Some 0%Z |- _ => destruct H as [H|H]; [discriminate H|injection H as ->] end.
      now apply Nx. }
    cbn in Ex. apply in_map_iff in Is as (o' & Eo' & Io').
    apply In_nth_error in Io' as (k' & Nk').
    assert (k' <= k /\ nth_error ops k' = Some o') as (Lk & Nk).
    { assert (k' < List.length (firstn (S k) ops)) as L1 by (apply nth_error_Some; congruence).
      rewrite firstn_length in L1. split; [lia|]. rewrite <- Nk', <- (firstn_skipn (S k) ops) at 1.
      rewrite nth_error_app1; [reflexivity|]. rewrite firstn_length. lia. }
    pose proof (Ord _ _ _ _ Lk Nk No) as Le. cbn [op_time] in Le.
    pose proof (Nz _ (nth_error_In _ _ Nk)) as N0.
    apply tok_active_live in Act. destruct Act as (_ & _ & _ & Act). rewrite <- Xb, Ex, <- Eo' in Act.
    specialize (Act N0). lia.
  Qed.
End Histories.

Lemma default_lives e (W : laws e) ops evs h gid g ar c t :
  history e ops evs h -> grant_of h gid g -> In t (g_tokens g) ->
  e_implicit e = false -> gc_rules (e_authz e) = Some default_rules ->
  g_areq g = Some ar -> dget (e_clients e) (ar_client_id ar) = Some c -> c_rules c = None ->
  (t_based t = None -> t_exp t = 0%Z)
  /\ (t_class t = "authorization_code" -> t_exp t = 0%Z)
  /\ (t_class t = "access_token" \/ t_class t = "id_token" -> t_based t <> None -> t_exp t = (t_issued t + 1800)%Z)
  /\ (t_class t = "refresh_token" -> t_exp t = (t_issued t - 1)%Z).
Proof.
  intros H Hg I Im Gr A Dc Rc.
  destruct (life_times e W _ _ _ _ _ _ H Hg I) as ((x & Ex & Li) & _ & Bd).
  destruct (life_rules e W _ _ _ _ _ _ H Hg I Im) as (ar' & A' & R); [congruence|].
  assert (ar' = ar) as -> by congruence.
  assert (g_rules g = default_rules) as Er.
  { rewrite R. unfold env_rules, usage_rules. rewrite Gr, Dc, Rc. destruct (negb (str_true (ar_client_id ar))); reflexivity. }
  rewrite Er in Li. clear R Er.
  split; [|split; [|split]].
  - intros B. rewrite B in Li.
    assert (t_class t <> "refresh_token") as Nr by (intros C; now apply Bd in C).
    unfold default_rules in Li. cbn [dget] in Li.
    destruct (String.eqb (t_class t) "authorization_code") eqn:E1; [inversion Li; subst; exact Ex|].
    destruct (String.eqb (t_class t) "access_token") eqn:E2; [inversion Li; subst; solve [exact Ex|intuition congruence]|].
    destruct (String.eqb (t_class t) "refresh_token") eqn:E3; [apply seqb_eq in E3; congruence|].
    inversion Li; subst; exact Ex.
  - intros C. rewrite C in Li. cbn in Li. inversion Li; subst. exact Ex.
  - intros C B. destruct (t_based t) as [p|]; [|congruence]. unfold half_an_hour in Li.
    destruct C as [C|C]; rewrite C in Li; cbn in Li; inversion Li; subst; solve [exact Ex|intuition congruence].
  - intros C. rewrite C in Li. cbn in Li. inversion Li; subst; [intuition discriminate|]. cbn in Ex. lia.
Qed.
