(** The claims released in a history: proofs. *)
From Verif Require Import M_Base M_Types M_Codec M_Grant M_Env M_Session M_Claims M_Handler
  M_Authz M_TokenEP M_PKCE M_AuthzEP M_Info M_IntroResp M_Logout M_History S_Codec S_Grant S_Store S_Claims S_History S_Release
  L_Base L_Codec L_Monad L_Grant L_Claims L_Store L_Hist1 L_Hist2 L_Hist3 L_Hist4 L_Hist5 L_Hist6 L_Emit
  L_Hist7 L_Hist8 L_Hist10 M_Dump L_Dump L_Info L_Pass S_Hex L_Hex.

(** The settings of the clients, but for ID tokens, are as in [a0]. *)
Definition kept_lists (a0 a : dict (dict (list string))) : Prop :=
  forall cid cfg, dget a cid = Some cfg -> exists cfg0, dget a0 cid = Some cfg0
    /\ forall p l, p <> "id_token" -> In (p, l) cfg -> In (p, l) cfg0.
Lemma dset_other_In {T} (d : dict T) k v p l : p <> k -> In (p, l) (dset d k v) -> In (p, l) d.
Proof.
  intros N. induction d as [|[k0 v0] d IH]; cbn; [intros [H|[]]; congruence|].
  destruct (String.eqb k k0) eqn:E; cbn; intros [H|H]; auto.
  apply seqb_eq in E. congruence.
Qed.
Lemma kept_always a0 cid p x s r s' : paired p x -> client_always cid p x s = (r, s') ->
  kept_lists a0 (s_always s) -> kept_lists a0 (s_always s').
Proof.
  intros Pa E K. unfold client_always in E.
  destruct Pa as [->|(-> & ->)]; [injection E as _ <-; exact K|]. cbn [str_true] in E.
  destruct (dget (match dget (s_always s) cid with Some d => d | None => [] end) "id_token") as [l1|] eqn:L1;
    [|injection E as _ <-; exact K].
  injection E as _ <-. intros c cfg H. cbn [s_always] in H. rewrite dget_dset in H.
  destruct (String.eqb c cid) eqn:Ec; [|eapply K; eauto]. apply seqb_eq in Ec. subst c. injection H as <-.
  destruct (dget (s_always s) cid) as [d|] eqn:D; [|discriminate L1].
  destruct (K _ _ D) as (cfg0 & H0 & Hl). exists cfg0. split; auto. intros p l Np I. apply Hl; auto.
  eapply dset_other_In; eauto.
Qed.

Lemma asked_kept e a0 s ar p sc cid k : kept_lists a0 (s_always s) -> p <> "id_token" ->
  asked_for e s ar p sc cid "" k -> asked_for e (st_init a0) ar p sc cid "" k.
Proof.
  intros K Np H. destruct H as [| | | |m cfg p' l H1 H2 H3 H4 H5 H6].
  - eapply af_request; eauto.
  - eapply af_scope; eauto.
  - eapply af_base; eauto.
  - eapply af_always; eauto.
  - destruct (K _ _ H3) as (cfg0 & H0 & Hl). destruct H4 as [->|(X & _)]; [|congruence].
    eapply af_client; eauto.
Qed.

Lemma gcfr_reader e ar p sc cid s r s' : get_claims_from_request e ar p sc cid "" s = (r, s') -> s' = s.
Proof.
  assert (reader (get_claims_from_request e ar p sc cid "")) as R; [|apply R].
  unfold get_claims_from_request. apply reader_bind; [apply reader_lift|]. intros [m|]; [|apply reader_ret].
  cbv zeta. apply reader_bind.
  - destruct (_ && _); [|apply reader_ret]. apply reader_bind; [|intros; apply reader_ret].
    intros s0 r0 s0' E. unfold client_always in E. cbn [str_true] in E. injection E as _ <-. reflexivity.
  - intros [b a]. apply reader_ret.
Qed.

Lemma all_usage_each (f : string -> M st (dict cspec)) s (P : string -> dict cspec -> Prop) :
  (forall p r s', f p s = (r, s') -> s' = s /\ forall d, r = Ok d -> P p d) ->
  forall ps c s', all_usage f ps s = (Ok c, s') -> forall p d, In (p, d) c -> P p d.
Proof.
  intros F. induction ps as [|p ps IH]; intros c s' H q d I; cbn in H.
  - apply ret_ok in H as [<- _]. destruct I.
  - apply bind_ok in H as (d0 & s1 & H0 & H). destruct (F _ _ _ H0) as (-> & P0).
    apply bind_ok in H as (rest & s2 & H1 & H). apply ret_ok in H as [<- _].
    destruct I as [I|I]; [injection I as <- <-; auto|]. eapply IH; eauto.
Qed.

Lemma dupdate_null {V} (f d : dict (option V)) k : In k (dkeys f) -> (forall x, In (k, x) f -> x = None) ->
  dget (dupdate d f) k = Some None.
Proof.
  revert d. induction f as [|[k' v] r IH]; intros d I N; [destruct I|].
  change (dupdate d ((k', v) :: r)) with (dupdate (dset d k' v) r).
  destruct (dget r k) as [y|] eqn:D.
  - apply dget_In in D. apply IH; [unfold dkeys; apply in_map_iff; now exists (k, y)|]. intros x Ix. apply N. now right.
  - rewrite dget_dupdate_notin by exact D. destruct I as [I|I].
    + cbn in I. subst k'. rewrite dget_dset_same, (N v); auto. now left.
    + exfalso. unfold dkeys in I. apply in_map_iff in I as ((a & b) & Ea & I). cbn in Ea. subst a.
      apply dget_None_keys in D. apply D. unfold dkeys. apply in_map_iff. now exists (k, b).
Qed.
Lemma release_has info restr out k sp v : release info restr = Ok out -> In (k, sp) restr ->
  dget info k = Some v -> claims_match (Some v) sp = Ok true -> dget out k = Some v.
Proof.
  revert out. induction restr as [|[k' sp'] r IH]; intros out; [intros _ []|]. cbn [release].
  intros H I V C. apply rbind_ok in H as (b & E1 & H). apply rbind_ok in H as (rest & E2 & H).
  destruct I as [I|I].
  - injection I as -> ->. rewrite V in *. rewrite C in E1. injection E1 as <-. injection H as <-. cbn.
    now rewrite String.eqb_refl.
  - specialize (IH _ E2 I V C). destruct b; [|now injection H as <-].
    destruct (dget info k') as [v'|] eqn:D; [|now injection H as <-]. injection H as <-. cbn.
    destruct (String.eqb k k') eqn:Ek; [|exact IH]. apply seqb_eq in Ek. subst. congruence.
Qed.
Lemma user_claims_has e u d out users k sp v : e_users e = Some users -> get_user_claims e u (Some d) = Ok out ->
  In (k, sp) d -> dget (users u) k = Some v -> claims_match (Some v) sp = Ok true -> dget out k = Some v.
Proof.
  intros U. unfold get_user_claims. rewrite U. destruct d as [|x d]; [intros _ []|]. apply release_has.
Qed.
Lemma request_claims_says ar p k sp : request_says ar p k sp <-> dget (request_claims (Some ar) p) k = Some sp.
Proof.
  unfold request_claims, request_says. destruct (ar_claims ar) as [cl|].
  - destruct (dget cl p) as [d|] eqn:D.
    + split; [intros (cl' & d' & E1 & E2 & H)|intros H; exists cl, d; auto].
      injection E1 as <-. rewrite D in E2. now injection E2 as <-.
    + split; [intros (cl' & d' & E1 & E2 & H)|discriminate]. injection E1 as <-. congruence.
  - split; [intros (cl' & d' & E1 & _)|]; discriminate.
Qed.
Lemma request_claims_nodup e ar p : proper_dicts e ar -> NoDup (dkeys (request_claims (Some ar) p)).
Proof.
  intros (_ & N). unfold request_claims. destruct (ar_claims ar) as [cl|] eqn:C; [|constructor].
  destruct (dget cl p) as [d|] eqn:D; [|constructor]. apply (N cl p d eq_refl). now apply dget_In.
Qed.
Lemma gcfr_low e ar p sc cid s d s' m : get_claims_from_request e (Some ar) p (Some sc) cid "" s = (Ok d, s') ->
  eff_client cid (Some ar) = ar_client_id ar -> In p (release_points e) -> dget (e_modules e) p = Some m ->
  proper_dicts e ar -> forall k sp, asks e ar p sc k sp -> dget d k = Some sp.
Proof.
  intros H Ef Ip Dm Pd k sp As. unfold get_claims_from_request in H.
  assert (get_module e p = Ok (Some m)) as Gm by (unfold get_module; apply smem_In in Ip; now rewrite Ip, Dm).
  rewrite Gm in H. unfold bind at 1 in H. cbn [lift] in H. cbv zeta in H.
  fold (eff_client cid (Some ar)) in H. rewrite Ef in H. apply bind_ok in H as ([b al] & s1 & Hb & H).
  apply ret_ok in H as [<- _].
  rewrite dget_dupdate by (eapply request_claims_nodup; eauto).
  destruct As as [R|(-> & Nr & (m' & x & names & mp & Dm' & Bs & Ix & Al & Mp & Dx & Ik))].
  - apply request_claims_says in R. now rewrite R.
  - destruct (dget (request_claims (Some ar) p) k) as [sp'|] eqn:R.
    { exfalso. apply (Nr sp'). now apply request_claims_says. }
    assert (m' = m) as -> by congruence.
    assert (b = true) as ->.
    { destruct (m_per_client m && dmem (e_clients e) (ar_client_id ar)).
      - apply bind_ok in Hb as (l & s2 & _ & Hb). apply ret_ok in Hb as [Hb _]. injection Hb as <- _.
        unfold client_by_scope. rewrite Bs. destruct (match dget (e_clients e) (ar_client_id ar) with Some c => c_by_scope c | None => [] end);
          [reflexivity|]. cbv zeta.
        match goal with |- (if ?b then true else true) = true => now destruct b end.
      - apply ret_ok in Hb as [Hb _]. now injection Hb as <- _. }
    cbn match. apply dupdate_null.
    + apply scopes_to_claims_keys. exists x, names. split; auto. split; auto. split; auto.
      destruct Mp as [(Mp & Ne)|(Mp & ->)]; apply mapping_spec in Mp; rewrite <- Mp.
      * unfold eff_map. destruct mp; [congruence|exact Dx].
      * exact Dx.
    + intros y Iy. eapply scopes_to_claims_null; eauto.
Qed.
Lemma all_usage_has (f : string -> M st (dict cspec)) s :
  (forall p r s', f p s = (r, s') -> s' = s) ->
  forall ps c s', all_usage f ps s = (Ok c, s') -> forall p, In p ps ->
  exists d s1, dget c p = Some d /\ f p s = (Ok d, s1).
Proof.
  intros F. induction ps as [|q ps IH]; intros c s' H p I; [destruct I|]. cbn in H.
  apply bind_ok in H as (d0 & s1 & H0 & H). pose proof (F _ _ _ H0). subst s1.
  apply bind_ok in H as (rest & s2 & H1 & H). apply ret_ok in H as [<- _]. cbn.
  destruct (String.eqb p q) eqn:E; [apply seqb_eq in E; subst; eauto|].
  destruct I as [->|I]; [rewrite String.eqb_refl in E; discriminate|]. eauto.
Qed.

Section Release.
  Variables (e : env) (a0 : dict (dict (list string))).

  Definition claim_ok (g : grant) (ar : areq) (p : string) (d : dict cspec) : Prop :=
    (forall k sp, In (k, sp) d -> exists sc, (forall x, In x sc -> authorized_scope e g x)
       /\ asked_for e (st_init a0) (Some ar) p (Some sc) (ar_client_id ar) "" k)
    /\ (proper_dicts e ar -> forall k sp sp', In (k, sp) d -> request_says ar p k sp' -> sp = sp').
  Definition rQ (g : grant) : Prop :=
    e_implicit e = false -> exists ar, g_areq g = Some ar
      /\ forall p m, In p (release_points e) -> dget (e_modules e) p = Some m ->
         exists d, dget (g_claims g) p = Some d
           /\ (proper_dicts e ar -> forall k sp, asks e ar p (authz_scope e g) k sp -> dget d k = Some sp).
  Definition rG (g : grant) : Prop :=
    (g_tokens g = [] \/ rQ g)
    /\ exists ar, g_areq g = Some ar
      /\ forall p d, p <> "id_token" -> dget (g_claims g) p = Some d -> claim_ok g ar p d.
  Notation rA := (kept_lists a0).

  Lemma r_frameq g g' : framed g g' -> rQ g -> rQ g'.
  Proof.
    intros (Ar & Cl & _) Q Ni. destruct (Q Ni) as (ar & A & H). exists ar. unfold authz_scope. rewrite Ar, Cl. auto.
  Qed.
  Lemma r_gq g : rG g -> g_tokens g <> [] -> rQ g.
  Proof. intros ([H|H] & _) N; [congruence|auto]. Qed.
  Lemma r_frame g g' : framed g g' -> rG g -> rG g'.
  Proof.
    intros F ([Z|Q] & H).
    - split; [left|].
      { destruct F as (_ & _ & _ & _ & _ & _ & _ & Tk). destruct (g_tokens g') as [|t ts] eqn:E; [reflexivity|].
        destruct (Tk t) as (t' & I & _); [now left|]. rewrite Z in I. destruct I. }
      destruct F as (Ar & Cl & _). destruct H as (ar & A & H). exists ar. rewrite Ar, Cl. split; auto.
      intros p d Np D. specialize (H p d Np D). unfold claim_ok, authorized_scope in *. rewrite Ar. exact H.
    - split; [right; eapply r_frameq; eauto|].
      destruct F as (Ar & Cl & _). destruct H as (ar & A & H). exists ar. rewrite Ar, Cl. split; auto.
      intros p d Np D. specialize (H p d Np D). unfold claim_ok, authorized_scope in *. rewrite Ar. exact H.
  Qed.
  Lemma request_own ar p d cl : ar_claims ar = Some cl -> dget cl p = Some d ->
    forall k sp, In (k, sp) d -> asked_for e (st_init a0) (Some ar) p (Some []) (ar_client_id ar) "" k.
  Proof. intros A D k sp I. eapply af_request; eauto. eapply dget_In; eauto. Qed.
  Lemma r_new now ar ae sub gid rules : rG (new_grant now ar ae sub gid rules None).
  Proof.
    split; [left; reflexivity|]. exists ar. split; [reflexivity|]. intros p d Np D. cbn in D. destruct (ar_claims ar) as [cl|] eqn:C; [|discriminate].
    split.
    - intros k sp I. exists []. split; [intros x []|]. eapply request_own; eauto.
    - intros (_ & Nd) k sp sp' I (cl' & d' & C' & D' & S). rewrite C in C'. injection C' as <-.
      rewrite D in D'. injection D' as <-.
      assert (NoDup (dkeys d)) as N by (eapply Nd; eauto; eapply dget_In; eauto).
      rewrite (dget_of_In _ _ _ N I) in S. now injection S as <-.
  Qed.
  Lemma r_add now g tc b sc t : rG g -> rQ g -> minted_from e now g tc b sc t -> t_exp t = 0%Z ->
    (b = None -> tc <> REFRESH) -> let g' := g_add_token (set_life now (lifetime g tc b) t) g in rG g' /\ rQ g'.
  Proof. intros (_ & H) Q _ _ _. assert (rQ (g_add_token (set_life now (lifetime g tc b) t) g)) by exact Q. split; [split; [auto|exact H]|auto]. Qed.

  Lemma claims_all u sid ar gid g sc l s c s' : kept_lists a0 (s_always s) ->
    Inv e s -> dec_sid3 e sid = Ok (u, ar_client_id ar, gid) -> hp s l = Some (OGrant g) -> g_id g = gid ->
    g_areq g = Some ar -> (forall x, In x sc -> authorized_scope e g x) ->
    get_claims_all_usage e sid sc s = (Ok c, s') ->
    (forall p d, p <> "id_token" -> In (p, d) c -> claim_ok g ar p d)
    /\ (forall p m, In p (release_points e) -> dget (e_modules e) p = Some m -> exists d, dget c p = Some d
         /\ (proper_dicts e ar -> forall k sp, asks e ar p sc k sp -> dget d k = Some sp)).
  Proof.
    intros K Is D Hg Gid A Sc E.
    assert (forall p cid r s', eff_client cid (Some ar) = ar_client_id ar ->
      get_claims_from_request e (Some ar) p (Some sc) cid "" s = (r, s') ->
      s' = s /\ forall d, r = Ok d -> (p <> "id_token" -> claim_ok g ar p d)
        /\ forall m, In p (release_points e) -> dget (e_modules e) p = Some m ->
           proper_dicts e ar -> forall k sp, asks e ar p sc k sp -> dget d k = Some sp) as One.
    { intros p cid r s1 Ef H. split; [eapply gcfr_reader; eauto|]. intros d ->.
      split; [|intros; eapply gcfr_low; eauto]. intros Np.
      destruct (gcfr_run _ _ _ _ _ _ _ _ _ H) as (_ & Af). split.
      - intros k sp I. exists sc. split; auto. eapply asked_kept; eauto. rewrite <- Ef. eapply Af; eauto.
      - intros (N1 & N2) k sp sp' I (cl & d' & C & D' & S).
        assert (forall a cl c, Some ar = Some a -> ar_claims a = Some cl -> In (p, c) cl -> NoDup (dkeys c)) as N3.
        { intros a cl1 c1 Ea. injection Ea as <-. eauto. }
        destruct (gcfr_restr _ _ _ _ _ _ _ _ _ (fun m => N1 p m) N3 H) as (Nd & [->|Rq]); [destruct I|].
        assert (dget d k = Some sp') as X.
        { apply Rq. unfold request_claims. now rewrite C, D'. }
        rewrite (dget_of_In _ _ _ Nd I) in X. now injection X. }
    assert (forall p r s', (fun p => get_claims e sid sc p "") p s = (r, s') ->
      s' = s /\ forall d, r = Ok d -> (p <> "id_token" -> claim_ok g ar p d)
        /\ forall m, In p (release_points e) -> dget (e_modules e) p = Some m ->
           proper_dicts e ar -> forall k sp, asks e ar p sc k sp -> dget d k = Some sp) as Two.
    { intros p r s1 H. unfold get_claims in H.
      apply bind_inv in H as [(i & s2 & H1 & H)|(x & H1 & ->)].
      2:{ apply reader_get_session_info in H1. split; auto. discriminate. }
      pose proof (reader_get_session_info _ _ _ _ _ H1). subst s2.
      destruct (get_session_info_read _ _ _ _ Is H1) as (_ & D1 & _ & (g1 & Hg1 & Id1 & B1)).
      rewrite D in D1. injection D1 as Eu Ec Eg.
      assert (ss_grant i = l) as El by (eapply (inv_uniq _ _ Is); eauto; congruence).
      rewrite El in *. assert (g1 = g) as -> by congruence.
      unfold bind at 1 in H. rewrite (grant_at_some _ _ _ Hg), A in H. eapply One; [|exact H].
      unfold eff_client. rewrite <- Ec. now destruct (str_true (ar_client_id ar)). }
    assert (forall (f : string -> M st (dict cspec)) s',
      (forall p r s', f p s = (r, s') -> s' = s /\ forall d, r = Ok d -> (p <> "id_token" -> claim_ok g ar p d)
        /\ forall m, In p (release_points e) -> dget (e_modules e) p = Some m ->
           proper_dicts e ar -> forall k sp, asks e ar p sc k sp -> dget d k = Some sp) ->
      all_usage f (release_points e) s = (Ok c, s') ->
      (forall p d, p <> "id_token" -> In (p, d) c -> claim_ok g ar p d)
      /\ (forall p m, In p (release_points e) -> dget (e_modules e) p = Some m -> exists d, dget c p = Some d
           /\ (proper_dicts e ar -> forall k sp, asks e ar p sc k sp -> dget d k = Some sp))) as All.
    { intros f s1 F E1. split.
      - intros p d Np I.
        eapply (all_usage_each f s (fun p d => p <> "id_token" -> claim_ok g ar p d)); [|exact E1|exact I|exact Np].
        intros q r s2 H. destruct (F _ _ _ H) as (H1 & H2). split; [exact H1|]. intros d0 Ed. apply (H2 _ Ed).
      - intros p m Ip Dm. destruct (all_usage_has f s (fun p r s' H => proj1 (F p r s' H)) _ _ _ E1 p Ip) as (d & s2 & Dd & Fd).
        exists d. split; auto. intros Pd. exact (proj2 (proj2 (F _ _ _ Fd) _ eq_refl) m Ip Dm Pd). }
    unfold get_claims_all_usage in E. destruct (e_oidc e).
    - apply bind_ok in E as (l' & s1 & E1 & E). pose proof (reader_get_grant _ _ _ _ _ E1). subst s1.
      assert (l' = l) as ->.
      { unfold get_grant in E1.
        apply bind_ok in E1 as ([[u0 c0] g0] & s1 & H0 & E1). apply lift_ok in H0 as [H0 <-].
        apply bind_ok in E1 as (a & s1 & H & E1). pose proof (reader_db_get _ _ _ _ H). subst s1.
        apply bind_ok in E1 as (o & s1 & H1 & E1). pose proof (reader_deref _ _ _ _ H1). subst s1.
        destruct o; try discriminate E1. apply ret_ok in E1 as [<- _].
        destruct (db_get_owns e s u0 c0 g0 [] a Is (dec_sid3_separable _ _ _ _ _ H0) H) as (g9 & Hg9 & Id9 & _).
        rewrite D in H0. injection H0 as <- <- <-. eapply (inv_uniq _ _ Is); eauto. congruence. }
      unfold bind at 1 in E. rewrite (grant_at_some _ _ _ Hg), A in E.
      eapply All; [|exact E]. intros q r s1 H. eapply One; [|exact H]. reflexivity.
    - eapply All; [|exact E]. exact Two.
  Qed.

  Lemma r_authz now u ar sid s r s' : Inv e s -> ready e now u ar sid s -> J rA rG s -> authz e now sid ar s = (r, s') ->
    J rA rG s' /\ up rQ s s' /\ forall l, r = Ok l -> isq rQ l s'.
  Proof.
    intros Is R (Ja & Jg) E.
    destruct (authz_effect _ _ _ _ _ _ _ _ Is R E) as (l & g & g' & Hg & A & Hg' & Ot & Tk & Ar & _ & _ & Ef & El).
    assert (rA (s_always s') /\ rG g' /\ (rQ g -> rQ g') /\ ((exists l0, r = Ok l0) -> rQ g')) as (A' & G' & Q1 & Q2).
    { destruct Ef as [(-> & Or)|(Ni & Ru & _ & (l1 & gid & g1 & s1 & s2 & c & Al & Al' & I1 & D1 & H1 & Id1 & A1 & Ec & Cl))].
      - split; auto. assert (g' = g) as -> by congruence. split; [eauto|]. split; auto.
        intros (l0 & ->) Im. destruct Or as [(? & ?)|?]; congruence.
      - rewrite <- Al in Ja. split.
        { rewrite Al'. assert (kp (kept_lists a0) (fun _ => True) (fun _ => True) any (get_claims_all_usage e sid (authz_scope e g))) as K.
          { apply kp_all_claims; auto using mono_any. intros. eapply kept_always; eauto. }
          apply (K _ _ _ (conj Ja (fun _ _ _ => Logic.I)) Logic.I Ec). }
        assert (authz_scope e g' = authz_scope e g) as Esc by (unfold authz_scope; now rewrite Ar).
        destruct c as [c|x].
        + destruct (claims_all u sid ar gid g1 (authz_scope e g) l1 s1 c s2) as (C1 & C2); auto.
          { intros x Ix. apply authz_authorized in Ix. unfold authorized_scope in *. rewrite A1. now rewrite A in Ix. }
          assert (rQ g') as q.
          { intros _. exists ar. rewrite Ar. split; auto. rewrite Cl, Esc. exact C2. }
          split; [split; [auto|]|auto]. exists ar. rewrite Ar. split; auto. intros p d Np Dp. rewrite Cl in Dp.
          specialize (C1 p d Np (dget_In _ _ _ Dp)).
          unfold claim_ok, authorized_scope in *. rewrite Ar, A. now rewrite A1 in C1.
        + destruct Cl as (Cl & ->).
          assert (rQ g -> rQ g') as q.
          { intros Q Im. destruct (Q Im) as (ar' & Ar' & H'). exists ar'. rewrite Ar, Cl, Esc. auto. }
          split; [|split; [exact q|intros (? & ?); discriminate]].
          destruct (Jg _ _ Hg) as (Q & ar' & Ar' & H'). split; [rewrite Tk; destruct Q; auto|].
          exists ar'. rewrite Ar, Cl. split; auto.
          intros p d Np Dp. specialize (H' p d Np Dp). unfold claim_ok, authorized_scope in *. rewrite Ar. exact H'. }
    split; [split; auto|split].
    - intros l' g0 H. destruct (Nat.eq_dec l' l) as [->|N]; [|rewrite Ot in H by auto; eauto].
      rewrite Hg' in H. injection H as <-. auto.
    - intros l' (g0 & H & q). destruct (Nat.eq_dec l' l) as [->|N]; [|exists g0; rewrite Ot by auto; auto].
      exists g'. split; auto. apply Q1. assert (g = g0) as -> by congruence. exact q.
    - intros l0 E0. rewrite (El _ E0). exists g'. split; auto. eauto.
  Qed.

  Variable W : laws e.
  Lemma step_release h o ev h' : Inv e (h_st h) -> proper e o -> step e h o = (ev, h') ->
    J rA rG (h_st h) -> J rA rG (h_st h').
  Proof.
    intros Is P E Jh.
    eapply (step_pass e (op_time o) rA rG rQ); eauto using r_frame, r_frameq, r_gq, r_add, r_new, r_authz, kept_always.
  Qed.
  Lemma exec_release ops evs h : Forall (proper e) ops -> exec e (h_init a0) ops = (evs, h) -> J rA rG (h_st h).
  Proof.
    intros Po E. eapply (exec_keeps e W (fun h => J rA rG (h_st h)) ops); [|apply hi_init|exact Po|exact E|].
    - intros h1 o ev h2 Io Hh1 Es _ J1. rewrite Forall_forall in Po. eapply step_release; eauto. apply Hh1.
    - split; [|intros l g H; unfold hp in H; cbn in H; destruct l; discriminate H].
      intros cid cfg H. exists cfg. auto.
  Qed.

  (** What get_user_claims gives for the claims of a grant. *)
  Lemma release_ok g ar p u d out k v : rG g -> g_areq g = Some ar -> proper_dicts e ar -> p <> "id_token" ->
    dget (g_claims g) p = Some d -> get_user_claims e u (Some d) = Ok out -> In (k, v) out ->
    authorized_claim e a0 g ar p u k v.
  Proof.
    intros (_ & ar' & A' & H) A Pd Np D E I. assert (ar' = ar) as -> by congruence. destruct (H _ _ Np D) as (H1 & H2).
    unfold get_user_claims in E. destruct (e_users e) as [users|] eqn:U; [|discriminate].
    assert (get_user_claims e u (Some d) = Ok out) as E' by (unfold get_user_claims; now rewrite U).
    destruct (user_claims_In e u d out k v users U E' I) as (sp & Isp & Uv & Cm).
    destruct (H1 _ _ Isp) as (sc & Sc & Af). split.
    - exists sc. split; auto. split; auto. exists users, sp. auto.
    - intros sp' Rs. now rewrite <- (H2 Pd _ _ _ Isp Rs).
  Qed.
End Release.

Section Answers.
  Variables (e : env) (W : laws e) (a0 : dict (dict (list string))).

  Lemma asked_found ops evs h l g t ar : history e ops evs h -> hp (h_st h) l = Some (OGrant g) -> In t (g_tokens g) ->
    rG e a0 g -> g_areq g = Some ar -> e_implicit e = false -> forall p m, dget (e_modules e) p = Some m ->
    proper_dicts e ar -> forall k sp, asks e ar p (g_scope g) k sp -> In p (release_points e) ->
    exists d, dget (g_claims g) p = Some d /\ In (k, sp) d.
  Proof.
    intros Hi Hg It Rg A Im p m Dm Pd k sp As Ip.
    assert (g_tokens g <> []) as Ne by (intros Z; rewrite Z in It; destruct It).
    destruct (r_gq _ _ _ Rg Ne Im) as (ar' & A' & H). assert (ar' = ar) as -> by congruence.
    destruct (H _ _ Ip Dm) as (d & Dd & Hd). exists d. split; auto. apply dget_In. apply Hd; auto.
    rewrite <- (gi_final _ _ (inv_grants _ _ (hi_inv _ _ (history_hi e W _ _ _ Hi)) _ _ Hg)); auto.
  Qed.

  Lemma userinfo_release ops evs h now tok info cl h' :
    Forall (proper e) ops -> exec e (h_init a0) ops = (evs, h) ->
    step e h (OUserinfo now tok) = (EvUserinfo (Ok (Good (info, cl))), h') ->
    exists gid g u ar ae, grant_of h gid g /\ belongs e g u cl /\ leads_to e now h tok gid
      /\ g_areq g = Some ar /\ g_aevent g = Some ae
      /\ (proper_dicts e ar -> forall k v, dget info k = Some v ->
            (k = "sub" /\ v = JStr (e_sub e u (ar_sector ar))) \/ (k = "acr" /\ v = JStr (ae_authn_info ae))
            \/ authorized_claim e a0 g ar "userinfo" u k v)
      /\ (proper_dicts e ar -> e_implicit e = false -> e_oidc e = true -> dget (e_modules e) "userinfo" <> None ->
          forall users k sp v, asks e ar "userinfo" (g_scope g) k sp -> e_users e = Some users ->
            dget (users u) k = Some v -> claims_match (Some v) sp = Ok true -> k <> "sub" -> k <> "acr" ->
            dget info k = Some v).
  Proof.
    intros Po E Es. assert (history e ops evs h) as Hi by (split; eauto).
    destruct (userinfo_live e W _ _ _ _ _ _ _ _ Hi Es)
      as (gid & g & t & u & c & ae & claims & Gg & B & Le & It & _ & _ & _ & Ae & _ & -> & Sub & Gu & All & Lo).
    destruct B as (ar & ae' & A & C & A' & U & S). assert (ae' = ae) as -> by congruence.
    destruct (Gg) as (l & Hg & _). change (hp (h_st h) l = Some (OGrant g)) in Hg.
    pose proof (exec_release e a0 W _ _ _ Po E) as Rl. pose proof (proj2 Rl _ _ Hg) as Rg.
    exists gid, g, u, ar, ae. split; auto. split; [exists ar, ae; auto|]. do 3 (split; auto). split; intros Pd.
    - intros k v Kv.
      destruct (All _ _ Kv) as [->|[X|X]]; [left|auto|].
      + split; auto. rewrite Sub in Kv. congruence.
      + right. right. destruct (dget (g_claims g) "userinfo") as [d|] eqn:D.
        * eapply release_ok; eauto using dget_In. discriminate.
        * unfold get_user_claims in Gu. destruct (e_users e); [|discriminate]. injection Gu as <-. discriminate X.
    - intros Im Oi Md users k sp v As Us Uv Cm Ns Na.
      destruct (dget (e_modules e) "userinfo") as [m|] eqn:Dm; [|congruence].
      destruct (asked_found _ _ _ _ _ _ _ Hi Hg It Rg A Im _ _ Dm Pd _ _ As) as (d & Dd & I).
      { unfold release_points. rewrite Oi. now left. }
      rewrite Dd in Gu. apply Lo; auto. eapply user_claims_has; eauto.
  Qed.

  Lemma introspect_release ops evs h now release tok r h' :
    Forall (proper e) ops -> exec e (h_init a0) ops = (evs, h) ->
    step e h (OIntrospect now release tok) = (EvIntrospect (Ok (Some r)), h') ->
    exists gid g u ar, grant_of h gid g /\ belongs e g u (ir_client r) /\ leads_to e now h tok gid
      /\ g_areq g = Some ar
      /\ (proper_dicts e ar -> forall k v, In (k, v) (ir_claims r) ->
            authorized_claim e a0 g ar "introspection" u k v)
      /\ (proper_dicts e ar -> e_implicit e = false -> dget (e_modules e) "introspection" <> None ->
          forall users k sp v, asks e ar "introspection" (g_scope g) k sp -> e_users e = Some users ->
            dget (users u) k = Some v -> claims_match (Some v) sp = Ok true -> dget (ir_claims r) k = Some v).
  Proof.
    intros Po E Es. assert (history e ops evs h) as Hi by (split; eauto).
    destruct (introspect_active e W _ _ _ _ _ _ _ _ Hi Es)
      as (gid & g & t & u & c & Gg & B & Le & It & _ & _ & _ & Ec & _ & _ & _ & _ & _ & _ & _ & _ & _ & _ & Cl).
    destruct B as (ar & ae & A & C & A' & U & S).
    destruct (Gg) as (l & Hg & _). change (hp (h_st h) l = Some (OGrant g)) in Hg.
    pose proof (exec_release e a0 W _ _ _ Po E) as Rl. pose proof (proj2 Rl _ _ Hg) as Rg.
    exists gid, g, u, ar. split; auto. split; [rewrite Ec; exists ar, ae; auto|]. do 2 (split; auto). split; intros Pd.
    - intros k v I. destruct Cl as [(Z & _)|(restr & D & Gu)]; [rewrite Z in I; destruct I|].
      eapply release_ok; eauto. discriminate.
    - intros Im Md users k sp v As Us Uv Cm.
      destruct (dget (e_modules e) "introspection") as [m|] eqn:Dm; [|congruence].
      destruct (asked_found _ _ _ _ _ _ _ Hi Hg It Rg A Im _ _ Dm Pd _ _ As) as (d & Dd & I).
      { unfold release_points. destruct (e_oidc e); [right|]; now left. }
      destruct Cl as [(Z & [D|D])|(restr & D & Gu)].
      + congruence.
      + assert (d = []) as -> by congruence. destruct I.
      + assert (restr = d) as -> by congruence. eapply user_claims_has; eauto.
  Qed.
End Answers.

Section Response.
  Variables (e : env) (W : laws e).
  Lemma response_about ops evs h now release tok r h' : history e ops evs h ->
    step e h (OIntrospect now release tok) = (EvIntrospect (Ok (Some r)), h') ->
    exists gid g t u c, grant_of h gid g /\ belongs e g u c /\ leads_to e now h tok gid
      /\ In t (g_tokens g) /\ t_value t = tok
      /\ dget (introspection_response (Some r)) "active" = Some (JBool true)
      /\ (forall k v, dget (introspection_response (Some r)) k = Some v ->
            (k = "active" /\ v = JBool true) \/ In (k, v) (ir_claims r)
            \/ (dget (ir_claims r) k = None /\ about e g t u c release k v))
      /\ (forall k, dget (ir_claims r) k = None ->
            k = "scope" \/ k = "client_id" \/ k = "exp" \/ k = "iat" \/ k = "sub" \/ k = "iss"
            \/ (k = "username" /\ release = true) ->
            exists v, dget (introspection_response (Some r)) k = Some v).
  Proof.
    intros Hi Es. destruct (introspect_active e W _ _ _ _ _ _ _ _ Hi Es)
      as (gid & g & t & u & c & Gg & B & Le & It & Vt & _ & _ & Ec & Esub & _ & Ee & Ei & Eis & Rs & _ & Ra & Rt & Un & _).
    exists gid, g, t, u, c. do 5 (split; auto). cbn [introspection_response].
    assert (forall k v, dget (token_members r) k = Some v -> k <> "active" -> about e g t u c release k v) as Mem.
    { intros k v D Na. apply dget_In in D. unfold token_members in D. apply in_app_or in D as [D|D].
      - cbn in D. rewrite Ec, Ee, Ei, Esub, Eis in D.
        destruct D as [D|[D|[D|[D|[D|[D|[D|[]]]]]]]]; injection D as <- <-; try (constructor; auto; fail). now destruct Na.
      - apply in_app_or in D as [D|D].
        + destruct (ir_type r) as [x|]; [|destruct D]. destruct D as [D|[]]. injection D as <- <-. now constructor.
        + apply in_app_or in D as [D|D].
          * destruct (ir_aud r) as [|x l] eqn:Ea; [destruct D|]. destruct D as [D|[]]. injection D as <- <-.
            apply (ab_aud e g t u c release (x :: l)). exact Ra.
          * rewrite Un in D. destruct release; [|destruct D]. destruct D as [D|[]]. injection D as <- <-. now constructor. }
    split; [apply dget_dset_same|]. split.
    - intros k v D. destruct (String.eqb_spec k "active") as [->|Na].
      + left. rewrite dget_dset_same in D. split; congruence.
      + right. rewrite dget_dset_other in D by auto. destruct (dget (ir_claims r) k) as [w|] eqn:Dc.
        * left. destruct (in_dec string_dec k (dkeys (ir_claims r))) as [Ik|Ik].
          -- clear -D Ik. revert D. generalize (token_members r). induction (ir_claims r) as [|[k' v'] f IH]; [destruct Ik|].
             intros d D. change (dupdate d ((k', v') :: f)) with (dupdate (dset d k' v') f) in D.
             destruct (in_dec string_dec k (dkeys f)) as [If|If]; [right; eauto|].
             rewrite dget_dupdate_notin in D by now apply dget_None_keys.
             destruct Ik as [Ik|Ik]; [|now destruct If]. cbn in Ik. subst k'. rewrite dget_dset_same in D. left. congruence.
          -- apply dget_None_keys in Ik. congruence.
        * right. split; auto. apply Mem; auto. now rewrite dget_dupdate_notin in D.
    - intros k Dc Ks. assert (k <> "active") as Na.
      { intros ->. repeat (destruct Ks as [Ks|Ks]; [discriminate|]). destruct Ks as [Ks _]. discriminate. }
      rewrite dget_dset_other, dget_dupdate_notin by auto.
      destruct Ks as [->|[->|[->|[->|[->|[->|(-> & R)]]]]]]; try (eexists; reflexivity).
      unfold token_members. rewrite Un, R. destruct (ir_type r), (ir_aud r); eexists; reflexivity.
  Qed.
End Response.

(** For examples. *)
Lemma run_start e fs : forallb plain_call (run_ops e fs) = true ->
  Forall (proper e) (run_ops e fs) /\ exec e (h_init []) (run_ops e fs) = (run_evs e fs, run_end e fs).
Proof.
  unfold run_ops, run_evs, run_end. destruct (play e (h_init []) [] fs) as [ops [evs h]] eqn:P. cbn [fst snd].
  intros F. apply play_exec in P as (r & E & ->). split; [|exact E].
  apply Forall_forall. intros o I. apply plain_proper. rewrite forallb_forall in F. auto.
Qed.
