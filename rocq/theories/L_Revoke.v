(** Revoking a token through the session manager. *)
From Verif Require Import M_Base M_Types M_Codec M_Grant M_Env M_Session M_Claims M_Handler
  M_Authz M_TokenEP M_PKCE M_AuthzEP M_Info M_Logout M_History S_Codec S_Grant S_Store S_History S_Revoke
  L_Base L_Codec L_Monad L_Grant L_Claims L_Store L_Hist1 L_Hist2 L_Hist3 L_Hist4 L_Hist5 L_Hist6
  L_Hist7 L_Hist8 L_Emit L_Hist9 L_Hist10 L_Hist11.

(** Reading the database looks only at session infos. *)
Definition regrant (s : st) (l : nat) (f : grant -> grant) : st :=
  mk_st (upd_nth l (on_grant f) (s_heap s)) (s_db s) (s_ctr s) (s_always s).
Definition blind {A} (m : M st A) : Prop :=
  forall s l f, m (regrant s l f) = (fst (m s), regrant s l f) /\ snd (m s) = s.
Lemma blind_bind {A B} (m : M st A) (f : A -> M st B) : blind m -> (forall a, blind (f a)) -> blind (bind m f).
Proof.
  intros Hm Hf s l g. unfold bind. destruct (Hm s l g) as [-> E]. destruct (m s) as [[a|x] s1]; cbn in *; subst; auto.
  apply Hf.
Qed.
Lemma blind_ret {A} (a : A) : blind (ret a).
Proof. intros s l f. split; reflexivity. Qed.
Lemma blind_raise {A} x : blind (@raise st A x).
Proof. intros s l f. split; reflexivity. Qed.
Lemma blind_lift {A} (r : res A) : blind (lift r).
Proof. intros s l f. split; reflexivity. Qed.
Lemma blind_lookup k : blind (db_lookup k).
Proof. intros s l f. split; reflexivity. Qed.
Lemma regrant_nth s l f x : nth_error (s_heap (regrant s l f)) x =
  option_map (fun o => if Nat.eqb x l then on_grant f o else o) (nth_error (s_heap s) x).
Proof.
  unfold regrant. cbn [s_heap]. destruct (Nat.eqb_spec x l) as [->|N].
  - rewrite nth_upd_nth_same. destruct (nth_error (s_heap s) l); reflexivity.
  - rewrite nth_upd_nth_other by auto. destruct (nth_error (s_heap s) x); reflexivity.
Qed.
Lemma blind_sub x : blind (subordinate x).
Proof.
  intros s l f. unfold subordinate, bind, deref. rewrite regrant_nth.
  destruct (nth_error (s_heap s) x) as [[i|g|]|]; cbn; try (split; reflexivity);
    destruct (Nat.eqb x l); split; reflexivity.
Qed.
Lemma blind_there {A} x (m : M st A) : blind m ->
  blind (o <- deref x ;; match o with ONone => raise KeyError | _ => m end).
Proof.
  intros Hm s l f. destruct (Hm s l f) as [E1 E2]. unfold bind, deref. rewrite regrant_nth.
  destruct (nth_error (s_heap s) x) as [[i|g|]|]; cbn; try (split; reflexivity);
    destruct (Nat.eqb x l); auto; split; reflexivity.
Qed.
Lemma blind_get p : blind (db_get p).
Proof.
  unfold db_get. apply blind_bind; [apply blind_lift|]. intros [[u c] g].
  apply blind_bind; [apply blind_lookup|]. intros [ul|]; [|apply blind_raise].
  apply blind_there. destruct c as [c|]; [|apply blind_ret].
  apply blind_bind; [apply blind_sub|]. intros sub. destruct (negb (smem c sub)); [apply blind_raise|].
  apply blind_bind; [apply blind_lookup|]. intros [cl|]; [|apply blind_raise].
  destruct g as [g|]; [|apply blind_ret].
  apply blind_bind; [apply blind_sub|]. intros csub. destruct (negb (smem g csub)); [apply blind_raise|].
  apply blind_bind; [apply blind_lookup|]. intros [gl|]; [apply blind_ret|apply blind_raise].
Qed.

(** Revoking one token of a forest. *)
Lemma find_pos_none v ts : forall k, find_pos v ts k = None -> forall t, In t ts -> t_value t <> v.
Proof.
  induction ts as [|t ts IH]; intros k H u I; [destruct I|]. cbn in H.
  destruct (String.eqb_spec (t_value t) v) as [E|N]; [discriminate|]. destruct I as [<-|I]; auto. eapply IH; eauto.
Qed.
Lemma revoke_meant_ok limit v ts i t (recursive : bool) : forest ts -> nth_error ts i = Some t -> t_value t = v ->
  List.length ts < limit ->
  exists ts', (if recursive then revoke_dependent limit v else (ret tt : M (list token) unit)) (upd_nth i tok_set_revoked ts) = (Ok tt, ts')
    /\ revoked_exactly (meant ts v recursive) ts ts'.
Proof.
  intros F N V L. set (ts1 := upd_nth i tok_set_revoked ts).
  assert (skel ts1 = skel ts) as E1 by apply skel_upd.
  assert (forest ts1) as F1 by (eapply forest_skel; [symmetry; exact E1|auto]).
  assert (forall j u u1, nth_error ts j = Some u -> nth_error ts1 j = Some u1 ->
    (t_revoked u1 = true <-> t_revoked u = true \/ t_value u = v)) as R1.
  { intros j u u1 Nu Nu1. unfold ts1 in Nu1. destruct (Nat.eqb_spec j i) as [->|Ne].
    - rewrite nth_upd_nth_same, N in Nu1. injection Nu1 as <-. assert (u = t) as -> by congruence. cbn. tauto.
    - rewrite nth_upd_nth_other in Nu1 by auto. assert (u1 = u) as -> by congruence. split; auto.
      intros [X|X]; auto. exfalso. apply Ne. destruct F as (Nd & _).
      eapply (proj1 (NoDup_nth_error (map t_value ts)) Nd).
      + rewrite map_length. apply nth_error_Some. congruence.
      + rewrite (map_nth_error _ _ _ Nu), (map_nth_error _ _ _ N). congruence. }
  destruct recursive.
  - destruct (revoke_dependent_ok limit v ts1 F1) as (ts' & Er & E2 & R2); [lia|intros; rewrite (skel_length _ _ E1); lia|].
    exists ts'. split; [exact Er|]. apply revoked_exactly_of; [congruence|].
    intros j u u' Nu Nu'. destruct (skel_nth _ _ _ _ (eq_sym E1) Nu) as (u1 & Nu1 & S1).
    rewrite (R2 j u1 u' Nu1 Nu'), (R1 j u u1 Nu Nu1). unfold meant.
    assert (descends ts1 v u1 <-> descends ts v u) as ->; [|tauto]. split; intros D.
    + eapply descends_sbr; [exact F|exact E1|eapply nth_error_In; eauto| |exact D].
      apply skel_eq_sbr. symmetry. now apply sbr_skel_eq.
    + eapply descends_sbr; [exact F1|symmetry; exact E1|eapply nth_error_In; eauto|exact S1|exact D].
  - exists ts1. split; [reflexivity|]. apply revoked_exactly_of; [exact E1|].
    intros j u u' Nu Nu'. rewrite (R1 j u u' Nu Nu'). unfold meant. intuition discriminate.
Qed.

Lemma revoked_exactly_in P ts ts' t : revoked_exactly P ts ts' -> In t ts -> P t ->
  exists t', In t' ts' /\ same_but_revoked t t' /\ t_revoked t' = true.
Proof.
  intros R I Pt. unfold revoked_exactly in R. induction R as [|a b ts ts' (S & X) F IH]; [destruct I|].
  destruct I as [->|I].
  - exists b. split; [now left|]. split; [exact S|]. apply X. now right.
  - destruct (IH I) as (t' & A & B). exists t'. split; [now right|exact B].
Qed.

Section Revoke.
  Variable e : env.
  Hypothesis W : laws e.

  Lemma session_read h sid i s : HI e h -> get_session_info e sid (h_st h) = (Ok i, s) ->
    exists g, s = h_st h /\ dec_sid3 e sid = Ok (ss_user i, ss_client i, ss_gid i)
      /\ db_get [ss_user i; ss_client i; ss_gid i] (h_st h) = (Ok (ss_grant i), h_st h)
      /\ hp (h_st h) (ss_grant i) = Some (OGrant g) /\ g_id g = ss_gid i.
  Proof.
    intros Hh E. assert (s = h_st h) as ->.
    { unfold get_session_info in E. apply bind_ok in E as ([[u c] g] & s1 & E1 & E). apply lift_ok in E1 as [_ <-].
      apply bind_ok in E as (l & s2 & E2 & E). apply reader_db_get in E2. apply ret_ok in E as [_ E]. congruence. }
    destruct (get_session_info_read _ _ _ _ (hi_inv _ _ Hh) E) as (_ & D & R & (g & H & O & _)).
    exists g. auto 6.
  Qed.

  Lemma revoke_token_exact ops evs h now sid gid g v recursive : history e ops evs h ->
    sid_leads_to e h sid gid -> grant_of h gid g -> (exists t, In t (g_tokens g) /\ t_value t = v) ->
    List.length (g_tokens g) < e_limit e ->
    exists ts' h', step e h (ORevokeToken now sid v recursive) = (EvDone (Ok tt), h')
      /\ only_tokens h h' gid (g_tokens g) ts' /\ revoked_exactly (meant (g_tokens g) v recursive) (g_tokens g) ts'.
  Proof.
    intros Hi (i & s & El & Eg) G (t0 & It0 & Vt0) Lim. pose proof (history_hi e W _ _ _ Hi) as Hh.
    destruct (session_read _ _ _ _ Hh El) as (gr & -> & D & Db & Hg & Ig).
    assert (gr = g) as ->.
    { eapply (grant_of_unique e); eauto. exists (ss_grant i). split; auto. congruence. }
    pose proof (history_forest e W _ _ _ _ _ Hi G) as Fo.
    destruct (find_pos v (g_tokens g) 0) as [p|] eqn:Fp.
    2:{ exfalso. eapply find_pos_none; eauto. }
    destruct (find_pos_ok _ _ _ Fp) as (t & Np & Vp).
    destruct (revoke_meant_ok (e_limit e) v (g_tokens g) p t recursive Fo Np Vp Lim) as (ts' & Er & Rv).
    set (l := ss_grant i) in *. set (ts1 := upd_nth p tok_set_revoked (g_tokens g)) in *.
    assert (grant_at l (h_st h) = (Ok g, h_st h)) as Ega.
    { unfold grant_at, bind, deref. unfold hp in Hg. rewrite Hg. reflexivity. }
    set (s1 := regrant (h_st h) l (fun g => g_set_tokens (upd_nth p tok_set_revoked (g_tokens g)) g)).
    assert (nth_error (s_heap s1) l = Some (OGrant (g_set_tokens ts1 g))) as H1.
    { unfold s1. rewrite regrant_nth. unfold hp in Hg. rewrite Hg. cbn. rewrite Nat.eqb_refl. reflexivity. }
    assert (dec_sid e sid = Ok [ss_user i; ss_client i; ss_gid i]) as D'.
    { unfold dec_sid3 in D. apply rbind_ok in D as (q & Dq & D). rewrite Dq.
      destruct q as [|a [|b [|c [|? ?]]]]; try discriminate D. injection D as -> -> ->. reflexivity. }
    destruct (blind_get [ss_user i; ss_client i; ss_gid i] (h_st h) l
      (fun g => g_set_tokens (upd_nth p tok_set_revoked (g_tokens g)) g)) as [B _]. fold s1 in B. rewrite Db in B. cbn [fst] in B.
    assert (upd_tok l p tok_set_revoked (h_st h) = (Ok tt, s1)) as Eu by reflexivity.
    assert (s_db s1 = s_db (h_st h)) as Q1 by reflexivity.
    assert (forall l', l' <> l -> nth_error (s_heap s1) l' = nth_error (s_heap (h_st h)) l') as Q2.
    { intros l' Nl. unfold s1. rewrite regrant_nth. destruct (Nat.eqb_spec l' l); [contradiction|].
      now destruct (nth_error (s_heap (h_st h)) l'). }
    clearbody s1. exists ts'. destruct recursive.
    - eexists. split; [|split; [|exact Rv]].
      + cbn [step]. unfold on_st, mgr_revoke_token. unfold bind at 1. unfold lift at 1. rewrite D.
        rewrite (bind_run _ _ _ _ _ Db), (bind_run _ _ _ _ _ Ega), Fp, (bind_run _ _ _ _ _ Eu).
        unfold bind at 1. unfold mgr_get. unfold bind at 1. unfold lift at 1. rewrite D', B.
        unfold on_tokens. unfold bind at 1. unfold grant_at, bind at 1, deref. rewrite H1.
        unfold ret at 1. cbn [g_tokens g_set_tokens]. rewrite Er. cbn. reflexivity.
      + unfold only_tokens. cbn [h_st h_parsed s_db s_heap]. split; [exact Q1|]. split; [reflexivity|].
        exists l, g. split; [exact Hg|]. split; [congruence|]. split; [reflexivity|].
        split.
        * rewrite nth_upd_nth_same, H1. reflexivity.
        * intros l' Nl. rewrite nth_upd_nth_other by auto. now apply Q2.
    - injection Er as <-. eexists. split; [|split; [|exact Rv]].
      + cbn [step]. unfold on_st, mgr_revoke_token. unfold bind at 1. unfold lift at 1. rewrite D.
        rewrite (bind_run _ _ _ _ _ Db), (bind_run _ _ _ _ _ Ega), Fp, (bind_run _ _ _ _ _ Eu). reflexivity.
      + unfold only_tokens. cbn [h_st h_parsed]. split; [exact Q1|]. split; [reflexivity|].
        exists l, g. split; [exact Hg|]. split; [congruence|]. split; [reflexivity|].
        split; [exact H1|]. exact Q2.
  Qed.

  Lemma revoke_unknown ops evs h now sid gid g v recursive : history e ops evs h ->
    sid_leads_to e h sid gid -> grant_of h gid g -> ~ (exists t, In t (g_tokens g) /\ t_value t = v) ->
    step e h (ORevokeToken now sid v recursive) = (EvDone (Raise UnknownToken), h).
  Proof.
    intros Hi (i & s & El & Eg) G No. pose proof (history_hi e W _ _ _ Hi) as Hh.
    destruct (session_read _ _ _ _ Hh El) as (gr & -> & D & Db & Hg & Ig).
    assert (gr = g) as ->.
    { eapply (grant_of_unique e); eauto. exists (ss_grant i). split; auto. congruence. }
    destruct (find_pos v (g_tokens g) 0) as [p|] eqn:Fp.
    { exfalso. apply No. destruct (find_pos_ok _ _ _ Fp) as (t & Np & Vp). exists t. split; auto. eapply nth_error_In; eauto. }
    assert (grant_at (ss_grant i) (h_st h) = (Ok g, h_st h)) as Ega.
    { unfold grant_at, bind, deref. unfold hp in Hg. rewrite Hg. reflexivity. }
    cbn [step]. unfold on_st, mgr_revoke_token. unfold bind at 1. unfold lift at 1. rewrite D.
    rewrite (bind_run _ _ _ _ _ Db), (bind_run _ _ _ _ _ Ega), Fp. unfold raise. destruct h. reflexivity.
  Qed.

  (** What is revoked stays revoked. *)
  Lemma revoked_stays ops1 evs1 h ops2 evs2 h' gid g t : history e ops1 evs1 h -> Forall (proper e) ops2 ->
    exec e h ops2 = (evs2, h') -> grant_of h gid g -> In t (g_tokens g) -> t_revoked t = true ->
    exists g' t', grant_of h' gid g' /\ In t' (g_tokens g') /\ t_value t' = t_value t /\ t_revoked t' = true.
  Proof.
    intros Hi Po E G It Rt. pose proof (history_hi e W _ _ _ Hi) as Hh.
    eapply (exec_keeps e W (fun h => exists g' t', grant_of h gid g' /\ In t' (g_tokens g') /\ t_value t' = t_value t /\ t_revoked t' = true));
      [|exact Hh|exact Po|exact E|eauto 6].
    intros h1 o ev h2 _ _ _ (_ & L) (g1 & t1 & (l & H1 & I1) & It1 & V1 & R1).
    destruct (L _ _ H1) as (o' & H2 & Lo). destruct o' as [?|g2|]; try (now destruct Lo).
    cbn in Lo. destruct Lo as (Eid & _ & _ & _ & _ & _ & _ & _ & _ & Lt & _).
    destruct (In_nth_error _ _ It1) as (j & Nj). destruct (Lt _ _ Nj) as (t2 & Nj2 & T).
    exists g2, t2. split; [exists l; split; auto; congruence|]. split; [eapply nth_error_In; eauto|].
    destruct T as (_ & V & _ & _ & _ & _ & _ & _ & _ & _ & _ & _ & R & _). split; [congruence|auto].
  Qed.

  Lemma revocation_lasts ops evs h now sid gid g v recursive ops2 evs2 h' t : history e ops evs h ->
    sid_leads_to e h sid gid -> grant_of h gid g -> List.length (g_tokens g) < e_limit e ->
    (exists t, In t (g_tokens g) /\ t_value t = v) ->
    Forall (proper e) ops2 -> exec e h (ORevokeToken now sid v recursive :: ops2) = (evs2, h') ->
    In t (g_tokens g) -> meant (g_tokens g) v recursive t ->
    exists g' t', grant_of h' gid g' /\ In t' (g_tokens g') /\ t_value t' = t_value t /\ t_revoked t' = true.
  Proof.
    intros Hi Le G Lim Ex Po E It Me.
    destruct (revoke_token_exact _ _ _ now _ _ _ _ recursive Hi Le G Ex Lim) as (ts' & h1 & Es & (_ & _ & l & g0 & H0 & I0 & T0 & H1 & _) & Rv).
    cbn [exec] in E. rewrite Es in E. destruct (exec e h1 ops2) as [evs' h2] eqn:Ee. injection E as _ <-.
    assert (history e (ops ++ [ORevokeToken now sid v recursive]) (evs ++ [EvDone (Ok tt)]) h1) as Hi'.
    { destruct Hi as (P & al & E). split; [apply Forall_app; split; [exact P|constructor; [exact Logic.I|constructor]]|].
      exists al. rewrite exec_app, E. cbn [exec]. now rewrite Es. }
    assert (exists t1, In t1 ts' /\ t_value t1 = t_value t /\ t_revoked t1 = true) as (t1 & It1 & V1 & R1).
    { destruct (revoked_exactly_in _ _ _ _ Rv It Me) as (t1 & X & Y & Z). exists t1. split; [exact X|]. split; [apply Y|exact Z]. }
    destruct (revoked_stays _ _ _ _ _ _ gid (g_set_tokens ts' g0) t1 Hi' Po Ee) as (g' & t' & A & B & C & D'); auto.
    { exists l. split; [exact H1|]. exact I0. }
    exists g', t'. split; [exact A|]. split; [exact B|]. split; [congruence|exact D'].
  Qed.

  (** *** Revoking a grant *)
  Lemma set_found u c g l s : g <> "" -> db_get [u; c; g] s = (Ok l, s) -> db_set [u; c; g] l s = (Ok tt, s).
  Proof.
    intros Ng E. unfold db_get in E. cbn [eval_path] in E. apply bind_ok in E as (q & s0 & E0 & E).
    apply lift_ok in E0 as [E0 <-]. injection E0 as <-.
    apply bind_ok in E as (ou & s0 & E0 & E). injection E0 as <- <-.
    destruct (dget (s_db s) u) as [ul|] eqn:Du; [|discriminate].
    apply bind_ok in E as (uo & s0 & E0 & E). unfold deref in E0.
    destruct (nth_error (s_heap s) ul) as [o|] eqn:Hu; [|discriminate]. injection E0 as <- <-.
    assert ((sub <- subordinate ul ;;
              if negb (smem c sub) then raise ValueError
              else
                oc <- db_lookup (session_key [u; c]) ;;
                match oc with
                | None => raise NoSuchClientSession
                | Some cl => csub <- subordinate cl ;;
                        if negb (smem g csub) then raise ValueError
                        else
                          og <- db_lookup (session_key [u; c; g]) ;;
                          match og with
                          | None => raise NoSuchGrant
                          | Some gl => ret gl
                          end
                end) s = (Ok l, s)) as E' by (destruct o; try exact E; discriminate E).
    clear E. apply bind_ok in E' as (sub & s0 & Es & E). pose proof (reader_subordinate _ _ _ _ Es). subst s0.
    destruct (smem c sub) eqn:Sc; [|discriminate]. cbn [negb] in E.
    apply bind_ok in E as (oc & s0 & E0 & E). injection E0 as <- <-.
    destruct (dget (s_db s) (session_key [u; c])) as [cl|] eqn:Dc; [|discriminate].
    apply bind_ok in E as (csub & s0 & Ec & E). pose proof (reader_subordinate _ _ _ _ Ec). subst s0.
    destruct (smem g csub) eqn:Sg; [|discriminate]. cbn [negb] in E.
    apply bind_ok in E as (og & s0 & E0 & E). injection E0 as <- <-.
    destruct (dget (s_db s) (session_key [u; c; g])) as [gl|] eqn:Dg; [|discriminate]. apply ret_ok in E as [-> _].
    assert (str_true g = true) as Tg by (destruct g; [congruence|reflexivity]).
    unfold db_set. cbn [eval_path]. unfold bind at 1, lift at 1. cbn [ostr_true ostr]. rewrite Tg. cbn [negb].
    assert (db_put (session_key [u; c; g]) l s = (Ok tt, s)) as Ep.
    { unfold db_put. rewrite dset_self by exact Dg. destruct s. reflexivity. }
    rewrite (bind_run _ _ _ _ _ Ep). destruct (str_true c) eqn:Tc.
    - unfold db_get_or. unfold bind at 1. unfold bind at 1. unfold bind at 1. unfold db_lookup at 1. rewrite Dc. unfold ret at 1.
      unfold bind at 1. rewrite Ec, Sg. unfold ret at 1.
      unfold bind at 1. unfold bind at 1. unfold db_lookup at 1. rewrite Du. unfold ret at 1.
      unfold bind at 1. rewrite Es, Sc. reflexivity.
    - unfold bind at 1. unfold ret at 1. unfold db_get_or. unfold bind at 1. unfold bind at 1. unfold db_lookup at 1. rewrite Du.
      reflexivity.
  Qed.
  Lemma upd_nth_ext {A} (f f' : A -> A) xs : forall i x, nth_error xs i = Some x -> f x = f' x -> upd_nth i f xs = upd_nth i f' xs.
  Proof.
    induction xs as [|y xs IH]; intros [|i] x N E; cbn in *; try discriminate; auto.
    - injection N as ->. now rewrite E.
    - now rewrite (IH _ _ N E).
  Qed.

  Lemma revoke_grant_exact ops evs h now sid gid g : history e ops evs h ->
    sid_leads_to e h sid gid -> grant_of h gid g ->
    exists g' h', step e h (ORevokeGrant now sid) = (EvDone (Ok tt), h') /\ only_grant h h' gid g g' /\ as_revoked g g'.
  Proof.
    intros Hi (i & s & El & Eg) G. pose proof (history_hi e W _ _ _ Hi) as Hh.
    destruct (session_read _ _ _ _ Hh El) as (gr & -> & D & Db & Hg & Ig).
    assert (gr = g) as ->.
    { eapply (grant_of_unique e); eauto. exists (ss_grant i). split; auto. congruence. }
    assert (ss_gid i <> "") as Ng.
    { rewrite <- Ig. destruct (inv_ids _ _ (hi_inv _ _ Hh) _ _ Hg) as (n & -> & _).
      destruct (law_uuid_id _ W n) as ((X & _) & _). exact X. }
    assert (dec_sid e sid = Ok [ss_user i; ss_client i; ss_gid i]) as D'.
    { unfold dec_sid3 in D. apply rbind_ok in D as (q & Dq & D). rewrite Dq.
      destruct q as [|a [|b [|c [|? ?]]]]; try discriminate D. injection D as -> -> ->. reflexivity. }
    set (l := ss_grant i) in *.
    assert (upd_obj l revoke_obj (h_st h) = (Ok tt, regrant (h_st h) l g_set_revoked)) as Eu.
    { unfold upd_obj, regrant. do 2 f_equal. eapply upd_nth_ext; [exact Hg|reflexivity]. }
    destruct (blind_get [ss_user i; ss_client i; ss_gid i] (h_st h) l g_set_revoked) as [B _]. rewrite Db in B. cbn [fst] in B.
    exists (g_set_revoked g). eexists. split; [|split].
    - cbn [step]. unfold on_st, revoke_grant. unfold bind at 1. unfold lift at 1. rewrite D'.
      rewrite (bind_run _ _ _ _ _ Db). unfold bind at 1. unfold deref at 1. unfold hp in Hg. rewrite Hg.
      rewrite (bind_run _ _ _ _ _ Eu). rewrite (set_found _ _ _ _ _ Ng B). reflexivity.
    - unfold only_grant. cbn [h_st h_parsed]. split; [reflexivity|]. split; [reflexivity|]. exists l.
      split; [exact Hg|]. split; [congruence|]. split.
      + rewrite regrant_nth. unfold hp in Hg. rewrite Hg. cbn. rewrite Nat.eqb_refl. reflexivity.
      + intros l' Nl. rewrite regrant_nth. destruct (Nat.eqb_spec l' l); [contradiction|].
        now destruct (nth_error (s_heap (h_st h)) l').
    - unfold as_revoked. cbn. auto 20.
  Qed.
End Revoke.
