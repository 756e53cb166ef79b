(** Lemmas for DPoP. *)
From Verif Require Import M_Base M_Types M_Codec M_Grant M_Env M_Session M_Claims M_Handler M_TokenEP M_DPoP S_DPoP
  L_Base L_Monad L_Claims.

Lemma says_update h p m v : NoDup (dkeys p) -> (says h p m v <-> dget (dupdate h p) m = Some v).
Proof.
  intros N. unfold says. rewrite dget_dupdate by exact N. destruct (dget p m) as [x|].
  - split; [intros [A|[A _]]; congruence|]. intros A. now left.
  - split; [intros [A|[_ A]]; congruence|]. intros A. right. auto.
Qed.

Section D.
  Variable D : dlib.
  Hypothesis W : objects D.

  Lemma header_ok t m : verify_header D t = Ok (Some m) ->
    exists h p k, signed_by D t h p k /\ m = dupdate h p /\ NoDup (dkeys p).
  Proof.
    unfold verify_header. intros E. apply rbind_ok in E as (o & Ef & E). destruct o as [h|]; [|discriminate].
    destruct (dget h "jwk") as [j|] eqn:J; [|discriminate].
    apply rbind_ok in E as (k & Ek & E). apply rbind_ok in E as (alg & Ea & E). unfold sub in Ea.
    destruct (dget h "alg") as [a|] eqn:Al; [|discriminate]. injection Ea as ->.
    apply rbind_ok in E as (p & Ep & E). injection E as <-. exists h, p, k. split; [exists j, alg; auto|].
    split; [reflexivity|]. eapply W; eauto.
  Qed.

  Lemma parse_ok req hi req' : dpop_parse D req (Some hi) = Ok req' ->
    exists t j, hi_dpop hi = Some t /\ proof_for D t (hi_url hi) (hi_method hi) j /\ req' = tr_set_dpop j req.
  Proof.
    unfold dpop_parse. intros E. destruct (hi_dpop hi) as [t|]; [|discriminate]. cbn [rbind] in E.
    apply rbind_ok in E as (o & Eh & E). destruct o as [m|]; [|discriminate].
    destruct (header_ok _ _ Eh) as (h & p & k & S & -> & N).
    unfold sub in E. destruct (dget _ "htu") as [u|] eqn:Hu; [|discriminate]. cbn [rbind] in E.
    destruct (String.eqb u (hi_url hi)) eqn:Eu; [|discriminate]. cbn [negb] in E. apply seqb_eq in Eu. subst.
    destruct (dget _ "htm") as [x|] eqn:Hm; [|discriminate]. cbn [rbind] in E.
    destruct (String.eqb x (hi_method hi)) eqn:Ex; [|discriminate]. cbn [negb] in E. apply seqb_eq in Ex. subst.
    destruct (dget _ "jwk") as [j|] eqn:Hj; [|discriminate]. cbn [rbind] in E.
    apply rbind_ok in E as (k' & Ek & E). injection E as <-.
    exists t, (d_thumb D k'). split; auto. split; auto. exists h, p, k, j, k'. split; auto.
    do 3 (split; [now apply says_update|]). auto.
  Qed.

  Lemma parse_complete req hi t j : hi_dpop hi = Some t -> proof_for D t (hi_url hi) (hi_method hi) j ->
    dpop_parse D req (Some hi) = Ok (tr_set_dpop j req).
  Proof.
    intros Et (h & p & k & jwk & k' & (j0 & alg & Ef & J & Ek & Ea & Ev) & Hu & Hm & Hj & Ek' & <-).
    pose proof (W _ _ _ _ Ev) as N. apply says_update in Hu, Hm, Hj; auto.
    unfold dpop_parse, verify_header, sub. rewrite Et. cbn [rbind]. rewrite Ef. cbn [rbind]. rewrite J, Ek. cbn [rbind].
    rewrite Ea. cbn [rbind]. rewrite Ev. cbn [rbind]. rewrite Hu. cbn [rbind]. rewrite String.eqb_refl. cbn [negb].
    rewrite Hm. cbn [rbind]. rewrite String.eqb_refl. cbn [negb]. rewrite Hj. cbn [rbind]. rewrite Ek'. reflexivity.
  Qed.
End D.

(** The token answer. *)
Lemma code_type e now req issue s a s' : code_process e now req issue s = (Ok (Good a), s') ->
  rs_type a = Some "DPoP" <-> e_oidc e = true /\ e_dpop e = true /\ exists j, tr_dpop req = Some j /\ j <> "".
Proof.
  unfold code_process. intros E.
  destruct (negb (String.eqb _ _)); [discriminate|]. destruct (tr_code req); [|discriminate].
  apply bind_ok in E as (i & s1 & _ & E). apply bind_ok in E as (rc & s2 & _ & E).
  destruct (negb (String.eqb _ _)); [discriminate|].
  apply bind_ok in E as (gts & s3 & _ & E). apply bind_ok in E as (g & s4 & _ & E).
  apply bind_ok in E as (u & s5 & _ & E). apply bind_ok in E as (pos & s6 & _ & E).
  apply bind_ok in E as (ba & s7 & _ & E). apply bind_ok in E as (ar & s8 & _ & E). apply bind_ok in E as (sm & s9 & _ & E).
  destruct (negb sm); [discriminate|].
  apply bind_ok in E as (ac & s10 & _ & E). apply bind_ok in E as (re & s11 & _ & E). apply bind_ok in E as (x1 & s12 & _ & E).
  apply bind_ok in E as (idt & s13 & _ & E). destruct idt as [|idv]; [discriminate|].
  apply bind_ok in E as (x2 & s14 & _ & E). apply ret_ok in E as [X _]. injection X as <-. cbn.
  destruct (e_oidc e), (e_dpop e); cbn; try (split; [discriminate|intros (? & ? & ?); discriminate]).
  destruct (tr_dpop req) as [j|]; [|split; [discriminate|intros (_ & _ & j & X & _); discriminate]].
  destruct j as [|ch j]; cbn; [split; [discriminate|intros (_ & _ & j & X & N); congruence]|].
  split; auto. intros _. split; auto. split; auto. exists (String ch j). split; auto. discriminate.
Qed.

Lemma refresh_type e now req issue s a s' : e_oidc e = true -> refresh_process e now req issue s = (Ok (Good a), s') ->
  rs_type a = Some "DPoP" <-> e_dpop_info e = true /\ exists j, tr_dpop req = Some j /\ j <> "".
Proof.
  intros Ho. unfold refresh_process. intros E.
  destruct (negb (String.eqb _ _)); [discriminate|]. apply bind_ok in E as (v & s0 & _ & E).
  apply bind_ok in E as (i & s1 & _ & E). apply bind_ok in E as (rc & s2 & _ & E).
  destruct (negb (String.eqb _ _)); [discriminate|].
  apply bind_ok in E as (g & s4 & _ & E).
  apply bind_ok in E as (u & s5 & _ & E). apply bind_ok in E as (pos & s6 & _ & E).
  apply bind_ok in E as (ba & s7 & _ & E). apply bind_ok in E as (ar & s8 & _ & E). apply bind_ok in E as (sm & s9 & _ & E).
  apply bind_ok in E as (ac & s10 & _ & E). apply bind_ok in E as (re & s11 & _ & E).
  apply bind_ok in E as (idt & s13 & _ & E). destruct idt as [|idv]; [discriminate|].
  repeat (apply bind_ok in E as (? & ? & _ & E)). apply ret_ok in E as [X _]. injection X as <-. cbn.
  rewrite Ho. destruct (e_dpop_info e); cbn; try (split; [discriminate|intros (? & ?); discriminate]).
  destruct (tr_dpop req) as [j|]; [|split; [discriminate|intros (_ & j & X & _); discriminate]].
  destruct j as [|ch j]; cbn; [split; [discriminate|intros (_ & j & X & N); congruence]|].
  split; auto. intros _. split; auto. exists (String ch j). split; auto. discriminate.
Qed.

(** The payload of a token minted in a grant that has a confirmed key. *)
Lemma payload_cnf e g sid point scope second j s p s' :
  payload_arguments e g sid point scope second s = (Ok p, s') ->
  dget (g_extra g) "dpop_jkt" = Some j -> j <> "" ->
  (forall u info c, get_user_claims e u c = Ok info -> NoDup (dkeys info) /\ dget info "cnf" = None) ->
  dget p "cnf" = Some (JObj [("jkt", JStr j)]).
Proof.
  intros E J Nj Hu. unfold payload_arguments in E. apply bind_ok in E as (n & s1 & _ & E). rewrite J in E.
  assert (str_true j = true) as Sj by (destruct j; auto; congruence). rewrite Sj in E.
  set (p0 := dset _ "cnf" _) in E. assert (dget p0 "cnf" = Some (JObj [("jkt", JStr j)])) as H0 by apply dget_dset_same.
  clearbody p0.
  set (p1 := match g_areq g with Some _ => _ | None => _ end) in E.
  assert (dget p1 "cnf" = Some (JObj [("jkt", JStr j)])) as H1.
  { unfold p1. destruct (g_areq g) as [a|]; auto. destruct (str_true _); auto. rewrite !dget_dset_other by discriminate. auto. }
  clearbody p1.
  apply bind_ok in E as (restr & s2 & _ & E). apply bind_ok in E as ([[u c] gid] & s3 & _ & E).
  apply bind_ok in E as (info & s4 & Ei & E). apply lift_ok in Ei as [Ei _]. destruct (Hu _ _ _ Ei) as [N C].
  assert (dget (dupdate p1 info) "cnf" = Some (JObj [("jkt", JStr j)])) as H2.
  { rewrite dget_dupdate by exact N. now rewrite C. }
  apply bind_ok in E as (a1 & s5 & _ & E). apply bind_ok in E as (a2 & s6 & _ & E). apply ret_ok in E as [<- _].
  destruct a2; auto. destruct (g_aevent g); auto. rewrite dget_dset_other by discriminate. auto.
Qed.
