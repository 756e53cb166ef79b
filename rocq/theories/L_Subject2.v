(** Lemmas about the subject identifiers clients are told. *)
From Verif Require Import M_Base M_Types M_Codec M_Grant M_Env M_Session M_Claims M_Handler
  M_Authz M_TokenEP M_PKCE M_AuthzEP M_Info M_Logout M_History S_History M_Subject S_Subject
  L_Base L_Hist8 L_Hist10 L_Hist11 L_Info L_Subject.

Lemma told_sub e c u s x : told e c u s x -> x = e_sub e u s.
Proof.
  intros (ops & evs & h & now & tok & info & h' & gid & g & ar & ae & W & Hi & St & Sub & L & G & A & S & E & U).
  destruct (userinfo_live e W _ _ _ _ _ _ _ _ Hi St)
    as (gid' & g' & t & u' & c' & ae' & cl & G' & B & L' & _ & _ & _ & _ & _ & _ & _ & Sub' & _).
  assert (gid' = gid) as ->.
  { destruct L as (i & s1 & R & X), L' as (i' & s1' & R' & X'). rewrite R in R'. injection R' as <- <-. congruence. }
  assert (g' = g) as -> by (eapply grant_of_unique; eauto; eapply history_hi; eauto).
  destruct B as (ar' & ae1 & A' & _ & E' & U' & Sg).
  rewrite A in A'. injection A' as <-. rewrite E in E'. injection E' as <-.
  rewrite Sub in Sub'. injection Sub' as ->. congruence.
Qed.

Lemma set_up_same rnd H c m m' kind : a_dict c -> salt_is_fixed c kind -> configured c kind <> Some Ephemeral ->
  set_up rnd c m m' -> forall u s d d', make_sub H m' kind u s d' = make_sub H m kind u s d.
Proof.
  intros N F X (w & w1 & E & [->|(w2 & w3 & L & E')]); [|eauto using stable].
  intros. pose proof (sub_way _ _ _ _ _ H kind E N) as K.
  destruct (configured c kind) as [[]|]; try congruence; try (now rewrite !K);
    destruct K as (salt & K); now rewrite !K.
Qed.

Lemma told_public rnd H c m m' e e' cl cl' u u' s s' x x' :
  a_dict c -> configured c "public" = Some Public -> salt_is_fixed c "public" ->
  set_up rnd c m m' -> uses H m e -> uses H m' e' ->
  told e cl u s x -> told e' cl' u' s' x' ->
  (u = u' -> x = x') /\ (x = x' -> u = u' \/ collides H).
Proof.
  intros N C F S U U' T T'. apply told_sub in T, T'. subst x x'.
  assert (U2 : make_sub H m "public" u' s' "" = Ok (e_sub e' u' s')).
  { rewrite <- (U' u' s' ""). symmetry. eapply set_up_same; eauto. congruence. }
  destruct S as (w & w1 & E & _). eapply public_spec; [exact N|exact E|exact C|apply (U u s "")|exact U2].
Qed.

Lemma told_pairwise rnd H c m m' e e' cl cl' u u' s s' x x' :
  a_dict c -> configured c "public" = Some Pairwise -> salt_is_fixed c "public" ->
  set_up rnd c m m' -> uses H m e -> uses H m' e' ->
  told e cl u s x -> told e' cl' u' s' x' ->
  (u = u' /\ s = s' -> x = x') /\ (x = x' -> unambiguous u s u' s' -> (u = u' /\ s = s') \/ collides H).
Proof.
  intros N C F S U U' T T'. apply told_sub in T, T'. subst x x'.
  assert (U2 : make_sub H m "public" u' s' "" = Ok (e_sub e' u' s')).
  { rewrite <- (U' u' s' ""). symmetry. eapply set_up_same; eauto. congruence. }
  destruct S as (w & w1 & E & _). eapply pairwise_spec; [exact N|exact E|exact C|apply (U u s "")|exact U2].
Qed.
