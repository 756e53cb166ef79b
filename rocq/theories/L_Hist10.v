(** Histories, part 10: the properties of histories in the vocabulary of the
    specification. *)
From Verif Require Import M_Base M_Types M_Codec M_Grant M_Env M_Session M_Claims M_Handler
  M_Authz M_TokenEP M_PKCE M_AuthzEP M_Info M_Logout M_History S_Codec S_Grant S_History
  L_Base L_Codec L_Monad L_Grant L_Claims L_Store L_Hist1 L_Hist2 L_Hist3 L_Hist4 L_Hist5 L_Hist6
  L_Hist7 L_Hist8 L_Emit L_Hist9 L_Origin.

Lemma rotates_revoke e c : rotates e c -> revoke_refresh e c = true.
Proof.
  unfold rotates, revoke_refresh. destruct (dget (e_clients e) c) as [cl|]; auto.
  intros [->|[-> ->]]; auto.
Qed.

Section H.
  Variables (e : env) (W : laws e).

  Lemma grant_of_unique h gid g g' : HI e h -> grant_of h gid g -> grant_of h gid g' -> g = g'.
  Proof.
    intros [I _] (l & H & E) (l' & H' & E'). assert (l = l') as <-.
    { eapply inv_uniq; eauto. congruence. }
    congruence.
  Qed.

  (** *** One owner per text *)
  Lemma one_owner ops evs h gid gid' g g' t t' : history e ops evs h ->
    grant_of h gid g -> grant_of h gid' g' -> In t (g_tokens g) -> In t' (g_tokens g') ->
    t_value t = t_value t' -> gid = gid' /\ g = g' /\ t = t'.
  Proof.
    intros Hi (l & H & E) (l' & H' & E') It It' V. destruct (history_hi e W _ _ _ Hi) as [I _].
    apply In_nth_error in It as [i N]. apply In_nth_error in It' as [i' N'].
    destruct (inv_vals _ _ I _ _ _ _ _ _ _ _ H H' N N' V) as [<- <-].
    unfold hp in H, H'. assert (g = g') as <- by congruence. split; [congruence|]. split; [auto|congruence].
  Qed.

  Lemma born_drawn h l p tc v g : hp (h_st h) l = Some (OGrant g) -> born l p tc v (h_st h) -> drawn_from g p v tc.
  Proof.
    intros H (j & t & (g1 & u & H1 & N & L) & V & C & B). rewrite H in H1. injection H1 as <-.
    exists u. split; [eapply nth_error_In; eauto|]. destruct L as (C' & V' & B' & _).
    split; [congruence|]. split; congruence.
  Qed.
  Lemma has_in_grant h l i t g : hp (h_st h) l = Some (OGrant g) -> has l i t (h_st h) ->
    in_grant g (t_value t) (t_class t).
  Proof.
    intros H (g1 & u & H1 & N & L). rewrite H in H1. injection H1 as <-.
    exists u. split; [eapply nth_error_In; eauto|]. destruct L as (C' & V' & _). auto.
  Qed.

  (** *** C08: the tokens of an answer *)
  Lemma answer_owner ops evs h i q a : history e ops evs h -> answer_at evs i q a ->
    exists gid g u c p pc,
      grant_of h gid g /\ belongs e g u c /\ tr_client q = Some c
      /\ presents q p pc /\ in_grant g p pc
      /\ (forall v tc, hands_out a v tc -> drawn_from g p v tc)
      /\ (exists v, hands_out a v "access_token").
  Proof.
    intros Hi Ni. destruct (answer_grant e W _ _ _ _ _ _ Hi Ni) as
      (al & now & k & issue & h1 & s2 & l & m & t & u & c & gid & E1 & _ & No & H1 & I2 & Hh & Ep & L12 & Ht1 & Ht & (g & Hg & Eg & B) & Ec
       & _ & Ba & Br & Bi & Cs).
    exists gid, g, u, c, (t_value t), (t_class t).
    split. { exists l. auto. } split; [auto|]. split; [auto|].
    assert (presents q (t_value t) (t_class t) /\ rs_access a <> None) as [Pr Na].
    { destruct Cs as [(G & C & P & N & _)|(G & C & P & _ & (_ & _ & _ & N))]; split; auto; [left|right]; auto. }
    split; [auto|]. split; [eapply has_in_grant; eauto|]. split.
    - intros v tc [(-> & V)|[(-> & V)|(-> & V)]]; eapply born_drawn; eauto.
    - destruct (rs_access a) as [v|] eqn:V; [|congruence]. exists v. left. auto.
  Qed.

  Lemma presents_fun q v v' tc tc' : presents q v tc -> presents q v' tc' -> v = v' /\ tc = tc'.
  Proof.
    intros [(-> & A & B)|(-> & A & B)] [(-> & C & D)|(-> & C & D)]; split; congruence.
  Qed.

  (** Two answers for the same text name the same client. *)
  Lemma same_client ops evs h i j q q' a a' v tc tc' : history e ops evs h ->
    answer_at evs i q a -> answer_at evs j q' a' -> presents q v tc -> presents q' v tc' ->
    tr_client q = tr_client q'.
  Proof.
    intros Hi Ni Nj P P'.
    destruct (answer_owner _ _ _ _ _ _ Hi Ni) as (gid & g & u & c & p & pc & G & B & C & Pp & (t & It & Vt & _) & _).
    destruct (answer_owner _ _ _ _ _ _ Hi Nj) as (gid' & g' & u' & c' & p' & pc' & G' & B' & C' & Pp' & (t' & It' & Vt' & _) & _).
    destruct (presents_fun _ _ _ _ _ P Pp) as [<- _]. destruct (presents_fun _ _ _ _ _ P' Pp') as [<- _].
    destruct (one_owner _ _ _ _ _ _ _ _ _ Hi G G' It It') as (_ & <- & _); [congruence|].
    destruct B as (ar & _ & X & Y & _), B' as (ar' & _ & X' & Y' & _). congruence.
  Qed.

  (** *** C02, C21 *)
  Lemma code_at_most_once ops evs h i j q q' a a' v : history e ops evs h ->
    answer_at evs i q a -> answer_at evs j q' a' ->
    presents q v "authorization_code" -> presents q' v "authorization_code" -> i = j.
  Proof.
    intros Hi Ni Nj [(_ & G & P)|(X & _)]; [|discriminate]. intros [(_ & G' & P')|(X & _)]; [|discriminate].
    eapply (code_once e W); eauto. congruence.
  Qed.
  Lemma rotated_at_most_once ops evs h i j q q' a a' v c : history e ops evs h ->
    answer_at evs i q a -> answer_at evs j q' a' ->
    presents q v "refresh_token" -> presents q' v "refresh_token" ->
    tr_client q = Some c -> rotates e c -> i = j.
  Proof.
    intros Hi Ni Nj P P' C R. apply rotates_revoke in R.
    pose proof (same_client _ _ _ _ _ _ _ _ _ _ _ _ Hi Ni Nj P P') as Sc.
    destruct P as [(X & _)|(_ & G & P)]; [discriminate|]. destruct P' as [(X & _)|(_ & G' & P')]; [discriminate|].
    destruct (Nat.lt_trichotomy i j) as [L|[L|L]]; auto; exfalso.
    - eapply (refresh_once_lt e W) with (c := c); [exact Hi|exact Ni|exact Nj|..]; auto. congruence.
    - eapply (refresh_once_lt e W) with (c := c); [exact Hi|exact Nj|exact Ni|..]; auto; congruence.
  Qed.

  (** *** C09: redirect URI *)
  Lemma answer_redirect ops evs h i q a v : history e ops evs h -> answer_at evs i q a ->
    presents q v "authorization_code" ->
    exists gid g ar, grant_of h gid g /\ in_grant g v "authorization_code" /\ g_areq g = Some ar
      /\ (forall uri, ar_redirect_uri ar = Some uri -> tr_redirect q = Some uri).
  Proof.
    intros Hi Ni Pr. destruct (answer_grant e W _ _ _ _ _ _ Hi Ni) as
      (al & now & k & issue & h1 & s2 & l & m & t & u & c & gid & E1 & _ & No & H1 & I2 & Hh & Ep & L12 & Ht1 & Ht & (g & Hg & Eg & B) & Ec
       & St & Ba & Br & Bi & Cs).
    destruct Pr as [(_ & G & P)|(X & _)]; [|discriminate].
    destruct Cs as [(_ & C & P1 & N & _ & X)|(G' & _)]; [|rewrite G in G'; discriminate].
    destruct X as (g0 & ar & S & Ar & Ru & _).
    assert (exists g1, hp (h_st h) l = Some (OGrant g1) /\ g_areq g1 = Some ar) as (g1 & Hg1 & Ar1).
    { apply (St (fun s => exists g1, hp s l = Some (OGrant g1) /\ g_areq g1 = Some ar)).
      - intros n s s' L (g1 & A1 & A2). destruct (st_later_grant _ _ _ _ _ L A1) as (g2 & A3 & A4).
        exists g2. split; auto. destruct A4 as (_ & A4 & _). congruence.
      - destruct S as (g1 & A1 & A2). exists g1. split; auto. destruct A2 as (_ & A2 & _). congruence. }
    rewrite Hg in Hg1. injection Hg1 as <-.
    exists gid, g, ar. split; [exists l; auto|].
    rewrite P in P1. injection P1 as ->. split; [change "authorization_code" with CODE; rewrite <- C; eapply has_in_grant; eauto|].
    auto.
  Qed.

  (** *** C07: scopes *)
  Lemma authz_authorized g x : In x (authz_scope e g) -> authorized_scope e g x.
  Proof.
    unfold authz_scope, authorized_scope. destruct (e_implicit e); [intros []|].
    destruct (gc_scope (e_authz e)) as [[|y r]|] eqn:G; eauto.
    - destruct (g_areq g) as [ar|]; [|intros []]. destruct (ar_scope ar) as [sc|] eqn:S; [|intros []]. intros. right. eauto.
    - destruct (g_areq g) as [ar|]; [|intros []]. destruct (ar_scope ar) as [sc|] eqn:S; [|intros []]. intros. right. eauto.
  Qed.
  Lemma token_scope ops evs h gid g t : history e ops evs h -> grant_of h gid g -> In t (g_tokens g) ->
    t_class t <> "id_token" -> incl (t_scope t) (g_scope g) /\ forall x, In x (g_scope g) -> authorized_scope e g x.
  Proof.
    intros Hi (l & H & E) It C. destruct (history_hi e W _ _ _ Hi) as [I _].
    pose proof (inv_grants _ _ I _ _ H) as G. split; [apply (gi_tok _ _ G t It); auto|].
    intros x Ix. apply authz_authorized. rewrite <- (gi_final _ _ G); auto. destruct (g_tokens g); [destruct It|discriminate].
  Qed.
  Lemma within_in_scope h l sc g : HI e h -> hp (h_st h) l = Some (OGrant g) -> g_tokens g <> [] ->
    within e l sc (h_st h) -> incl sc (g_scope g).
  Proof.
    intros [I _] H N (g' & H' & K). rewrite H in H'. injection H' as <-.
    rewrite (gi_final _ _ (inv_grants _ _ I _ _ H) N). exact K.
  Qed.
  (** The scope of an answer. *)
  Lemma answer_scope ops evs h i q a p pc : history e ops evs h -> answer_at evs i q a -> presents q p pc ->
    exists gid g, grant_of h gid g /\ in_grant g p pc /\ incl (rs_scope a) (g_scope g)
      /\ (pc = "refresh_token" -> forall sc, tr_scope q = Some sc -> rs_scope a = sc).
  Proof.
    intros Hi Ni Pr. destruct (answer_grant e W _ _ _ _ _ _ Hi Ni) as
      (al & now & k & issue & h1 & s2 & l & m & t & u & c & gid & E1 & _ & No & H1 & I2 & Hh & Ep & L12 & Ht1 & Ht & (g & Hg & Eg & B) & Ec
       & St & Ba & Br & Bi & Cs).
    exists gid, g. split; [exists l; auto|]. pose proof (has_in_grant _ _ _ _ _ Hg Ht) as Ig.
    assert (g_tokens g <> []) as Nt. { destruct Ig as (t1 & It & _). destruct (g_tokens g); [destruct It|discriminate]. }
    destruct Cs as [(G & C & P & N & _ & X)|(G & C & P & _ & (Rs & Wi & _))].
    - assert (presents q (t_value t) "authorization_code") as P' by (left; auto).
      destruct (presents_fun _ _ _ _ _ Pr P') as [-> ->]. split; [match goal with |- in_grant _ _ ?x => assert (x = t_class t) as -> by (rewrite C; reflexivity) end; auto|].
      split; [|discriminate]. destruct X as (g0 & ar & (g2 & Hg2 & L2) & Ar & _ & Rs & _). rewrite Rs.
      assert (within e l (g_scope g2) s2) as Wi.
      { exists g2. split; auto. destruct Ht1 as (g3 & t3 & H3 & N3 & _).
        destruct (st_later_grant _ _ _ _ _ L12 H3) as (g4 & H4 & L4). rewrite Hg2 in H4. injection H4 as <-.
        rewrite <- (gi_final _ _ (inv_grants _ _ I2 _ _ Hg2)); [intros z; auto|].
        destruct L4 as (_ & _ & _ & _ & _ & _ & _ & _ & _ & T & _). destruct (T _ _ N3) as (t' & N' & _).
        intros X. rewrite X in N'. destruct m; discriminate. }
      assert (incl (g_scope g2) (g_scope g)) as K1.
      { eapply (within_in_scope h l); eauto. apply (St (within e l (g_scope g2))); auto. intros n. apply st_within. }
      intros x Ix. apply K1. destruct L2 as (_ & _ & _ & _ & _ & _ & _ & _ & _ & _ & _ & S). rewrite S; auto.
      intros Z. rewrite Z in Ix. destruct Ix.
    - assert (presents q (t_value t) "refresh_token") as P' by (right; auto).
      destruct (presents_fun _ _ _ _ _ Pr P') as [-> ->]. split; [match goal with |- in_grant _ _ ?x => assert (x = t_class t) as -> by (rewrite C; reflexivity) end; auto|]. split; auto.
      eapply (within_in_scope h l); eauto. apply (St (within e l (rs_scope a))); auto. intros n. apply st_within.
  Qed.

  (** *** C06 *)
  Lemma history_forest ops evs h gid g : history e ops evs h -> grant_of h gid g -> forest (g_tokens g).
  Proof.
    intros Hi (l & H & E). destruct (history_hi e W _ _ _ Hi) as [I _]. split; [eapply inv_nodup; eauto|]. split.
    - intros X. apply in_map_iff in X as (t & V & It). destruct (inv_made _ _ I _ _ _ H It) as (n & M & _).
      destruct (law_text _ W _ _ M) as [N _]. auto.
    - intros j t b N B. destruct (gi_parent _ _ (inv_grants _ _ I _ _ H) _ _ _ N B) as (i & p & L & Np & V & _).
      eauto.
  Qed.

  (** *** C46: what an answer rests on *)
  Lemma op_T_code o : op_T o CODE -> exists ar, authorizes o ar.
  Proof.
    destruct o; cbn; try tauto; try (intros; eexists; reflexivity).
    intros [X|[X|X]]; discriminate.
  Qed.
  Lemma op_T_refresh o : op_T o REFRESH -> token_call o.
  Proof. destruct o; cbn; try tauto; intros [X|[X|X]]; discriminate. Qed.

  Lemma answer_backed ops evs h i q a p pc : history e ops evs h -> answer_at evs i q a -> presents q p pc ->
    exists gid g u c, grant_of h gid g /\ belongs e g u c /\ tr_client q = Some c /\ in_grant g p pc
      /\ (exists j o, j < i /\ made_by e ops j o p pc
            /\ (pc = "authorization_code" -> exists ar, authorizes o ar)
            /\ (pc = "refresh_token" -> token_call o))
      /\ (exists j o ar, j < i /\ nth_error ops j = Some o /\ g_areq g = Some ar /\ authorizes o ar
            /\ ar_client_id ar = c /\ by_user o u).
  Proof.
    intros Hi Ni Pr. destruct (answer_grant e W _ _ _ _ _ _ Hi Ni) as
      (al & now & k & issue & h1 & s2 & l & m & t & u & c & gid & E1 & Pf & No & H1 & I2 & Hh & Ep & L12 & Ht1 & Ht & (g & Hg & Eg & B) & Ec
       & St & Ba & Br & Bi & Cs).
    assert (presents q (t_value t) (t_class t)) as P'.
    { destruct Cs as [(G & C & P & _)|(G & C & P & _)]; rewrite C; [left|right]; auto. }
    destruct (presents_fun _ _ _ _ _ Pr P') as [-> ->].
    exists gid, g, u, c. split; [exists l; auto|]. split; [auto|]. split; [auto|].
    split; [eapply has_in_grant; eauto|].
    assert (held h1 (t_value t) (t_class t)) as K by (apply held_has; exists l, m, t; auto).
    assert (~ known (h_init al) (t_value t)) as N0.
    { intros (tc & X). apply held_holds in X as (l0 & g0 & t0 & X & _). rewrite init_empty in X. discriminate. }
    split.
    - destruct (minted_at e W _ _ _ _ _ _ (hi_init e al) Pf E1 N0 K) as (j & o & h3 & ev & h4 & Nj & Ej & Sj & Nk & Hk & T).
      apply nth_firstn in Nj as [Lj Nj]. exists j, o. split; [auto|].
      rewrite firstn_firstn_lt in Ej by auto.
      split. { split; [auto|]. exists (firstn j (firstn i evs)), h3, ev, h4. split; [|split; [auto|split; [auto|now apply held_holds]]].
        split; [|exists al; exact Ej]. apply Forall_firstn'. apply Hi. }
      split; intros X; rewrite X in T; [now apply op_T_code|now apply op_T_refresh].
    - destruct Ht1 as (g1 & t1 & Hg1 & N1 & L1).
      assert (g_areq g = g_areq g1 /\ g_aevent g = g_aevent g1) as [A1 A2].
      { assert (exists g2, hp (h_st h) l = Some (OGrant g2) /\ g_areq g2 = g_areq g1 /\ g_aevent g2 = g_aevent g1) as (g2 & X1 & X2 & X3).
        { apply (St (fun s => exists g2, hp s l = Some (OGrant g2) /\ g_areq g2 = g_areq g1 /\ g_aevent g2 = g_aevent g1)).
          - intros n s s' L (g2 & X1 & X2 & X3). destruct (st_later_grant _ _ _ _ _ L X1) as (g3 & X4 & X5).
            exists g3. destruct X5 as (_ & Y1 & Y2 & _). split; auto. split; congruence.
          - destruct (st_later_grant _ _ _ _ _ L12 Hg1) as (g3 & X4 & X5).
            exists g3. destruct X5 as (_ & Y1 & Y2 & _). split; auto. }
        rewrite Hg in X1. injection X1 as <-. auto. }
      destruct B as (ar & ae & B1 & B2 & B3 & B4 & _).
      destruct (grant_origin e W _ _ _ _ _ _ (hi_init e al) Pf E1 Hg1) as [(g0 & X & _)|(j & o & Nj & (ar' & ae' & X & Y & Z1 & Z2))]; [rewrite init_empty in X; discriminate|].
      apply nth_firstn in Nj as [Lj Nj]. exists j, o, ar. split; [auto|]. split; [auto|]. split; [auto|].
      assert (ar' = ar) as -> by congruence. assert (ae' = ae) as -> by congruence. rewrite B4 in Z2. auto.
  Qed.

  (** *** Permanence *)
  Lemma grant_of_later ops h evs h' gid g : HI e h -> Forall (proper e) ops -> exec e h ops = (evs, h') ->
    grant_of h gid g -> exists g', grant_of h' gid g' /\ tokens_later (g_tokens g) (g_tokens g')
      /\ (g_revoked g = true -> g_revoked g' = true /\ List.length (g_tokens g') = List.length (g_tokens g))
      /\ g_areq g' = g_areq g /\ g_aevent g' = g_aevent g /\ g_sub g' = g_sub g.
  Proof.
    intros Hh Po E (l & H & Eg).
    assert (exists g', hp (h_st h') l = Some (OGrant g') /\ g_id g' = gid /\ tokens_later (g_tokens g) (g_tokens g')
      /\ (g_revoked g = true -> g_revoked g' = true /\ List.length (g_tokens g') = List.length (g_tokens g))
      /\ g_areq g' = g_areq g /\ g_aevent g' = g_aevent g /\ g_sub g' = g_sub g) as (g' & X1 & X2 & X).
    { apply (exec_stable e W (fun s => exists g', hp s l = Some (OGrant g') /\ g_id g' = gid /\ tokens_later (g_tokens g) (g_tokens g')
      /\ (g_revoked g = true -> g_revoked g' = true /\ List.length (g_tokens g') = List.length (g_tokens g))
      /\ g_areq g' = g_areq g /\ g_aevent g' = g_aevent g /\ g_sub g' = g_sub g) ops h evs h'); auto.
      - intros n s s' L (g1 & A1 & A2 & A3 & A4 & A5 & A6 & A7). destruct (st_later_grant _ _ _ _ _ L A1) as (g2 & B1 & B2).
        exists g2. destruct B2 as (C1 & C2 & C3 & C4 & _ & _ & _ & C5 & _ & C6 & C7 & _). split; auto. split; [congruence|].
        split; [eapply tokens_later_trans; eauto|]. split; [|split; [congruence|split; congruence]].
        intros R. destruct (A4 R) as [R1 R2]. split; auto. rewrite <- R2. apply C7.
        destruct (grant_active n g1) eqn:X; auto. apply grant_active_live in X. destruct X as (X & _). congruence.
      - exists g. split; [exact H|]. split; [exact Eg|]. split; [apply tokens_later_refl|]. auto. }
    exists g'. split; [exists l; auto|]. auto.
  Qed.

  Lemma same_values ts ts' : tokens_later ts ts' -> List.length ts' = List.length ts -> map t_value ts' = map t_value ts.
  Proof.
    revert ts'. induction ts as [|t ts IH]; intros ts' L N; destruct ts' as [|t' ts']; try discriminate; auto.
    cbn. destruct (L 0 t eq_refl) as (x & X & T). cbn in X. injection X as <-. f_equal; [apply T|].
    apply IH; [|cbn in N; lia]. intros i. exact (L (S i)).
  Qed.

  Lemma revoked_grant_final ops1 evs1 h ops2 evs2 h' gid g : history e ops1 evs1 h ->
    Forall (proper e) ops2 -> exec e h ops2 = (evs2, h') -> grant_of h gid g -> g_revoked g = true ->
    exists g', grant_of h' gid g' /\ g_revoked g' = true /\ map t_value (g_tokens g') = map t_value (g_tokens g).
  Proof.
    intros Hi Po E G R. destruct (grant_of_later _ _ _ _ _ _ (history_hi e W _ _ _ Hi) Po E G) as (g' & G' & T & K & _).
    destruct (K R) as [R' N]. exists g'. split; auto. split; auto. now apply same_values.
  Qed.

  Lemma token_dead_stays ops1 evs1 h ops2 evs2 h' gid g t now now' : history e ops1 evs1 h ->
    Forall (proper e) ops2 -> exec e h ops2 = (evs2, h') -> grant_of h gid g -> In t (g_tokens g) ->
    ~ token_live t now -> (now <= now')%Z ->
    exists g' t', grant_of h' gid g' /\ In t' (g_tokens g') /\ t_value t' = t_value t /\ ~ token_live t' now'.
  Proof.
    intros Hi Po E G It D Le. pose proof (history_hi e W _ _ _ Hi) as Hh.
    destruct (grant_of_later _ _ _ _ _ _ Hh Po E G) as (g' & G' & T & _).
    pose proof It as It2. apply In_nth_error in It2 as [i N]. destruct (T _ _ N) as (t' & N' & L).
    exists g', t'. split; auto. split; [eapply nth_error_In; eauto|].
    destruct L as (_ & V & _ & Ru & _ & Ex & Nb & _ & _ & _ & _ & _ & Rv & Us).
    split; auto. intros (A & B & C & F). apply D. split.
    - destruct (t_revoked t) eqn:X; auto. now rewrite Rv in A.
    - destruct G as (l & H & _). pose proof (to_nbf _ _ (gi_tok _ _ (inv_grants _ _ (hi_inv _ _ Hh) _ _ H) t It)) as Z0.
      split; [|split].
      + intros mx Em. rewrite Ru in B. specialize (B mx Em). lia.
      + intros X. congruence.
      + intros X. rewrite Ex in F. specialize (F X). lia.
  Qed.

  Lemma grant_dead_stays ops1 evs1 h ops2 evs2 h' gid g now now' : history e ops1 evs1 h ->
    Forall (proper e) ops2 -> Forall (fun o => now <= op_time o)%Z ops2 ->
    exec e h ops2 = (evs2, h') -> grant_of h gid g ->
    ~ grant_live g now -> (now <= now')%Z ->
    exists g', grant_of h' gid g' /\ ~ grant_live g' now' /\ map t_value (g_tokens g') = map t_value (g_tokens g).
  Proof.
    intros Hi Po Tm E (l & H & Eg) D Le. pose proof (history_hi e W _ _ _ Hi) as Hh.
    pose proof (inv_grants _ _ (hi_inv _ _ Hh) _ _ H) as Gi.
    assert (forall n g0, g_nbf g0 = 0%Z -> g_max g0 = None -> (now <= n)%Z -> ~ grant_live g0 now -> ~ grant_live g0 n) as Mono.
    { intros n g0 Z0 M0 Ln X (A & B & C & F). apply X. split; auto. split; [intros m; congruence|].
      split; [congruence|]. intros Y. specialize (F Y). lia. }
    assert (HI e h' /\ exists g', hp (h_st h') l = Some (OGrant g') /\ g_id g' = gid
      /\ tokens_later (g_tokens g) (g_tokens g') /\ List.length (g_tokens g') = List.length (g_tokens g)
      /\ g_nbf g' = 0%Z /\ g_max g' = None /\ ~ grant_live g' now) as (_ & g' & X1 & X2 & X3 & X4 & X5 & X6 & X7).
    { apply (exec_keeps e W (fun h' => exists g', hp (h_st h') l = Some (OGrant g') /\ g_id g' = gid
      /\ tokens_later (g_tokens g) (g_tokens g') /\ List.length (g_tokens g') = List.length (g_tokens g)
      /\ g_nbf g' = 0%Z /\ g_max g' = None /\ ~ grant_live g' now) ops2 h evs2 h'); auto.
      - intros h1 o ev h2 Io _ _ L (g1 & A1 & A2 & A3 & A4 & A5 & A6 & A7).
        rewrite Forall_forall in Tm. pose proof (Tm _ Io) as To. cbn in To.
        destruct (st_later_grant _ _ _ _ _ L A1) as (g2 & B1 & B2).
        destruct B2 as (C1 & _ & _ & _ & _ & C2 & C3 & C4 & _ & C5 & C6 & _).
        assert (grant_active (op_time o) g1 = false) as Da.
        { destruct (grant_active (op_time o) g1) eqn:X; auto. apply grant_active_live in X.
          exfalso. eapply Mono; [exact A5|exact A6|exact To|exact A7|exact X]. }
        destruct (C6 Da) as [Y1 Y2]. exists g2. split; auto. split; [congruence|].
        split; [eapply tokens_later_trans; eauto|]. split; [congruence|]. split; [congruence|]. split; [congruence|].
        intros (F1 & F2 & F3 & F4). apply A7. split; [destruct (g_revoked g1) eqn:X; auto; now rewrite C4 in F1|].
        split; [intros mm; congruence|]. split; [congruence|]. rewrite <- Y1. auto.
      - exists g. split; [exact H|]. split; [exact Eg|]. split; [apply tokens_later_refl|].
        split; auto. split; [apply Gi|]. split; [apply Gi|auto]. }
    exists g'. split; [exists l; auto|]. split; [now apply Mono|now apply same_values].
  Qed.
End H.
