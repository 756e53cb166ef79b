(** Lemmas: the set-up of a provider. *)
From Verif Require Import M_Base M_Types M_Codec M_Grant M_Env M_Session M_Claims M_Handler M_Uri M_Meta M_ClientAuthn M_Setup.
From Verif Require Import S_Codec S_Handler S_Claims S_ClientAuthn S_Setup L_Base L_Monad L_Codec L_Handler L_Split L_Cookie L_Claims L_ClientAuthn.

(** Importing. *)
Lemma contains_occ p s : contains p s = true <-> occurs_in p s.
Proof. apply contains_spec. Qed.
Lemma join_snoc c l x : l <> [] ->
  py_join (String c "") (l ++ [x]) = append (py_join (String c "") l) (String c x).
Proof.
  induction l as [|y l IH]; [congruence|]. intros _. destruct l as [|z l]; [reflexivity|].
  change ((y :: z :: l) ++ [x]) with (y :: (z :: l) ++ [x]). rewrite !joinc_cons by discriminate.
  rewrite IH by discriminate. rewrite <- sapp_assoc. reflexivity.
Qed.
Lemma split_snoc c a b : ~ occurs_in (String c "") b ->
  py_split (String c "") (append a (String c b)) = py_split (String c "") a ++ [b].
Proof.
  intros N. induction a as [|x a IH].
  - cbn [append]. rewrite splitc_cons, Ascii.eqb_refl. rewrite splitc_plain by exact N. reflexivity.
  - cbn [append]. rewrite !splitc_cons, IH. destruct (Ascii.eqb x c); [reflexivity|].
    pose proof (splitc_ne c a). destruct (py_split (String c "") a); [congruence|reflexivity].
Qed.

Lemma modsplit_spec s m a : modsplit s = Ok (m, a) <-> object_path s m a.
Proof.
  unfold modsplit. destruct (contains ":" s) eqn:C.
  - split.
    + destruct (py_split ":" s) as [|x [|y [|z r]]] eqn:E; try discriminate. intros [= <- <-].
      apply (splitc_two ":") in E as (-> & Nx & Ny). apply op_colon; auto.
    + intros [-> Nm Na|N _ _].
      * change (append ":" a) with (String ":" a). rewrite splitc_app by exact Nm.
        rewrite splitc_plain by exact Na. reflexivity.
      * apply contains_occ in C. contradiction.
  - assert (N : ~ occurs_in ":" s) by (rewrite <- contains_occ; congruence). split.
    + destruct (Nat.ltb _ 2) eqn:L; [discriminate|]. apply Nat.ltb_ge in L. intros [= <- <-].
      pose proof (splitc_join "." s) as J. set (l := py_split "." s) in *.
      assert (Hne : l <> []) by apply splitc_ne.
      assert (Hl : removelast l <> []).
      { destruct l as [|x [|y l]]; cbn in L; [lia|lia|]. cbn. discriminate. }
      rewrite (app_removelast_last "" Hne) in J. rewrite join_snoc in J by exact Hl.
      apply op_dot; [exact N|symmetry; exact J|].
      apply (splitc_elems "." s). fold l.
      assert (I : In (last l "") (removelast l ++ [last l ""])) by (apply in_or_app; right; now left).
      rewrite <- (app_removelast_last "" Hne) in I. exact I.
    + intros [-> Nm Na|_ -> Na].
      * exfalso. apply N. exists m, a. reflexivity.
      * change (append "." a) with (String "." a). rewrite split_snoc by exact Na.
        rewrite app_length. cbn [List.length]. pose proof (splitc_ne "." m) as M0.
        destruct (Nat.ltb _ 2) eqn:L.
        { apply Nat.ltb_lt in L. destruct (py_split "." m); [congruence|cbn in L; lia]. }
        rewrite removelast_last, last_last, splitc_join. reflexivity.
Qed.

(** Client authentication. *)
Lemma standard_spec s m : dget methods_by_name s = Some m <-> standard_name s m.
Proof.
  split.
  - intros H. apply dget_In in H. cbn in H.
    repeat destruct H as [[= <- <-]|H]; try constructor. destruct H.
  - intros []; reflexivity.
Qed.
Lemma standard_not_none s m : standard_name s m -> lower s <> "none".
Proof. intros []; cbv; discriminate. Qed.
Lemma setup_one_spec load item m : setup_one load item = Ok m <-> names_method load item m.
Proof.
  unfold setup_one. destruct item as [s|].
  - destruct (String.eqb (lower s) "none") eqn:E.
    + apply seqb_eq in E. split.
      * intros [= <-]. apply nm_none. right. eauto.
      * intros H. inversion H as [i U|s' m' U|s' md a m' U V W X]; subst; [reflexivity| |contradiction].
        exfalso. eapply standard_not_none; eauto.
    + apply seqb_neq in E. destruct (dget methods_by_name s) as [m'|] eqn:D.
      * apply standard_spec in D. split.
        -- intros [= <-]. now apply nm_standard.
        -- intros H. inversion H as [i U|s' m'' U|s' md a m'' U V W X]; subst.
           ++ destruct U as [U|(s' & U & V)]; congruence.
           ++ apply standard_spec in U, D. congruence.
           ++ exfalso. eapply V; eauto.
      * assert (N : forall m', ~ standard_name s m') by (intros m' H; apply standard_spec in H; congruence).
        unfold importer. split.
        -- intros H. apply rbind_ok in H as ((md & a) & P & L). apply modsplit_spec in P.
           eapply nm_own; eauto.
        -- intros H. inversion H as [i U|s' m'' U|s' md a m'' U V W X]; subst.
           ++ destruct U as [U|(s' & U & V)]; congruence.
           ++ exfalso. eapply N; eauto.
           ++ apply modsplit_spec in W. rewrite W. exact X.
  - split.
    + intros [= <-]. apply nm_none. now left.
    + intros H. inversion H; subst; auto.
Qed.
Lemma client_auth_setup_spec load l ms : client_auth_setup load l = Ok ms <-> Forall2 (names_method load) l ms.
Proof.
  revert ms. induction l as [|x l IH]; intros ms; cbn [client_auth_setup].
  - split; [intros [= <-]; constructor|intros H; inversion H; reflexivity].
  - split.
    + intros H. apply rbind_ok in H as (m & A & H). apply rbind_ok in H as (ms' & B & H). injection H as <-.
      constructor; [now apply setup_one_spec|now apply IH].
    + intros H. inversion H as [|x' m l' ms' A B]; subst. apply setup_one_spec in A. apply IH in B.
      rewrite A. cbn [rbind]. rewrite B. reflexivity.
Qed.
Lemma methods_configured load l d ms : l <> [] ->
  (endpoint_methods load (Some (AItems l)) d = Ok ms <-> Forall2 (names_method load) l ms).
Proof. intros N. cbn [endpoint_methods authn_items]. destruct l; [congruence|]. apply client_auth_setup_spec. Qed.

Lemma dget_len {V} (d : dict V) k : (forall x, In x d -> String.length (fst x) <> String.length k) -> dget d k = None.
Proof.
  intros H. destruct (dget d k) eqn:E; [|reflexivity]. apply dget_In in E. exfalso. eapply H; eauto.
Qed.
Lemma methods_text load s d : load "" "" = Raise ValueError -> s <> "" ->
  endpoint_methods load (Some (AText s)) d = Raise ValueError.
Proof.
  intros L N. destruct s as [|c s]; [congruence|]. cbn [endpoint_methods authn_items chars map list_true client_auth_setup].
  unfold setup_one.
  assert (E1 : String.eqb (lower (String c "")) "none" = false).
  { apply seqb_neq. cbn. intros [=]. }
  rewrite E1. rewrite dget_len by (intros x H; cbn in H; repeat destruct H as [<-|H]; try (cbn; discriminate); destruct H).
  unfold importer, modsplit. cbn [contains starts_with].
  destruct (Ascii.eqb ":" c) eqn:E2.
  - apply Ascii.eqb_eq in E2. subst c. cbn. now rewrite L.
  - cbn [andb orb]. rewrite splitc_cons, splitc_nil. destruct (Ascii.eqb c ".") eqn:E3.
    + cbn. now rewrite L.
    + cbn. reflexivity.
Qed.

Lemma default_methods load d : In d shipped -> d <> Some userinfo_defaults -> endpoint_methods load None d = Ok [].
Proof.
  intros I N. cbn in I. repeat destruct I as [<-|I]; try reflexivity; [congruence|destruct I].
Qed.

(** What the methods mean for a request. *)
Lemma no_methods A now ep q hdr s : ep_methods ep = [] -> client_authentication A now ep q hdr s = (Ok None, s).
Proof. intros E. unfold client_authentication, verify_client. rewrite E. reflexivity. Qed.

Lemma only_none A now ep q hdr s : ep_methods ep = [MNone] -> ep_from_token ep = None ->
  match cr_client_id q with
  | Some c => c = "" \/ in_force A now c
  | None => True
  end ->
  exists i, client_authentication A now ep q hdr s = (Ok (Some i), s) /\ ai_client i = cr_client_id q.
Proof.
  intros E F C. unfold client_authentication, verify_client. rewrite E. cbn [try_methods].
  assert (U : is_usable MNone q hdr = false) by reflexivity. rewrite U. clear U.
  cbn [existsb is_none orb list_true]. rewrite F.
  destruct (cr_client_id q) as [c|] eqn:Q.
  - destruct C as [->|(sec & eta & D & V)].
    + eexists. split; [unfold bind, ret; cbn; reflexivity|reflexivity].
    + destruct (str_true c) eqn:T.
      * eexists. split; [unfold bind, ret, lift; cbn; rewrite T, D; cbn|].
        -- unfold valid_client_info. replace (negb (negb (Z.eqb eta 0) && Z.ltb eta now)) with true; [reflexivity|].
           destruct V as [->|V]; [reflexivity|]. destruct (Z.ltb_spec eta now); [lia|]. now rewrite andb_false_r.
        -- reflexivity.
      * destruct c; [|discriminate]. eexists. split; [unfold bind, ret; cbn; reflexivity|reflexivity].
  - eexists. split; [unfold bind, ret; cbn; reflexivity|reflexivity].
Qed.

Lemma demanded load A now ep q hdr s l d o s' :
  endpoint_methods load (Some (AItems l)) d = Ok (ep_methods ep) -> l <> [] ->
  (forall item, In item l -> ~ says_none item) ->
  (forall md a, load md a <> Ok MNone) ->
  client_authentication A now ep q hdr s = (Ok o, s') ->
  exists i item m, o = Some i /\ In item l /\ names_method load item m /\ m <> MNone /\ ai_method i = tag m.
Proof.
  intros E N H Ld C. apply methods_configured in E; [|exact N].
  assert (HN : forall item m, In item l -> names_method load item m -> m <> MNone).
  { intros item m I NM ->. inversion NM as [i U|s0 m' U|s0 md a m' U V W X]; subst.
    - eapply H; eauto.
    - inversion U.
    - eapply Ld; eauto. }
  assert (Hin : forall m, In m (ep_methods ep) -> exists item, In item l /\ names_method load item m).
  { clear -E. induction E as [|x m l ms R E IH]; [intros m []|]. intros m0 [<-|I].
    - exists x. split; [now left|exact R].
    - destruct (IH _ I) as (it & I1 & I2). exists it. split; [now right|exact I2]. }
  destruct o as [i|].
  - destruct (method_allowed _ _ _ _ _ _ _ _ C) as (m & I & Tg & _). destruct (Hin _ I) as (it & I1 & I2).
    exists i, it, m. split; [reflexivity|]. split; [exact I1|]. split; [exact I2|]. split; [eauto|exact Tg].
  - exfalso. unfold client_authentication in C. apply bind_ok in C as (o & s1 & V & C).
    destruct o as [i|]; [apply ret_inv in C as [C _]; discriminate|].
    destruct (ep_methods ep) as [|m ms] eqn:EM; [inversion E; subst; congruence|].
    cbn [list_true] in C. apply raise_inv in C as [C _]. discriminate.
Qed.

Lemma targets_own issuer paths n p : n <> "" -> dget paths n = Some p -> allowed_target_uris issuer paths [n] = Ok [p].
Proof.
  intros N D. cbn [allowed_target_uris]. apply seqb_neq in N. rewrite N, D. reflexivity.
Qed.
