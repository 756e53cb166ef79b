(** Proofs about the codecs. *)
From Verif Require Import M_Base M_Codec L_Base S_Codec.

(** ** White space *)
Lemma is_space_spec c : is_space c = true <-> In (nat_of_ascii c) white_space.
Proof.
  destruct c as [b0 b1 b2 b3 b4 b5 b6 b7].
  destruct b0, b1, b2, b3, b4, b5, b6, b7; vm_compute; split; intros H;
    try reflexivity; try discriminate;
    try (repeat first [left; reflexivity | right]; fail);
    repeat (destruct H as [H|H]; [try discriminate H|]); try reflexivity; try contradiction.
Qed.

Lemma rstrip_nonspace s :
  ~ ends_in_white_space s -> rstrip is_space s = s.
Proof.
  induction s as [|c s IH]; intros H; [reflexivity|]. cbn.
  destruct s as [|c' s'].
  - cbn. destruct (is_space c) eqn:E; [|reflexivity].
    exfalso. apply H. exists EmptyString, c. split; [reflexivity|]. now apply is_space_spec.
  - rewrite IH; [reflexivity|]. intros [a [d [Ha Hd]]]. apply H.
    exists (String c a), d. rewrite Ha. split; [reflexivity|exact Hd].
Qed.

Lemma rstrip_not_ends s : ~ ends_in_white_space (rstrip is_space s).
Proof.
  induction s as [|c s IH]; cbn.
  - intros [a [d [Ha _]]]. destruct a; discriminate.
  - destruct (rstrip is_space s) as [|c' s'] eqn:E.
    + destruct (is_space c) eqn:Ec.
      * intros [a [d [Ha _]]]. destruct a; discriminate.
      * intros [a [d [Ha Hd]]]. destruct a as [|a0 a]; cbn in Ha.
        -- injection Ha as <-. apply is_space_spec in Hd. congruence.
        -- injection Ha as _ Ha. destruct a; discriminate.
    + intros [a [d [Ha Hd]]]. destruct a as [|a0 a]; cbn in Ha; [discriminate|].
      injection Ha as <- Ha. apply IH. exists a, d. split; assumption.
Qed.

Lemma rstrip_eq_iff s : rstrip is_space s = s <-> ~ ends_in_white_space s.
Proof.
  split; [|apply rstrip_nonspace]. intros <-. apply rstrip_not_ends.
Qed.

(** ** Length-value packing *)
Lemma slice_to_len a b : slice_to (append a b) (Z.of_N (N.of_nat (String.length a))) = a.
Proof.
  unfold slice_to, slice_pos.
  destruct (Z.of_N (N.of_nat (String.length a)) <? 0)%Z eqn:E; [apply Z.ltb_lt in E; lia|].
  replace (Z.to_nat _) with (String.length a) by lia. apply take_app.
Qed.

Lemma slice_from_len a b : slice_from (append a b) (Z.of_N (N.of_nat (String.length a))) = b.
Proof.
  unfold slice_from, slice_pos.
  destruct (Z.of_N (N.of_nat (String.length a)) <? 0)%Z eqn:E; [apply Z.ltb_lt in E; lia|].
  replace (Z.to_nat _) with (String.length a) by lia. apply drop_app.
Qed.

Lemma slice_short s n :
  (String.length s <= n)%nat ->
  slice_to s (Z.of_N (N.of_nat n)) = s /\ slice_from s (Z.of_N (N.of_nat n)) = EmptyString.
Proof.
  intros H. unfold slice_to, slice_from, slice_pos.
  destruct (Z.of_N (N.of_nat n) <? 0)%Z eqn:E; [apply Z.ltb_lt in E; lia|].
  replace (Z.to_nat _) with n by lia. split; [now apply take_ge|now apply drop_ge].
Qed.

Lemma show_cons n r : exists c s, append (show_N n) r = String c s /\ is_space c = false.
Proof.
  pose proof (show_N_digits n) as Hd. pose proof (show_N_ne n) as Hne.
  destruct (show_N n) as [|c s]; [congruence|]. destruct Hd as [Hc _].
  exists c, (append s r). split; [reflexivity|now apply digit_not_space].
Qed.

Lemma lv_loop_step fuel n v :
  lv_loop (S fuel) (append (show_N n) (String ":" v)) =
  rbind (lv_loop fuel (slice_from v (Z.of_N n))) (fun rest => Ok (slice_to v (Z.of_N n) :: rest)).
Proof.
  destruct (show_cons n (String ":" v)) as [c [s [Hc _]]].
  rewrite Hc. cbn [lv_loop]. rewrite <- Hc.
  rewrite split1_app by apply show_N_no_colon. now rewrite py_int_show.
Qed.

(** The loop on a packed list followed by the packed last value cut short. *)
Lemma lv_loop_pack_cut init a t fuel :
  (exists u, a = append t u) ->
  let txt := append (lv_pack init)
                    (append (show_N (N.of_nat (String.length a))) (String ":" t)) in
  (String.length txt <= fuel)%nat -> lv_loop fuel txt = Ok (init ++ [t]).
Proof.
  intros [u Hu] txt Hf. subst txt. revert fuel Hf.
  induction init as [|x init IH]; intros fuel Hf; cbn [lv_pack append] in *.
  - assert (Hpos : (1 <= fuel)%nat).
    { rewrite sapp_length in Hf. cbn in Hf. lia. }
    destruct fuel as [|fuel]; [lia|]. rewrite lv_loop_step.
    destruct (slice_short t (String.length a)) as [H1 H2].
    { subst a. rewrite sapp_length. lia. }
    rewrite H1, H2. destruct fuel; reflexivity.
  - rewrite <- sapp_assoc in Hf |- *. cbn [append] in *.
    assert (Hpos : (1 <= fuel)%nat).
    { rewrite sapp_length in Hf. cbn in Hf. lia. }
    destruct fuel as [|fuel]; [lia|]. rewrite lv_loop_step.
    rewrite <- sapp_assoc in Hf |- *.
    rewrite slice_to_len, slice_from_len.
    rewrite IH; [reflexivity|].
    rewrite sapp_length in Hf. cbn in Hf. rewrite sapp_length in Hf. lia.
Qed.

Lemma lv_pack_app a b : lv_pack (a ++ b) = append (lv_pack a) (lv_pack b).
Proof.
  induction a as [|x a IH]; cbn; [reflexivity|].
  rewrite IH. rewrite <- sapp_assoc. cbn. now rewrite <- sapp_assoc.
Qed.

Lemma lv_pack_lstrip init a : lstrip is_space (lv_pack (init ++ [a])) = lv_pack (init ++ [a]).
Proof.
  destruct init as [|x init]; cbn [app lv_pack];
    match goal with |- context [append (show_N ?n) ?r] =>
      destruct (show_cons n r) as [c [s [-> Hc]]] end; cbn; now rewrite Hc.
Qed.

Lemma lv_pack_rstrip init a :
  rstrip is_space (lv_pack (init ++ [a])) =
  append (lv_pack init)
         (append (show_N (N.of_nat (String.length a))) (String ":" (rstrip is_space a))).
Proof.
  rewrite lv_pack_app. cbn [lv_pack]. rewrite sapp_nil_r.
  assert (Hc : rstrip is_space (String ":" a) = String ":" (rstrip is_space a)).
  { cbn [rstrip]. destruct (rstrip is_space a); reflexivity. }
  rewrite rstrip_app_ne, rstrip_app_ne, Hc; try congruence; try reflexivity.
  rewrite rstrip_app_ne by congruence.
  destruct (show_cons (N.of_nat (String.length a)) (rstrip is_space (String ":" a)))
    as [c [s [-> _]]]. discriminate.
Qed.

Lemma strip_lv_pack init a :
  py_strip (lv_pack (init ++ [a])) =
  append (lv_pack init)
         (append (show_N (N.of_nat (String.length a))) (String ":" (rstrip is_space a))).
Proof. unfold py_strip. rewrite lv_pack_lstrip. apply lv_pack_rstrip. Qed.

Lemma lv_unpack_pack_last init a :
  lv_unpack (lv_pack (init ++ [a])) = Ok (init ++ [rstrip is_space a]).
Proof.
  unfold lv_unpack. rewrite strip_lv_pack.
  apply (lv_loop_pack_cut init a (rstrip is_space a)); [|apply le_n].
  destruct (rstrip_prefix is_space a) as [t [Ht _]]. now exists t.
Qed.

Lemma list_last_case {A} (l : list A) : l = [] \/ exists i a, l = i ++ [a].
Proof.
  destruct l as [|x l] using rev_ind; [now left|right; eauto].
Qed.

Lemma lv_roundtrip_iff l :
  lv_unpack (lv_pack l) = Ok l <->
  (forall init a, l = init ++ [a] -> ~ ends_in_white_space a).
Proof.
  destruct (list_last_case l) as [->|[i [a ->]]].
  - split; [|reflexivity]. intros _ init a H. destruct init; discriminate.
  - rewrite lv_unpack_pack_last. split.
    + intros [= H] init b Hb. apply app_inj_tail in Hb as [-> ->].
      apply app_inj_tail in H as [_ H]. now apply rstrip_eq_iff.
    + intros H. specialize (H i a eq_refl). apply rstrip_eq_iff in H. now rewrite H.
Qed.

Lemma lv_pack_inj a b :
  lv_pack a = lv_pack b -> a = b.
Proof.
  (* append an extra last value so that no stripping happens *)
  intros H.
  assert (Hx : lv_unpack (lv_pack (a ++ ["x"])) = lv_unpack (lv_pack (b ++ ["x"]))).
  { rewrite !lv_pack_app. now rewrite H. }
  rewrite !lv_unpack_pack_last in Hx. injection Hx as Hx.
  now apply app_inj_tail in Hx as [-> _].
Qed.

(** ** The padded ciphertext *)
Lemma blanks_has_char n c : has_char c (blanks n) = true -> is_blank c = true.
Proof.
  induction n as [|n IH]; cbn [blanks has_char]; [discriminate|].
  rewrite orb_true_iff. intros [H|H]; [|auto].
  apply Ascii.eqb_eq in H. subst. reflexivity.
Qed.

Lemma encrypt_blocks c key nonce text :
  exists n, crypt_encrypt c key nonce text = fenc c key nonce (append text (blanks n))
    /\ n < 16 /\ Nat.modulo (String.length text + n) 16 = 0.
Proof.
  unfold crypt_encrypt, pad16. destruct (Nat.eqb_spec (Nat.modulo (String.length text) 16) 0) as [E|E].
  - exists 0. cbn [blanks]. rewrite Nat.add_0_r. split; [|split; [lia|exact E]]. f_equal. clear.
    induction text; cbn; congruence.
  - exists (16 - Nat.modulo (String.length text) 16). split; auto.
    pose proof (Nat.mod_upper_bound (String.length text) 16 ltac:(lia)). split; [lia|].
    rewrite Nat.add_mod by lia. rewrite (Nat.mod_small (16 - _)) by lia.
    replace (_ + _) with 16 by lia. reflexivity.
Qed.
Lemma rstrip_pad16 s : rstrip is_blank (pad16 s) = rstrip is_blank s.
Proof.
  unfold pad16. destruct (Nat.eqb _ 0); [reflexivity|].
  apply rstrip_app_all. intros c Hc. eapply blanks_has_char, Hc.
Qed.

Lemma strip_rstrip_blank s :
  lstrip is_space s = s -> (rstrip is_blank s <> EmptyString) ->
  py_strip (rstrip is_blank s) = py_strip s.
Proof.
  intros Hl Hne. unfold py_strip. rewrite Hl.
  assert (H1 : lstrip is_space (rstrip is_blank s) = rstrip is_blank s).
  { destruct s as [|c s]; [reflexivity|]. cbn [lstrip] in Hl.
    destruct (is_space c) eqn:Ec.
    - exfalso. assert (Hlen : String.length (lstrip is_space s) = String.length (String c s))
        by now rewrite Hl.
      assert (Hle : (String.length (lstrip is_space s) <= String.length s)%nat).
      { clear. induction s as [|d s IH]; cbn; [lia|]. destruct (is_space d); cbn; lia. }
      cbn in Hlen. lia.
    - cbn [rstrip] in *. destruct (rstrip is_blank s).
      + destruct (is_blank c); [congruence|]. cbn. now rewrite Ec.
      + cbn. now rewrite Ec. }
  rewrite H1. apply rstrip_weaken. exact blank_space.
Qed.

Lemma crypt_roundtrip c key nonce text :
  fernet_correct c ->
  crypt_decrypt c key (crypt_encrypt c key nonce text) = Some (rstrip is_blank text).
Proof.
  intros Hf. unfold crypt_decrypt, crypt_encrypt. rewrite Hf. cbn.
  now rewrite rstrip_pad16.
Qed.

Lemma lv_pack_rstrip_blank_ne init a : rstrip is_blank (lv_pack (init ++ [a])) <> EmptyString.
Proof.
  intros H.
  pose proof (rstrip_weaken is_blank is_space (lv_pack (init ++ [a])) blank_space) as Hw.
  rewrite H in Hw. cbn in Hw. rewrite lv_pack_rstrip in Hw.
  destruct (lv_pack init); cbn in Hw; [|discriminate].
  destruct (show_cons (N.of_nat (String.length a)) (String ":" (rstrip is_space a)))
    as [d [s [E _]]]. rewrite E in Hw. discriminate.
Qed.

Lemma lv_unpack_rstrip init a :
  lv_unpack (rstrip is_blank (lv_pack (init ++ [a]))) = Ok (init ++ [rstrip is_space a]).
Proof.
  unfold lv_unpack. rewrite strip_rstrip_blank.
  - apply lv_unpack_pack_last.
  - apply lv_pack_lstrip.
  - apply lv_pack_rstrip_blank_ne.
Qed.

(** ** Session keys *)
Definition nodiv (s : string) : Prop := contains DIVIDER s = false.

Lemma nodiv_spec s : nodiv s <-> ~ occurs_in ";;" s.
Proof.
  unfold nodiv, occurs_in. rewrite <- contains_spec. unfold DIVIDER.
  destruct (contains _ s); split; intros; congruence.
Qed.

Lemma split_cons_nomatch c s :
  starts_with DIVIDER (String c s) = false ->
  py_split DIVIDER (String c s) = cons_head c (py_split DIVIDER s).
Proof. intros H. unfold py_split at 1. cbn [split_go]. now rewrite H. Qed.

Lemma split_div s : py_split DIVIDER (append DIVIDER s) = EmptyString :: py_split DIVIDER s.
Proof. reflexivity. Qed.

Lemma split_ne s : py_split DIVIDER s <> [].
Proof.
  unfold py_split. assert (H : forall k, split_go DIVIDER s k <> []); [|apply H].
  induction s as [|c s IH]; intros k; cbn [split_go]; [discriminate|].
  destruct k; [|apply IH]. destruct (starts_with _ _); [discriminate|].
  destruct (split_go DIVIDER s 0); discriminate.
Qed.

Lemma nodiv_cons c s : nodiv (String c s) -> starts_with DIVIDER (String c s) = false /\ nodiv s.
Proof.
  unfold nodiv. cbn [contains]. rewrite orb_false_iff. tauto.
Qed.

Lemma split_nodiv s : nodiv s -> py_split DIVIDER s = [s].
Proof.
  induction s as [|c s IH]; intros H; [reflexivity|].
  apply nodiv_cons in H as [H1 H2]. rewrite split_cons_nomatch by exact H1.
  now rewrite (IH H2).
Qed.

Definition semi : ascii := ";".

Lemma ends_semi_cons c s : ~ ends_in ";" (String c s) -> s <> EmptyString -> ~ ends_in ";" s.
Proof.
  intros H _ [a Ha]. apply H. exists (String c a). now rewrite Ha.
Qed.

Lemma split_join_step x y :
  nodiv x -> ~ ends_in ";" x ->
  py_split DIVIDER (append x (append DIVIDER y)) = x :: py_split DIVIDER y.
Proof.
  induction x as [|c x IH]; intros Hn He; [apply split_div|].
  apply nodiv_cons in Hn as [Hs Hn]. cbn [append].
  destruct x as [|c' x'].
  - cbn [append]. rewrite split_cons_nomatch.
    + now rewrite split_div.
    + cbn [starts_with DIVIDER]. destruct (Ascii.eqb ";" c) eqn:E; [|reflexivity].
      exfalso. apply Ascii.eqb_eq in E. subst c. apply He. exists EmptyString. reflexivity.
  - rewrite split_cons_nomatch.
    + rewrite IH; [reflexivity|exact Hn|].
      apply (ends_semi_cons c); [exact He|discriminate].
    + exact Hs.
Qed.

Lemma split_join_ok l : l <> [] -> separable l -> py_split DIVIDER (py_join DIVIDER l) = l.
Proof.
  induction l as [|x l IH]; [congruence|]. intros _ [Hd He].
  destruct l as [|y l].
  - cbn [py_join]. apply split_nodiv, nodiv_spec, Hd. now left.
  - change (py_join DIVIDER (x :: y :: l)) with
      (append x (append DIVIDER (py_join DIVIDER (y :: l)))).
    rewrite split_join_step.
    + rewrite IH; [reflexivity|discriminate|]. split.
      * intros z Hz. apply Hd. now right.
      * intros pre a b post Hl. apply (He (x :: pre) a b post). now rewrite Hl.
    + apply nodiv_spec, Hd. now left.
    + apply (He [] x y l). reflexivity.
Qed.

(** What a split produces is separable. *)
Lemma nodiv_consI c s : starts_with DIVIDER (String c s) = false -> nodiv s -> nodiv (String c s).
Proof. unfold nodiv. cbn [contains]. now intros -> ->. Qed.

Lemma split_join_id s : py_join DIVIDER (py_split DIVIDER s) = s.
Proof.
  remember (String.length s) as n eqn:Hn. revert s Hn.
  induction n as [n IH] using lt_wf_ind. intros s Hn.
  destruct s as [|c s]; [reflexivity|].
  destruct (starts_with DIVIDER (String c s)) eqn:E.
  - apply starts_with_spec in E as [t Ht]. rewrite Ht. rewrite split_div.
    pose proof (split_ne t) as Hne.
    assert (Hj : py_join DIVIDER (EmptyString :: py_split DIVIDER t) =
                 append DIVIDER (py_join DIVIDER (py_split DIVIDER t)))
      by (destruct (py_split DIVIDER t); [congruence|reflexivity]).
    rewrite Hj. rewrite (IH (String.length t)); [reflexivity| |reflexivity].
    subst n. rewrite Ht. cbn. lia.
  - rewrite split_cons_nomatch by exact E.
    pose proof (split_ne s) as Hne.
    assert (Hj : py_join DIVIDER (cons_head c (py_split DIVIDER s)) =
                 String c (py_join DIVIDER (py_split DIVIDER s))).
    { destruct (py_split DIVIDER s) as [|a [|b r]]; [congruence|reflexivity|reflexivity]. }
    rewrite Hj. f_equal. apply (IH (String.length s)); [subst n; cbn; lia|reflexivity].
Qed.

Lemma split_elems s :
  (forall x, In x (py_split DIVIDER s) -> nodiv x) /\
  (forall x y r, py_split DIVIDER s = x :: y :: r -> nodiv (append x ";")) /\
  (forall pre x y post, py_split DIVIDER s = pre ++ x :: y :: post -> ~ ends_in ";" x).
Proof.
  remember (String.length s) as n eqn:Hn. revert s Hn.
  induction n as [n IH] using lt_wf_ind. intros s Hn.
  destruct s as [|c s].
  - cbn. split; [|split].
    + intros x [<-|[]]. reflexivity.
    + discriminate.
    + intros [|p [|q pre]] x y post H; discriminate.
  - destruct (starts_with DIVIDER (String c s)) eqn:E.
    + apply starts_with_spec in E as [t Ht]. rewrite Ht. rewrite split_div.
      assert (Hlt : (String.length t < n)%nat) by (subst n; rewrite Ht; cbn; lia).
      destruct (IH _ Hlt t eq_refl) as [H1 [H2 H3]].
      split; [|split].
      * intros x [<-|Hx]; [reflexivity|now apply H1].
      * intros x y r [= <- _]. reflexivity.
      * intros [|p pre] x y post Hp; cbn in Hp.
        -- injection Hp as <- _. intros [[|a0 a] Ha]; discriminate.
        -- injection Hp as _ Hp. eapply H3, Hp.
    + rewrite split_cons_nomatch by exact E.
      assert (Hlt : (String.length s < n)%nat) by (subst n; cbn; lia).
      destruct (IH _ Hlt s eq_refl) as [H1 [H2 H3]].
      pose proof (split_join_id s) as Hj.
      pose proof (split_ne s) as Hne.
      destruct (py_split DIVIDER s) as [|z r] eqn:Es; [congruence|]. cbn [cons_head].
      assert (Hz : forall w, (exists u, s = append (append z w) u) ->
                             starts_with DIVIDER (String c (append z w)) = false).
      { intros w [u Hu]. destruct (starts_with DIVIDER (String c (append z w))) eqn:E2; [|reflexivity].
        apply starts_with_spec in E2 as [v Hv]. exfalso.
        assert (Hx : starts_with DIVIDER (String c s) = true).
        { apply starts_with_spec. exists (append v u). rewrite Hu.
          change (String c (append (append z w) u)) with (append (String c (append z w)) u).
          rewrite Hv. now rewrite sapp_assoc. }
        congruence. }
      assert (Hcz : nodiv (String c z)).
      { apply nodiv_consI; [|apply H1; now left].
        rewrite <- (sapp_nil_r z). apply Hz. rewrite sapp_nil_r.
        destruct r as [|y r]; cbn [py_join] in Hj; [exists EmptyString; now rewrite sapp_nil_r|].
        eexists. symmetry. exact Hj. }
      assert (Hsemi : forall y r', r = y :: r' -> nodiv (append (String c z) ";")).
      { intros y r' ->. cbn [append]. apply nodiv_consI.
        - apply Hz. exists (append ";" (py_join DIVIDER (y :: r'))).
          rewrite <- Hj at 1. cbn [py_join DIVIDER append]. rewrite <- sapp_assoc. reflexivity.
        - eapply H2. reflexivity. }
      split; [|split].
      * intros x [<-|Hx]; [exact Hcz|]. apply H1. now right.
      * intros x y r' [= <- ->]. eapply Hsemi. reflexivity.
      * intros [|p pre] x y post Hp; cbn in Hp.
        -- injection Hp as <- ->. intros [a Ha].
           specialize (Hsemi _ _ eq_refl). apply nodiv_spec in Hsemi. apply Hsemi.
           exists a, EmptyString. rewrite Ha. now rewrite <- sapp_assoc.
        -- injection Hp as _ Hp. eapply (H3 (z :: pre)). cbn. now rewrite Hp.
Qed.

Lemma session_key_roundtrip_iff l :
  l <> [] -> (unpack_session_key (session_key l) = l <-> separable l).
Proof.
  intros Hne. unfold unpack_session_key, session_key. split.
  - intros H. destruct (split_elems (py_join DIVIDER l)) as [H1 [_ H3]].
    rewrite H in H1, H3. split; [|exact H3].
    intros x Hx. apply nodiv_spec, H1, Hx.
  - now apply split_join_ok.
Qed.

Lemma session_key_inj l1 l2 :
  l1 <> [] -> l2 <> [] -> separable l1 -> separable l2 ->
  session_key l1 = session_key l2 -> l1 = l2.
Proof.
  intros N1 N2 H1 H2 H.
  apply (session_key_roundtrip_iff l1 N1) in H1.
  apply (session_key_roundtrip_iff l2 N2) in H2. congruence.
Qed.

(** ** Encrypted session identifiers *)
Lemma ends_white_key l a :
  ~ ends_in_white_space a -> a <> EmptyString -> ~ ends_in_white_space (session_key (l ++ [a])).
Proof.
  intros Ha Hne. unfold session_key.
  assert (Hx : exists p, py_join DIVIDER (l ++ [a]) = append p a).
  { induction l as [|x l [p IH]]; [exists EmptyString; reflexivity|].
    cbn [app]. destruct (l ++ [a]) as [|b r] eqn:E; [destruct l; discriminate|].
    exists (append x (append DIVIDER p)).
    change (py_join DIVIDER (x :: b :: r)) with (append x (append DIVIDER (py_join DIVIDER (b :: r)))).
    rewrite IH. now rewrite !sapp_assoc. }
  destruct Hx as [p ->]. clear l.
  intros [b [c [Hb Hc]]]. apply Ha.
  assert (Hlast : exists a', a = append a' (String c EmptyString)).
  { clear -Hb Hne. revert b Hb. induction p as [|d p IH]; intros b Hb; cbn in Hb.
    - now exists b.
    - destruct b as [|e b]; cbn in Hb.
      + injection Hb as _ Hb. destruct p; cbn in Hb; [subst a; congruence|discriminate].
      + injection Hb as _ Hb. eapply IH, Hb. }
  destruct Hlast as [a' ->]. exists a', c. split; [reflexivity|exact Hc].
Qed.

Lemma decrypt_encrypt_key c key rnd nonce args :
  fernet_correct c -> base64_correct c ->
  ~ ends_in_white_space (session_key args) ->
  decrypt_session_id c key (encrypted_session_id c key rnd nonce args) =
  Ok (unpack_session_key (session_key args)).
Proof.
  intros Hf Hb Hw. unfold decrypt_session_id, encrypted_session_id.
  rewrite Hb, crypt_roundtrip by exact Hf.
  change [rnd; session_key args] with ([rnd] ++ [session_key args]).
  rewrite lv_unpack_rstrip. cbn. f_equal. f_equal. now apply rstrip_eq_iff.
Qed.

Lemma decrypt_encrypt c key rnd nonce u k g :
  fernet_correct c -> base64_correct c ->
  separable [u; k; g] -> g <> EmptyString -> ~ ends_in_white_space g ->
  decrypt_session_id c key (encrypted_session_id c key rnd nonce [u; k; g]) = Ok [u; k; g].
Proof.
  intros Hf Hb Hs Hne Hw. rewrite decrypt_encrypt_key; try assumption.
  - f_equal. apply session_key_roundtrip_iff; [discriminate|exact Hs].
  - change [u; k; g] with ([u; k] ++ [g]). now apply ends_white_key.
Qed.

Lemma decrypt_only_authentic c key sid l :
  decrypt_session_id c key sid = Ok l -> accepted_by c key sid.
Proof.
  unfold decrypt_session_id, crypt_decrypt, accepted_by.
  destruct (b64d c sid) as [ct|]; [|discriminate].
  destruct (fdec c key ct) as [p|] eqn:E; [|discriminate].
  intros _. now exists ct, p.
Qed.

Lemma decrypt_reject c key sid :
  ~ accepted_by c key sid -> decrypt_session_id c key sid = Raise ValueError.
Proof.
  intros H. unfold decrypt_session_id, crypt_decrypt.
  destruct (b64d c sid) as [ct|] eqn:E1; [|reflexivity].
  destruct (fdec c key ct) as [p|] eqn:E2; [|reflexivity].
  exfalso. apply H. now exists ct, p.
Qed.

(** ** The toy cryptography satisfies the laws *)
Lemma lv_loop_pack_exact init a :
  lv_loop (String.length (lv_pack (init ++ [a]))) (lv_pack (init ++ [a])) = Ok (init ++ [a]).
Proof.
  pose proof (lv_loop_pack_cut init a a (String.length (lv_pack (init ++ [a])))) as H.
  cbn zeta in H.
  assert (Hp : append (lv_pack init)
                 (append (show_N (N.of_nat (String.length a))) (String ":" a)) =
               lv_pack (init ++ [a])).
  { rewrite lv_pack_app. cbn [lv_pack]. now rewrite sapp_nil_r. }
  rewrite Hp in H. apply H; [|apply le_n].
  exists EmptyString. now rewrite sapp_nil_r.
Qed.

Lemma toy_fernet : fernet_correct toy_crypto.
Proof.
  intros key nonce text. unfold toy_crypto, fenc, fdec.
  assert (H1 : split1 ":" (lv_pack [key; text]) =
               Some (show_N (N.of_nat (String.length key)), append key (lv_pack [text])))
    by (cbn [lv_pack]; apply split1_app, show_N_no_colon).
  rewrite H1.
  change [key; text] with ([key] ++ [text]). rewrite lv_loop_pack_exact. cbn.
  now rewrite seqb_refl.
Qed.

Lemma toy_base64 : base64_correct toy_crypto.
Proof. intros s. reflexivity. Qed.
