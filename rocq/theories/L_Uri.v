(** Lemmas on the model of urllib.parse. *)
From Verif Require Import M_Base M_Uri S_Codec L_Base L_Split.

Lemma str_true_ne s : str_true s = true <-> s <> EmptyString.
Proof. destruct s; cbn; split; congruence. Qed.
Lemma str_true_no s : str_true s = false <-> s = EmptyString.
Proof. destruct s; cbn; split; congruence. Qed.

Lemma cut_at_app f s : append (fst (cut_at f s)) (snd (cut_at f s)) = s.
Proof.
  induction s as [|c s IH]; [reflexivity|]. cbn [cut_at]. destruct (f c); [reflexivity|].
  destruct (cut_at f s) as [a b]. cbn in *. now rewrite IH.
Qed.
Lemma cut_at_fst f s c : has_char c (fst (cut_at f s)) = true -> f c = false.
Proof.
  induction s as [|d s IH]; [discriminate|]. cbn [cut_at]. destruct (f d) eqn:E; [discriminate|].
  destruct (cut_at f s) as [a b]. cbn [fst] in *. cbn [has_char]. rewrite orb_true_iff. intros [H|H]; [|auto].
  apply Ascii.eqb_eq in H. now subst.
Qed.
Lemma cut_at_snd f s : snd (cut_at f s) = EmptyString \/ exists c r, snd (cut_at f s) = String c r /\ f c = true.
Proof.
  induction s as [|d s IH]; [now left|]. cbn [cut_at]. destruct (f d) eqn:E; [right; exists d, s; auto|].
  destruct (cut_at f s) as [a b]. exact IH.
Qed.
Lemma cut_at_here f a b : (forall c, has_char c a = true -> f c = false) ->
  (b = EmptyString \/ exists c r, b = String c r /\ f c = true) -> cut_at f (append a b) = (a, b).
Proof.
  intros Ha Hb. induction a as [|c a IH].
  - cbn [append]. destruct Hb as [->|(c & r & -> & E)]; [reflexivity|]. cbn. now rewrite E.
  - cbn [append cut_at]. rewrite (Ha c) by (cbn; now rewrite Ascii.eqb_refl).
    rewrite IH; [reflexivity|]. intros d Hd. apply Ha. cbn. rewrite Hd. apply orb_true_r.
Qed.

Lemma split1_none c s : split1 c s = None <-> has_char c s = false.
Proof.
  induction s as [|a s IH]; cbn; [tauto|]. destruct (Ascii.eqb a c); cbn; [split; discriminate|].
  destruct (split1 c s) as [[x y]|]; rewrite <- IH; split; congruence.
Qed.
Lemma split1_some c s x y : split1 c s = Some (x, y) <-> s = append x (String c y) /\ has_char c x = false.
Proof.
  split.
  - revert x. induction s as [|a s IH]; intros x; cbn; [discriminate|]. destruct (Ascii.eqb a c) eqn:E.
    + intros [= <- <-]. apply Ascii.eqb_eq in E. subst. auto.
    + destruct (split1 c s) as [[x' y']|]; [|discriminate]. intros [= <- <-].
      destruct (IH _ eq_refl) as [-> H]. cbn. rewrite E. auto.
  - intros [-> H]. induction x as [|a x IH]; cbn in *; [now rewrite Ascii.eqb_refl|].
    apply orb_false_iff in H as [H1 H2]. now rewrite H1, (IH H2).
Qed.

(** Reading a text up to a character, or to the end. *)
Lemma split_or_app c s : let (a, b) := split_or c s in
  has_char c a = false /\ (s = a /\ b = EmptyString \/ s = append a (String c b)).
Proof.
  unfold split_or. destruct (split1 c s) as [[x y]|] eqn:E.
  - apply split1_some in E as [-> H]. auto.
  - apply split1_none in E. auto.
Qed.

Lemma scheme_char_no c : netloc_end c = true \/ c = ":"%char -> scheme_char c = false.
Proof.
  intros [H| ->]; [|reflexivity]. unfold netloc_end in H. rewrite !orb_true_iff, !Ascii.eqb_eq in H.
  destruct H as [[->| ->]| ->]; reflexivity.
Qed.
Lemma all_chars_has f s : all_chars f s = true <-> forall c, has_char c s = true -> f c = true.
Proof.
  induction s as [|a s IH]; cbn; [split; [discriminate|auto]|]. rewrite andb_true_iff, IH. split.
  - intros [H1 H2] c H. apply orb_true_iff in H as [H|H]; [apply Ascii.eqb_eq in H; now subst|auto].
  - intros H. split; [apply H; now rewrite Ascii.eqb_refl|]. intros c Hc. apply H. rewrite Hc. apply orb_true_r.
Qed.
Lemma scheme_no_colon s : all_chars scheme_char s = true -> has_char ":" s = false.
Proof.
  intros H. destruct (has_char ":" s) eqn:E; [|reflexivity]. rewrite all_chars_has in H. apply H in E. discriminate.
Qed.

Lemma lower_char_scheme c : scheme_char (lower_char c) = scheme_char c.
Proof.
  destruct c as [[] [] [] [] [] [] [] []]; reflexivity.
Qed.
Lemma lower_scheme s : all_chars scheme_char (lower s) = all_chars scheme_char s.
Proof. induction s as [|c s IH]; [reflexivity|]. cbn. now rewrite lower_char_scheme, IH. Qed.
Lemma lower_ne s : lower s <> EmptyString <-> s <> EmptyString.
Proof. destruct s; cbn; split; congruence. Qed.

(** Texts cut at the first colon agree. *)
Lemma colon_cut a b x y : has_char ":" a = false -> has_char ":" b = false ->
  append a (append ":" x) = append b (append ":" y) -> a = b /\ x = y.
Proof.
  intros Ha Hb E. assert (split1 ":" (append a (String ":" x)) = Some (a, x)) as E1 by (apply split1_some; auto).
  assert (split1 ":" (append b (String ":" y)) = Some (b, y)) as E2 by (apply split1_some; auto).
  change (append a (append ":" x)) with (append a (String ":" x)) in E.
  change (append b (append ":" y)) with (append b (String ":" y)) in E. rewrite E in E1. rewrite E1 in E2.
  injection E2. auto.
Qed.

Lemma starts_slashes s : starts_with "//" s = true <-> exists r, s = append "//" r.
Proof. apply starts_with_spec. Qed.

(** What urlsplit gives, and how the text was made of it. *)
Inductive splits : string -> usplit -> Prop :=
| splits_intro u sch sch' netloc path q f sp np qp fp :
    u = append sp (append np (append path (append qp fp))) ->
    ((sch = EmptyString /\ sp = EmptyString /\
      (forall a b, u = append a (append ":" b) -> a <> EmptyString -> all_chars scheme_char a = false)) \/
     (sch' <> EmptyString /\ all_chars scheme_char sch' = true /\ sch = lower sch' /\ sp = append sch' ":")) ->
    ((netloc = EmptyString /\ np = EmptyString /\ starts_with "//" (append path (append qp fp)) = false) \/
     (np = append "//" netloc /\ (forall c, has_char c netloc = true -> netloc_end c = false) /\
      (path = EmptyString \/ exists p, path = append "/" p))) ->
    has_char "?" path = false -> has_char "#" path = false ->
    ((qp = EmptyString /\ q = EmptyString) \/ qp = append "?" q) -> has_char "#" q = false ->
    ((fp = EmptyString /\ f = EmptyString) \/ fp = append "#" f) ->
    splits u (mkUsplit sch netloc path q f).

Lemma has_app c a b : has_char c (append a b) = has_char c a || has_char c b.
Proof. induction a as [|x a IH]; [reflexivity|]. cbn. now rewrite IH, orb_assoc. Qed.

Lemma urlsplit_splits u p : urlsplit u = Ok p -> splits (remove_chars unsafe_char u) p.
Proof.
  unfold urlsplit. set (v := remove_chars unsafe_char u). clearbody v.
  destruct (split_scheme v) as [scheme r1] eqn:E1. destruct (split_netloc r1) as [netloc r2] eqn:E2.
  destruct (Bool.eqb _ _); [|discriminate].
  pose proof (split_or_app "#" r2) as A. destruct (split_or "#" r2) as [r3 frag]. destruct A as [Nf Af].
  pose proof (split_or_app "?" r3) as B. destruct (split_or "?" r3) as [path query]. destruct B as [Nq Bq].
  intros [= <-].
  assert (X : exists qp fp, r2 = append path (append qp fp) /\
    ((qp = EmptyString /\ query = EmptyString) \/ qp = append "?" query) /\
    ((fp = EmptyString /\ frag = EmptyString) \/ fp = append "#" frag) /\ has_char "#" path = false /\ has_char "#" query = false).
  { assert (Y : has_char "#" path = false /\ has_char "#" query = false).
    { destruct Bq as [[-> ->]| ->]; [auto|]. rewrite has_app in Nf. cbn [has_char] in Nf. apply orb_false_iff in Nf as [N1 N2].
      split; [exact N1|exact N2]. }
    destruct Y as [Y1 Y2].
    destruct Bq as [[-> ->]| ->], Af as [[-> ->]| ->].
    - exists EmptyString, EmptyString. rewrite !sapp_nil_r. auto 10.
    - exists EmptyString, (append "#" frag). auto 10.
    - exists (append "?" query), EmptyString. rewrite !sapp_nil_r. auto 10.
    - exists (append "?" query), (append "#" frag). rewrite <- !sapp_assoc. auto 10. }
  destruct X as (qp & fp & -> & Q & F & Np & Nqq).
  assert (S : exists sp sch', v = append sp r1 /\ ((scheme = EmptyString /\ sp = EmptyString /\
      (forall a b, v = append a (append ":" b) -> a <> EmptyString -> all_chars scheme_char a = false)) \/
     (sch' <> EmptyString /\ all_chars scheme_char sch' = true /\ scheme = lower sch' /\ sp = append sch' ":"))).
  { unfold split_scheme in E1. destruct (split1 ":" v) as [[s r]|] eqn:Es.
    - destruct (str_true s && all_chars scheme_char s) eqn:Ec.
      + injection E1 as <- <-. apply andb_true_iff in Ec as [Ec1 Ec2]. apply str_true_ne in Ec1.
        apply split1_some in Es as [-> _]. exists (append s ":"), s. split; [now rewrite <- sapp_assoc|]. right. auto.
      + injection E1 as <- <-. exists EmptyString, EmptyString. split; [reflexivity|]. left.
        split; [reflexivity|]. split; [reflexivity|]. intros a b E Ha. apply split1_some in Es as [Ev Hs].
        destruct (all_chars scheme_char a) eqn:Ea; [|reflexivity].
        assert (a = s /\ b = r) as [-> ->].
        { apply (colon_cut a s b r); [now apply scheme_no_colon|exact Hs|]. rewrite <- E, Ev. reflexivity. }
        apply andb_false_iff in Ec as [Ec|Ec]; [apply str_true_no in Ec; congruence|congruence].
    - injection E1 as <- <-. exists EmptyString, EmptyString. split; [reflexivity|]. left.
      split; [reflexivity|]. split; [reflexivity|]. intros a b E Ha. apply split1_none in Es. rewrite E, has_app in Es.
      apply orb_false_iff in Es as [_ Es]. discriminate. }
  destruct S as (sp & sch' & -> & S).
  unfold split_netloc in E2. destruct (starts_with "//" r1) eqn:Er.
  - apply starts_slashes in Er as [r ->]. change (drop 2 (append "//" r)) with r in E2.
    pose proof (cut_at_app netloc_end r) as C1. pose proof (cut_at_fst netloc_end r) as C2. pose proof (cut_at_snd netloc_end r) as C3.
    rewrite E2 in C1, C2, C3. cbn [fst snd] in C1, C2, C3.
    eapply (splits_intro _ scheme sch' netloc path query frag sp (append "//" netloc) qp fp); eauto.
    + rewrite <- sapp_assoc, C1. reflexivity.
    + right. split; [reflexivity|]. split; [exact C2|]. destruct path as [|c path]; [now left|]. right.
      destruct C3 as [C3|(c' & r' & C3 & C4)]; [discriminate|]. injection C3 as -> _.
      unfold netloc_end in C4. cbn [has_char] in Nq, Np. apply orb_false_iff in Nq as [Nq _], Np as [Np _].
      rewrite Nq, Np, !orb_false_r in C4. apply Ascii.eqb_eq in C4. subst c'. exists path. reflexivity.
  - injection E2 as En Er1. subst netloc r1.
    eapply (splits_intro _ scheme sch' EmptyString path query frag sp EmptyString qp fp); eauto.
Qed.
