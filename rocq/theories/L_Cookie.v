(** Lemmas on cookies. *)
From Verif Require Import M_Base M_Codec M_Cookie S_Codec S_Hex S_Cookie L_Base L_Codec L_Split L_Split2.

Lemma rbind_okc {A B} (x : res A) (f : A -> res B) b :
  rbind x f = Ok b <-> exists a, x = Ok a /\ f a = Ok b.
Proof. destruct x; cbn; split; [eauto|intros (? & [= ->] & ?); auto|discriminate|intros (? & ? & ?); discriminate]. Qed.

(** What the content check accepts. *)
Lemma ver_dec_vouched L h v payload ts :
  ver_dec_content L h (py_split "|" v) = Ok (Some (payload, ts)) <-> vouched L h v payload ts.
Proof.
  split.
  - intros V. pose proof (splitc_join "|" v) as J. pose proof (splitc_elems "|" v) as El.
    destruct (py_split "|" v) as [|p0 [|p1 [|p2 [|p3 [|p4 r]]]]] eqn:E; try discriminate V.
    + cbn [ver_dec_content] in V. apply rbind_okc in V as (mac & Em & V).
      destruct (ch_sign h) as [k|] eqn:Ek; [|discriminate]. apply rbind_okc in V as (ok & Ev & V).
      destruct ok; [|discriminate]. injection V as <- <-. rewrite <- J. cbn [py_join].
      eapply by_mac; eauto; apply El; cbn; auto.
    + cbn [ver_dec_content] in V. apply rbind_okc in V as (iv & E1 & V). apply rbind_okc in V as (ctx & E2 & V).
      apply rbind_okc in V as (tag & E3 & V). destruct (ch_enc h) as [k|] eqn:Ek; [|discriminate].
      apply rbind_okc in V as ([msg|] & Ed & V); [|discriminate]. apply rbind_okc in V as (p & Ep & V).
      rewrite <- J. cbn [py_join].
      destruct p as [|q0 [|q1 rest]]; try discriminate V.
      assert (X : q0 = payload /\ q1 = ts /\ forall m, rest = [m] -> exists sk mac, ch_sign h = Some sk /\
                cl_b64d L m = Ok mac /\ cl_verify L sk (append payload ts) mac = Ok true).
      { destruct rest as [|m [|m2 rest]].
        - injection V as <- <-. split; [reflexivity|]. split; [reflexivity|discriminate].
        - apply rbind_okc in V as (mac & Em & V). destruct (ch_sign h) as [sk|] eqn:Es; [|discriminate].
          apply rbind_okc in V as ([] & Ev & V); [|discriminate]. injection V as <- <-.
          split; [reflexivity|]. split; [reflexivity|]. intros m' [= <-]. eauto.
        - injection V as <- <-. split; [reflexivity|]. split; [reflexivity|discriminate]. }
      destruct X as (-> & -> & X). eapply by_tag; eauto; apply El; cbn; auto.
  - intros V. destruct V as [k time payload b mac N1 N2 N3 Ek Eb Ev|
      k t i c g iv ctx tag msg payload time rest N1 N2 N3 N4 Ek E1 E2 E3 Ed Ep Er].
    + change (append time (append "|" (append payload (append "|" b)))) with (py_join "|" [time; payload; b]).
      rewrite joinc_split; [|discriminate|intros x [<-|[<-|[<-|[]]]]; assumption].
      cbn [ver_dec_content]. rewrite Eb. cbn [rbind]. rewrite Ek, Ev. reflexivity.
    + change (append t (append "|" (append i (append "|" (append c (append "|" g)))))) with (py_join "|" [t; i; c; g]).
      rewrite joinc_split; [|discriminate|intros x [<-|[<-|[<-|[<-|[]]]]]; assumption].
      cbn [ver_dec_content]. rewrite E1. cbn [rbind]. rewrite E2. cbn [rbind]. rewrite E3. cbn [rbind].
      rewrite Ek, Ed. cbn [rbind]. rewrite Ep. cbn [rbind].
      destruct rest as [|m [|m2 rest]]; try reflexivity.
      destruct (Er m eq_refl) as (sk & mac & Es & Em & Ev). rewrite Em. cbn [rbind]. rewrite Es, Ev. reflexivity.
Qed.

Lemma split_payload payload value typ : py_split "::" payload = [value; typ] <-> payload_of value typ payload.
Proof. apply (splitd_two ":"). Qed.

Lemma parse_one_some L h name c x l : parse_one L h name c = Ok l -> In x l ->
  exists v payload, ck_name c = Some name /\ ck_value c = Some v /\ vouched L h v payload (ct_time x) /\
    payload_of (ct_value x) (ct_type x) payload /\ l = [x].
Proof.
  unfold parse_one. destruct (ck_name c) as [n|]; [|intros [= <-] []].
  destruct (String.eqb n name) eqn:En; [|intros [= <-] []]. apply seqb_eq in En. subst n.
  destruct (ck_value c) as [v|]; [|discriminate]. intros P I. apply rbind_okc in P as (oc & V & P).
  destruct oc as [[payload ts]|]; [|injection P as <-; destruct I].
  destruct (py_split "::" payload) as [|value [|typ [|z r]]] eqn:Es; try discriminate P. injection P as <-.
  destruct I as [<-|[]]. exists v, payload. cbn. do 3 (split; [reflexivity || apply ver_dec_vouched, V|]).
  split; [apply split_payload, Es|reflexivity].
Qed.

Lemma parse_loop_in L h name cs : forall out x, parse_loop L h name cs = Ok out -> In x out ->
  exists c l, In c cs /\ parse_one L h name c = Ok l /\ In x l.
Proof.
  induction cs as [|c cs IH]; intros out x P I; cbn [parse_loop] in P; [injection P as <-; destruct I|].
  apply rbind_okc in P as (a & Pa & P). apply rbind_okc in P as (b & Pb & P). injection P as <-.
  apply in_app_iff in I as [I|I].
  - exists c, a. split; [now left|]. auto.
  - destruct (IH _ _ Pb I) as (c' & l & Ic & R). exists c', l. split; [now right|]. exact R.
Qed.

Lemma parsed_authentic L h name cs out x :
  parse_cookie L h name cs = Ok (Some out) -> In x out ->
  exists v payload, In (mkCookie (Some name) (Some v)) cs /\ vouched L h v payload (ct_time x) /\
    payload_of (ct_value x) (ct_type x) payload.
Proof.
  unfold parse_cookie. intros P I. destruct cs as [|c0 cs]; [discriminate|].
  apply rbind_okc in P as (l & P & E). injection E as ->.
  destruct (parse_loop_in _ _ _ _ _ _ P I) as (c & l & Ic & Pc & Il).
  destruct (parse_one_some _ _ _ _ _ _ Pc Il) as (v & payload & Nn & Vv & V & Po & _).
  exists v, payload. destruct c as [cn cv]. cbn in Nn, Vv. subst. auto.
Qed.

Lemma accepted_iff L h name v x :
  parse_cookie L h name [mkCookie (Some name) (Some v)] = Ok (Some [x]) <->
  exists payload, vouched L h v payload (ct_time x) /\ payload_of (ct_value x) (ct_type x) payload.
Proof.
  split.
  - intros P. destruct (parsed_authentic _ _ _ _ _ x P ltac:(now left)) as (v' & payload & I & V & Po).
    destruct I as [[= <-]|[]]. eauto.
  - intros (payload & V & Po). unfold parse_cookie. cbn [parse_loop]. unfold parse_one. cbn [ck_name ck_value].
    rewrite seqb_refl. apply ver_dec_vouched in V. rewrite V. cbn [rbind]. apply split_payload in Po. rewrite Po.
    cbn [rbind app]. destruct x. reflexivity.
Qed.

(** Parts. *)
Lemma bars_parts s : List.length (py_split "|" s) = S (bars s).
Proof.
  induction s as [|a s IH]; [reflexivity|]. rewrite splitc_cons. cbn [bars].
  destruct (Ascii.eqb a "|"); cbn [List.length plus].
  - now rewrite IH.
  - pose proof (splitc_ne "|" s). destruct (py_split "|" s); [congruence|]. exact IH.
Qed.
Lemma other_parts L h name v : bars v <> 2 -> bars v <> 3 ->
  parse_cookie L h name [mkCookie (Some name) (Some v)] = Ok (Some []).
Proof.
  intros N2 N3. unfold parse_cookie. cbn [parse_loop]. unfold parse_one. cbn [ck_name ck_value].
  rewrite seqb_refl. pose proof (bars_parts v) as B.
  destruct (py_split "|" v) as [|p0 [|p1 [|p2 [|p3 [|p4 r]]]]]; cbn in B; try reflexivity; lia.
Qed.

(** Round trip. *)
Lemma occ_app c a b : occurs_in (String c EmptyString) (append a b) ->
  occurs_in (String c EmptyString) a \/ occurs_in (String c EmptyString) b.
Proof.
  rewrite !occurs_char. induction a as [|x a IH]; cbn; [tauto|]. rewrite !orb_true_iff. tauto.
Qed.
Lemma str_true_iff s : str_true s = true <-> s <> EmptyString.
Proof. destruct s; cbn; split; congruence. Qed.

Lemma made_vouched L h value typ ts iv now : cookie_laws L -> usable h -> fits h value typ ts ->
  exists v, sign_enc_payload L h iv (py_join "::" [value; typ]) (time_or_now ts now) now = Ok v /\
    vouched L h v (append value (append "::" typ)) ts.
Proof.
  intros [Lm Ln Lt L6 Lb Lw] U [Fv Fe Ft Fs [Ft1 Ft2] Fp Fw].
  assert (T1 : time_or_now ts now = ts) by (unfold time_or_now; rewrite (proj2 (str_true_iff ts) Ft1); reflexivity).
  rewrite T1. unfold sign_enc_payload. rewrite T1. unfold usable in U.
  change (py_join "::" [value; typ]) with (append value (append "::" typ)).
  set (payload := append value (append "::" typ)) in *.
  destruct (ch_enc h) as [k|] eqn:Ek.
  - assert (Sz : enc_key_size k = true).
    { unfold enc_key_size. rewrite !orb_true_iff, !Nat.eqb_eq. destruct U as [U|[U|[U|[]]]]; auto. }
    rewrite Sz.
    assert (X : forall msg rest, lv_unpack msg = Ok (payload :: ts :: rest) ->
      (forall m, rest = [m] -> exists sk mac, ch_sign h = Some sk /\ cl_b64d L m = Ok mac /\
         cl_verify L sk (append payload ts) mac = Ok true) ->
      exists v, (let (ctx, tag) := cl_enc L k iv msg in
          Ok (py_join "|" [ts; cl_b64e L iv; cl_b64e L ctx; cl_b64e L tag])) = Ok v /\ vouched L h v payload ts).
    { intros msg rest Hu Hr. specialize (Lt k iv msg). destruct (cl_enc L k iv msg) as [ctx tag]. cbn [fst snd] in Lt.
      eexists. split; [reflexivity|]. cbn [py_join]. eapply by_tag; eauto. }
    unfold mac_of. destruct (ch_sign h) as [sk|] eqn:Es.
    + rewrite (proj2 (str_true_iff _) (Ln sk (append payload ts))). apply (X _ [cl_b64e L (cl_sign L sk (append payload ts))]).
      * apply lv_roundtrip_iff. intros pre x E. 
        assert (x = cl_b64e L (cl_sign L sk (append payload ts))) as ->.
        { destruct pre as [|p1 [|p2 [|p3 pre]]]; cbn in E; try congruence. injection E as _ _ _ E. destruct pre; discriminate. }
        apply Lw.
      * intros m [= <-]. eauto.
    + cbn [str_true]. apply (X _ []).
      * apply lv_roundtrip_iff. intros pre x E.
        assert (x = ts) as ->.
        { destruct pre as [|p1 [|p2 pre]]; cbn in E; try congruence. injection E as _ _ E. destruct pre; discriminate. }
        apply Fw. reflexivity.
      * discriminate.
  - destruct (ch_sign h) as [sk|] eqn:Es; [|congruence]. eexists. split; [reflexivity|]. cbn [py_join].
    unfold mac_of. rewrite Es. destruct (Fp eq_refl) as [Nv Nt].
    eapply by_mac; eauto. intros O. unfold payload in O. apply occ_app in O as [O|O]; [auto|].
    change (append "::" typ) with (append "::" typ) in O. apply occ_app in O as [O|O]; [|auto].
    apply occurs_char in O. discriminate.
Qed.

Lemma made_read L h now o : cookie_laws L -> usable h -> fits h (o_value o) (o_type o) (o_time o) ->
  exists c, made_for L h now o c /\ ck_name c = Some (o_name o) /\
    forall name, parse_one L h name c = Ok (if String.eqb (o_name o) name then [content_of o] else []).
Proof.
  intros Hl U F. destruct (made_vouched L h _ _ _ (o_iv o) now Hl U F) as (v & Ev & V).
  exists (mkCookie (Some (o_name o)) (Some v)). split.
  - unfold made_for, make_cookie_content.
    assert (N : negb (str_true (o_value o)) && negb (str_true (o_type o)) = false).
    { pose proof (fit_some _ _ _ _ F) as S. destruct (o_value o), (o_type o); try reflexivity. exfalso. auto. }
    rewrite N, Ev. reflexivity.
  - split; [reflexivity|]. intros name. unfold parse_one. cbn [ck_name ck_value].
    destruct (String.eqb (o_name o) name); [|reflexivity].
    apply ver_dec_vouched in V. rewrite V. cbn [rbind].
    assert (P : payload_of (o_value o) (o_type o) (append (o_value o) (append "::" (o_type o)))).
    { split; [reflexivity|]. destruct F. auto. }
    apply split_payload in P. rewrite P. reflexivity.
Qed.

Lemma round_trip L h now os : cookie_laws L -> usable h -> os <> [] ->
  (forall o, In o os -> fits h (o_value o) (o_type o) (o_time o)) ->
  exists cs, Forall2 (made_for L h now) os cs /\
    forall name, parse_cookie L h name cs =
      Ok (Some (map content_of (filter (fun o => String.eqb (o_name o) name) os))).
Proof.
  intros Hl U N F.
  assert (X : exists cs, Forall2 (made_for L h now) os cs /\ forall name, parse_loop L h name cs =
      Ok (map content_of (filter (fun o => String.eqb (o_name o) name) os))).
  { clear N. induction os as [|o os IH].
    - exists []. split; [constructor|reflexivity].
    - destruct IH as (cs & Fm & Pl); [intros o' I; apply F; now right|].
      destruct (made_read L h now o Hl U (F o (or_introl eq_refl))) as (c & Mc & _ & Pc).
      exists (c :: cs). split; [constructor; assumption|]. intros name. cbn [parse_loop]. rewrite Pc. cbn [rbind].
      rewrite Pl. cbn [rbind filter]. destruct (String.eqb (o_name o) name); reflexivity. }
  destruct X as (cs & Fm & Pl). exists cs. split; [exact Fm|]. intros name. unfold parse_cookie.
  destruct cs; [inversion Fm; subst; congruence|]. now rewrite Pl.
Qed.

(** Unforgeability. *)
Lemma lv_two p t : exists t', lv_unpack (lv_pack [p; t]) = Ok [p; t'] /\ t' = rstrip is_space t.
Proof. exists (rstrip is_space t). split; [|reflexivity]. apply (lv_unpack_pack_last [p] t). Qed.
Lemma lv_three p t m : exists m', lv_unpack (lv_pack [p; t; m]) = Ok [p; t; m'].
Proof. exists (rstrip is_space m). apply (lv_unpack_pack_last [p; t] m). Qed.

Lemma sealed_vouched L h issued v payload time : sealed L h issued -> vouched L h v payload time ->
  exists p t, In (p, t) issued /\ append payload time = append p t /\
    (ch_sign h = None -> payload = p /\ time = t).
Proof.
  intros [Sm St Sw] V. destruct V as [k time payload b mac N1 N2 N3 Ek Eb Ev|
      k t i c g iv ctx tag msg payload time rest N1 N2 N3 N4 Ek E1 E2 E3 Ed Ep Er].
  - destruct (Sm _ _ _ Ek Ev) as (p & t & I & E). exists p, t. split; [exact I|]. split; [exact E|congruence].
  - destruct (St _ _ _ _ _ Ek Ed) as (p & t0 & I & E). exists p, t0. split; [exact I|].
    assert (X : payload = p /\ time = t0).
    { destruct E as [->|[m ->]].
      - destruct (lv_two p t0) as (t' & E' & ->). rewrite E' in Ep. injection Ep as <- <- _.
        split; [reflexivity|]. apply rstrip_eq_iff. eapply Sw, I.
      - destruct (lv_three p t0 m) as (m' & E'). rewrite E' in Ep. injection Ep as <- <- _. auto. }
    destruct X as [-> ->]. auto.
Qed.

Lemma app_same_len a b c d : append a b = append c d -> String.length b = String.length d -> a = c /\ b = d.
Proof.
  revert c. induction a as [|x a IH]; intros [|y c] E Hl; cbn in E.
  - auto.
  - subst b. cbn in Hl. rewrite sapp_length in Hl. lia.
  - subst d. cbn in Hl. rewrite sapp_length in Hl. lia.
  - injection E as -> E. destruct (IH _ E Hl) as [-> ->]. auto.
Qed.

Lemma parsed_was_made L h issued name cs out x : sealed L h issued ->
  parse_cookie L h name cs = Ok (Some out) -> In x out ->
  let payload := append (ct_value x) (append "::" (ct_type x)) in
  exists p t, In (p, t) issued /\ append payload (ct_time x) = append p t /\
    (ch_sign h = None \/ String.length (ct_time x) = String.length t -> payload = p /\ ct_time x = t).
Proof.
  intros S P I payload. destruct (parsed_authentic _ _ _ _ _ _ P I) as (v & p0 & _ & V & -> & _).
  destruct (sealed_vouched _ _ _ _ _ _ S V) as (p & t & Ii & E & X). exists p, t. split; [exact Ii|]. split; [exact E|].
  intros [K|K]; [exact (X K)|]. exact (app_same_len _ _ _ _ E K).
Qed.

(** The concrete library. *)
From Verif Require Import L_Hex.
Lemma hex_cookie_laws : cookie_laws hex_clib.
Proof.
  constructor; cbn [hex_clib cl_verify cl_sign cl_dec cl_enc cl_b64e cl_b64d fst snd].
  - intros k m. now rewrite seqb_refl.
  - discriminate.
  - intros k iv m.
    assert (E : starts_with k (append k m) = true) by (apply starts_with_spec; eauto).
    rewrite E, seqb_refl, drop_app. reflexivity.
  - intros s. now rewrite unhex_hex.
  - intros s K. eapply (hex_occurs "|" (hex s)); [reflexivity| |exact K]. eapply unhex_all; [apply le_n|apply unhex_hex].
  - intros s (a & c & E & W). assert (A : all_hex (hex s)) by (eapply unhex_all; [apply le_n|apply unhex_hex]).
    rewrite E in A. clear E. induction a as [|x a IH]; cbn in A.
    + destruct A as [A _]. unfold hex_value in A.
      destruct (Nat.leb 97 (nat_of_ascii c)) eqn:B; cbn [andb] in A; [|congruence]. apply Nat.leb_le in B.
      destruct (Nat.ltb (nat_of_ascii c) 113) eqn:B2; [|congruence]. apply Nat.ltb_lt in B2.
      unfold white_space in W. cbn [In] in W. intuition lia.
    + apply IH, A.
Qed.
