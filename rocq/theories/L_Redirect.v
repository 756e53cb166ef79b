(** Lemmas on redirect URIs and on the checks of authorization requests. *)
From Verif Require Import M_Base M_Uri M_Redirect S_Codec S_Redirect L_Base L_Split L_Uri.

Lemma has_first c s : has_char c (String c s) = true.
Proof. cbn. now rewrite Ascii.eqb_refl. Qed.

Lemma base_shape base : web_base base \/ app_base base ->
  exists s0 rest0, base = append s0 (append ":" rest0) /\ s0 <> "" /\ all_chars scheme_char s0 = true /\
    (In s0 uses_netloc -> exists host p, rest0 = append "//" (append host p) /\ exists c h, host = String c h /\ c <> "/"%char).
Proof.
  intros [(s & h & p & -> & N & A & Nh & Hh & Hp)|(s & r & -> & N & A & I & _)].
  - exists s, (append "//" (append h p)). split; [reflexivity|]. split; [exact N|]. split; [exact A|]. intros _.
    exists h, p. split; [reflexivity|]. destruct h as [|c h]; [congruence|]. exists c, h. split; [reflexivity|].
    intros ->. specialize (Hh "/"%char (has_first _ _)). discriminate.
  - exists s, r. do 3 (split; [assumption || reflexivity|]). tauto.
Qed.

Lemma app_first_scheme s0 x c y : s0 <> "" -> all_chars scheme_char s0 = true ->
  append s0 x = String c y -> scheme_char c = true.
Proof.
  destruct s0 as [|d s0]; [congruence|]. cbn. intros _ A [= -> _]. now apply andb_true_iff in A as [A _].
Qed.

Lemma base_stands u p base : splits u p -> us_frag p = "" ->
  base = urlunsplit (mkUsplit (us_scheme p) (us_netloc p) (us_path p) "" "") ->
  web_base base \/ app_base base -> stands_at base u (us_query p).
Proof.
  intros Sp Fr Eb Sh. destruct (base_shape _ Sh) as (s0 & rest0 & B0 & N0 & A0 & U0). clear Sh.
  destruct Sp as [u sch sch' netloc path q f sp np qp fp -> Hs Hn Pq Pf Hq Nq Hf].
  cbn [us_scheme us_netloc us_path us_query us_frag] in *. subst f.
  assert (T : tail_of q (append qp fp)).
  { split; [rewrite occurs_char; congruence|].
    destruct Hq as [[-> ->]| ->], Hf as [[-> _]| ->]; cbn; rewrite ?sapp_nil_r; auto. }
  unfold urlunsplit in Eb. cbn [us_scheme us_netloc us_path us_query us_frag] in Eb.
  change (str_true "") with false in Eb. cbv iota in Eb.
  set (uses := str_true sch && smem sch uses_netloc && negb (starts_with "//" path)) in Eb.
  destruct Hs as [(-> & -> & Ns)|(Ns & As & -> & ->)].
  - (* no scheme *) exfalso. cbn [str_true] in Eb, uses. unfold uses in Eb. cbn [andb] in Eb. rewrite orb_false_r in Eb.
    rewrite B0 in Eb. destruct (str_true netloc) eqn:En.
    + apply (app_first_scheme _ _ "/" (append "/" (append netloc (if str_true path && negb (starts_with "/" path) then append "/" path else path)))) in Eb; [discriminate|exact N0|exact A0].
    + destruct Hn as [(_ & -> & _)|(-> & _ & [->|[r ->]])].
      * cbn [append] in Ns. rewrite (Ns s0 (append rest0 (append qp fp))) in A0; [discriminate| |exact N0].
        rewrite <- Eb. now rewrite <- !sapp_assoc.
      * destruct s0; [congruence|discriminate].
      * apply (app_first_scheme _ _ "/" r) in Eb; [discriminate|exact N0|exact A0].
  - assert (Ss : str_true (lower sch') = true) by (apply str_true_ne, lower_ne; exact Ns).
    rewrite Ss in Eb. 
    set (u1 := if str_true netloc || uses then _ else path) in Eb.
    rewrite B0 in Eb.
    apply colon_cut in Eb; [|now apply scheme_no_colon|apply scheme_no_colon; now rewrite lower_scheme].
    destruct Eb as [-> ->].
    assert (X : exists extra, (extra = "" \/ extra = "//") /\ append np path = append extra u1).
    { unfold u1 in *. clear u1. destruct (str_true netloc) eqn:En.
      - exists "". split; [now left|]. cbn [orb append]. apply str_true_ne in En.
        destruct Hn as [(-> & _)|(-> & _ & Hp)]; [congruence|].
        destruct Hp as [->|[r ->]]; [reflexivity|]. cbn [str_true starts_with append]. 
        rewrite Ascii.eqb_refl. cbn [negb andb]. reflexivity.
      - apply str_true_no in En. subst netloc. cbn [orb] in *. destruct uses eqn:Eu.
        + exfalso. unfold uses in Eu. apply andb_true_iff in Eu as [Eu _]. apply andb_true_iff in Eu as [_ Eu].
          apply smem_In in Eu. destruct (U0 Eu) as (host & p & Er & c & h & -> & Nc).
          remember (str_true path && negb (starts_with "/" path)) as bb eqn:Ebb.
          cbn [append] in Er. injection Er as Er. destruct bb.
          * injection Er as E1 _. congruence.
          * symmetry in Ebb. apply andb_false_iff in Ebb as [Ebb|Ebb].
            -- apply str_true_no in Ebb. subst path. discriminate.
            -- apply negb_false_iff, starts_with_spec in Ebb as [t ->]. injection Er as E1 _. congruence.
        + destruct Hn as [(_ & -> & _)|(-> & _)]; [exists ""; auto|exists "//"; auto]. }
    destruct X as (extra & Ex & E). exists (lower sch'), sch', u1, extra, (append qp fp).
    split; [exact B0|]. split.
    { rewrite <- !sapp_assoc. f_equal. cbn [append]. f_equal. rewrite !sapp_assoc. now rewrite E. }
    auto.
Qed.

(** Queries. *)
Lemma vals_in_spec vs l : vals_in vs l = true <-> forall v, In v vs -> In v l.
Proof.
  induction vs as [|v vs IH]; cbn; [split; [intros _ v []|auto]|]. rewrite andb_true_iff, smem_In, IH. split.
  - intros [H1 H2] w [<-|I]; auto.
  - intros H. split; [apply H; now left|]. intros w I. apply H. now right.
Qed.
Lemma covered_spec a b : NoDup (dkeys a) -> (covered a b = true <->
  forall k l, dget a k = Some l -> exists l', dget b k = Some l' /\ forall v, In v l -> In v l').
Proof.
  induction a as [|[k vs] a IH]; cbn; intros N; [split; [discriminate|auto]|].
  inversion N as [|? ? N1 N2]; subst. split.
  - destruct (dget b k) as [l'|] eqn:Eb; [|discriminate]. rewrite andb_true_iff, vals_in_spec, IH by exact N2.
    intros [H1 H2] k' l. destruct (String.eqb k' k) eqn:Ek; [|apply H2].
    apply seqb_eq in Ek. subst. intros [= <-]. eauto.
  - intros H. destruct (H k vs) as (l' & Eb & Hv); [now rewrite seqb_refl|]. rewrite Eb, andb_true_iff, vals_in_spec, IH by exact N2.
    split; [exact Hv|]. intros k' l Hk. apply H. destruct (String.eqb k' k) eqn:Ek; [|exact Hk].
    apply seqb_eq in Ek. subst. apply dget_Some_keys in Hk. contradiction.
Qed.
Lemma agrees_covered q rq : NoDup (dkeys q) -> NoDup (dkeys rq) ->
  (agrees q rq <-> covered q rq = true /\ covered rq q = true).
Proof.
  intros N1 N2. rewrite !covered_spec by assumption. split.
  - intros [K V]. split; intros k l E.
    + assert (In k (dkeys rq)) as I by (apply K; eapply dget_Some_keys, E).
      destruct (dget rq k) as [l'|] eqn:E'; [|apply dget_None_keys in E'; contradiction].
      exists l'. split; [reflexivity|]. intros v. apply (V k l l' E E').
    + assert (In k (dkeys q)) as I by (apply K; eapply dget_Some_keys, E).
      destruct (dget q k) as [l'|] eqn:E'; [|apply dget_None_keys in E'; contradiction].
      exists l'. split; [reflexivity|]. intros v. apply (V k l' l E' E).
  - intros [A B]. split.
    + intros k. split; intros I.
      * destruct (dget q k) as [l|] eqn:E; [|apply dget_None_keys in E; contradiction].
        destruct (A _ _ E) as (l' & E' & _). eapply dget_Some_keys, E'.
      * destruct (dget rq k) as [l|] eqn:E; [|apply dget_None_keys in E; contradiction].
        destruct (B _ _ E) as (l' & E' & _). eapply dget_Some_keys, E'.
    + intros k l l' E E' v. destruct (A _ _ E) as (x & X & Hx), (B _ _ E') as (y & Y & Hy).
      assert (x = l') as -> by congruence. assert (y = l) as -> by congruence. split; auto.
Qed.
Lemma check_query_ok q rq : NoDup (dkeys q) -> NoDup (dkeys rq) -> (check_query q rq = Ok tt <-> agrees q rq).
Proof.
  intros N1 N2. rewrite agrees_covered by assumption. unfold check_query.
  destruct q as [|[k vs] q], rq as [|[k' vs'] rq].
  - cbn. split; auto.
  - cbn. split; [discriminate|intros [_ H]; discriminate].
  - cbn. split; [discriminate|intros [H _]; discriminate].
  - set (a := (k, vs) :: q). set (b := (k', vs') :: rq). change (list_true a) with true. change (list_true b) with true.
    destruct (covered b a); cbn [negb orb andb]; [|split; [discriminate|intros [_ H]; discriminate]].
    destruct (covered a b); cbn [negb orb andb]; split; auto; try discriminate. intros [H _]; discriminate.
Qed.
Lemma parse_qs_nodup s : NoDup (dkeys (parse_qs s)).
Proof.
  unfold parse_qs. assert (H : forall l q, NoDup (dkeys q) -> NoDup (dkeys (fold_left q_add l q))).
  { induction l as [|kv l IH]; cbn; [auto|]. intros q N. apply IH. unfold q_add.
    destruct (dget q (fst kv)); apply dset_keys_nodup, N. }
  apply H. constructor.
Qed.

(** The loop over what is registered. *)
Lemma match_uris_ok base q l : NoDup (dkeys q) -> dict_like l -> (match_uris base q l = Ok tt <->
  exists pre it post, l = pre ++ it :: post /\ reg_base it = base /\
    (forall x, In x pre -> reg_base x <> base) /\ agrees q (reg_query it)).
Proof.
  intros Nq. induction l as [|it l IH]; intros D; cbn [match_uris].
  - split; [discriminate|]. intros (pre & it & post & E & _). destruct pre; discriminate.
  - assert (E1 : (let (rb, rq) := match it with RegStr u => (u, []) | RegPair b rq => (b, rq) end in
        if String.eqb base rb then check_query q rq else match_uris base q l) =
        if String.eqb base (reg_base it) then check_query q (reg_query it) else match_uris base q l)
      by (destruct it; reflexivity).
    rewrite E1. clear E1. destruct (String.eqb base (reg_base it)) eqn:E.
    + apply seqb_eq in E. rewrite check_query_ok; [|exact Nq|apply D; now left]. split.
      * intros A. exists [], it, l. split; [reflexivity|]. split; [auto|]. split; [intros x []|exact A].
      * intros (pre & it' & post & El & Eb & Hp & A). destruct pre as [|x pre]; [cbn in El; injection El as -> _; exact A|].
        cbn in El. injection El as -> _. exfalso. apply (Hp x); [now left|auto].
    + apply seqb_neq in E. rewrite IH by (intros x I; apply D; now right). split.
      * intros (pre & it' & post & -> & Eb & Hp & A). exists (it :: pre), it', post. split; [reflexivity|].
        split; [exact Eb|]. split; [|exact A]. intros x [<-|I]; [congruence|auto].
      * intros (pre & it' & post & El & Eb & Hp & A). destruct pre as [|x pre]; cbn in El; injection El as -> El.
        { congruence. }
        exists pre, it', post. split; [exact El|]. split; [exact Eb|]. split; [|exact A].
        intros y I. apply Hp. now right.
Qed.

Definition q_of (p : usplit) : query := if str_true (us_query p) then parse_qs (us_query p) else [].
Lemma q_of_nodup p : NoDup (dkeys (q_of p)).
Proof. unfold q_of. destruct (str_true _); [apply parse_qs_nodup|constructor]. Qed.
Lemma q_of_parse p : q_of p = parse_qs (us_query p).
Proof. unfold q_of. destruct (us_query p); reflexivity. Qed.
Definition base_of (p : usplit) : string := urlunsplit (mkUsplit (us_scheme p) (us_netloc p) (us_path p) "" "").

Lemma verify_uri_ok cdb rq ty cid : verify_uri cdb rq ty cid = Ok tt <->
  exists c u p l, (dget rq "client_id" = Some c \/ dget rq "client_id" = None /\ cid = Some c) /\ c <> "" /\
    dget rq ty = Some u /\ urlsplit (unquote u) = Ok p /\ us_frag p = "" /\ registered cdb c ty l /\
    match_uris (base_of p) (q_of p) l = Ok tt.
Proof.
  unfold verify_uri. split.
  - intros V.
    assert (X : exists c, (dget rq "client_id" = Some c \/ dget rq "client_id" = None /\ cid = Some c) /\ c <> "" /\
       match dget rq "client_id" with Some c => Some c | None => cid end = Some c).
    { destruct (dget rq "client_id") as [c|]; [exists c|destruct cid as [c|]; [exists c|discriminate V]];
        (destruct c; [discriminate V|]); (split; [auto|]); (split; [discriminate|reflexivity]). }
    destruct X as (c & Hc & Nc & Ec). rewrite Ec in V. exists c.
    destruct c as [|c0 c']; [congruence|]. set (c := String c0 c') in *.
    destruct (dget rq ty) as [u|]; [|discriminate]. exists u. unfold split_uri in V.
    destruct (urlsplit (unquote u)) as [p|] eqn:Eu; [|discriminate]. cbn [rbind] in V.
    destruct (str_true (us_frag p)) eqn:Ef; [discriminate|]. apply str_true_no in Ef. cbn [rbind fst snd] in V.
    destruct (dget cdb c) as [info|] eqn:Ei; [|discriminate].
    destruct (dget (cl_uris info) (append ty "s")) as [l|] eqn:El; [|discriminate].
    exists p, l. do 5 (split; [assumption || reflexivity|]). split; [exists info; auto|exact V].
  - intros (c & u & p & l & Hc & Nc & Eu & Es & Ef & (info & Ei & El) & V).
    assert (Ec : match dget rq "client_id" with Some c => Some c | None => cid end = Some c).
    { destruct Hc as [->|[-> ->]]; reflexivity. }
    rewrite Ec. destruct c as [|c0 c']; [congruence|]. rewrite Eu. unfold split_uri. rewrite Es. cbn [rbind].
    rewrite Ef. cbn [str_true fst snd]. rewrite Ei, El. exact V.
Qed.

Lemma verified_leads cdb rq ty cid c u l :
  verify_uri cdb rq ty cid = Ok tt -> match dget rq "client_id" with Some c => Some c | None => cid end = Some c ->
  dget rq ty = Some u ->
  registered cdb c ty l -> proper_bases l -> dict_like l ->
  exists it, In it l /\ leads_to it u.
Proof.
  intros V Ec Eu (info & Ei & El) Pb Dl. apply verify_uri_ok in V as (c' & u' & p & l' & Hc & _ & Eu' & Es & Ef & (info' & Ei' & El') & V).
  assert (c' = c) as -> by (destruct Hc as [E|[E1 E2]]; [rewrite E in Ec; congruence|rewrite E1 in Ec; congruence]).
  assert (u' = u) as -> by congruence. assert (info' = info) as -> by congruence. assert (l' = l) as -> by congruence.
  apply match_uris_ok in V; [|apply q_of_nodup|exact Dl]. destruct V as (pre & it & post & -> & Eb & _ & A).
  assert (I : In it (pre ++ it :: post)) by (apply in_app_iff; right; now left).
  exists it. split; [exact I|]. exists (us_query p). split.
  - apply (base_stands _ p); [apply urlsplit_splits, Es|exact Ef|rewrite Eb; reflexivity|apply Pb, I].
  - rewrite <- q_of_parse. exact A.
Qed.

(** Texts without percent signs. *)
Lemma unquote_literal s : ~ occurs_in "%" s -> unquote s = s.
Proof.
  rewrite occurs_char. induction s as [|c s IH]; [reflexivity|]. cbn [has_char unquote]. intros H.
  apply not_true_iff_false, orb_false_iff in H as [H1 H2]. rewrite H1. rewrite IH; [reflexivity|congruence].
Qed.

(** The plain form is read as written. *)
Lemma no_occ c s : ~ occurs_in (String c "") s -> has_char c s = false.
Proof. rewrite occurs_char. destruct (has_char c s); congruence. Qed.
Lemma split_or_none c s : has_char c s = false -> split_or c s = (s, "").
Proof. intros H. unfold split_or. apply split1_none in H. now rewrite H. Qed.
Lemma split_or_at c a b : has_char c a = false -> split_or c (append a (String c b)) = (a, b).
Proof. intros H. unfold split_or. rewrite (proj2 (split1_some c _ a b)); auto. Qed.

Lemma plain_split base q tail u : plain_base base -> (q = "" /\ tail = "" \/ tail = append "?" q) -> ~ occurs_in "#" q ->
  u = append base tail -> visible u = u ->
  exists p, urlsplit u = Ok p /\ us_frag p = "" /\ us_query p = q /\ base_of p = base.
Proof.
  intros [(sch & host & path & Eb & Ns & As & Ls & Nh & Hh & Hp) (Q & F & B1 & B2)] T Nq Eu Vis.
  apply no_occ in Q, F, B1, B2, Nq.
  unfold urlsplit, visible in *. rewrite Vis, Eu, Eb.
  assert (E1 : split_scheme (append (append sch (append "://" (append host path))) tail)
     = (sch, append "//" (append host (append path tail)))).
  { unfold split_scheme. rewrite <- !sapp_assoc.
    rewrite (proj2 (split1_some ":" _ sch (append "//" (append host (append path tail))))).
    - rewrite (proj2 (str_true_ne sch) Ns), As, Ls. reflexivity.
    - split; [reflexivity|]. now apply scheme_no_colon. }
  rewrite E1.
  assert (E2 : split_netloc (append "//" (append host (append path tail))) = (host, append path tail)).
  { unfold split_netloc. cbn [starts_with append]. rewrite Ascii.eqb_refl. cbn [andb drop].
    apply cut_at_here; [exact Hh|]. destruct Hp as [->|[p ->]]; [|right; eexists _, _; split; reflexivity].
    cbn [append]. destruct T as [[-> ->]| ->]; [now left|]. right. eexists _, _. split; reflexivity. }
  rewrite E2. rewrite Eb, !has_app in Q, F, B1, B2. apply orb_false_iff in Q as [_ Q], F as [_ F], B1 as [_ B1], B2 as [_ B2].
  apply orb_false_iff in Q as [_ Q], F as [_ F], B1 as [_ B1], B2 as [_ B2].
  apply orb_false_iff in Q as [_ Qp], F as [_ Fp], B1 as [B1 _], B2 as [B2 _].
  rewrite B1, B2. cbn [Bool.eqb].
  assert (E3 : split_or "#" (append path tail) = (append path tail, "")).
  { apply split_or_none. rewrite has_app, Fp. destruct T as [[-> ->]| ->]; [reflexivity|]. cbn. exact Nq. }
  rewrite E3.
  assert (E4 : split_or "?" (append path tail) = (path, q)).
  { destruct T as [[-> ->]| ->]; [rewrite sapp_nil_r; now apply split_or_none|]. now apply split_or_at. }
  rewrite E4. eexists. split; [reflexivity|]. cbn [us_frag us_query]. split; [reflexivity|]. split; [reflexivity|].
  unfold base_of, urlunsplit. cbn [us_scheme us_netloc us_path us_query us_frag].
  rewrite (proj2 (str_true_ne sch) Ns), (proj2 (str_true_ne host) Nh). cbn [orb str_true].
  destruct Hp as [->|[p ->]]; cbn [append str_true starts_with]; rewrite ?Ascii.eqb_refl; cbn [andb negb]; reflexivity.
Qed.

Lemma registered_accepted_as cdb rq kind cid c pre it post q u :
  (dget rq "client_id" = Some c \/ dget rq "client_id" = None /\ cid = Some c) -> c <> "" -> dget rq kind = Some u ->
  registered cdb c kind (pre ++ it :: post) -> dict_like (pre ++ it :: post) ->
  (forall x, In x pre -> reg_base x <> reg_base it) -> plain_base (reg_base it) ->
  literal u -> ~ occurs_in "#" q ->
  (q = "" /\ u = reg_base it \/ u = append (reg_base it) (append "?" q)) ->
  agrees (parse_qs q) (reg_query it) ->
  verify_uri cdb rq kind cid = Ok tt.
Proof.
  intros Ec Nc Eu R D Hp Pb [Lp Lv] Nq Uq A. apply verify_uri_ok.
  assert (X : exists p, urlsplit u = Ok p /\ us_frag p = "" /\ us_query p = q /\ base_of p = reg_base it).
  { destruct Uq as [[-> E]| E].
    - apply (plain_split (reg_base it) "" "" u); auto. now rewrite sapp_nil_r.
    - apply (plain_split (reg_base it) q (append "?" q) u); auto. }
  destruct X as (p & Es & Ef & Eq' & Eb).
  exists c, u, p, (pre ++ it :: post). rewrite unquote_literal by exact Lp.
  do 3 (split; [auto|]). split; [exact Es|]. split; [exact Ef|]. split; [exact R|].
  apply match_uris_ok; [apply q_of_nodup|exact D|]. exists pre, it, post. split; [reflexivity|]. split; [auto|].
  split; [intros x I; rewrite Eb; auto|]. rewrite q_of_parse, Eq'. exact A.
Qed.

Lemma registered_accepted cdb rq kind c pre it post q u :
  dget rq "client_id" = Some c -> c <> "" -> dget rq kind = Some u ->
  registered cdb c kind (pre ++ it :: post) -> dict_like (pre ++ it :: post) ->
  (forall x, In x pre -> reg_base x <> reg_base it) -> plain_base (reg_base it) ->
  literal u -> ~ occurs_in "#" q ->
  (q = "" /\ u = reg_base it \/ u = append (reg_base it) (append "?" q)) ->
  agrees (parse_qs q) (reg_query it) ->
  verify_uri cdb rq kind None = Ok tt.
Proof. intros Ec. now apply registered_accepted_as; left. Qed.

(** The endpoint. *)
Lemma post_parse_good cdb cid rq r : post_parse_request cdb cid rq = Ok (PGood r) ->
  exists info rt u, dget cdb cid = Some info /\ dget rq "response_type" = Some rt /\
    verify_response_type rt info = true /\ get_uri cdb rq "redirect_uri" = Ok u /\ r = dset rq "redirect_uri" u.
Proof.
  unfold post_parse_request. destruct rq as [|x rq]; [discriminate|]. set (q := x :: rq).
  destruct (dget cdb cid) as [info|]; [|destruct (dget q "client_id"); discriminate].
  destruct (dget q "response_type") as [rt|] eqn:Er; [|discriminate].
  destruct (verify_response_type rt info) eqn:Ev; [|discriminate].
  destruct (get_uri cdb q "redirect_uri") as [u|x0] eqn:Eg; [|destruct x0; discriminate].
  intros [= <-]. eauto 10.
Qed.

Lemma get_uri_ok cdb rq u : get_uri cdb rq "redirect_uri" = Ok u -> proper_clients cdb ->
  exists c, dget rq "client_id" = Some c /\ redirect_ok cdb c u.
Proof.
  unfold get_uri. intros G Pc. destruct (dget rq "redirect_uri") as [v|] eqn:Ev.
  - destruct (verify_uri cdb rq "redirect_uri" None) as [[]|] eqn:V; [|discriminate]. injection G as ->.
    pose proof V as V0. apply verify_uri_ok in V0 as (c & u' & p & l & Hc & _ & _ & _ & _ & R & _).
    destruct Hc as [Hc|[_ Hc]]; [|discriminate]. exists c. split; [exact Hc|]. exists l. split; [exact R|]. left.
    destruct (Pc _ _ R) as [Pb Dl].
    eapply verified_leads; eauto. now rewrite Hc.
  - destruct (dget rq "client_id") as [c|] eqn:Ec; [|discriminate]. exists c. split; [reflexivity|].
    destruct (dget cdb c) as [info|] eqn:Ei; [|discriminate].
    destruct (dget (cl_uris info) (append "redirect_uri" "s")) as [l|] eqn:El; [|discriminate].
    exists l. split; [exists info; auto|]. right.
    destruct l as [|[s|b q] [|y l]]; try discriminate; try (destruct y; discriminate). injection G as <-. eauto.
Qed.

Lemma verify_rt_spec rt info : verify_response_type rt info = true <-> may_respond info rt.
Proof.
  assert (S : forall a b, same_set (words a) (words b) = true <-> same_words a b).
  { intros a b. unfold same_set, same_words, words. rewrite andb_true_iff, !subset_b_incl. unfold incl. firstorder. }
  unfold verify_response_type, may_respond. rewrite existsb_exists. destruct (cl_response_types info) as [|x l].
  - split.
    + intros (r & [<-|[]] & H). left. split; [reflexivity|]. now apply S.
    + intros [[_ H]|(r & [] & _)]. exists "code". split; [now left|]. now apply S.
  - split.
    + intros (r & I & H). right. exists r. split; [exact I|]. now apply S.
    + intros [[H _]|(r & I & H)]; [discriminate|]. exists r. split; [exact I|]. now apply S.
Qed.

Lemma lift_eq {S A} (r : res A) (s : S) : lift r s = (r, s).
Proof. reflexivity. Qed.

Lemma chain_last c cid ms : forall p db r db', run_chain c cid (ms ++ [MPostParse]) p db = (Ok (PGood r), db') ->
  exists rq, post_parse_request (pc_cdb c) cid rq = Ok (PGood r).
Proof.
  induction ms as [|m ms IH]; intros p db r db' H; cbn [app run_chain] in H.
  - destruct p as [rq|x]; [|unfold ret in H; discriminate]. unfold bind, lift, ret in H.
    destruct (post_parse_request (pc_cdb c) cid rq) as [p'|] eqn:E; [|discriminate]. 
    destruct p'; [|discriminate]. injection H as -> _. eauto.
  - destruct p as [rq|x]; [|unfold ret in H; discriminate]. unfold bind at 1 in H.
    match type of H with context [match ?m with (_, _) => _ end] => destruct m as [[p'|x] db1] end; [|discriminate].
    eapply IH, H.
Qed.

Lemma parse_good c oidc cid rq db r db' : authz_parse c oidc cid rq db = (Ok (PGood r), db') ->
  exists q, post_parse_request (pc_cdb c) cid q = Ok (PGood r).
Proof.
  unfold authz_parse. destruct oidc.
  - apply (chain_last c cid [MRequestUri; MPostParse; MRequestUri]).
  - apply (chain_last c cid [MRequestUri]).
Qed.

Lemma parse_redirect c oidc cid rq db r db' : proper_clients (pc_cdb c) ->
  authz_parse c oidc cid rq db = (Ok (PGood r), db') ->
  exists cl u, dget r "client_id" = Some cl /\ dget r "redirect_uri" = Some u /\ redirect_ok (pc_cdb c) cl u.
Proof.
  intros Pc H. apply parse_good in H as [q H]. apply post_parse_good in H as (info & rt & u & _ & _ & _ & G & ->).
  destruct (get_uri_ok _ _ _ G Pc) as (cl & Ec & R). exists cl, u.
  rewrite dget_dset_other by discriminate. rewrite dget_dset_same. auto.
Qed.
Lemma parse_type c oidc cid rq db r db' : authz_parse c oidc cid rq db = (Ok (PGood r), db') ->
  exists info rt, dget (pc_cdb c) cid = Some info /\ dget r "response_type" = Some rt /\ may_respond info rt.
Proof.
  intros H. apply parse_good in H as [q H]. apply post_parse_good in H as (info & rt & u & E & Er & V & G & ->).
  exists info, rt. rewrite dget_dset_other by discriminate. split; [exact E|]. split; [exact Er|]. now apply verify_rt_spec.
Qed.

(** Without a request URI the request stays that of the client. *)
Lemma dru_none c cid rq db : dget rq "request_uri" = None -> do_request_uri c cid rq db = (Ok rq, db).
Proof. intros E. unfold do_request_uri. now rewrite E. Qed.
Lemma chain_own c cid ms : forall rq db r db', dget rq "request_uri" = None ->
  run_chain c cid ms (PGood rq) db = (Ok (PGood r), db') ->
  db' = db /\ forall k, k <> "redirect_uri" -> dget r k = dget rq k.
Proof.
  induction ms as [|m ms IH]; intros rq db r db' N H; cbn [run_chain] in H.
  - unfold ret in H. injection H as -> ->. auto.
  - unfold bind at 1 in H. destruct m.
    + unfold bind at 1 in H. rewrite dru_none in H by exact N. unfold ret in H at 1. eapply IH in H; eauto.
    + unfold lift in H. destruct (post_parse_request (pc_cdb c) cid rq) as [[q|x]|x] eqn:E; [| |discriminate].
      * apply post_parse_good in E as (info & rt & u & _ & _ & _ & _ & ->).
        eapply IH in H as [-> H]; [|rewrite dget_dset_other by discriminate; exact N].
        split; [reflexivity|]. intros k Nk. rewrite H by exact Nk. now apply dget_dset_other.
      * destruct ms; unfold run_chain, ret in H; discriminate.
Qed.
Lemma parse_own c oidc cid rq db r db' : dget rq "request_uri" = None ->
  authz_parse c oidc cid rq db = (Ok (PGood r), db') ->
  forall k, k <> "redirect_uri" -> dget r k = dget rq k.
Proof. intros N H. unfold authz_parse in H. eapply chain_own in H as [_ H]; eauto. Qed.
