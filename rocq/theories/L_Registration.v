(** Lemmas on registration requests. *)
From Verif Require Import M_Base L_Base L_Monad M_Uri L_Uri M_Redirect L_Redirect M_Meta M_ClientAuthn
  M_Registration L_Meta S_Codec L_Split S_Redirect S_Registration.

Lemma has_occurs c s : has_char c s = true -> occurs_in (String c "") s.
Proof.
  intros H. destruct (split1 c s) as [[x y]|] eqn:E.
  - apply split1_some in E as [-> _]. exists x, y. reflexivity.
  - apply split1_none in E. congruence.
Qed.
Lemma occurs_has c s : occurs_in (String c "") s -> has_char c s = true.
Proof. intros (a & b & ->). rewrite has_app. cbn [append has_char]. now rewrite Ascii.eqb_refl, orb_true_r. Qed.

Lemma scheme_read u p sch : urlsplit u = Ok p -> sch <> "" -> us_scheme p = sch -> with_scheme u sch.
Proof.
  intros H N E. apply urlsplit_splits in H. fold (visible u) in H.
  inversion H as [? s s' ? ? ? ? sp ? ? ? Hu [(E1 & _)|(_ & _ & E1 & E2)]]; subst.
  - contradiction.
  - exists s'. eexists. split; [|reflexivity]. match goal with X : visible u = _ |- _ => rewrite X end.
    rewrite <- sapp_assoc. reflexivity.
Qed.
Lemma lower_all s sch : lower s = sch -> all_chars scheme_char sch = true -> all_chars scheme_char s = true.
Proof. intros <-. now rewrite lower_scheme. Qed.
Lemma scheme_text u p sch : urlsplit u = Ok p -> sch <> "" -> all_chars scheme_char sch = true ->
  with_scheme u sch -> us_scheme p = sch.
Proof.
  intros H N A (s & r & Hv & Hs). apply urlsplit_splits in H. fold (visible u) in H.
  assert (As := lower_all _ _ Hs A). assert (Ns : s <> EmptyString) by (apply lower_ne; congruence).
  inversion H as [? s0 s' ? ? ? ? sp ? ? ? Hu [(E1 & E2 & F)|(E0 & E1 & E2 & E3)]]; subst p; cbn [us_scheme].
  - rewrite (F s r Hv Ns) in As. discriminate.
  - subst. rewrite Hv in Hu. rewrite <- sapp_assoc in Hu.
    destruct (colon_cut s s' r (append np (append path (append qp fp)))) as [-> _]; [now apply scheme_no_colon|now apply scheme_no_colon|exact Hu|reflexivity].
Qed.

Lemma frag_text u p : urlsplit u = Ok p -> us_frag p = "" -> no_fragment u.
Proof.
  intros H F. apply urlsplit_splits in H. fold (visible u) in H.
  inversion H as [? s0 s' netloc path q f sp np qp fp Hu Hs Hn P1 P2 Hq Q1 Hf]; subst p. cbn [us_frag] in F. subst f.
  set (X := append sp (append np (append path qp))).
  assert (EX : visible u = append X fp) by (unfold X; rewrite Hu, <- !sapp_assoc; reflexivity).
  assert (NX : has_char "#" X = false).
  { unfold X. rewrite !has_app, P2.
    assert (has_char "#" sp = false) as ->.
    { destruct Hs as [(_ & -> & _)|(_ & A & _ & ->)]; [reflexivity|]. rewrite has_app. cbn [has_char].
      destruct (has_char "#" s') eqn:E; [|reflexivity]. rewrite all_chars_has in A. apply A in E. discriminate E. }
    assert (has_char "#" np = false) as ->.
    { destruct Hn as [(_ & -> & _)|(-> & A & _)]; [reflexivity|]. rewrite has_app.
      destruct (has_char "#" netloc) eqn:E; [apply A in E; discriminate E|reflexivity]. }
    destruct Hq as [[-> _]| ->]; [reflexivity|]. rewrite has_app, Q1. reflexivity. }
  intros a b Hab. rewrite EX in Hab.
  destruct Hf as [[-> _]| ->].
  - rewrite sapp_nil_r in Hab. rewrite Hab, has_app in NX. apply orb_false_iff in NX as [_ NX]. discriminate NX.
  - change (append X (String "#" "") = append a (String "#" b)) in Hab.
    clear -Hab NX. revert Hab NX. generalize X. clear X. induction a as [|c a IH]; intros [|d X] Hab NX; cbn [append] in Hab.
    + injection Hab as <-. reflexivity.
    + injection Hab as -> _. cbn [has_char] in NX. rewrite Ascii.eqb_refl in NX. discriminate.
    + injection Hab as _ Hab. destruct a; discriminate.
    + injection Hab as _ Hab. cbn [has_char] in NX. apply orb_false_iff in NX as [_ NX]. exact (IH X Hab NX).
Qed.

Lemma after_last_spec c s : has_char c (after_last c s) = false /\
  exists pre, s = append pre (after_last c s) /\ (pre = "" \/ ends_in (String c "") pre).
Proof.
  induction s as [|a s [IH1 (pre & IH2 & IH3)]]; cbn [after_last].
  - split; [reflexivity|]. exists "". auto.
  - destruct (has_char c s) eqn:E.
    + split; [exact IH1|]. exists (String a pre). split; [cbn [append]; now rewrite <- IH2|]. right.
      destruct IH3 as [->|(z & ->)].
      * cbn [append] in IH2. rewrite <- IH2 in IH1. congruence.
      * exists (String a z). reflexivity.
    + destruct (Ascii.eqb a c) eqn:Ea.
      * split; [exact E|]. apply Ascii.eqb_eq in Ea as ->. exists (String c ""). split; [reflexivity|]. right. now exists "".
      * split; [cbn [has_char]; now rewrite Ea, E|]. exists "". auto.
Qed.

Lemma hostname_loop netloc h : hostname netloc = Some h -> In h ["localhost"; "127.0.0.1"] ->
  occurs_in "[" netloc \/ exists h', host_in netloc h' /\ loopback_host h'.
Proof.
  unfold hostname, host_part. intros H Hin.
  destruct (after_last_spec "@" netloc) as [N (pre & E & Hp)]. set (info := after_last "@" netloc) in *. clearbody info.
  destruct (split1 "[" info) as [[x y]|] eqn:Eb.
  - left. apply split1_some in Eb as [-> _]. rewrite E. exists (append pre x), y. now rewrite <- sapp_assoc.
  - right. pose proof (split_or_app ":" info) as A. destruct (split_or ":" info) as [hh port] eqn:Es. destruct A as [A1 A2].
    cbn [fst] in H. destruct (str_true hh) eqn:Et; [|discriminate].
    assert (X : lower hh = h).
    { destruct (split1 "%" hh) as [[a z]|]; [|congruence].
      assert (Eh : append (lower a) (append "%" z) = h) by congruence.
      assert (C : has_char "%" h = true) by (rewrite <- Eh, has_app; cbn [append has_char]; now rewrite Ascii.eqb_refl, orb_true_r).
      destruct Hin as [<-|[<-|[]]]; discriminate C. }
    exists hh. split.
    + exists pre, (match port with EmptyString => if has_char ":" info then ":" else "" | _ => append ":" port end).
      assert (Ei : info = append hh (match port with EmptyString => if has_char ":" info then ":" else "" | _ => append ":" port end)).
      { destruct A2 as [[A2 ->]|A2].
        - rewrite A2 at 2. rewrite A1, sapp_nil_r. exact A2.
        - rewrite A2 at 1. destruct port; [|reflexivity].
          rewrite A2, has_app. cbn [append has_char]. now rewrite Ascii.eqb_refl, orb_true_r. }
      rewrite <- Ei. split; [exact E|]. split; [exact Hp|]. split.
      * intros O. apply occurs_has in O. congruence.
      * split; [intros O; apply occurs_has in O; congruence|].
        destruct port; [|right; eauto]. destruct (has_char ":" info); [right; now exists ""|now left].
    + unfold loopback_host. rewrite X. destruct Hin as [<-|[<-|[]]]; auto.
Qed.

Lemma authority_text u p : urlsplit u = Ok p -> us_scheme p = "http" -> us_netloc p <> "" ->
  http_authority u (us_netloc p).
Proof.
  intros H Hs N. apply urlsplit_splits in H. fold (visible u) in H.
  inversion H as [? s0 s' netloc path q f sp np qp fp Hu Hsc Hn P1 P2 Hq Q1 Hf]; subst p. cbn [us_scheme us_netloc] in *. subst s0.
  destruct Hsc as [(E & _)|(_ & _ & E & ->)]; [discriminate|].
  destruct Hn as [(E' & _)|(-> & Hc & Hp)]; [contradiction|].
  exists s', (append path (append qp fp)). split; [rewrite Hu, <- !sapp_assoc; reflexivity|]. split; [now symmetry|].
  split; [exact Hc|].
  destruct Hp as [->|(r & ->)]; [|right; eexists; eexists; split; reflexivity].
  destruct Hq as [[-> _]| ->]; [|right; eexists; eexists; split; reflexivity].
  destruct Hf as [[-> _]| ->]; [now left|right; eexists; eexists; split; reflexivity].
Qed.

Lemma is_str_true v s : is_str v s = true <-> v = RStr s.
Proof.
  destruct v; cbn; split; intros H; try discriminate.
  - apply seqb_eq in H. now subst.
  - injection H as ->. apply seqb_refl.
Qed.
Lemma native_spec rq : is_str (app_type rq) "native" = true <-> is_native rq.
Proof.
  rewrite is_str_true. unfold app_type, is_native. destruct (dget rq "application_type"); split; intros H; congruence.
Qed.
Lemma web_spec rq : is_str (app_type rq) "web" = true <-> is_web rq.
Proof.
  rewrite is_str_true. unfold app_type, is_web. destruct (dget rq "application_type").
  - split; [intros ->; now right|intros [H|H]; congruence].
  - split; auto.
Qed.
Lemma code_spec rq : only_code rq = true <-> only_codes rq.
Proof.
  unfold only_code, only_codes. destruct (dget rq "response_types") as [v|]; [|split; discriminate].
  destruct v as [| l | | | | |]; try (split; discriminate). destruct l as [|x [|y l]]; try (split; discriminate).
  rewrite seqb_eq. split; [intros ->; reflexivity|intros [= ->]; reflexivity].
Qed.

Lemma verify_one_ok rq u bq : verify_one rq u = Ok bq -> acceptable rq u.
Proof.
  unfold verify_one. intros H. apply rbind_inv in H as (p & Hp & H). apply rbind_inv in H as (cu & Hc & _).
  assert (T1 : us_scheme p = "http" -> with_scheme u "http") by (apply scheme_read; [exact Hp|discriminate]).
  assert (T2 : us_scheme p = "https" -> with_scheme u "https") by (apply scheme_read; [exact Hp|discriminate]).
  assert (F1 : with_scheme u "http" -> us_scheme p = "http") by (apply scheme_text; [exact Hp|discriminate|reflexivity]).
  assert (F2 : with_scheme u "https" -> us_scheme p = "https") by (apply scheme_text; [exact Hp|discriminate|reflexivity]).
  destruct (is_str (app_type rq) "native") eqn:En.
  - assert (Nat := proj1 (native_spec rq) En). split; [|split].
    + intros _. destruct (smem (us_scheme p) ["http"; "https"]) eqn:Es; cbn [negb] in Hc.
      * right. destruct (String.eqb (us_scheme p) "http") eqn:Eh; [|discriminate]. apply seqb_eq in Eh.
        cbn [andb] in Hc. destruct (hostname (us_netloc p)) as [h|] eqn:Ehn; [|discriminate].
        destruct (smem h ["localhost"; "127.0.0.1"]) eqn:Em; [|discriminate]. apply smem_In in Em.
        assert (Nn : us_netloc p <> "") by (intros X; rewrite X in Ehn; discriminate Ehn).
        assert (Au := authority_text _ _ Hp Eh Nn).
        destruct (hostname_loop _ _ Ehn Em) as [B|(h' & B1 & B2)].
        -- right. exists (us_netloc p). auto.
        -- left. exists (us_netloc p), h'. auto.
      * left. apply smem_false in Es. split; intros W; apply Es; [rewrite (F1 W)|rewrite (F2 W)]; cbn; auto.
    + intros X. contradiction.
    + intros [X|X]; unfold is_native in Nat; congruence.
  - assert (Nat : ~ is_native rq) by (intros X; apply native_spec in X; congruence).
    destruct (must_https rq && negb (String.eqb (us_scheme p) "https")) eqn:Em; [discriminate|].
    destruct (smem (us_scheme p) ["http"; "https"]) eqn:Es; cbn [negb] in Hc; [|discriminate].
    destruct (str_true (us_frag p)) eqn:Ef; [discriminate|]. apply str_true_no in Ef.
    apply smem_In in Es. split; [contradiction|]. split.
    + intros _. split; [eapply frag_text; eauto|]. destruct Es as [E|[E|[]]]; [right; apply T1|left; apply T2]; now symmetry.
    + intros W C. apply T2. unfold must_https in Em. apply web_spec in W. rewrite W in Em. cbn [andb] in Em.
      destruct (only_code rq) eqn:Eo; [apply code_spec in Eo; contradiction|]. cbn [negb andb] in Em.
      apply negb_false_iff, seqb_eq in Em. exact Em.
Qed.

Lemma mapM_ok {X Y} (f : X -> res Y) l : forall l', mapM f l = Ok l' -> Forall2 (fun a b => f a = Ok b) l l'.
Proof.
  induction l as [|a l IH]; cbn [mapM]; intros l' H.
  - injection H as <-. constructor.
  - apply rbind_inv in H as (b & Hb & H). apply rbind_inv in H as (bs & Hs & H). injection H as <-. constructor; auto.
Qed.

(** ** Preferences *)
Lemma same_set_spec a b : same_set a b = true <-> (forall w, In w a <-> In w b).
Proof.
  unfold same_set. rewrite andb_true_iff, !subset_b_incl. unfold incl. split.
  - intros [H1 H2] w. split; auto.
  - intros H. split; intros w; apply H.
Qed.
Lemma match_sp_list v l : match_sp_sep v (CList l) = Ok true ->
  (forall l' s, v = RList l' -> In s l' -> exists r, In r l /\ same_words s r) /\
  (forall s w, v = RStr s -> In w (py_split " " s) -> exists r, In r l /\ same_words w r).
Proof.
  unfold match_sp_sep. intros H. apply rbind_inv in H as (one & H1 & H). cbn [rbind] in H.
  assert (F : forallb (fun rt => existsb (same_set rt) (map words_of l)) one = true) by congruence. clear H.
  rewrite forallb_forall in F.
  assert (G : forall x, In x one -> exists r, In r l /\ (forall w, In w x <-> In w (py_split " " r))).
  { intros x Hx. apply F in Hx. apply existsb_exists in Hx as (y & Hy & E). apply in_map_iff in Hy as (r & <- & Hr).
    exists r. split; [exact Hr|]. apply same_set_spec. exact E. }
  split.
  - intros l' s -> Hs. assert (one = map words_of l') as -> by congruence.
    destruct (G (words_of s)) as (r & Hr & E); [now apply in_map|]. exists r. split; [exact Hr|exact E].
  - intros s w -> Hw. assert (one = map (fun w => [w]) (words_of s)) as -> by congruence.
    destruct (G [w]) as (r & Hr & E); [apply in_map_iff; eauto|]. exists r. split; [exact Hr|].
    intros z. rewrite <- E. apply splitc_elems in Hw. rewrite (splitc_plain " " w Hw). reflexivity.
Qed.
Lemma match_one_listed info pref prov v l : match_one info pref prov v = Ok tt ->
  dget info prov = Some (CList l) -> listed pref l v.
Proof.
  unfold match_one, listed. intros H E. rewrite E in H.
  destruct (smem pref ["response_types"; "default_acr_values"]).
  - apply rbind_inv in H as (b & H & Hb). destruct b; [|discriminate]. now apply match_sp_list.
  - intros s [->|(l' & -> & Hs)].
    + apply rbind_inv in H as (b & H & Hb). destruct b; [|discriminate]. cbn [py_in] in H.
      apply smem_In. congruence.
    + apply rbind_inv in H as (k & Hk & H). assert (k = l) by (cbn in Hk; congruence). subst k.
      destruct (subset_b l' l) eqn:Es; [|discriminate]. apply subset_b_incl in Es. auto.
Qed.
Lemma match_request_ok info rq : forall prefs pref prov v, match_client_request info prefs rq = Ok tt ->
  In (pref, prov) prefs -> dget rq pref = Some v -> match_one info pref prov v = Ok tt.
Proof.
  induction prefs as [|[p q] r IH]; cbn [match_client_request]; intros pref prov v H Hin Hv; [destruct Hin|].
  apply rbind_inv in H as (u & H1 & H2). destruct Hin as [[= -> ->]|Hin].
  - rewrite Hv in H1. destruct u. exact H1.
  - eauto.
Qed.

(** ** The record made from a request *)
Lemma copy_nodup rq ign : forall c, NoDup (dkeys c) -> NoDup (dkeys (copy_request rq ign c)).
Proof.
  unfold copy_request. induction rq as [|[k v] r IH]; cbn [fold_left fst snd]; intros c H; [exact H|].
  apply IH. destruct (smem k ign); [exact H|now apply dset_keys_nodup].
Qed.
Lemma copy_get rq ign : NoDup (dkeys rq) -> forall c k,
  dget (copy_request rq ign c) k =
  if smem k ign then dget c k else match dget rq k with Some v => Some v | None => dget c k end.
Proof.
  unfold copy_request. induction rq as [|[k0 v0] r IH]; cbn [fold_left fst snd]; intros N c k.
  - cbn [dget]. now destruct (smem k ign).
  - inversion N as [|? ? Ni Nr]; subst. rewrite (IH Nr). cbn [dget].
    destruct (smem k ign) eqn:Ek.
    + destruct (smem k0 ign) eqn:E0; [reflexivity|]. apply dget_dset_other. congruence.
    + destruct (String.eqb k k0) eqn:Ekk.
      * apply seqb_eq in Ekk. subst k0. rewrite Ek.
        assert (dget r k = None) as -> by (apply dget_None_keys; exact Ni). apply dget_dset_same.
      * destruct (dget r k); [reflexivity|]. destruct (smem k0 ign); [reflexivity|].
        apply dget_dset_other. now apply seqb_neq.
Qed.

(** [c'] is [c], with other values only for the keys [ks]. *)
Definition frame (ks : list string) (c c' : dict rval) : Prop :=
  (NoDup (dkeys c) -> NoDup (dkeys c')) /\ forall k, ~ In k ks -> dget c' k = dget c k.
Lemma frame_refl ks c : frame ks c c.
Proof. split; auto. Qed.
Lemma frame_set ks k v c : In k ks -> frame ks c (dset c k v).
Proof. intros H. split; [apply dset_keys_nodup|]. intros k' N. apply dget_dset_other. congruence. Qed.
Lemma frame_del ks k c : In k ks -> frame ks c (ddel c k).
Proof. intros H. split; [apply ddel_keys_nodup|]. intros k' N. apply dget_ddel_other. congruence. Qed.
Lemma frame_trans ks a b c : frame ks a b -> frame ks b c -> frame ks a c.
Proof. intros [A1 A2] [B1 B2]. split; [auto|]. intros k N. rewrite B2, A2; auto. Qed.

Lemma sbind_inv x f c : sbind x f = Ok (Done c) -> exists a, x = Ok (Done a) /\ f a = Ok (Done c).
Proof. unfold sbind. intros H. apply rbind_inv in H as ([a|e] & H1 & H2); [eauto|discriminate]. Qed.

Lemma post_logout_frame rq c c' : reg_post_logout rq c = Ok (Done c') -> frame ["post_logout_redirect_uri"] c c'.
Proof.
  unfold reg_post_logout. destruct (dget rq "post_logout_redirect_uri") as [[u| | | | | |]|]; try discriminate.
  - destruct (str_true u); [|intros [= <-]; apply frame_refl]. intros H. apply rbind_inv in H as (p & _ & H).
    destruct (str_true (us_frag p)); [discriminate|]. apply rbind_inv in H as (bq & _ & H). injection H as <-.
    apply frame_set. cbn. auto.
  - intros [= <-]. apply frame_refl.
Qed.
Lemma redirects_inv rq c c' : reg_redirects rq c = Ok (Done c') ->
  (dget rq "redirect_uris" = None /\ c' = c) \/
  (exists us l, dget rq "redirect_uris" = Some (RList us) /\ Forall2 (fun u b => verify_one rq u = Ok b) us l /\
     c' = dset c "redirect_uris" (RUris l)).
Proof.
  unfold reg_redirects, dmem, verify_redirect_uris. destruct (dget rq "redirect_uris") as [v|]; [|intros [= <-]; auto].
  destruct v as [|us| | | | |]; try discriminate.
  destruct (mapM (verify_one rq) us) as [l|e] eqn:E; [|destruct e; discriminate].
  intros [= <-]. right. exists us, l. split; [reflexivity|]. split; [now apply mapM_ok|reflexivity].
Qed.
Lemma request_uris_frame rq c c' : reg_request_uris rq c = Ok (Done c') -> frame ["request_uris"] c c'.
Proof.
  unfold reg_request_uris. destruct (dget rq "request_uris") as [[|l| | | | |]|]; try discriminate.
  - intros H. apply rbind_inv in H as ([x|] & _ & H); [|discriminate]. injection H as <-. apply frame_set. cbn. auto.
  - intros [= <-]. apply frame_refl.
Qed.
Lemma sector_frame G rq c c' : reg_sector G rq c = Ok (Done c') -> frame ["si_redirects"; "sector_id"] c c'.
Proof.
  unfold reg_sector. destruct (dget rq "sector_identifier_uri") as [[u| | | | | |]|]; try discriminate.
  - match goal with |- match ?x with _ => _ end = _ -> _ => destruct x as [si|e]; [|destruct e; discriminate] end.
    intros [= <-]. eapply frame_trans; apply frame_set; cbn; auto.
  - intros [= <-]. apply frame_refl.
Qed.
Lemma urls_frame rq : forall items c c', reg_urls items rq c = Ok (Done c') -> frame items c c'.
Proof.
  assert (W : forall items ks c c', (forall k, In k items -> In k ks) -> reg_urls items rq c = Ok (Done c') -> frame ks c c').
  { induction items as [|i r IH]; cbn [reg_urls]; intros ks c c' K H.
    - injection H as <-. apply frame_refl.
    - destruct (dget rq i) as [[u| | | | | |]|]; try discriminate.
      + destruct (dget c "redirect_uris") as [[| | |l| | |]|]; try discriminate.
        apply rbind_inv in H as (p & _ & H). apply rbind_inv in H as (ok & _ & H). destruct ok; [|discriminate].
        eapply frame_trans; [apply frame_set; apply K; cbn; auto|]. eapply IH; [|exact H]. intros k Hk. apply K. cbn. auto.
      + eapply IH; [|exact H]. intros k Hk. apply K. cbn. auto. }
  intros items c c'. apply W. auto.
Qed.
(** Algorithms are kept or taken away. *)
Lemma algs_frame G rq : forall items c c', reg_algs G items rq c = Ok (Done c') ->
  NoDup (dkeys c) -> NoDup (dkeys c') /\ forall k, dget c' k = dget c k \/ (In k items /\ dget c' k = None).
Proof.
  induction items as [|i r IH]; cbn [reg_algs]; intros c c' H N.
  - injection H as <-. auto.
  - assert (Pass : reg_algs G r rq c = Ok (Done c') ->
      NoDup (dkeys c') /\ forall k, dget c' k = dget c k \/ (In k (i :: r) /\ dget c' k = None)).
    { intros H'. destruct (IH _ _ H' N) as [A B]. split; [exact A|]. intros k. destruct (B k) as [?|[? ?]]; cbn; auto. }
    destruct (dget rq i) as [[u| | | | | |]|]; try discriminate; [|auto].
    destruct (dget preferences i) as [prov|]; [|discriminate].
    destruct (dget (g_info G) prov) as [sup|]; [|discriminate].
    apply rbind_inv in H as (ok & _ & H). destruct ok; [|auto].
    apply rbind_inv in H as (k & _ & H). destruct k; [auto|].
    destruct (IH _ _ H (ddel_keys_nodup _ _ N)) as [A B]. split; [exact A|]. intros k. destruct (B k) as [E|[E1 E2]].
    + destruct (string_dec k i) as [->|Ne].
      * right. rewrite E. split; [cbn; auto|]. now apply dget_ddel_same.
      * left. rewrite E. now apply dget_ddel_other.
    + right. cbn. auto.
Qed.

Definition own_keys : list string :=
  ["post_logout_redirect_uri"; "redirect_uris"; "request_uris"; "si_redirects"; "sector_id"; "policy_uri"; "logo_uri"; "tos_uri"].
Definition ignored : list string := ["redirect_uris"; "policy_uri"; "logo_uri"; "tos_uri"].
Definition alg_keys : list string := ["id_token_signed_response_alg"; "userinfo_signed_response_alg"].

Lemma frame_weaken ks ks' c c' : (forall k, In k ks -> In k ks') -> frame ks c c' -> frame ks' c c'.
Proof. intros H [A B]. split; [exact A|]. intros k N. apply B. auto. Qed.

Lemma do_registration_inv G rq c0 c : NoDup (dkeys rq) -> NoDup (dkeys c0) ->
  do_registration G rq ignored c0 = Ok (Done c) ->
  ((dget rq "redirect_uris" = None /\ dget c "redirect_uris" = dget c0 "redirect_uris") \/
   (exists us l, dget rq "redirect_uris" = Some (RList us) /\ Forall2 (fun u b => verify_one rq u = Ok b) us l /\
      dget c "redirect_uris" = Some (RUris l))) /\
  (forall k, ~ In k own_keys ->
     dget c k = match dget rq k with Some v => Some v | None => dget c0 k end \/ (In k alg_keys /\ dget c k = None)).
Proof.
  intros Nr N0 H. unfold do_registration in H.
  assert (N1 := copy_nodup rq ignored c0 N0). assert (Cg := copy_get rq ignored Nr c0).
  set (c1 := copy_request rq ignored c0) in *. clearbody c1.
  apply sbind_inv in H as (c2 & H2 & H). apply post_logout_frame in H2.
  apply sbind_inv in H as (c3 & H3 & H). apply redirects_inv in H3.
  apply sbind_inv in H as (c4 & H4 & H). apply request_uris_frame in H4.
  apply sbind_inv in H as (c5 & H5 & H). apply sector_frame in H5.
  apply sbind_inv in H as (c6 & H6 & H). apply urls_frame in H6.
  apply sbind_inv in H as (c7 & H7 & H). apply rbind_inv in H as (u & _ & H). injection H as <-.
  assert (F36 : frame ["request_uris"; "si_redirects"; "sector_id"; "policy_uri"; "logo_uri"; "tos_uri"] c3 c6).
  { eapply frame_trans; [eapply frame_weaken; [|exact H4]; cbn; tauto|].
    eapply frame_trans; [eapply frame_weaken; [|exact H5]; cbn; tauto|].
    eapply frame_weaken; [|exact H6]. cbn. tauto. }
  assert (F23 : frame ["redirect_uris"] c2 c3).
  { destruct H3 as [[_ ->]|(us & l & _ & _ & ->)]; [apply frame_refl|apply frame_set; cbn; auto]. }
  assert (N6 : NoDup (dkeys c6)) by (apply F36, F23, H2, N1).
  apply algs_frame in H7 as [_ H7]; [|exact N6].
  assert (R1 : dget c2 "redirect_uris" = dget c0 "redirect_uris").
  { destruct H2 as [_ H2]. rewrite H2 by (cbn; intuition discriminate). apply Cg. }
  assert (R7 : dget c7 "redirect_uris" = dget c3 "redirect_uris").
  { destruct (H7 "redirect_uris") as [E|[E _]]; [|cbn in E; intuition discriminate].
    rewrite E. apply F36. cbn. intuition discriminate. }
  split.
  - destruct H3 as [[A ->]|(us & l & A & B & ->)].
    + left. rewrite R7. auto.
    + right. exists us, l. split; [exact A|]. split; [exact B|]. rewrite R7. apply dget_dset_same.
  - intros k Nk. destruct (H7 k) as [E|[E1 E2]]; [|right; auto]. left. rewrite E.
    assert (Nk' : forall x, In x own_keys -> k <> x) by (intros x Hx ->; auto). clear Nk.
    rewrite (proj2 F36) by (cbn; intros Hk; repeat (destruct Hk as [Hk|Hk]; [eapply Nk'; [|now symmetry in Hk; exact Hk]; cbn; tauto|]); exact Hk).
    rewrite (proj2 F23) by (cbn; intros [Hk|[]]; eapply Nk'; [|symmetry; exact Hk]; cbn; tauto).
    rewrite (proj2 H2) by (cbn; intros [Hk|[]]; eapply Nk'; [|symmetry; exact Hk]; cbn; tauto).
    rewrite Cg. destruct (smem k ignored) eqn:Ei; [|reflexivity].
    exfalso. apply smem_In in Ei. cbn in Ei.
    repeat (destruct Ei as [Ei|Ei]; [eapply Nk'; [|symmetry; exact Ei]; cbn; tauto|]). exact Ei.
Qed.
