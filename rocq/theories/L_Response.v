(** Lemmas: a response that is put into a URL or a form can be read back. *)
From Verif Require Import M_Base M_Uri M_Types M_Codec M_Grant M_Env M_Session M_Claims M_Handler M_Authz M_TokenEP M_AuthzEP M_Response S_Codec S_Resp S_Response
  L_Base L_Split L_Monad L_Uri L_Redirect L_Resp L_Broker.

(** ** Quoting *)

Lemma quote_step c t : unquote (replace_char "+" " " (append (quote_char c) t)) =
  String c (unquote (replace_char "+" " " t)).
Proof. destruct c as [[] [] [] [] [] [] [] []]; reflexivity. Qed.
Lemma unquote_quote s : unquote_plus (quote_plus s) = s.
Proof.
  unfold unquote_plus. induction s as [|c s IH]; [reflexivity|]. cbn [quote_plus]. now rewrite quote_step, IH.
Qed.
Lemma quote_ne s : quote_plus s = EmptyString <-> s = EmptyString.
Proof.
  split; [|intros ->; reflexivity]. destruct s as [|c s]; [reflexivity|].
  destruct c as [[] [] [] [] [] [] [] []]; discriminate.
Qed.

(** The characters of a quoted text, and of a list of quoted pairs. *)
Definition qchar (c : ascii) : bool :=
  is_lower c || is_upper c || is_digit c || Ascii.eqb c "_" || Ascii.eqb c "." || Ascii.eqb c "-"
     || Ascii.eqb c "~" || Ascii.eqb c "+" || Ascii.eqb c "%".
Definition pchar (c : ascii) : bool := qchar c || Ascii.eqb c "&" || Ascii.eqb c "=".
Lemma all_app f a b : all_chars f (append a b) = all_chars f a && all_chars f b.
Proof. induction a as [|x a IH]; [reflexivity|]. cbn. now rewrite IH, andb_assoc. Qed.
Lemma all_impl (f g : ascii -> bool) s : (forall c, f c = true -> g c = true) -> all_chars f s = true -> all_chars g s = true.
Proof.
  intros H. induction s as [|x s IH]; [reflexivity|]. cbn. rewrite !andb_true_iff. intros [A B]. auto.
Qed.
Lemma quote_char_chars c : all_chars qchar (quote_char c) = true.
Proof. destruct c as [[] [] [] [] [] [] [] []]; reflexivity. Qed.
Lemma quote_chars s : all_chars qchar (quote_plus s) = true.
Proof. induction s as [|c s IH]; [reflexivity|]. cbn [quote_plus]. now rewrite all_app, quote_char_chars, IH. Qed.
Lemma all_not f c s : all_chars f s = true -> f c = false -> has_char c s = false.
Proof.
  intros H N. destruct (has_char c s) eqn:E; [|reflexivity]. rewrite all_chars_has in H. apply H in E. congruence.
Qed.

Definition pair_text (nv : string * string) : string :=
  append (quote_plus (fst nv)) (append "=" (quote_plus (snd nv))).
Lemma pair_chars nv : all_chars (fun c => qchar c || Ascii.eqb c "=") (pair_text nv) = true.
Proof.
  unfold pair_text. rewrite !all_app. rewrite !(all_impl qchar _ (quote_plus _)) by auto using quote_chars, orb_true_intro. reflexivity.
Qed.
Definition kept (l : list (string * string)) : list (string * string) := filter (fun p => str_true (snd p)) l.
Lemma field_pair nv : qs_field (pair_text nv) = kept [nv].
Proof.
  destruct nv as [n v]. unfold qs_field, pair_text. cbn [fst snd].
  assert (split1 "=" (append (quote_plus n) (append "=" (quote_plus v))) = Some (quote_plus n, quote_plus v)) as ->.
  { apply split1_some. split; [reflexivity|]. apply (all_not qchar); [apply quote_chars|reflexivity]. }
  unfold kept. cbn [filter snd]. destruct v as [|c v]; [reflexivity|].
  assert (str_true (quote_plus (String c v)) = true) as ->.
  { apply str_true_ne. rewrite quote_ne. discriminate. }
  now rewrite !unquote_quote.
Qed.

Lemma split_and a b : py_split "&" (append a (String "&" b)) = py_split "&" a ++ py_split "&" b.
Proof.
  induction a as [|c a IH].
  - cbn [append]. rewrite splitc_cons, Ascii.eqb_refl. reflexivity.
  - cbn [append]. rewrite !splitc_cons. destruct (Ascii.eqb c "&"); [now rewrite IH|]. rewrite IH.
    pose proof (splitc_ne "&" a) as N. destruct (py_split "&" a) as [|x r]; [congruence|reflexivity].
Qed.
Lemma qsl_and a b : parse_qsl (append a (append "&" b)) = parse_qsl a ++ parse_qsl b.
Proof. unfold parse_qsl. change (append "&" b) with (String "&" b). now rewrite split_and, flat_map_app. Qed.
Lemma qsl_pairs l : parse_qsl (py_join "&" (map pair_text l)) = kept l.
Proof.
  destruct l as [|x l]; [reflexivity|]. unfold parse_qsl. rewrite joinc_split.
  - unfold kept. induction (x :: l) as [|y r IH]; [reflexivity|]. cbn [map flat_map]. rewrite IH, field_pair.
    unfold kept. cbn [filter]. destruct (str_true (snd y)); reflexivity.
  - discriminate.
  - intros y I. apply in_map_iff in I as (z & <- & _). rewrite occurs_char. rewrite not_true_iff_false.
    eapply all_not; [apply pair_chars|reflexivity].
Qed.
Lemma join_chars l : all_chars pchar (py_join "&" (map pair_text l)) = true.
Proof.
  assert (forall x, all_chars pchar (pair_text x) = true) as P.
  { intros x. eapply all_impl; [|apply pair_chars]. unfold pchar. cbn. intros c H. apply orb_true_iff in H as [->| ->].
    - reflexivity. - apply orb_true_r. }
  induction l as [|x l IH]; [reflexivity|]. destruct l as [|y l]; [apply P|].
  cbn [map]. change (py_join "&" (pair_text x :: pair_text y :: map pair_text l)) with
    (append (pair_text x) (append "&" (py_join "&" (map pair_text (y :: l))))).
  now rewrite !all_app, P, IH.
Qed.

(** The pairs of a message. *)
Definition pairs_of (joined : list string) (m : message) : list (string * string) :=
  flat_map (fun nv : string * mval => map (pair (fst nv)) (value_texts joined (fst nv) (snd nv))) m.
Lemma urlencoded_pairs joined m : to_urlencoded joined m = py_join "&" (map pair_text (pairs_of joined m)).
Proof.
  unfold to_urlencoded, urlencode, pairs_of. f_equal. induction m as [|[n v] m IH]; [reflexivity|].
  cbn [map flat_map fst snd]. rewrite map_app, IH, map_map. reflexivity.
Qed.

(** ** Splitting a URL that was extended *)

Lemma remove_app f a b : remove_chars f (append a b) = append (remove_chars f a) (remove_chars f b).
Proof. induction a as [|c a IH]; [reflexivity|]. cbn. destruct (f c); [exact IH|]. cbn. now rewrite IH. Qed.
Lemma remove_none f s : all_chars (fun c => negb (f c)) s = true -> remove_chars f s = s.
Proof.
  induction s as [|c s IH]; [reflexivity|]. cbn. rewrite andb_true_iff, negb_true_iff. intros [-> H]. now rewrite IH.
Qed.
Lemma remove_has f c s : f c = false -> has_char c (remove_chars f s) = has_char c s.
Proof.
  intros H. induction s as [|x s IH]; [reflexivity|]. cbn. destruct (f x) eqn:E; [|cbn; now rewrite IH].
  destruct (Ascii.eqb x c) eqn:Ex; [|exact IH]. apply Ascii.eqb_eq in Ex. congruence.
Qed.

Definition follows (sep : ascii) (u : string) : Prop :=
  sep = "?"%char \/ sep = "#"%char \/ (sep = "&"%char /\ has_char "?" u = true).
Lemma sep_scheme sep u q : follows sep u -> all_chars pchar q = true -> has_char ":" (String sep q) = false.
Proof.
  intros S Q. cbn. apply orb_false_iff. split; [|apply (all_not pchar); [exact Q|reflexivity]].
  destruct S as [->|[->|[-> _]]]; reflexivity.
Qed.
Lemma scheme_ext U sep q : has_char ":" (String sep q) = false ->
  split_scheme (append U (String sep q)) = (fst (split_scheme U), append (snd (split_scheme U)) (String sep q)).
Proof.
  intros N. unfold split_scheme. destruct (split1 ":" U) as [[x y]|] eqn:E.
  - apply split1_some in E as [-> H].
    assert (split1 ":" (append (append x (String ":" y)) (String sep q)) = Some (x, append y (String sep q))) as ->.
    { apply split1_some. split; [|exact H]. now rewrite <- sapp_assoc. }
    destruct (str_true x && all_chars scheme_char x); reflexivity.
  - apply split1_none in E.
    assert (split1 ":" (append U (String sep q)) = None) as ->.
    { apply split1_none. now rewrite has_app, E, N. }
    reflexivity.
Qed.
Lemma scheme_keeps c U : scheme_char c = false -> c <> ":"%char -> has_char c (snd (split_scheme U)) = has_char c U.
Proof.
  intros S N. unfold split_scheme. destruct (split1 ":" U) as [[x y]|] eqn:E; [|reflexivity].
  destruct (str_true x && all_chars scheme_char x) eqn:B; [|reflexivity]. apply andb_true_iff in B as [_ B].
  apply split1_some in E as [-> H]. cbn [snd]. rewrite has_app. cbn [has_char].
  assert (Ascii.eqb ":" c = false) as -> by (apply Ascii.eqb_neq; congruence).
  now rewrite (all_not scheme_char c x) by assumption.
Qed.
Lemma cut_ext f a b : (b = EmptyString \/ exists c r, b = String c r /\ f c = true) \/ (exists c, has_char c a = true /\ f c = true) ->
  cut_at f (append a b) = (fst (cut_at f a), append (snd (cut_at f a)) b).
Proof.
  intros H. induction a as [|x a IH].
  - cbn [append cut_at fst snd]. destruct H as [[->|(c & r & -> & E)]|(c & H & _)]; [reflexivity| |discriminate]. cbn. now rewrite E.
  - cbn [append cut_at]. destruct (f x) eqn:E; [reflexivity|].
    rewrite IH.
    + destruct (cut_at f a); reflexivity.
    + destruct H as [H|(c & H & Ec)]; [now left|right]. cbn in H. apply orb_true_iff in H as [H|H]; [|eauto].
      apply Ascii.eqb_eq in H. congruence.
Qed.
Lemma netloc_ext R sep q : follows sep R ->
  split_netloc (append R (String sep q)) = (fst (split_netloc R), append (snd (split_netloc R)) (String sep q)).
Proof.
  intros F. unfold split_netloc.
  assert (starts_with "//" (append R (String sep q)) = starts_with "//" R) as ->.
  { destruct R as [|a R].
    - cbn. destruct F as [->|[->|[_ F]]]; [reflexivity|reflexivity|discriminate].
    - cbn [append starts_with]. f_equal. destruct R as [|b R]; [|reflexivity].
      cbn. destruct F as [->|[->|[-> F]]]; reflexivity. }
  destruct (starts_with "//" R) eqn:S; [|reflexivity].
  apply starts_slashes in S as (R' & ->). cbn [append drop]. apply cut_ext.
  destruct F as [->|[->|[-> F]]].
  - left. right. eauto.
  - left. right. eauto.
  - right. exists "?"%char. split; [exact F|reflexivity].
Qed.
Lemma netloc_keeps c R : c <> "/"%char -> (has_char c R = false -> has_char c (snd (split_netloc R)) = false).
Proof.
  intros N H. unfold split_netloc. destruct (starts_with "//" R) eqn:S; [|exact H].
  apply starts_slashes in S as (R' & ->). cbn [append drop]. cbn [append has_char] in H.
  apply orb_false_iff in H as [_ H]. apply orb_false_iff in H as [_ H].
  rewrite <- (cut_at_app netloc_end R'), has_app in H. now apply orb_false_iff in H as [_ H].
Qed.
Lemma netloc_holds R : has_char "?" R = true -> has_char "?" (snd (split_netloc R)) = true.
Proof.
  intros H. unfold split_netloc. destruct (starts_with "//" R) eqn:S; [|exact H].
  apply starts_slashes in S as (R' & ->). cbn [append drop]. change (has_char "?" R' = true) in H.
  rewrite <- (cut_at_app netloc_end R'), has_app in H. apply orb_true_iff in H as [H|H]; [|exact H].
  apply cut_at_fst in H. discriminate.
Qed.

(** The URL up to its path, and what follows. *)
Definition before (u : string) : string * string * string :=
  let U := remove_chars unsafe_char u in
  (fst (split_scheme U), fst (split_netloc (snd (split_scheme U))), snd (split_netloc (snd (split_scheme U)))).
Lemma urlsplit_before u : urlsplit u =
  let '(scheme, netloc, r2) := before u in
  if Bool.eqb (has_char "[" netloc) (has_char "]" netloc) then
    let (r3, frag) := split_or "#" r2 in
    let (path, query) := split_or "?" r3 in
    Ok (mkUsplit scheme netloc path query frag)
  else Raise ValueError.
Proof.
  unfold urlsplit, before. destruct (split_scheme (remove_chars unsafe_char u)) as [s r1]. cbn [fst snd].
  destruct (split_netloc r1). reflexivity.
Qed.
Lemma before_ext u sep q : follows sep u -> all_chars pchar q = true ->
  before (append u (String sep q)) = (fst (fst (before u)), snd (fst (before u)), append (snd (before u)) (String sep q)).
Proof.
  intros F Q. unfold before.
  assert (remove_chars unsafe_char (append u (String sep q)) = append (remove_chars unsafe_char u) (String sep q)) as ->.
  { rewrite remove_app. f_equal. apply remove_none. cbn [all_chars]. apply andb_true_iff. split.
    - destruct F as [->|[->|[-> _]]]; reflexivity.
    - revert Q. apply all_impl. intros c. destruct c as [[] [] [] [] [] [] [] []]; (discriminate || reflexivity). }
  set (U := remove_chars unsafe_char u).
  assert (follows sep U) as FU.
  { destruct F as [->|[->|[-> F]]]; [left; reflexivity|right; left; reflexivity|right; right]. split; [reflexivity|].
    unfold U. rewrite remove_has by reflexivity. exact F. }
  clearbody U. rewrite (scheme_ext U sep q) by (eapply sep_scheme; eauto). cbn [fst snd].
  rewrite netloc_ext; [reflexivity|].
  destruct FU as [->|[->|[-> F']]]; [left; reflexivity|right; left; reflexivity|right; right]. split; [reflexivity|].
  rewrite scheme_keeps; [exact F'|reflexivity|discriminate].
Qed.
Lemma before_no c u : unsafe_char c = false -> scheme_char c = false -> c <> ":"%char -> c <> "/"%char ->
  has_char c u = false -> has_char c (snd (before u)) = false.
Proof.
  intros A B C D H. unfold before. cbn [snd]. apply netloc_keeps; [exact D|]. rewrite scheme_keeps by assumption.
  now rewrite remove_has.
Qed.
Lemma before_has u : has_char "?" u = true -> has_char "?" (snd (before u)) = true.
Proof.
  intros H. unfold before. cbn [snd]. apply netloc_holds. rewrite scheme_keeps; [|reflexivity|discriminate].
  now rewrite remove_has.
Qed.

Lemma urlsplit_query u p q : has_char "#" u = false -> has_char "?" u = false -> all_chars pchar q = true ->
  urlsplit u = Ok p ->
  urlsplit (append u (append "?" q)) = Ok (mkUsplit (us_scheme p) (us_netloc p) (us_path p) q "") /\ us_query p = EmptyString.
Proof.
  intros H1 H2 Q. change (append "?" q) with (String "?" q). rewrite !urlsplit_before.
  rewrite before_ext by (auto; now left). pose proof (before_no "#" u eq_refl eq_refl ltac:(discriminate) ltac:(discriminate) H1) as N1.
  pose proof (before_no "?" u eq_refl eq_refl ltac:(discriminate) ltac:(discriminate) H2) as N2.
  destruct (before u) as [[s n] r]. cbn [fst snd] in *. destruct (Bool.eqb _ _); [|discriminate].
  rewrite (split_or_none "#" r), (split_or_none "?" r) by assumption. intros [= <-]. cbn [us_scheme us_netloc us_path us_query].
  rewrite (split_or_none "#").
  - rewrite split_or_at by assumption. auto.
  - rewrite has_app, N1. cbn. apply (all_not pchar); [exact Q|reflexivity].
Qed.
Lemma urlsplit_more u p q : has_char "#" u = false -> has_char "?" u = true -> all_chars pchar q = true ->
  urlsplit u = Ok p ->
  urlsplit (append u (append "&" q)) = Ok (mkUsplit (us_scheme p) (us_netloc p) (us_path p) (append (us_query p) (append "&" q)) "").
Proof.
  intros H1 H2 Q. change (append "&" q) with (String "&" q). rewrite !urlsplit_before.
  rewrite before_ext by (auto; right; right; auto). pose proof (before_no "#" u eq_refl eq_refl ltac:(discriminate) ltac:(discriminate) H1) as N1.
  pose proof (before_has u H2) as N2.
  destruct (before u) as [[s n] r]. cbn [fst snd] in *. destruct (Bool.eqb _ _); [|discriminate].
  rewrite (split_or_none "#" r) by assumption. unfold split_or at 1. destruct (split1 "?" r) as [[x y]|] eqn:E.
  2:{ apply split1_none in E. congruence. }
  apply split1_some in E as [-> Hx]. intros [= <-]. cbn [us_scheme us_netloc us_path us_query].
  rewrite (split_or_none "#").
  - rewrite <- sapp_assoc. cbn [append]. rewrite split_or_at by assumption. reflexivity.
  - rewrite has_app, N1. cbn. apply (all_not pchar); [exact Q|reflexivity].
Qed.
Lemma urlsplit_frag u p q : has_char "#" u = false -> all_chars pchar q = true ->
  urlsplit u = Ok p ->
  urlsplit (append u (append "#" q)) = Ok (mkUsplit (us_scheme p) (us_netloc p) (us_path p) (us_query p) q).
Proof.
  intros H1 Q. change (append "#" q) with (String "#" q). rewrite !urlsplit_before.
  rewrite before_ext by (auto; right; left; auto). pose proof (before_no "#" u eq_refl eq_refl ltac:(discriminate) ltac:(discriminate) H1) as N1.
  destruct (before u) as [[s n] r]. cbn [fst snd] in *. destruct (Bool.eqb _ _); [|discriminate].
  rewrite (split_or_none "#" r) by assumption. rewrite split_or_at by assumption.
  destruct (split_or "?" r) as [a b]. intros [= <-]. reflexivity.
Qed.

Lemma location_query joined m u p : has_char "#" u = false -> urlsplit u = Ok p ->
  exists p', urlsplit (to_location joined m u false) = Ok p' /\ same_page p p' /\ us_frag p' = EmptyString /\
    parse_qsl (us_query p') = parse_qsl (us_query p) ++ kept (pairs_of joined m).
Proof.
  intros H U. unfold to_location. rewrite urlencoded_pairs. set (q := py_join "&" _).
  assert (all_chars pchar q = true) as Q by apply join_chars.
  assert (parse_qsl q = kept (pairs_of joined m)) as R by apply qsl_pairs. clearbody q.
  destruct (has_char "?" u) eqn:E.
  - eexists. split; [apply urlsplit_more; eassumption|]. split; [repeat split|]. split; [reflexivity|].
    cbn [us_query]. now rewrite qsl_and, R.
  - destruct (urlsplit_query _ _ _ H E Q U) as [X Y]. eexists. split; [exact X|]. split; [repeat split|]. split; [reflexivity|].
    cbn [us_query]. rewrite Y, R. reflexivity.
Qed.
Lemma location_frag joined m u p : has_char "#" u = false -> urlsplit u = Ok p ->
  exists p', urlsplit (to_location joined m u true) = Ok p' /\ same_page p p' /\ us_query p' = us_query p /\
    parse_qsl (us_frag p') = kept (pairs_of joined m).
Proof.
  intros H U. unfold to_location. rewrite urlencoded_pairs. set (q := py_join "&" _).
  assert (all_chars pchar q = true) as Q by apply join_chars.
  assert (parse_qsl q = kept (pairs_of joined m)) as R by apply qsl_pairs. clearbody q.
  eexists. split; [apply urlsplit_frag; eassumption|]. split; [repeat split|]. split; [reflexivity|exact R].
Qed.
Lemma in_kept l n x : In (n, x) (kept l) <-> In (n, x) l /\ x <> EmptyString.
Proof. unfold kept. rewrite filter_In. cbn [snd]. now rewrite str_true_ne. Qed.

(** ** What an authorization response says *)

Lemma pairs_app j a b : pairs_of j (a ++ b) = pairs_of j a ++ pairs_of j b.
Proof. apply flat_map_app. Qed.
Lemma pairs_opt_str j k o n x : In (n, x) (pairs_of j (opt_arg k (option_map MStr o))) <-> n = k /\ o = Some x.
Proof.
  destruct o as [s|]; cbn; split.
  - intros [[= <- <-]|[]]. auto. - intros [-> [= ->]]. auto. - intros []. - intros [_ [=]].
Qed.
Lemma pairs_opt_int j k o n x : In (n, x) (pairs_of j (opt_arg k (option_map MInt o))) <->
  n = k /\ exists i, o = Some i /\ x = show_Z i.
Proof.
  destruct o as [s|]; cbn; split.
  - intros [[= <- <-]|[]]. eauto. - intros [-> (i & [= ->] & ->)]. auto. - intros []. - intros (_ & i & [=] & _).
Qed.
Lemma pairs_opt_list j k o n x : In (n, x) (pairs_of j (opt_arg k (option_map MList o))) <->
  n = k /\ exists l, o = Some l /\ (if smem k j then x = py_join " " l else In x l).
Proof.
  destruct o as [l|]; cbn [opt_arg option_map pairs_of flat_map fst snd value_texts]; [rewrite app_nil_r|].
  - destruct (smem k j).
    + cbn. split; [intros [[= <- <-]|[]]; eauto|]. intros [-> (l' & [= <-] & ->)]. auto.
    + rewrite in_map_iff. split; [intros (y & [= <- <-] & I); eauto|]. intros [-> (l' & [= <-] & I)]. eauto.
  - cbn. split; [intros []|]. intros (_ & l & [=] & _).
Qed.
Lemma pairs_one j k s n x : In (n, x) (pairs_of j [(k, MStr s)]) <-> n = k /\ x = s.
Proof. cbn. split; [intros [[= <- <-]|[]]; auto|]. intros [-> ->]. auto. Qed.

Lemma answer_says j a n x : In (n, x) (pairs_of j (answer_args a)) <->
  (n = "state" /\ ap_state a = Some x)
  \/ (n = "scope" /\ exists l, ap_scope a = Some l /\ (if smem "scope" j then x = py_join " " l else In x l))
  \/ (n = "code" /\ ap_code a = Some x) \/ (n = "access_token" /\ ap_access a = Some x)
  \/ (n = "token_type" /\ (exists v, ap_access a = Some v) /\ x = "Bearer")
  \/ (n = "expires_in" /\ exists i, ap_expires a = Some i /\ x = show_Z i)
  \/ (n = "id_token" /\ ap_id a = Some x).
Proof.
  unfold answer_args. rewrite !pairs_app, !in_app_iff, !pairs_opt_str, pairs_opt_int, pairs_opt_list.
  assert (In (n, x) (pairs_of j (opt_arg "token_type" (option_map (fun _ => MStr "Bearer") (ap_access a)))) <->
    n = "token_type" /\ (exists v, ap_access a = Some v) /\ x = "Bearer") as ->.
  { destruct (ap_access a); cbn; split.
    - intros [[= <- <-]|[]]. eauto. - intros (-> & _ & ->). auto. - intros []. - intros (_ & (v & [=]) & _). }
  tauto.
Qed.
Lemma delivered_says j ar desc ss o n x :
  In (n, x) (pairs_of j (delivered_args ar desc ss o)) <-> says (smem "scope" j) ar desc ss o n x.
Proof.
  unfold delivered_args. rewrite !pairs_app, !in_app_iff.
  assert (In (n, x) (pairs_of j (if ao_session_state o then [("session_state", MStr ss)] else [])) <->
    ao_session_state o = true /\ n = "session_state" /\ x = ss) as ->.
  { destruct (ao_session_state o); [rewrite pairs_one; tauto|]. cbn. split; [intros []|intros [[=] _]]. }
  assert (In (n, x) (pairs_of j (match ao_iss o with
     | Some i => [("iss", MStr i); ("client_id", MStr (ar_client_id ar))] | None => [] end)) <->
    exists i, ao_iss o = Some i /\ (n = "iss" /\ x = i \/ n = "client_id" /\ x = ar_client_id ar)) as ->.
  { destruct (ao_iss o) as [i|]; cbn.
    - split; [intros [[= <- <-]|[[= <- <-]|[]]]; eauto|]. intros (i' & [= <-] & [[-> ->]|[-> ->]]); auto.
    - split; [intros []|]. intros (i & [=] & _). }
  destruct (ao_args o) as [e|a] eqn:A.
  - unfold error_args. rewrite pairs_app, in_app_iff.
    assert (In (n, x) (pairs_of j [("error", MStr e); ("error_description", MStr desc)]) <->
      n = "error" /\ x = e \/ n = "error_description" /\ x = desc) as ->.
    { cbn. split; [intros [[= <- <-]|[[= <- <-]|[]]]; auto|]. intros [[-> ->]|[-> ->]]; auto. }
    rewrite pairs_opt_str. split.
    + intros [[[[-> ->]|[-> ->]]|[-> N]]|[(S & -> & ->)|(i & I & [[-> ->]|[-> ->]])]].
      * now apply says_error. * eapply says_why; eauto.
      * unfold nonempty in N. destruct (ar_state ar) as [st|] eqn:E; [|discriminate].
        destruct (str_true st) eqn:T; [|discriminate]. injection N as <-. eapply says_error_state; eauto. now apply str_true_ne.
      * now apply says_session. * now apply says_iss. * eapply says_client; eauto.
    + intros H. inversion H; subst; try congruence.
      * assert (x = e) as -> by congruence. tauto.
      * tauto.
      * left. right. split; [reflexivity|]. unfold nonempty. match goal with E : ar_state ar = _ |- _ => rewrite E end.
        match goal with E : x <> _ |- _ => apply str_true_ne in E; now rewrite E end.
      * tauto. * right. right. eauto. * right. right. eauto.
  - rewrite answer_says. split.
    + intros [[[-> S]|[(-> & l & S & X)|[[-> S]|[[-> S]|[(-> & (v & S) & ->)|[(-> & i & S & ->)|[-> S]]]]]]]|[(S & -> & ->)|(i & I & [[-> ->]|[-> ->]])]].
      * eapply says_state; eauto.
      * destruct (smem "scope" j) eqn:J; [subst x; eapply says_scopes; eauto|eapply says_scope; eauto].
      * eapply says_code; eauto. * eapply says_access; eauto. * eapply says_type; eauto.
      * eapply says_expires; eauto. * eapply says_id; eauto. * now apply says_session.
      * now apply says_iss. * eapply says_client; eauto.
    + intros H. inversion H; subst; try congruence;
        try (match goal with E : ao_args o = Good ?b |- _ => assert (b = a) as -> by congruence end; left).
      * tauto.
      * right. left. split; [reflexivity|]. eexists. split; [eassumption|].
        match goal with E : smem _ _ = _ |- _ => now rewrite E end.
      * right. left. split; [reflexivity|]. eexists. split; [eassumption|].
        match goal with E : smem _ _ = _ |- _ => now rewrite E end.
      * tauto. * tauto. * right. right. right. right. left. eauto. * do 5 right. left. eauto. * tauto.
      * tauto. * right. right. eauto. * right. right. eauto.
Qed.

(** ** Forms *)

Lemma hrun_app st a b : hrun st (append a b) = hrun (hrun st a) b.
Proof. revert st. induction a as [|c a IH]; intros st; [reflexivity|]. cbn [append hrun]. apply IH. Qed.
Lemma snoc_app a c b : append (snoc a c) b = append a (String c b).
Proof. unfold snoc. now rewrite <- sapp_assoc. Qed.
Lemma hrun_quoted n l a w v out : has_char """" v = false ->
  hrun (HQuoted n l a w, out) v = (HQuoted n l a (append w v), out).
Proof.
  revert w. induction v as [|c v IH]; intros w H; [now rewrite sapp_nil_r|].
  cbn [has_char] in H. apply orb_false_iff in H as [H1 H2]. cbn [hrun hstep]. rewrite H1, IH by exact H2. now rewrite snoc_app.
Qed.
Definition name_ok (n : string) : Prop := has_char """" n = false.
Lemma hrun_input n v out : name_ok n -> has_char """" (input_text v) = false ->
  hrun (HText, out) (input_element (n, v)) = (HText, out ++ [field_tag (n, input_text v)]).
Proof.
  intros N V. unfold input_element. cbn [fst snd].
  rewrite (hrun_app _ "<input type="). cbn. rewrite !hrun_app.
  rewrite (hrun_quoted "input" [("type", "hidden")] "name" "" n out N). cbn [hrun hstep dq]. cbn.
  rewrite !hrun_app. rewrite hrun_quoted by exact V. cbn. reflexivity.
Qed.
Lemma hrun_inputs m out : (forall n v, In (n, v) m -> name_ok n /\ has_char """" (input_text v) = false) ->
  hrun (HText, out) (inputs m) = (HText, out ++ map field_tag (map (fun nv => (fst nv, input_text (snd nv))) m)).
Proof.
  unfold inputs. revert out. induction m as [|[n v] m IH]; intros out H.
  - cbn. now rewrite app_nil_r.
  - assert (name_ok n /\ has_char """" (input_text v) = false) as [N V] by (apply H; now left).
    destruct m as [|nv m].
    + cbn [map py_join]. now apply hrun_input.
    + change (py_join newline (map input_element ((n, v) :: nv :: m))) with
        (append (input_element (n, v)) (append newline (py_join newline (map input_element (nv :: m))))).
      rewrite hrun_app, hrun_input by assumption. rewrite (hrun_app _ newline).
      assert (forall o, hrun (HText, o) newline = (HText, o)) as -> by reflexivity.
      rewrite IH by (intros; apply H; now right). cbn [map fst snd]. now rewrite <- app_assoc.
Qed.
Lemma form_posts action m : has_char """" action = false ->
  (forall n v, In (n, v) m -> name_ok n /\ has_char """" (input_text v) = false) ->
  posts (form_page action m) action (map (fun nv => (fst nv, input_text (snd nv))) m).
Proof.
  intros A H. unfold posts, html_tags, form_page. set (I := inputs m). pose proof (hrun_inputs m) as R. fold I in R. clearbody I.
  rewrite !hrun_app.
  match goal with |- context [hrun (hrun ?st dq) action] =>
    assert (hrun st dq = (HQuoted "form" [("method", "post")] "action" "",
      [("html", []); ("head", []); ("title", []); ("/title", []); ("/head", []);
       ("body", [("onload", "javascript:document.forms[0].submit()")])])) as -> by (vm_compute; reflexivity) end.
  rewrite hrun_quoted by exact A. cbn [append].
  match goal with |- context [hrun (hrun ?st "        ") I] =>
    assert (hrun st "        " = (HText, [("html", []); ("head", []); ("title", []); ("/title", []); ("/head", []);
       ("body", [("onload", "javascript:document.forms[0].submit()")]); ("form", [("method", "post"); ("action", action)])])) as ->
    by reflexivity end.
  rewrite R by exact H. set (T := map field_tag _). clearbody T. cbn -[app]. rewrite <- !app_assoc. reflexivity.
Qed.
Lemma input_pairs m : (forall n l, In (n, MList l) m -> n = "scope") ->
  map (fun nv => (fst nv, input_text (snd nv))) m = pairs_of ["scope"] m.
Proof.
  intros H. induction m as [|[n v] m IH]; [reflexivity|]. cbn [map pairs_of flat_map fst snd].
  rewrite IH by (intros; eapply H; right; eassumption). unfold pairs_of.
  destruct v as [s|i|l]; cbn [value_texts input_text map app]; [reflexivity|reflexivity|].
  rewrite (H n l) by now left. reflexivity.
Qed.

Lemma opt_in k o n (v : mval) : In (n, v) (opt_arg k o) <-> n = k /\ o = Some v.
Proof. destruct o; cbn; split; [intros [[= <- <-]|[]]; auto|intros [-> [= ->]]; auto|intros []|intros [_ [=]]]. Qed.
Lemma delivered_lists ar desc ss o n l : In (n, MList l) (delivered_args ar desc ss o) -> n = "scope".
Proof.
  unfold delivered_args. rewrite !in_app_iff. intros [H|[H|H]].
  - destruct (ao_args o) as [e|a].
    + unfold error_args in H. rewrite in_app_iff, opt_in in H. cbn in H. destruct H as [[[=]|[[=]|[]]]|[_ H]].
      destruct (nonempty _); discriminate.
    + unfold answer_args in H. rewrite !in_app_iff, !opt_in in H.
      destruct H as [[_ H]|[[H _]|[[_ H]|[[_ H]|[[_ H]|[[_ H]|[_ H]]]]]]]; [|exact H|..];
        destruct (ap_state a), (ap_code a), (ap_access a), (ap_expires a), (ap_id a); discriminate.
  - destruct (ao_session_state o); cbn in H; destruct H as [[=]|[]] || destruct H.
  - destruct (ao_iss o); cbn in H; [destruct H as [[=]|[[=]|[]]]|destruct H].
Qed.
Lemma says_name j ar desc ss o n x : says j ar desc ss o n x -> name_ok n.
Proof. destruct 1; reflexivity. Qed.

Lemma url_answer c ar desc ss cookies o v p :
  rc_place c = PUrl -> ao_form o = false -> ao_uri o = Some v -> has_char "#" v = false -> urlsplit v = Ok p ->
  exists out r, do_response c (delivered ar desc ss cookies o) = Ok out /\ ro_response out = Some r
    /\ reaches (delivery o) p (says (smem "scope" (rc_joined c)) ar desc ss o) r.
Proof.
  intros C F U H P. unfold delivered, do_response, delivery. rewrite F.
  cbn [ra_error ra_msg ra_ctype ra_frag ra_rtype ra_uri ra_args str_true fst snd]. rewrite C, U. cbn [rbind].
  eexists _, _. split; [reflexivity|]. split; [reflexivity|]. set (m := delivered_args ar desc ss o).
  unfold reaches. destruct (ao_frag o) as [[|]|].
  - destruct (location_frag (rc_joined c) m v p H P) as (p' & X & S & Q & R). exists p'. split; [exact X|]. split; [exact S|].
    split; [exact Q|]. intros n x. rewrite R, in_kept. unfold m. now rewrite delivered_says.
  - destruct (location_query (rc_joined c) m v p H P) as (p' & X & S & Q & R). exists p'. split; [exact X|]. split; [exact S|].
    split; [exact Q|]. eexists. split; [exact R|]. intros n x. rewrite in_kept. unfold m. now rewrite delivered_says.
  - destruct (location_query (rc_joined c) m v p H P) as (p' & X & S & Q & R). exists p'. split; [exact X|]. split; [exact S|].
    split; [exact Q|]. eexists. split; [exact R|]. intros n x. rewrite in_kept. unfold m. now rewrite delivered_says.
Qed.
Lemma form_answer c ar desc ss cookies o v :
  ao_form o = true -> ao_uri o = Some v -> plain_attr v -> (forall n x, says true ar desc ss o n x -> plain_attr x) ->
  exists out r fields, do_response c (delivered ar desc ss cookies o) = Ok out /\ ro_response out = Some r
    /\ ro_placement out = Some "body" /\ In ("Content-type", "text/html") (ro_headers out)
    /\ posts r v fields /\ (forall n x, In (n, x) fields <-> says true ar desc ss o n x).
Proof.
  intros F U [P _] H. unfold delivered, do_response. rewrite F, U.
  cbn [ra_error ra_msg ra_ctype ra_frag ra_rtype ra_uri ra_args ra_headers ra_placement str_true fst snd rbind].
  set (m := delivered_args ar desc ss o).
  assert (map (fun nv => (fst nv, input_text (snd nv))) m = pairs_of ["scope"] m) as E.
  { apply input_pairs. apply delivered_lists. }
  assert (forall n x, In (n, x) (pairs_of ["scope"] m) <-> says true ar desc ss o n x) as S.
  { intros n x. unfold m. now rewrite delivered_says. }
  eexists _, _, _. split; [reflexivity|]. split; [reflexivity|]. split; [reflexivity|]. split; [now left|]. split.
  - apply form_posts; [exact P|]. intros n x I.
    assert (In (n, input_text x) (pairs_of ["scope"] m)) as J.
    { rewrite <- E. apply in_map_iff. exists (n, x). auto. }
    apply S in J. split; [eapply says_name; eauto|]. eapply H; eauto.
  - rewrite E. exact S.
Qed.

(** ** Headers, cookies, errors *)

Lemma response_nocache c a o : do_response c a = Ok o ->
  In ("Cache-Control", "no-store") (ro_headers o) /\ In ("Pragma", "no-cache") (ro_headers o)
  /\ ro_cookie o = ra_cookie a /\ ro_code o = ra_code a.
Proof.
  unfold do_response. intros H. apply rbind_ok in H as ([[resp ct] place] & _ & H). injection H as <-. cbn [ro_headers ro_cookie ro_code].
  rewrite !in_app_iff. split; [right; cbn; auto|]. split; [right; cbn; auto|]. auto.
Qed.

Lemma content_types_app a b : content_types (a ++ b) = content_types a ++ content_types b.
Proof. unfold content_types. rewrite filter_app, map_app. reflexivity. Qed.
Lemma content_types_In hs x : In ("Content-type", x) hs <-> In x (content_types hs).
Proof.
  unfold content_types. rewrite in_map_iff. split.
  - intros I. exists ("Content-type", x). split; auto. apply filter_In. auto.
  - intros ([n y] & X & I). apply filter_In in I as [I E]. cbn in *. apply String.eqb_eq in E. congruence.
Qed.
Lemma set_content_type_one hs ct : List.length (content_types hs) <= 1 -> content_types (set_content_type hs ct) = [ct].
Proof.
  intros L. unfold set_content_type. destruct (existsb _ hs) eqn:E.
  - apply existsb_exists in E as ([n y] & I & E). apply andb_true_iff in E as [E1 E2]. cbn in E1, E2.
    apply String.eqb_eq in E2. subst y. assert (n = "Content-type") as -> by (symmetry; now apply String.eqb_eq).
    apply content_types_In in I. destruct (content_types hs) as [|y [|z r]]; [destruct I| |cbn in L; lia].
    destruct I as [->|[]]. reflexivity.
  - rewrite content_types_app. cbn [content_types filter map fst snd String.eqb Ascii.eqb Bool.eqb].
    assert (content_types (filter (fun h => negb (String.eqb (fst h) "Content-type")) hs) = []) as ->; [|reflexivity].
    clear. induction hs as [|h hs IH]; [reflexivity|]. cbn [filter]. destruct (String.eqb (fst h) "Content-type") eqn:E; cbn [negb]; auto.
    unfold content_types in *. cbn [filter]. rewrite E. exact IH.
Qed.
Lemma set_content_type_rest hs ct n v : n <> "Content-type" -> (In (n, v) (set_content_type hs ct) <-> In (n, v) hs).
Proof.
  intros N. unfold set_content_type. destruct (existsb _ hs); [tauto|]. rewrite in_app_iff, filter_In. cbn [fst In].
  split; [intros [[I _]|[X|[]]]; [auto|congruence]|]. intros I. left. split; auto.
  apply negb_true_iff. now apply String.eqb_neq.
Qed.
Lemma one_content_type c a o : do_response c a = Ok o -> ra_ctype a <> Some "" ->
  (forall hs, ra_headers a = Some hs -> List.length (content_types hs) <= 1) ->
  exists x, content_types (ro_headers o) = [x] /\ (forall ct, ra_ctype a = Some ct -> x = ct)
    /\ (forall n v, n <> "Content-type" ->
          (In (n, v) (ro_headers o) <->
           (n = "Pragma" /\ v = "no-cache") \/ (n = "Cache-Control" /\ v = "no-store")
           \/ exists hs, ra_headers a = Some hs /\ In (n, v) hs)).
Proof.
  unfold do_response. intros H Nc Nh. apply rbind_ok in H as ([[resp ct] place] & Hb & H). injection H as <-. cbn [ro_headers].
  assert (exists x, ct = Some x /\ str_true x = true /\ forall y, ra_ctype a = Some y -> x = y) as (x & -> & Tx & Cx).
  { assert (forall y, ra_ctype a = Some y -> str_true y = true) as Ty.
    { intros [|k y] Y; [congruence|reflexivity]. }
    destruct (if str_true (ra_error a) then None else ra_msg a).
    - injection Hb as _ <- _. eexists. split; [reflexivity|]. destruct (ra_ctype a) as [y|].
      + split; [auto|]. intros z Z. congruence.
      + split; [destruct (rc_format c); reflexivity|discriminate].
    - destruct (ra_ctype a) as [y|].
      + injection Hb as _ <- _. eexists. split; [reflexivity|]. split; [auto|]. intros z Z. congruence.
      + destruct (rc_place c); [|destruct (ra_uri a)|]; try discriminate Hb.
        * destruct (rc_format c); injection Hb as _ <- _; eexists; (split; [reflexivity|]; split; [reflexivity|discriminate]).
        * injection Hb as _ <- _; eexists; (split; [reflexivity|]; split; [reflexivity|discriminate]). }
  rewrite Tx. exists x. split; [|split; [exact Cx|]].
  - rewrite content_types_app. change (content_types NOCACHE) with (@nil string). rewrite app_nil_r.
    destruct (ra_headers a) as [hs|]; [apply set_content_type_one; auto|reflexivity].
  - intros n v N. rewrite in_app_iff.
    assert (In (n, v) NOCACHE <-> (n = "Pragma" /\ v = "no-cache") \/ (n = "Cache-Control" /\ v = "no-store")) as ->.
    { unfold NOCACHE. cbn [In]. split.
      - intros [X|[X|[]]]; injection X as <- <-; auto.
      - intros [[-> ->]|[-> ->]]; auto. }
    destruct (ra_headers a) as [hs|].
    + rewrite (set_content_type_rest hs x n v N). split.
      * intros [I|[I|I]]; auto. right. right. eauto.
      * intros [I|[I|(hs' & X & I)]]; auto. injection X as <-. auto.
    + split.
      * intros [[X|[]]|[I|I]]; auto. congruence.
      * intros [I|[I|(hs' & X & I)]]; auto. discriminate X.
Qed.

Lemma fragment_encoding_code rt : fragment_encoding rt = false <-> rt = ["code"].
Proof.
  split; [|intros ->; reflexivity]. unfold fragment_encoding. destruct rt as [|t r]; [discriminate|].
  intros H. destruct (string_dec t "code") as [->|N].
  - destruct r; [reflexivity|discriminate].
  - exfalso. apply N. clear N.
    repeat (match type of H with context [match ?s with EmptyString => _ | String _ _ => _ end] => destruct s; try discriminate H end;
            match type of H with context [match ?a with Ascii _ _ _ _ _ _ _ _ => _ end] => destruct a as [[] [] [] [] [] [] [] []]; try discriminate H end).
    match type of H with context [match ?s with EmptyString => _ | String _ _ => _ end] => destruct s; try discriminate H end.
    reflexivity.
Qed.
Lemma login_required_sent c ar ru p :
  rc_place c = PUrl -> ar_response_mode ar = None -> ar_response_type ar <> [] -> has_char "#" ru = false -> urlsplit ru = Ok p ->
  exists a out r, login_required_args ar ru = Ok a /\ do_response c a = Ok out /\ ro_response out = Some r
    /\ exists mode, reaches mode p
         (fun n x => (n = "error" /\ x = "login_required") \/ (n = "state" /\ ar_state ar = Some x)) r
    /\ (mode = "query" <-> ar_response_type ar = ["code"]).
Proof.
  intros C M Ne H P. unfold login_required_args. rewrite M. eexists _, _, _. split; [reflexivity|]. unfold do_response.
  cbn [ra_error ra_msg ra_ctype ra_frag ra_rtype ra_uri ra_args ra_more str_true fst snd]. rewrite C. cbn [rbind].
  split; [reflexivity|]. split; [reflexivity|].
  set (m := error_message _ _).
  assert (forall n x, In (n, x) (pairs_of [] m) <-> n = "error" /\ x = "login_required" \/ n = "state" /\ nonempty (ar_state ar) = Some x) as S.
  { intros n x. unfold m. destruct (nonempty (ar_state ar)) as [y|]; cbn; split.
    - intros [[= <- <-]|[[= <- <-]|[]]]; auto. - intros [[-> ->]|[-> [= ->]]]; auto.
    - intros [[= <- <-]|[]]; auto. - intros [[-> ->]|[_ [=]]]. auto. }
  clearbody m.
  assert (forall n x, In (n, x) (kept (pairs_of [] m)) <->
    (n = "error" /\ x = "login_required" \/ n = "state" /\ ar_state ar = Some x) /\ x <> EmptyString) as K.
  { intros n x. rewrite in_kept, S. unfold nonempty. destruct (ar_state ar) as [y|]; [|firstorder congruence].
    destruct (str_true y) eqn:T; [apply str_true_ne in T|apply str_true_no in T]; firstorder congruence. }
  destruct (location_frag [] m ru p H P) as (p' & X & Sp & Q & R).
  destruct (location_query [] m ru p H P) as (p2 & X2 & Sp2 & Q2 & R2).
  destruct (ar_response_type ar) as [|t0 r0] eqn:Rt; [congruence|].
  destruct (fragment_encoding (t0 :: r0)) eqn:Fe.
  - exists "fragment". split.
    + exists p'. split; [exact X|]. split; [exact Sp|]. split; [exact Q|]. intros n x. rewrite R. apply K.
    + split; [discriminate|]. intros E. apply fragment_encoding_code in E. congruence.
  - exists "query". split.
    + exists p2. split; [exact X2|]. split; [exact Sp2|]. split; [exact Q2|]. eexists. split; [exact R2|exact K].
    + apply fragment_encoding_code in Fe. tauto.
Qed.

(** ** The response of the authorization endpoint *)

Lemma tokens_state e now ar sid l scope s a s' :
  authn_tokens e now ar sid l scope s = (Ok (Good a), s') -> ap_state a = nonempty (ar_state ar).
Proof.
  intros H. unfold authn_tokens in H. apply bind_ok in H as (code & s1 & _ & H). apply bind_ok in H as (acc & s2 & _ & H).
  apply bind_ok in H as (idt & s3 & _ & H). destruct idt as [x|idv]; [apply ret_ok in H as [[=] _]|].
  match type of H with (if ?b then _ else _) _ = _ => destruct b end; apply ret_ok in H as [H _]; [|discriminate]. injection H as <-. reflexivity.
Qed.
Lemma car_state e now ar sid s a frag s' :
  create_authn_response e now ar sid s = (Ok (Good a, frag), s') -> ap_state a = nonempty (ar_state ar).
Proof.
  intros H. unfold create_authn_response in H.
  assert (G : forall s0 rt, (i <- get_session_info e sid ;;
      let scope := match ar_scope ar with
                   | Some (x :: r) => Some (filter_scopes e (x :: r) (ss_client i))
                   | _ => None end in
      r <- authn_tokens e now ar (ss_sid i) (ss_grant i) scope ;;
      ret (r, negb (smem "code" rt && forallb (String.eqb "code") rt))) s0 = (Ok (Good a, frag), s') ->
      ap_state a = nonempty (ar_state ar)).
  { clear H. intros s0 rt K. apply bind_ok in K as (i & s1 & _ & K). apply bind_ok in K as (r & s2 & T & K).
    apply ret_ok in K as [K _]. injection K as -> _. eapply tokens_state; eauto. }
  destruct (list_eq_dec string_dec (ar_response_type ar) ["none"]) as [X|X].
  - rewrite X in H. apply ret_ok in H as [H _]. injection H as <- _. reflexivity.
  - apply (G s (ar_response_type ar)). rewrite <- H.
    destruct (ar_response_type ar) as [|x [|y z]] eqn:Rt; [reflexivity| |];
    repeat (match goal with
            | |- _ = (match ?a with _ => _ end) _ => is_var a; destruct a; try reflexivity
            end).
    now destruct X.
Qed.
Lemma part2_state e now iframe ar sid uri s o s' a :
  authz_part2 e now iframe ar sid uri s = (Ok o, s') -> ao_args o = Good a -> ap_state a = nonempty (ar_state ar).
Proof.
  intros H A. destruct (part2_post _ _ _ _ _ _ _ _ _ _ H A) as (o0 & s1 & P & A0 & _). clear H. unfold post_authentication in P.
  apply bind_ok in P as (l & s2 & _ & H). apply bind_ok in H as (g & s3 & _ & H).
  destruct (negb (grant_active now g)). { apply ret_ok in H as [<- _]. discriminate. }
  apply bind_ok in H as ([[u c] gid] & s4 & _ & H). apply bind_ok in H as (ok & s5 & _ & H).
  destruct (negb ok). { apply ret_ok in H as [<- _]. discriminate. }
  apply bind_ok in H as ([args frag] & s6 & C & H).
  assert (args = Good a) as ->.
  { destruct uri as [v|]; [|apply ret_ok in H as [<- _]; discriminate].
    destruct (ar_response_mode ar) as [m|]; [|apply ret_ok in H as [<- _]; exact A0].
    destruct (response_mode m (Some frag)) as [[form fr]|x]; apply ret_ok in H as [<- _]; [exact A0|discriminate]. }
  eapply car_state; eauto.
Qed.
Lemma part2_iss e now iframe ar sid uri s o s' a :
  authz_part2 e now iframe ar sid uri s = (Ok o, s') -> ao_args o = Good a ->
  ao_iss o = if ao_form o then None else Some (e_issuer e).
Proof.
  intros H A. unfold authz_part2 in H. apply bind_ok in H as (x & s1 & _ & H). destruct x as [o0|].
  2:{ apply lift_inv in H as [H _]. apply ebrm_err in H. congruence. }
  destruct iframe.
  - apply bind_ok in H as (ev & s2 & _ & H). destruct ev as [ev|].
    2:{ apply lift_inv in H as [H _]. apply ebrm_err in H. congruence. }
    apply bind_ok in H as (ev' & s3 & _ & H). destruct (negb (event_valid now ev')).
    { apply lift_inv in H as [H _]. apply ebrm_err in H. congruence. }
    apply ret_ok in H as [<- _]. reflexivity.
  - apply ret_ok in H as [<- _]. reflexivity.
Qed.

Lemma says_state_only j ar desc ss o a x : ao_args o = Good a -> ap_state a = nonempty (ar_state ar) ->
  (says j ar desc ss o "state" x <-> ar_state ar = Some x /\ x <> EmptyString).
Proof.
  intros A S. split.
  - intros H. inversion H; subst; try congruence. assert (a0 = a) as -> by congruence. unfold nonempty in S.
    destruct (ar_state ar) as [y|]; [|congruence]. destruct (str_true y) eqn:T; [|congruence].
    apply str_true_ne in T. assert (y = x) as -> by congruence. auto.
  - intros [E N]. eapply says_state; [exact A|]. rewrite S, E. unfold nonempty. apply str_true_ne in N. now rewrite N.
Qed.
Lemma endpoint_answer e now iframe ar sid uri s o s' a c desc ss cookies :
  authz_part2 e now iframe ar sid uri s = (Ok o, s') -> ao_args o = Good a -> rc_place c = PUrl ->
  delivery o <> "form_post" ->
  exists v, uri = Some v /\ forall p, has_char "#" v = false -> urlsplit v = Ok p ->
  exists out r P, do_response c (delivered ar desc ss cookies o) = Ok out /\ ro_response out = Some r
    /\ reaches (delivery o) p P r
    /\ (forall x, P "state" x <-> ar_state ar = Some x /\ x <> EmptyString)
    /\ (forall x, P "code" x <-> ap_code a = Some x)
    /\ (forall x, P "access_token" x <-> ap_access a = Some x)
    /\ (forall x, P "id_token" x <-> ap_id a = Some x)
    /\ (forall x, P "iss" x <-> x = e_issuer e)
    /\ (forall x, P "client_id" x <-> x = ar_client_id ar)
    /\ (forall x, ~ P "error" x).
Proof.
  intros H A C D. destruct (part2_uri _ _ _ _ _ _ _ _ _ _ H A) as [U N]. destruct uri as [v|]; [|congruence].
  exists v. split; [reflexivity|]. intros p Hh Hs.
  assert (ao_form o = false) as F by (unfold delivery in D; destruct (ao_form o); congruence).
  destruct (url_answer c ar desc ss cookies o v p C F U Hh Hs) as (out & r & R1 & R2 & R3).
  exists out, r, (says (smem "scope" (rc_joined c)) ar desc ss o). do 3 (split; [assumption|]).
  pose proof (part2_state _ _ _ _ _ _ _ _ _ _ H A) as S. pose proof (part2_iss _ _ _ _ _ _ _ _ _ _ H A) as I. rewrite F in I.
  split; [intros x; now apply says_state_only with (a := a)|].
  split; [|split; [|split; [|split; [|split]]]]; intros x; try split; intros X;
    try (inversion X; subst; try congruence; match goal with E : ao_args o = Good ?b |- _ => assert (b = a) as -> by congruence end; assumption);
    try (inversion X; subst; congruence).
  - eapply says_code; eauto. - eapply says_access; eauto. - eapply says_id; eauto.
  - subst x. now apply says_iss. - subst x. eapply says_client; eauto.
Qed.

(** ** Userinfo *)

Lemma userinfo_packing {A} cdb issuer c (claims : A) ci r hs :
  dget cdb c = Some ci -> NoDup (dkeys ci) -> userinfo_response cdb issuer c claims = Ok (r, hs) ->
  (forall alg, wants_signed ci alg -> exists enc, r = Packed (Some alg) enc issuer c claims)
  /\ (forall alg enc, wants_encrypted ci alg enc -> exists sg, r = Packed sg (Some (alg, enc)) issuer c claims)
  /\ (r = Clear claims \/ exists sg enc, r = Packed sg enc issuer c claims
        /\ (forall alg, sg = Some alg -> wants_signed ci alg) /\ (forall x y, enc = Some (x, y) -> wants_encrypted ci x y))
  /\ In ("Cache-Control", "no-store") hs
  /\ In ("Content-type", match r with Clear _ => "application/json" | Packed _ _ _ _ _ => "application/jwt" end) hs.
Proof.
  intros E N. unfold userinfo_response. rewrite E. destruct (str_true c); cbn [negb]; [|discriminate].
  assert (forall k v, In (k, v) ci -> dget ci k = Some v) as G by (intros; now apply In_dget).
  unfold wants_signed, wants_encrypted.
  destruct (dget ci "userinfo_signed_response_alg") as [sg|] eqn:Es;
    destruct (dget ci "userinfo_encrypted_response_enc") as [en|] eqn:Ee;
    destruct (dget ci "userinfo_encrypted_response_alg") as [al|] eqn:Ea; intros [= <- <-];
    (split; [intros alg I; apply G in I; first [congruence|rewrite Es in I; injection I as <-; eauto]|]);
    (split; [intros alg enc [I J]; apply G in I; apply G in J; first [congruence|rewrite Ea in I; rewrite Ee in J; injection I as <-; injection J as <-; eauto]|]);
    (split; [first [left; reflexivity|right; eexists _, _; split; [reflexivity|];
              split; [intros x X; first [discriminate X|injection X as <-; now apply dget_In]
                     |intros x y X; first [discriminate X|injection X as <- <-; split; now apply dget_In]]]|]);
    (split; [cbn; auto|cbn; auto]).
Qed.
