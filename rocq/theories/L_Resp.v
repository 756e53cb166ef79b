(** Lemmas on authorization responses. *)
From Verif Require Import M_Base M_Types M_Codec M_Grant M_Env M_Session M_Claims M_Handler
  M_Authz M_TokenEP M_AuthzEP S_Resp L_Base L_Monad.

Lemma car_frag e now ar sid s args frag s' r :
  create_authn_response e now ar sid s = (Ok (args, frag), s') -> args = Good r ->
  (frag = false -> ap_access r = None /\ ap_id r = None).
Proof.
  intros H -> ->. unfold create_authn_response in H.
  assert (G : forall s0, (i <- get_session_info e sid ;;
      let scope := match ar_scope ar with
                   | Some (x :: r) => Some (filter_scopes e (x :: r) (ss_client i))
                   | _ => None end in
      r <- authn_tokens e now ar (ss_sid i) (ss_grant i) scope ;;
      ret (r, negb (smem "code" (ar_response_type ar) && forallb (String.eqb "code") (ar_response_type ar)))) s0 = (Ok (Good r, false), s') ->
      ap_access r = None /\ ap_id r = None).
  { clear H. intros s0 H. apply bind_ok in H as (i & s1 & _ & H). cbv zeta in H.
    apply bind_ok in H as (a & s2 & H & R). apply ret_ok in R as [R _].
    assert (a = Good r) as -> by congruence.
    assert (F : forall x, smem x (ar_response_type ar) = true -> x = "code").
    { intros x Hx. apply smem_In in Hx.
      assert (negb (smem "code" (ar_response_type ar) && forallb (String.eqb "code") (ar_response_type ar)) = false) as R2 by congruence.
      apply negb_false_iff, andb_true_iff in R2 as [_ R2]. rewrite forallb_forall in R2. apply R2 in Hx. now apply seqb_eq in Hx. }
    assert (smem "token" (ar_response_type ar) = false) as Ft by (destruct (smem "token" _) eqn:E; auto; apply F in E; discriminate).
    assert (smem "id_token" (ar_response_type ar) = false) as Fi by (destruct (smem "id_token" _) eqn:E; auto; apply F in E; discriminate).
    unfold authn_tokens in H. rewrite Ft, Fi in H.
    apply bind_ok in H as (code & s3 & _ & H). apply bind_ok in H as (acc & s4 & Ha & H). apply ret_ok in Ha as [<- <-].
    apply bind_ok in H as (idt & s5 & Hi & H). apply ret_ok in Hi as [<- <-].
    match type of H with (if ?b then _ else _) _ = _ => destruct b end; apply ret_ok in H as [H _]; [|discriminate]. injection H as <-. auto. }
  assert (X : ar_response_type ar = ["none"] \/ ar_response_type ar <> ["none"]).
  { destruct (list_eq_dec string_dec (ar_response_type ar) ["none"]); auto. }
  destruct X as [X|X].
  - rewrite X in H. apply ret_ok in H as [H _]. injection H as <-. auto.
  - apply (G s). rewrite <- H.
    destruct (ar_response_type ar) as [|x [|y z]] eqn:Rt; [reflexivity| |];
    repeat (match goal with
            | |- _ = (match ?a with _ => _ end) _ => is_var a; destruct a; try reflexivity
            end).
    now destruct X.
Qed.

Lemma ebrm_err ar x o : error_by_response_mode ar x = Ok o -> ao_args o = Err x.
Proof.
  unfold error_by_response_mode. destruct (ar_redirect_uri ar), (ar_response_mode ar); try discriminate.
  destruct (response_mode s0 None) as [[f fr]|y]; cbn; [|discriminate]. intros H. injection H as <-. reflexivity.
Qed.

Lemma post_delivery e now ar sid uri s o s' r :
  post_authentication e now ar sid uri s = (Ok o, s') -> ao_args o = Good r ->
  (delivery o = "query" -> ap_access r = None /\ ap_id r = None) /\
  (forall m, ar_response_mode ar = Some m -> delivery o = m).
Proof.
  intros H A. unfold post_authentication in H.
  apply bind_ok in H as (l & s1 & _ & H). apply bind_ok in H as (g & s2 & _ & H).
  destruct (negb (grant_active now g)). { apply ret_ok in H as [<- _]. discriminate. }
  apply bind_ok in H as ([[u c] gid] & s3 & _ & H). apply bind_ok in H as (ok & s4 & _ & H).
  destruct (negb ok). { apply ret_ok in H as [<- _]. discriminate. }
  apply bind_ok in H as ([args frag] & s5 & C & H).
  destruct uri as [v|]; [|apply ret_ok in H as [<- _]; discriminate].
  pose proof (fun E F => car_frag _ _ _ _ _ _ _ _ r C E F) as K.
  destruct (ar_response_mode ar) as [m|].
  2:{ apply ret_ok in H as [<- _]. cbn in A. split; [|discriminate]. unfold delivery. cbn.
      destruct frag; [discriminate|]. intros _. auto. }
  destruct (response_mode m (Some frag)) as [[form fr]|x] eqn:R; apply ret_ok in H as [<- _]; [|discriminate].
  cbn in A. unfold response_mode in R. unfold delivery. cbn [ao_form ao_frag].
  destruct (String.eqb m "form_post") eqn:E1.
  { injection R as <- <-. split; [discriminate|]. intros m' [= <-]. symmetry. now apply seqb_eq. }
  destruct (String.eqb m "fragment") eqn:E2.
  { destruct frag; [|discriminate]. injection R as <- <-. split; [discriminate|]. intros m' [= <-]. symmetry. now apply seqb_eq. }
  destruct (String.eqb m "query") eqn:E3; [|discriminate].
  destruct frag; [discriminate|]. injection R as <- <-. split; [auto|]. intros m' [= <-]. symmetry. now apply seqb_eq.
Qed.

Lemma part2_post e now iframe ar sid uri s o s' r :
  authz_part2 e now iframe ar sid uri s = (Ok o, s') -> ao_args o = Good r ->
  exists o0 s1, post_authentication e now ar sid uri s = (Ok o0, s1) /\
    ao_args o0 = Good r /\ ao_form o = ao_form o0 /\ ao_frag o = ao_frag o0 /\ ao_uri o = ao_uri o0.
Proof.
  intros H A. unfold authz_part2 in H. apply bind_ok in H as (x & s1 & P & H).
  destruct x as [o0|].
  2:{ apply lift_ok in H as [H _]. apply ebrm_err in H. congruence. }
  exists o0, s1. assert (post_authentication e now ar sid uri s = (Ok o0, s1)) as P0.
  { unfold catch, bind, ret in P. destruct (post_authentication e now ar sid uri s) as [[y|y] sy]; [congruence|]. discriminate. }
  split; [exact P0|]. destruct iframe.
  - apply bind_ok in H as (ev & s2 & _ & H). destruct ev as [ev|].
    2:{ apply lift_ok in H as [H _]. apply ebrm_err in H. congruence. }
    apply bind_ok in H as (ev' & s3 & _ & H). destruct (negb (event_valid now ev')).
    { apply lift_ok in H as [H _]. apply ebrm_err in H. congruence. }
    apply ret_ok in H as [<- _]. cbn in *. auto.
  - apply ret_ok in H as [<- _]. cbn in *. auto.
Qed.

Lemma part2_delivery e now iframe ar sid uri s o s' r :
  authz_part2 e now iframe ar sid uri s = (Ok o, s') -> ao_args o = Good r ->
  (delivery o = "query" -> ap_access r = None /\ ap_id r = None) /\
  (forall m, ar_response_mode ar = Some m -> delivery o = m).
Proof.
  intros H A. destruct (part2_post _ _ _ _ _ _ _ _ _ _ H A) as (o0 & s1 & P & A0 & E1 & E2 & _).
  pose proof (post_delivery _ _ _ _ _ _ _ _ _ P A0) as D. unfold delivery in *. now rewrite E1, E2.
Qed.
Lemma part2_uri e now iframe ar sid uri s o s' r :
  authz_part2 e now iframe ar sid uri s = (Ok o, s') -> ao_args o = Good r -> ao_uri o = uri /\ uri <> None.
Proof.
  intros H A. destruct (part2_post _ _ _ _ _ _ _ _ _ _ H A) as (o0 & s1 & P & A0 & _ & _ & ->). clear H. unfold post_authentication in P.
  apply bind_ok in P as (l & s2 & _ & H). apply bind_ok in H as (g & s3 & _ & H).
  destruct (negb (grant_active now g)). { apply ret_ok in H as [<- _]. discriminate. }
  apply bind_ok in H as ([[u c] gid] & s4 & _ & H). apply bind_ok in H as (ok & s5 & _ & H).
  destruct (negb ok). { apply ret_ok in H as [<- _]. discriminate. }
  apply bind_ok in H as ([args frag] & s6 & C & H).
  destruct uri as [v|]; [|apply ret_ok in H as [<- _]; discriminate].
  destruct (ar_response_mode ar) as [m|].
  2:{ apply ret_ok in H as [<- _]. now split. }
  destruct (response_mode m (Some frag)) as [[form fr]|x] eqn:R; apply ret_ok in H as [<- _]; [|discriminate]. now split.
Qed.
