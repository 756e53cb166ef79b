(** Lemmas on the add-on that adds arguments to responses. *)
From Verif Require Import M_Base M_Uri M_Types M_Codec M_Grant M_Env M_Session M_Claims M_Handler M_Authz M_TokenEP M_AuthzEP
  M_Response M_Extra S_Codec S_Resp S_Response S_Extra L_Base L_Split L_Monad L_Uri L_Redirect L_Resp L_Broker L_Response.

Lemma mval_true_iff v : mval_true v = true <-> some_value v.
Proof.
  destruct v as [s|n|l]; cbn.
  - apply str_true_ne.
  - rewrite negb_true_iff, Z.eqb_neq. tauto.
  - destruct l; split; congruence.
Qed.

(** What the arguments of a key ask for a name. *)
Definition asked (attrs : dict mval) (args : dict string) (n : string) : option mval :=
  match dget args n with
  | Some p => match dget attrs p with Some v => if mval_true v then Some v else None | None => None end
  | None => None
  end.

Lemma add_args_ok attrs args : NoDup (dkeys args) -> (forall n p, In (n, p) args -> dget attrs p <> None) ->
  forall m, NoDup (dkeys m) -> exists m', add_args attrs args m = Ok m' /\ NoDup (dkeys m')
    /\ forall n, dget m' n = match asked attrs args n with Some v => Some v | None => dget m n end.
Proof.
  induction args as [|[k p] r IH]; intros N K m Nm.
  - exists m. split; [reflexivity|]. split; [exact Nm|]. intros n. reflexivity.
  - cbn [add_args]. destruct (dget attrs p) as [v|] eqn:E; [|exfalso; apply (K k p); [now left|exact E]].
    cbn [dkeys map fst] in N. inversion N as [|? ? Nk Nr]; subst.
    destruct (IH Nr (fun n q I => K n q (or_intror I)) (if mval_true v then dset m k v else m)) as (m' & A & B & C).
    { destruct (mval_true v); [now apply dset_keys_nodup|exact Nm]. }
    exists m'. split; [exact A|]. split; [exact B|]. intros n. rewrite C. unfold asked. cbn [dget].
    destruct (String.eqb n k) eqn:Ek.
    + apply String.eqb_eq in Ek. subst k.
      assert (dget r n = None) as ->. { apply dget_None_keys. exact Nk. }
      rewrite E. destruct (mval_true v); [apply dget_dset_same|reflexivity].
    + apply String.eqb_neq in Ek. destruct (dget r n) as [q|].
      * destruct (dget attrs q) as [w|]; [destruct (mval_true w)|].
        -- reflexivity.
        -- destruct (mval_true v); [apply dget_dset_other; congruence|reflexivity].
        -- destruct (mval_true v); [apply dget_dset_other; congruence|reflexivity].
      * destruct (mval_true v); [apply dget_dset_other; congruence|reflexivity].
Qed.
Lemma add_args_missing attrs : forall args n p m, In (n, p) args -> dget attrs p = None -> add_args attrs args m = Raise AttributeError.
Proof.
  induction args as [|[k q] r IH]; intros n p m I E; [destruct I|]. cbn [add_args]. destruct (dget attrs q) as [v|] eqn:Q; [|reflexivity].
  destruct I as [[= -> ->]|I]; [congruence|]. eapply IH; eauto.
Qed.

(** ** Set-up *)

Lemma dget_init names n : dget (map (fun n => (n, O)) names) n = if smem n names then Some O else None.
Proof.
  induction names as [|x r IH]; [reflexivity|]. cbn [map dget]. rewrite IH. cbn [smem existsb].
  destruct (String.eqb n x); reflexivity.
Qed.
Lemma hooks_ok kwargs : forall keys s, NoDup keys -> (forall n, In n keys -> dget (xs_hooks s) n <> None) ->
  exists s', add_hooks kwargs keys s = Ok s'
    /\ (forall n, dget (xs_hooks s') n = match dget (xs_hooks s) n with
          | Some c => Some (if smem n keys then S c else c) | None => None end)
    /\ xs_extra s' = match keys with [] => xs_extra s | _ => Some kwargs end.
Proof.
  induction keys as [|k r IH]; intros s N K.
  - exists s. split; [reflexivity|]. split; [intros n; destruct (dget (xs_hooks s) n); reflexivity|reflexivity].
  - cbn [add_hooks]. destruct (dget (xs_hooks s) k) as [c|] eqn:E; [|exfalso; apply (K k); [now left|exact E]].
    inversion N as [|? ? Nk Nr]; subst.
    destruct (IH (mk_xstate (dset (xs_hooks s) k (S c)) (Some kwargs)) Nr) as (s' & A & B & C).
    { intros n I. cbn [xs_hooks]. rewrite dget_dset_other; [apply K; now right|]. intros ->. contradiction. }
    exists s'. split; [exact A|]. split.
    + intros n. rewrite B. cbn [xs_hooks smem existsb]. destruct (String.eqb n k) eqn:Ek.
      * apply String.eqb_eq in Ek. subst n. rewrite dget_dset_same, E.
        assert (smem k r = false) as -> by now apply smem_false. reflexivity.
      * apply String.eqb_neq in Ek. rewrite dget_dset_other by exact Ek. reflexivity.
    + rewrite C. destruct r; reflexivity.
Qed.
Lemma hooks_missing kwargs : forall keys s n, In n keys -> dget (xs_hooks s) n = None -> add_hooks kwargs keys s = Raise KeyError.
Proof.
  induction keys as [|k r IH]; intros s n I E; [destruct I|]. cbn [add_hooks]. destruct (dget (xs_hooks s) k) as [c|] eqn:K; [|reflexivity].
  destruct I as [->|I]; [congruence|]. apply (IH _ n I). cbn [xs_hooks]. rewrite dget_dset_other; [exact E|]. intros ->. congruence.
Qed.
Lemma setup_iff kwargs names : well_formed kwargs ->
  ((exists s, add_support kwargs (x_init names) = Ok s) <-> forall k, In k (dkeys kwargs) -> In k names).
Proof.
  intros [N _]. split.
  - intros [s H] k I. destruct (smem k names) eqn:E; [now apply smem_In|].
    unfold add_support in H. rewrite (hooks_missing kwargs (dkeys kwargs) (x_init names) k I) in H; [discriminate|].
    cbn [x_init xs_hooks]. now rewrite dget_init, E.
  - intros H. destruct (hooks_ok kwargs (dkeys kwargs) (x_init names) N) as (s & A & _ & _); [|eauto].
    intros n I. cbn [x_init xs_hooks]. rewrite dget_init. apply H, smem_In in I. rewrite I. discriminate.
Qed.
Lemma setup_state kwargs names s : well_formed kwargs -> add_support kwargs (x_init names) = Ok s ->
  (forall n, In n names -> dget (xs_hooks s) n = Some (if smem n (dkeys kwargs) then 1 else 0))
  /\ xs_extra s = match kwargs with [] => None | _ => Some kwargs end.
Proof.
  intros W H. pose proof (proj1 (setup_iff kwargs names W) (ex_intro _ s H)) as K. destruct W as [N W].
  destruct (hooks_ok kwargs (dkeys kwargs) (x_init names) N) as (s' & A & B & C).
  { intros n I. cbn [x_init xs_hooks]. rewrite dget_init. apply K, smem_In in I. rewrite I. discriminate. }
  unfold add_support in H. rewrite A in H. assert (s' = s) as -> by congruence. split.
  - intros n I. rewrite B. cbn [x_init xs_hooks]. rewrite dget_init. apply smem_In in I. rewrite I.
    destruct (smem n (dkeys kwargs)); reflexivity.
  - rewrite C. destruct kwargs as [|[? ?] ?]; reflexivity.
Qed.

(** ** Responses *)

Lemma pairs_dget j m n x : NoDup (dkeys m) ->
  (In (n, x) (pairs_of j m) <-> exists v, dget m n = Some v /\ In x (value_texts j n v)).
Proof.
  intros N. unfold pairs_of. rewrite in_flat_map. split.
  - intros ([k v] & I & H). cbn [fst snd] in H. apply in_map_iff in H as (y & [= <- <-] & H). exists v. split; [now apply In_dget|exact H].
  - intros (v & E & H). exists (n, v). split; [now apply dget_In|]. cbn [fst snd]. apply in_map_iff. eauto.
Qed.
Lemma texts_reads j n v x : In x (value_texts j n v) <-> reads (smem n j) v x.
Proof.
  destruct v as [s|i|l]; cbn.
  - split; [intros [->|[]]; reflexivity|intros ->; auto].
  - split; [intros [<-|[]]; reflexivity|intros ->; auto].
  - destruct (smem n j); cbn; [|tauto]. split; [intros [->|[]]; reflexivity|intros ->; auto].
Qed.

(** The arguments of an answer have different names. *)
Lemma delivered_nodup ar desc ss o : NoDup (dkeys (delivered_args ar desc ss o)).
Proof.
  unfold delivered_args, answer_args, error_args, opt_arg.
  destruct (ao_args o) as [e|a].
  - destruct (nonempty (ar_state ar)), (ao_session_state o), (ao_iss o); cbn;
      repeat (apply NoDup_cons; [cbn; intuition discriminate|]); apply NoDup_nil.
  - destruct (ap_state a), (ap_scope a), (ap_code a), (ap_access a), (ap_expires a), (ap_id a), (ao_session_state o), (ao_iss o); cbn;
      repeat (apply NoDup_cons; [cbn; intuition discriminate|]); apply NoDup_nil.
Qed.

Lemma once_response attrs s name k c a times : str_true (ra_error a) = false -> ra_msg a = None ->
  dget (xs_hooks s) name = Some times ->
  extended_response attrs s name k c a =
    rbind (do_pre_construct attrs (xs_extra s) k times (ra_args a)) (fun m => do_response c (with_args a m)).
Proof. intros E M H. unfold extended_response. now rewrite E, M, H. Qed.

Lemma wanted_asked kwargs attrs args n v : well_formed kwargs -> dget kwargs "authorization" = Some args ->
  (wanted kwargs attrs n v <-> asked attrs args n = Some v).
Proof.
  intros [_ W] E. pose proof (W _ _ (dget_In _ _ _ E)) as N. unfold wanted, asked. split.
  - intros (args' & p & E' & I & A & T). assert (args' = args) as -> by congruence. rewrite (In_dget _ _ _ N I), A.
    apply mval_true_iff in T. now rewrite T.
  - destruct (dget args n) as [p|] eqn:D; [|discriminate]. destruct (dget attrs p) as [w|] eqn:A; [|discriminate].
    destruct (mval_true w) eqn:T; [|discriminate]. intros [= ->]. exists args, p. do 2 (split; [auto using dget_In|]).
    split; [exact A|]. now apply mval_true_iff.
Qed.

Lemma extended_args kwargs names s attrs m : well_formed kwargs -> In "authorization" names ->
  add_support kwargs (x_init names) = Ok s -> attributes_exist kwargs attrs -> NoDup (dkeys m) ->
  exists times m', dget (xs_hooks s) "authorization" = Some times
    /\ do_pre_construct attrs (xs_extra s) KAuthz times m = Ok m' /\ NoDup (dkeys m')
    /\ (forall n v, wanted kwargs attrs n v -> dget m' n = Some v)
    /\ (forall n, (forall v, ~ wanted kwargs attrs n v) -> dget m' n = dget m n).
Proof.
  intros W I H K N. destruct (setup_state _ _ _ W H) as [Hk Hx].
  destruct (dget kwargs "authorization") as [args|] eqn:E.
  - assert (smem "authorization" (dkeys kwargs) = true) as J.
    { apply smem_In. apply (in_map fst) with (x := ("authorization", args)). now apply dget_In. }
    pose proof (Hk _ I) as X. rewrite J in X.
    destruct (add_args_ok attrs args) with (m := m) as (m' & A & B & C).
    + destruct W as [_ W]. eapply W. apply dget_In. exact E.
    + intros n p In1. eapply K; eauto.
    + exact N.
    + exists 1, m'. split; [exact X|]. split.
      * cbn [do_pre_construct]. unfold pre_construct. rewrite Hx. destruct kwargs as [|[k0 a0] kw]; [discriminate|].
        cbn [kind_key]. rewrite E, A. reflexivity.
      * split; [exact B|]. split.
        -- intros n v Hw. rewrite C. apply (wanted_asked _ _ _ _ _ W E) in Hw. now rewrite Hw.
        -- intros n Hn. rewrite C. destruct (asked attrs args n) as [v|] eqn:Q; [|reflexivity]. exfalso. apply (Hn v).
           now apply (wanted_asked _ _ _ _ _ W E).
  - assert (smem "authorization" (dkeys kwargs) = false) as J. { apply smem_false. now apply dget_None_keys. }
    pose proof (Hk _ I) as X. rewrite J in X. exists 0, m. split; [exact X|]. split; [reflexivity|]. split; [exact N|]. split.
    + intros n v (args & p & E' & _). congruence.
    + reflexivity.
Qed.

Lemma url_args c a v p m : rc_place c = PUrl -> str_true (ra_error a) = false -> ra_msg a = None -> ra_ctype a = None ->
  ra_rtype a = None -> ra_uri a = Some v -> has_char "#" v = false -> urlsplit v = Ok p ->
  exists out r, do_response c (with_args a m) = Ok out /\ ro_response out = Some r
    /\ reaches (match ra_frag a with Some true => "fragment" | _ => "query" end) p (fun n x => In (n, x) (pairs_of (rc_joined c) m)) r.
Proof.
  intros C E M T R U H P. unfold do_response, with_args.
  cbn [ra_error ra_msg ra_ctype ra_frag ra_rtype ra_uri ra_args fst snd]. rewrite E, M, T, R, C, U. cbn [rbind fst snd].
  eexists _, _. split; [reflexivity|]. split; [reflexivity|].
  unfold reaches. destruct (ra_frag a) as [[|]|].
  - destruct (location_frag (rc_joined c) m v p H P) as (p' & X & S & Q & F). exists p'. split; [exact X|]. split; [exact S|].
    split; [exact Q|]. intros n x. now rewrite F, in_kept.
  - destruct (location_query (rc_joined c) m v p H P) as (p' & X & S & Q & F). exists p'. split; [exact X|]. split; [exact S|].
    split; [exact Q|]. eexists. split; [exact F|]. intros n x. now rewrite in_kept.
  - destruct (location_query (rc_joined c) m v p H P) as (p' & X & S & Q & F). exists p'. split; [exact X|]. split; [exact S|].
    split; [exact Q|]. eexists. split; [exact F|]. intros n x. now rewrite in_kept.
Qed.
Lemma reaches_ext mode p P Q r : (forall n x, P n x <-> Q n x) -> reaches mode p P r -> reaches mode p Q r.
Proof.
  intros E (p' & A & B & C). exists p'. split; [exact A|]. split; [exact B|].
  repeat match type of C with match ?s with _ => _ end => destruct s; try exact C | match ?b with true => _ | false => _ end => destruct b; try exact C end.
  all: try (destruct C as (C & q & D & F); split; [exact C|]; exists q; split; [exact D|]; intros n x; rewrite F, E; tauto).
  all: try (destruct C as (C & F); split; [exact C|]; intros n x; rewrite F, E; tauto).
Qed.

Lemma extra_added names kwargs s attrs c ar desc ss cookies o a v p :
  well_formed kwargs -> In "authorization" names -> add_support kwargs (x_init names) = Ok s -> attributes_exist kwargs attrs ->
  rc_place c = PUrl -> ao_args o = Good a -> ao_form o = false -> ao_uri o = Some v -> has_char "#" v = false -> urlsplit v = Ok p ->
  exists out r, extended_response attrs s "authorization" (answer_kind o) c (delivered ar desc ss cookies o) = Ok out
    /\ ro_response out = Some r
    /\ reaches (delivery o) p (extended_says kwargs attrs (rc_joined c) (says (smem "scope" (rc_joined c)) ar desc ss o)) r.
Proof.
  intros W I H K C G F U Nh Us.
  destruct (extended_args kwargs names s attrs (delivered_args ar desc ss o) W I H K (delivered_nodup _ _ _ _))
    as (times & m' & X & Y & N & A & B).
  unfold answer_kind. rewrite G.
  assert (delivered ar desc ss cookies o =
    mk_rargs (delivered_args ar desc ss o) "" [] None None None (ao_frag o) None (ao_uri o) None cookies None) as -> by (unfold delivered; now rewrite F).
  rewrite (once_response _ _ _ _ _ _ times) by (cbn; auto). cbn [ra_args]. rewrite Y. cbn [rbind].
  destruct (url_args c (mk_rargs (delivered_args ar desc ss o) "" [] None None None (ao_frag o) None (ao_uri o) None cookies None) v p m')
    as (out & r & R1 & R2 & R3); try reflexivity; try assumption.
  exists out, r. split; [exact R1|]. split; [exact R2|]. cbn [ra_frag] in R3. unfold delivery. rewrite F.
  eapply reaches_ext; [|exact R3]. intros n x. rewrite (pairs_dget _ _ _ _ N). unfold extended_says. split.
  - intros (w & D & T). apply texts_reads in T.
    destruct (dget kwargs "authorization") as [args|] eqn:E.
    + destruct (asked attrs args n) as [w'|] eqn:Q.
      * left. exists w. apply (wanted_asked _ _ _ _ _ W E) in Q. rewrite (A _ _ Q) in D. assert (w' = w) as -> by congruence. auto.
      * right. assert (forall v, ~ wanted kwargs attrs n v) as Nw.
        { intros z Hz. apply (wanted_asked _ _ _ _ _ W E) in Hz. congruence. }
        split; [exact Nw|]. rewrite (B _ Nw) in D. apply delivered_says. apply pairs_dget; [apply delivered_nodup|].
        exists w. split; [exact D|]. now apply texts_reads.
    + right. assert (forall v, ~ wanted kwargs attrs n v) as Nw. { intros z (args & q & E' & _). congruence. }
      split; [exact Nw|]. rewrite (B _ Nw) in D. apply delivered_says. apply pairs_dget; [apply delivered_nodup|].
      exists w. split; [exact D|]. now apply texts_reads.
  - intros [(w & Hw & T)|[Nw S]].
    + exists w. split; [now apply A|]. now apply texts_reads.
    + rewrite (B _ Nw). apply delivered_says in S. apply pairs_dget in S; [exact S|apply delivered_nodup].
Qed.

Lemma extra_not_in_errors_and_forms attrs s c ar desc ss cookies o :
  dget (xs_hooks s) "authorization" <> None -> (exists x, ao_args o = Err x) \/ ao_form o = true ->
  extended_response attrs s "authorization" (answer_kind o) c (delivered ar desc ss cookies o)
  = do_response c (delivered ar desc ss cookies o).
Proof.
  intros H D. unfold extended_response. destruct (str_true _); [reflexivity|]. destruct (ra_msg (delivered ar desc ss cookies o)) eqn:M; [reflexivity|].
  assert (ao_form o = false) as F. { unfold delivered in M. destruct (ao_form o); [discriminate|reflexivity]. }
  destruct D as [[x E]|E]; [|congruence]. destruct (dget (xs_hooks s) "authorization") as [times|] eqn:T; [|congruence].
  assert (forall t m, do_pre_construct attrs (xs_extra s) (answer_kind o) t m = Ok m) as Q.
  { unfold answer_kind. rewrite E. induction t as [|t IH]; intros m; [reflexivity|]. cbn [do_pre_construct].
    assert (pre_construct attrs (xs_extra s) KOther m = Ok m) as ->. { unfold pre_construct. destruct (xs_extra s) as [[|]|]; reflexivity. }
    cbn [rbind]. apply IH. }
  rewrite Q. cbn [rbind]. f_equal. unfold with_args. destruct (delivered ar desc ss cookies o). reflexivity.
Qed.

Lemma extra_elsewhere attrs kwargs names s name c a :
  well_formed kwargs -> (forall n, In n names -> In n PACKAGE_NAMES) -> add_support kwargs (x_init names) = Ok s ->
  In name names -> extended_response attrs s name (endpoint_kind name) c a = do_response c a.
Proof.
  intros W P H I. destruct (setup_state _ _ _ W H) as [Hk Hx]. unfold extended_response.
  destruct (str_true (ra_error a)); [reflexivity|]. destruct (ra_msg a) eqn:M; [reflexivity|]. rewrite (Hk _ I).
  assert (forall t m, do_pre_construct attrs (xs_extra s) (endpoint_kind name) t m = Ok m) as Q.
  { induction t as [|t IH]; intros m; [reflexivity|]. cbn [do_pre_construct].
    assert (pre_construct attrs (xs_extra s) (endpoint_kind name) m = Ok m) as ->; [|exact (IH m)].
    unfold pre_construct. rewrite Hx. destruct kwargs as [|kw r] eqn:Ek; [reflexivity|]. rewrite <- Ek in *.
    unfold endpoint_kind. destruct (String.eqb name "introspection"); cbn [kind_key]; [|reflexivity].
    destruct (dget kwargs "token_introspection") as [args|] eqn:D; [|reflexivity]. exfalso.
    assert (In "token_introspection" PACKAGE_NAMES) as J.
    { apply P. apply (proj1 (setup_iff kwargs names W) (ex_intro _ s H)).
      apply (in_map fst) with (x := ("token_introspection", args)). now apply dget_In. }
    apply smem_In in J. vm_compute in J. discriminate. }
  rewrite Q. cbn [rbind]. f_equal. destruct a. reflexivity.
Qed.

Lemma extra_unknown_attribute names kwargs s attrs c ar desc ss cookies o a args n param :
  well_formed kwargs -> In "authorization" names -> add_support kwargs (x_init names) = Ok s ->
  dget kwargs "authorization" = Some args -> In (n, param) args -> dget attrs param = None ->
  ao_args o = Good a -> ao_form o = false ->
  extended_response attrs s "authorization" (answer_kind o) c (delivered ar desc ss cookies o) = Raise AttributeError.
Proof.
  intros W I H E J A G F. destruct (setup_state _ _ _ W H) as [Hk Hx].
  assert (smem "authorization" (dkeys kwargs) = true) as Sm.
  { apply smem_In. apply (in_map fst) with (x := ("authorization", args)). now apply dget_In. }
  pose proof (Hk _ I) as X. rewrite Sm in X.
  rewrite (once_response _ _ _ _ _ _ 1); [| |unfold delivered; now rewrite F|exact X].
  2:{ unfold delivered. rewrite F. reflexivity. }
  unfold answer_kind. rewrite G. cbn [do_pre_construct]. unfold pre_construct. rewrite Hx. destruct kwargs as [|kw r]; [discriminate|].
  cbn [kind_key]. rewrite E. rewrite (add_args_missing _ _ _ _ _ J A). reflexivity.
Qed.
