(** Lemmas: what registration accepts, and the theorems' last steps. *)
From Verif Require Import M_Base L_Base L_Monad M_Uri L_Uri M_Redirect L_Redirect M_Meta M_ClientAuthn
  M_Registration L_Meta S_Codec S_Redirect S_Registration L_Registration L_Registration2.

(** The id is found: draws differ, so one of them is not taken. *)
Lemma new_id_ok G res : (forall n m, g_rnd G n = g_rnd G m -> n = m) ->
  forall fuel seen x, List.length res < List.length seen + S fuel -> NoDup seen -> incl seen res ->
  (forall s, In s seen -> exists m, m < x_n x /\ s = g_rnd G m) ->
  exists id x', new_id G res fuel x = (Ok id, x').
Proof.
  intros L. induction fuel as [|k IH]; intros seen x Hl N Hi Hs; cbn [new_id]; unfold bind, draw; cbn iota beta;
    destruct (smem (g_rnd G (x_n x)) res) eqn:E; try (unfold ret; eauto; fail).
  - exfalso. apply smem_In in E.
    assert (Hn : ~ In (g_rnd G (x_n x)) seen) by (intros X; destruct (Hs _ X) as (m & A & B); apply L in B; lia).
    assert (C : List.length (g_rnd G (x_n x) :: seen) <= List.length res).
    { apply NoDup_incl_length; [now constructor|]. intros z [<-|Hz]; auto. }
    cbn in C. lia.
  - apply smem_In in E.
    assert (Hn : ~ In (g_rnd G (x_n x)) seen) by (intros X; destruct (Hs _ X) as (m & A & B); apply L in B; lia).
    apply (IH (g_rnd G (x_n x) :: seen)).
    + cbn. lia.
    + now constructor.
    + intros z [<-|Hz]; auto.
    + cbn [x_n]. intros s [<-|Hz]; [exists (x_n x); split; [lia|reflexivity]|].
      destruct (Hs _ Hz) as (m & A & B). exists m. split; [lia|exact B].
Qed.

Lemma accepted_good G now rq x c args x' : reg_laws G -> register G now rq x = (Ok (Done (c, args)), x') ->
  exists rq' rec, g_prepare G rq = Ok rq' /\ preferences_listed (g_info G) rq' /\
    (forall v, dget rq' "redirect_uris" = Some v -> exists us, v = RList us /\ forall u, In u us -> acceptable rq' u) /\
    dget (x_cdb x) c = None /\ dget (x_cdb x') c = Some rec /\ dget rec "client_id" = Some (RStr c) /\
    comb_uri (public_part G rec) = Ok args /\
    forall k, k <> c -> dget (x_cdb x') k = dget (x_cdb x) k.
Proof.
  intros L H. apply register_outcome in H.
  inversion H as [r0 x0 Hr|r0 x0 rq1 id t m mt c0 cc Hp Hm Hf Hid Hb Ht Hbt F Er Ec Hd]; subst r0 x0.
  - exfalso. exact (Hr _ eq_refl).
  - destruct Hd as [[_ Hd]|(args' & E & Hcomb & Hd)]; [exfalso; exact (Hd _ eq_refl)|]. clear Hid.
    injection E as E1 E2. subst id args'.
    destruct (done_good _ _ _ _ _ _ _ (rl_dict G L _ _ Hp) Hm F Hd) as (D1 & D2 & D3 & D4 & _).
    exists rq1, cc. split; [exact Hp|]. split; [exact D1|]. split.
    { intros v Hv. destruct D3 as [[D3 _]|(us & l & D3 & _ & D6)]; [congruence|]. exists us. split; [congruence|].
      intros u Hu. clear -D6 Hu. induction D6 as [|a b us l [P _] D6 IH]; [destruct Hu|]. destruct Hu as [<-|Hu]; auto. }
    split; [now apply dget_None_keys|]. split; [rewrite Ec, seqb_refl; reflexivity|]. split; [exact D4|]. split; [exact Hcomb|].
    intros k Hk. rewrite Ec. apply seqb_neq in Hk. now rewrite Hk.
Qed.

(** An existing record stays, whatever a registration comes to. *)
Lemma others_kept G now rq x r x' c rec : register G now rq x = (r, x') ->
  dget (x_cdb x) c = Some rec -> dget (x_cdb x') c = Some rec.
Proof.
  intros H Hc. apply register_outcome in H. destruct H as [r x' Hr Ec|r x' rq1 id t m mt c0 cc Hp Hm Hf Hid Hb Ht Hbt F Er Ec Hd].
  - now rewrite Ec.
  - rewrite Ec. destruct (String.eqb c id) eqn:E; [|exact Hc]. apply seqb_eq in E. subst c.
    exfalso. apply Hf. eapply dget_Some_keys; eauto.
Qed.

Lemma stored_form rq u bq : verify_one rq u = Ok bq -> bq = (u, []) \/ split_uri u = Ok bq.
Proof.
  unfold verify_one. intros H. apply rbind_inv in H as (p & Hp & H). apply rbind_inv in H as (cu & _ & H).
  destruct cu; [left; congruence|now right].
Qed.

Lemma history_records G ops x evs x' c rec : reg_laws G -> fresh_start x -> rrun G ops x = (evs, x') ->
  dget (x_cdb x') c = Some rec -> dget (x_cdb x) c = None ->
  exists i now rq, nth_error ops i = Some (now, rq) /\
    (((forall a, nth_error evs i <> Some (Ok (Done a))) /\ dget rec "redirect_uris" = None) \/
     exists args rq', nth_error evs i = Some (Ok (Done (c, args))) /\ g_prepare G rq = Ok rq' /\
       preferences_listed (g_info G) rec /\
       forall v, dget rec "redirect_uris" = Some v ->
         exists us l, dget rq' "redirect_uris" = Some (RList us) /\ v = RUris l /\
           Forall2 (fun u bq => acceptable rq' u /\ (bq = (u, []) \/ split_uri u = Ok bq)) us l).
Proof.
  intros L S H Hc N. destruct (record_origin G L _ _ _ _ _ _ H (start_inv G x S) Hc) as [X|(i & now & rq & Hi & D)]; [congruence|].
  exists i, now, rq. split; [exact Hi|]. destruct D as [(args & D1 & D2 & rq1 & D3 & D4 & D5 & D6)|[D1 D2]]; [right|left; auto].
  exists args, rq1. split; [exact D1|]. split; [exact D3|]. split; [exact D5|]. intros v Hv.
  destruct D6 as [[_ D6]|(us & l & E1 & E2 & E3)]; [congruence|]. exists us, l. split; [exact E1|]. split; [congruence|].
  clear -E3. induction E3 as [|u b us l [P Q] E3 IH]; constructor; [|exact IH]. split; [exact P|]. eapply stored_form; eauto.
Qed.

(** A registration of plain https URIs succeeds. *)
Lemma https_verified rq us u : rq = [("redirect_uris", RList us)] -> plain_base u -> with_scheme u "https" -> visible u = u ->
  exists bq, verify_one rq u = Ok bq.
Proof.
  intros -> Hp Hs Hv.
  destruct (plain_split u "" "" u Hp) as (p & Hsp & Hf & _); [auto|intros (a & b & E); destruct a; discriminate|now rewrite sapp_nil_r|exact Hv|].
  assert (E : us_scheme p = "https") by (eapply scheme_text; [exact Hsp|discriminate|reflexivity|exact Hs]).
  unfold verify_one, split_uri. rewrite Hsp. cbn [rbind]. rewrite E, Hf. cbn. eauto.
Qed.
Lemma mapM_all {X Y} (f : X -> res Y) l : (forall a, In a l -> exists b, f a = Ok b) -> exists l', mapM f l = Ok l'.
Proof.
  induction l as [|a l IH]; intros H; cbn [mapM]; [eauto|].
  destruct (H a) as [b ->]; [now left|]. destruct IH as [l' ->]; [intros; apply H; now right|]. cbn [rbind]. eauto.
Qed.
Lemma comb_plain G c : dget c "request_uris" = None -> exists args, comb_uri (public_part G c) = Ok args.
Proof.
  intros H. unfold comb_uri.
  assert (P : dget (public_part G c) "request_uris" = None).
  { unfold public_part. destruct (smem "request_uris" (g_public G)) eqn:E.
    - rewrite (filter_get (fun k => smem k (g_public G))) by exact E. exact H.
    - now apply (filter_out (fun k => smem k (g_public G))). }
  set (a1 := match dget (public_part G c) "redirect_uris" with Some (RUris (x :: r)) => _ | _ => _ end).
  assert (E1 : dget a1 "request_uris" = None).
  { unfold a1. destruct (dget (public_part G c) "redirect_uris") as [[| | |[|x l]| | |]|]; try exact P. rewrite dget_dset_other; [exact P|discriminate]. }
  set (a2 := match dget a1 "post_logout_redirect_uri" with Some (RUri b q) => _ | _ => a1 end).
  assert (E2 : dget a2 "request_uris" = None).
  { unfold a2. destruct (dget a1 "post_logout_redirect_uri") as [[| | | |b q| |]|]; try exact E1. rewrite dget_dset_other; [exact E1|discriminate]. }
  rewrite E2. eauto.
Qed.
Lemma plain_done G us c0 : (forall u, In u us -> plain_base u /\ with_scheme u "https" /\ visible u = u) ->
  g_load G [("redirect_uris", RList us)] = Ok tt ->
  exists l, do_registration G [("redirect_uris", RList us)] ignored c0 = Ok (Done (dset c0 "redirect_uris" (RUris l))).
Proof.
  intros H Hl. destruct (mapM_all (verify_one [("redirect_uris", RList us)]) us) as [l El].
  { intros u Hu. destruct (H u Hu) as (A & B & C). eapply https_verified; eauto. }
  exists l. unfold do_registration, copy_request, reg_redirects, verify_redirect_uris.
  cbn [fold_left fst snd smem existsb ignored]. cbn. rewrite El. cbn. rewrite Hl. reflexivity.
Qed.
Lemma plain_accepted G now rq x us : reg_laws G -> g_prepare G rq = Ok [("redirect_uris", RList us)] ->
  (forall u, In u us -> plain_base u /\ with_scheme u "https" /\ visible u = u) ->
  g_load G [("redirect_uris", RList us)] = Ok tt ->
  exists c args x', register G now rq x = (Ok (Done (c, args)), x').
Proof.
  intros L Hp Hu Hl. unfold register, catch.
  assert (X : exists c args x', registration_setup G now rq x = (Ok (Done (c, args)), x')); [|destruct X as (c & args & x' & ->); eauto].
  unfold registration_setup. rewrite Hp.
  assert (match_client_request (g_info G) preferences [("redirect_uris", RList us)] = Ok tt) as -> by reflexivity.
  unfold bind at 1, get_st at 1.
  destruct (new_id_ok G (dkeys (x_cdb x)) (rl_rnd G L) (List.length (x_cdb x)) [] x) as (id & x1 & Hid).
  { unfold dkeys. rewrite map_length. cbn. lia. }
  { constructor. } { intros z []. } { intros s []. }
  unfold bind at 1. rewrite Hid. unfold bind at 1, draw at 1.
  change (if dmem [("redirect_uris", RList us)] "client_id" then ddel [("redirect_uris", RList us)] "client_id" else [("redirect_uris", RList us)])
    with [("redirect_uris", RList us)].
  fold ignored. set (x2 := mk_rctx (x_cdb x1) (x_rat x1) (S (x_n x1))).
  set (base := [("client_id", RStr id); ("client_salt", RStr (g_rnd G (x_n x1)))]).
  assert (Api : exists c x3, add_api G id base x2 = (Ok c, x3) /\ dget c "request_uris" = None).
  { unfold add_api. destruct (g_read G); (eexists _, _; split; [unfold bind, draw, get_st, put_st, ret; cbn iota beta; reflexivity|reflexivity]). }
  destruct Api as (c & x3 & Ha & Hn). unfold bind at 1. rewrite Ha.
  unfold bind at 1, add_secret, bind at 1, draw, ret at 1. cbn iota beta.
  match goal with |- context [put_client id ?c0] => set (stub := c0) end.
  assert (Hs : dget stub "request_uris" = None).
  { unfold stub. destruct (g_expires G) as [z|]; [destruct (Z.eqb (now + z) 0)|]; repeat (rewrite dget_dset_other; [|discriminate]); exact Hn. }
  clearbody stub. unfold bind at 1, put_client at 1, bind at 1, get_st at 1, put_st at 1. cbn iota beta.
  destruct (plain_done G us stub Hu Hl) as [l Hd]. unfold bind at 1, lift at 1. rewrite Hd.
  destruct (comb_plain G (dset stub "redirect_uris" (RUris l))) as [args Hc]; [rewrite dget_dset_other; [exact Hs|discriminate]|].
  unfold bind at 1, lift at 1. rewrite Hc. unfold bind, put_client, bind, get_st, put_st, ret. eauto.
Qed.

(** ** Reading *)
Lemma read_own G A now q hdr ops x evs x' db a db' i c t args : reg_laws G -> fresh_start x ->
  rrun G ops x = (evs, x') -> given G ops evs i c t args ->
  hdr = Some (append "Bearer " t) ->
  read_registration G A [MBearerHeader] now q hdr x' db = (Ok a, db') ->
  cr_client_id q = Some c /\ a = args.
Proof.
  intros L S H Gv Hh Hr. destruct (given_leads _ _ _ _ _ _ _ _ _ L S H Gv) as (rec & T1 & T2 & T3 & T4).
  destruct (rrun_at G L _ _ _ _ H (start_inv G x S)) as ((I & _) & _).
  destruct (read_bearer _ _ _ _ _ _ _ _ _ Hr a eq_refl I) as (t' & c' & rec' & [Q1 Q2] & R1 & R2 & R3).
  assert (t' = t) by (rewrite Hh in Q2; injection Q2 as Q2; now symmetry). subst t'.
  assert (c' = c) by congruence. subst c'. split; [exact Q1|]. congruence.
Qed.
Lemma read_back G A now q hdr ops x evs x' db i c t args : reg_laws G -> fresh_start x ->
  rrun G ops x = (evs, x') -> given G ops evs i c t args -> reads_with q hdr c t ->
  read_registration G A [MBearerHeader] now q hdr x' db = (Ok args, db).
Proof.
  intros L S H Gv Hq. destruct (given_leads _ _ _ _ _ _ _ _ _ L S H Gv) as (rec & T1 & T2 & T3 & T4).
  rewrite (read_bearer_ok G A now q hdr x' db t c rec); auto. now rewrite T3.
Qed.
Lemma read_drawn G A now q hdr ops x evs x' db a db' : reg_laws G -> fresh_start x ->
  rrun G ops x = (evs, x') ->
  read_registration G A [MBearerHeader] now q hdr x' db = (Ok a, db') ->
  exists c t n, reads_with q hdr c t /\ t = g_rnd G n /\ n < x_n x'.
Proof.
  intros L S H Hr. destruct (rrun_at G L _ _ _ _ H (start_inv G x S)) as ((I1 & I2) & _).
  destruct (read_bearer _ _ _ _ _ _ _ _ _ Hr a eq_refl I1) as (t & c & rec & Q & R1 & R2 & R3).
  destruct (I2 _ _ R1) as (m & A1 & A2). eauto 10.
Qed.
Lemma read_one G A B now now' q q' hdr ops more x evs evs' x' x'' db db' a a' d d' : reg_laws G -> fresh_start x ->
  rrun G ops x = (evs, x') -> rrun G more x' = (evs', x'') ->
  read_registration G A [MBearerHeader] now q hdr x' db = (Ok a, d) ->
  read_registration G B [MBearerHeader] now' q' hdr x'' db' = (Ok a', d') ->
  cr_client_id q = cr_client_id q' /\ a = a'.
Proof.
  intros L S H H' Hr Hr'. destruct (rrun_at G L _ _ _ _ H (start_inv G x S)) as (I & _).
  destruct (rrun_at G L _ _ _ _ H' I) as (I' & (_ & Gc & Gt) & _).
  destruct (read_bearer _ _ _ _ _ _ _ _ _ Hr a eq_refl (proj1 I)) as (t & c & rec & [Q1 Q2] & R1 & R2 & R3).
  destruct (read_bearer _ _ _ _ _ _ _ _ _ Hr' a' eq_refl (proj1 I')) as (t' & c' & rec' & [Q1' Q2'] & R1' & R2' & R3').
  rewrite Q2 in Q2'. injection Q2' as Q2'. subst t'. apply Gt in R1. apply Gc in R2.
  assert (c' = c) by congruence. subst c'. split; congruence.
Qed.
