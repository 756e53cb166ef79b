(** Lemmas on histories of registrations, and on reading a registration. *)
From Verif Require Import M_Base L_Base L_Monad M_Uri L_Uri M_Redirect L_Redirect M_Meta M_ClientAuthn
  M_Registration L_Meta S_Codec S_Redirect S_Registration L_Registration.

Lemma new_id_spec G res : forall fuel x r x', new_id G res fuel x = (r, x') ->
  x_cdb x' = x_cdb x /\ x_rat x' = x_rat x /\ x_n x < x_n x' /\
  forall id, r = Ok id -> ~ In id res /\ exists m, x_n x <= m /\ m < x_n x' /\ id = g_rnd G m.
Proof.
  induction fuel as [|k IH]; intros x r x'; cbn [new_id]; unfold bind, draw; cbn [x_n x_cdb x_rat];
    destruct (smem (g_rnd G (x_n x)) res) eqn:E; intros H.
  - injection H as <- <-. cbn. split; [reflexivity|]. split; [reflexivity|]. split; [lia|]. discriminate.
  - injection H as <- <-. cbn. split; [reflexivity|]. split; [reflexivity|]. split; [lia|]. intros id [= <-].
    apply smem_false in E. split; [exact E|]. exists (x_n x). split; [lia|]. split; [lia|reflexivity].
  - apply IH in H as (A & B & C & D). cbn [x_n x_cdb x_rat] in *. split; [exact A|]. split; [exact B|].
    split; [lia|]. intros id Hi. destruct (D id Hi) as [D1 (m & D2 & D3 & D4)]. split; [exact D1|].
    exists m. split; [lia|]. split; [lia|exact D4].
  - injection H as <- <-. cbn. split; [reflexivity|]. split; [reflexivity|]. split; [lia|]. intros id [= <-].
    apply smem_false in E. split; [exact E|]. exists (x_n x). split; [lia|]. split; [lia|reflexivity].
Qed.

(** The record before the request is looked at. *)
Definition first_record (id t : string) (with_t : bool) (c : dict rval) : Prop :=
  NoDup (dkeys c) /\ dget c "redirect_uris" = None /\ dget c "client_id" = Some (RStr id) /\
  (forall pref prov, In (pref, prov) preferences -> dget c pref = None) /\
  dget c "registration_access_token" = (if with_t then Some (RStr t) else None).

Definition reads (G : regconf) : bool := match g_read G with Some _ => true | None => false end.
Definition rat_with (G : regconf) (rat : dict string) (t id : string) : dict string :=
  if reads G then dset rat t id else rat.

Inductive outcome_of (G : regconf) (rq : dict rval) (x : rctx) : regev -> rctx -> Prop :=
| out_none r x' : (forall a, r <> Ok (Done a)) -> x_cdb x' = x_cdb x -> x_rat x' = x_rat x -> x_n x <= x_n x' ->
    outcome_of G rq x r x'
| out_some r x' rq1 id t m mt c0 c :
    g_prepare G rq = Ok rq1 -> match_client_request (g_info G) preferences rq1 = Ok tt ->
    ~ In id (dkeys (x_cdb x)) -> id = g_rnd G m -> x_n x <= m < x_n x' ->
    t = g_rnd G mt -> x_n x <= mt < x_n x' ->
    first_record id t (reads G) c0 ->
    x_rat x' = rat_with G (x_rat x) t id ->
    (forall k, dget (x_cdb x') k = if String.eqb k id then Some c else dget (x_cdb x) k) ->
    ((c = c0 /\ forall a, r <> Ok (Done a)) \/
     (exists args, r = Ok (Done (id, args)) /\ comb_uri (public_part G c) = Ok args /\
        do_registration G (if dmem rq1 "client_id" then ddel rq1 "client_id" else rq1) ignored c0 = Ok (Done c))) ->
    outcome_of G rq x r x'.

Lemma pref_none (c : dict rval) : (forall pref, In pref (dkeys preferences) -> dget c pref = None) ->
  forall pref prov, In (pref, prov) preferences -> dget c pref = None.
Proof. intros H pref prov Hin. apply H. unfold dkeys. change pref with (fst (pref, prov)). now apply in_map. Qed.

Lemma setup_outcome G now rq x r x' : registration_setup G now rq x = (r, x') -> outcome_of G rq x r x'.
Proof.
  unfold registration_setup. destruct (g_prepare G rq) as [rq1|e] eqn:Ep.
  2:{ intros H. injection H as <- <-. apply out_none; auto; discriminate. }
  destruct (match_client_request (g_info G) preferences rq1) as [[]|e] eqn:Em.
  2:{ intros H. assert (Hx : x' = x /\ forall a, r <> Ok (Done a)) by (destruct e; injection H as <- <-; split; auto; discriminate).
      destruct Hx as [-> Hr]. apply out_none; auto. }
  unfold bind at 1, get_st at 1. cbn iota beta. intros H.
  apply bind_inv in H as [(id & x1 & H1 & H)|(e & H1 & ->)].
  2:{ apply new_id_spec in H1 as (A & B & C & _). apply out_none; auto; [discriminate|lia]. }
  apply new_id_spec in H1 as (A1 & B1 & C1 & D1). destruct (D1 id eq_refl) as [F1 (m & Hm1 & Hm2 & Hid)]. clear D1.
  set (rq2 := if dmem rq1 "client_id" then ddel rq1 "client_id" else rq1) in *.
  unfold bind at 1, draw at 1 in H. cbn iota beta in H.
  set (x2 := mk_rctx (x_cdb x1) (x_rat x1) (S (x_n x1))) in *.
  set (base := [("client_id", RStr id); ("client_salt", RStr (g_rnd G (x_n x1)))]) in *.
  (* the registration api *)
  assert (Api : exists c x3 t mt, add_api G id base x2 = (Ok c, x3) /\ x_cdb x3 = x_cdb x /\
      x_rat x3 = rat_with G (x_rat x) t id /\ x_n x2 <= x_n x3 /\ t = g_rnd G mt /\ x_n x <= mt < x_n x3 /\
      c = (if reads G then dset (dset base "registration_access_token" (RStr t)) "registration_client_uri"
             (RStr (append (match g_read G with Some p => p | None => "" end) (append "?client_id=" id))) else base)).
  { unfold add_api, rat_with, reads. destruct (g_read G) as [path|].
    - do 4 eexists. split; [unfold bind, draw, get_st, put_st, ret; cbn; reflexivity|]. cbn [x_cdb x_rat x_n].
      split; [exact A1|]. split; [cbn; rewrite B1; reflexivity|]. split; [cbn; lia|]. split; [reflexivity|]. split; [cbn; lia|reflexivity].
    - exists base, x2, (g_rnd G (x_n x1)), (x_n x1). split; [reflexivity|]. unfold x2. cbn [x_cdb x_rat x_n].
      split; [exact A1|]. split; [exact B1|]. split; [lia|]. split; [reflexivity|]. split; [lia|reflexivity]. }
  destruct Api as (c & x3 & t & mt & Ha & A3 & B3 & C3 & Ht & Hmt & Ec).
  unfold bind at 1 in H. rewrite Ha in H. cbn iota beta in H.
  unfold bind at 1, add_secret, bind at 1, draw, ret at 1 in H. cbn iota beta in H.
  match type of H with context [put_client id ?c0] => set (stub := c0) in * end.
  assert (F : first_record id t (reads G) stub).
  { unfold stub, first_record. rewrite Ec. unfold base. destruct (reads G); destruct (g_expires G) as [z|]; [destruct (Z.eqb (now + z) 0)| |destruct (Z.eqb (now + z) 0)|];
      (split; [repeat apply dset_keys_nodup; cbn; repeat constructor; cbn; intuition discriminate|]; split; [reflexivity|];
       split; [reflexivity|]; split; [apply pref_none; cbn; intros pref Hp; repeat (destruct Hp as [<-|Hp]; [reflexivity|]); destruct Hp|reflexivity]). }
  clearbody stub. clear Ec Ha c.
  unfold bind at 1, put_client at 1, bind at 1, get_st at 1, put_st at 1 in H. cbn iota beta in H. cbn [x_cdb x_rat x_n] in H.
  assert (Bounds : x_n x <= m < S (x_n x3) /\ x_n x <= mt < S (x_n x3)) by (unfold x2 in C3; cbn in C3; lia).
  apply bind_inv in H as [(rr & x4 & H4 & H)|(e & H4 & ->)].
  2:{ apply lift_inv in H4 as [_ <-].
      eapply (out_some G rq x _ _ rq1 id t m mt stub stub); eauto; cbn [x_cdb x_rat x_n]; try tauto.
      - intros k. rewrite A3. apply dget_dset.
      - left. split; [reflexivity|discriminate]. }
  apply lift_ok in H4 as [H4 <-]. destruct rr as [c'|e].
  2:{ injection H as <- <-.
      eapply (out_some G rq x _ _ rq1 id t m mt stub stub); eauto; cbn [x_cdb x_rat x_n]; try tauto.
      - intros k. rewrite A3. apply dget_dset.
      - left. split; [reflexivity|discriminate]. }
  apply bind_inv in H as [(args & x5 & H5 & H)|(e & H5 & ->)].
  2:{ apply lift_inv in H5 as [_ <-].
      eapply (out_some G rq x _ _ rq1 id t m mt stub stub); eauto; cbn [x_cdb x_rat x_n]; try tauto.
      - intros k. rewrite A3. apply dget_dset.
      - left. split; [reflexivity|discriminate]. }
  apply lift_ok in H5 as [H5 <-].
  unfold bind, put_client, bind, get_st, put_st, ret in H. cbn iota beta in H. cbn [x_cdb x_rat x_n] in H. injection H as <- <-.
  eapply (out_some G rq x _ _ rq1 id t m mt stub c'); eauto; cbn [x_cdb x_rat x_n]; try tauto.
  intros k. rewrite A3, !dget_dset. now destruct (String.eqb k id).
Qed.

Lemma register_outcome G now rq x r x' : register G now rq x = (r, x') -> outcome_of G rq x r x'.
Proof.
  unfold register, catch. destruct (registration_setup G now rq x) as [[a|e] x1] eqn:E; intros H.
  - injection H as <- <-. eapply setup_outcome; eauto.
  - injection H as <- <-. apply setup_outcome in E. inversion E as [r0 x0 Hr Ec Er Hn|r0 x0 rq1 id t m mt c0 c Hp Hm Hf Hid Hb Ht Hbt F Er Ec Hd]; subst r0 x0.
    + apply out_none; auto. discriminate.
    + destruct Hd as [[-> _]|(args & Hd & _)]; [|discriminate].
      eapply (out_some G rq x _ _ rq1 id t m mt c0 c0); eauto. left. split; [reflexivity|discriminate].
Qed.
Lemma register_ok G now rq x : exists o x', register G now rq x = (Ok o, x').
Proof. unfold register, catch. destruct (registration_setup G now rq x) as [[a|e] x1]; [eauto|unfold ret; eauto]. Qed.

(** ** What an accepted request was like *)
Definition good_record (G : regconf) (rq : dict rval) (c : dict rval) : Prop :=
  exists rq1, g_prepare G rq = Ok rq1 /\ preferences_listed (g_info G) rq1 /\ preferences_listed (g_info G) c /\
    ((dget rq1 "redirect_uris" = None /\ dget c "redirect_uris" = None) \/
     exists us l, dget rq1 "redirect_uris" = Some (RList us) /\ dget c "redirect_uris" = Some (RUris l) /\
       Forall2 (fun u b => acceptable rq1 u /\ verify_one rq1 u = Ok b) us l).

Lemma listed_from info rq1 : match_client_request info preferences rq1 = Ok tt -> preferences_listed info rq1.
Proof. intros H pref prov v l Hin Hv Hl. eapply match_one_listed; eauto. eapply match_request_ok; eauto. Qed.

Lemma pref_not_own pref prov : In (pref, prov) preferences -> ~ In pref own_keys /\ pref <> "client_id".
Proof.
  intros H. cbn in H. repeat (destruct H as [[= <- <-]|H]; [split; [cbn; intuition discriminate|discriminate]|]). destruct H.
Qed.

Lemma verify_one_ext rq rq' u : dget rq "application_type" = dget rq' "application_type" ->
  dget rq "response_types" = dget rq' "response_types" -> verify_one rq u = verify_one rq' u.
Proof. intros A B. unfold verify_one, must_https, only_code, app_type. now rewrite A, B. Qed.

Lemma done_good G rq1 id t b c0 c : NoDup (dkeys rq1) -> match_client_request (g_info G) preferences rq1 = Ok tt ->
  first_record id t b c0 ->
  do_registration G (if dmem rq1 "client_id" then ddel rq1 "client_id" else rq1) ignored c0 = Ok (Done c) ->
  preferences_listed (g_info G) rq1 /\ preferences_listed (g_info G) c /\
  ((dget rq1 "redirect_uris" = None /\ dget c "redirect_uris" = None) \/
   exists us l, dget rq1 "redirect_uris" = Some (RList us) /\ dget c "redirect_uris" = Some (RUris l) /\
     Forall2 (fun u b => acceptable rq1 u /\ verify_one rq1 u = Ok b) us l) /\
  dget c "client_id" = Some (RStr id) /\
  (dget rq1 "registration_access_token" = None ->
   dget c "registration_access_token" = dget c0 "registration_access_token").
Proof.
  intros N Hm (N0 & R0 & I0 & P0 & T0) H.
  assert (L := listed_from _ _ Hm).
  set (rq2 := if dmem rq1 "client_id" then ddel rq1 "client_id" else rq1) in *.
  assert (N2 : NoDup (dkeys rq2)) by (unfold rq2; destruct (dmem rq1 "client_id"); [now apply ddel_keys_nodup|exact N]).
  assert (G2 : forall k, k <> "client_id" -> dget rq2 k = dget rq1 k).
  { intros k Hk. unfold rq2. destruct (dmem rq1 "client_id"); [now apply dget_ddel_other|reflexivity]. }
  assert (C2 : dget rq2 "client_id" = None).
  { unfold rq2. destruct (dmem rq1 "client_id") eqn:E; [now apply dget_ddel_same|now apply dmem_false]. }
  apply do_registration_inv in H as [HR HK]; [|exact N2|exact N0].
  split; [exact L|]. split.
  - intros pref prov v l Hin Hv Hl. destruct (pref_not_own _ _ Hin) as [X1 X2].
    destruct (HK pref X1) as [E|[_ E]]; [|congruence]. rewrite (P0 _ _ Hin), (G2 _ X2) in E. rewrite E in Hv.
    destruct (dget rq1 pref) as [w|] eqn:Ew; [|discriminate]. injection Hv as ->. exact (L pref prov v l Hin Ew Hl).
  - rewrite (G2 "redirect_uris") in HR by discriminate. split.
    + destruct HR as [[A B]|(us & l & A & B & C)].
      * left. split; [exact A|]. congruence.
      * right. exists us, l. split; [exact A|]. split; [exact C|].
        clear -B G2. induction B as [|u bq us l Hu B IH]; constructor; [|exact IH].
        rewrite (verify_one_ext rq2 rq1) in Hu by (apply G2; discriminate). split; [|exact Hu]. eapply verify_one_ok; eauto.
    + split.
      * destruct (HK "client_id") as [E|[E _]]; [cbn; intuition discriminate| |cbn in E; intuition discriminate].
        rewrite E, C2. exact I0.
      * intros Ht. destruct (HK "registration_access_token") as [E|[E _]]; [cbn; intuition discriminate| |cbn in E; intuition discriminate].
        rewrite E, G2, Ht by discriminate. reflexivity.
Qed.

(** ** Histories *)
Definition rinv (G : regconf) (x : rctx) : Prop :=
  dget (x_cdb x) "" = None /\
  forall t c, dget (x_rat x) t = Some c -> exists m, m < x_n x /\ t = g_rnd G m.
Definition grows (x x' : rctx) : Prop :=
  x_n x <= x_n x' /\ (forall c r, dget (x_cdb x) c = Some r -> dget (x_cdb x') c = Some r) /\
  (forall t c, dget (x_rat x) t = Some c -> dget (x_rat x') t = Some c).

Lemma outcome_inv G rq x r x' : reg_laws G -> rinv G x -> outcome_of G rq x r x' -> rinv G x' /\ grows x x'.
Proof.
  intros [Ld Lr Lt] [I1 I2] H. destruct H as [r x' Hr Ec Er Hn|r x' rq1 id t m mt c0 c Hp Hm Hf Hid Hb Ht Hbt F Er Ec Hd].
  - split; [split; rewrite ?Ec, ?Er; auto|].
    + intros t c H. destruct (I2 _ _ H) as (m & A & B). exists m. split; [lia|exact B].
    + split; [exact Hn|]. rewrite Ec, Er. auto.
  - assert (Ft : dget (x_rat x) t = None).
    { destruct (dget (x_rat x) t) as [y|] eqn:E; [|reflexivity]. destruct (I2 _ _ E) as (m' & A & B).
      rewrite Ht in B. apply Lr in B. lia. }
    split.
    + split.
      * rewrite Ec. destruct (String.eqb "" id) eqn:E; [|exact I1]. apply seqb_eq in E. exfalso. apply (Lt m). congruence.
      * intros t' c' H. rewrite Er in H. unfold rat_with in H. destruct (reads G).
        -- rewrite dget_dset in H. destruct (String.eqb t' t) eqn:E.
           ++ apply seqb_eq in E. exists mt. split; [lia|congruence].
           ++ destruct (I2 _ _ H) as (m' & A & B). exists m'. split; [lia|exact B].
        -- destruct (I2 _ _ H) as (m' & A & B). exists m'. split; [lia|exact B].
    + split; [lia|]. split.
      * intros k rr H. rewrite Ec. destruct (String.eqb k id) eqn:E; [|exact H]. apply seqb_eq in E. subst k.
        exfalso. apply Hf. eapply dget_Some_keys; eauto.
      * intros t' c' H. rewrite Er. unfold rat_with. destruct (reads G); [|exact H].
        rewrite dget_dset_other; [exact H|]. congruence.
Qed.
Lemma grows_refl x : grows x x.
Proof. split; auto. Qed.
Lemma grows_trans a b c : grows a b -> grows b c -> grows a c.
Proof. intros (A1 & A2 & A3) (B1 & B2 & B3). split; [lia|]. split; auto. Qed.

(** The [i]-th registration, with the states before and after. *)
Lemma rrun_at G : reg_laws G -> forall ops x evs x', rrun G ops x = (evs, x') -> rinv G x ->
  rinv G x' /\ grows x x' /\ List.length evs = List.length ops /\
  (forall i now rq, nth_error ops i = Some (now, rq) -> exists r a b, nth_error evs i = Some r /\
     outcome_of G rq a r b /\ rinv G a /\ grows x a /\ grows b x').
Proof.
  intros L. induction ops as [|[now rq] ops IH]; cbn [rrun]; intros x evs x' H I.
  - injection H as <- <-. split; [exact I|]. split; [apply grows_refl|]. split; [reflexivity|]. intros [|i] ? ? X; discriminate X.
  - destruct (register G now rq x) as [e x1] eqn:E. destruct (rrun G ops x1) as [es x2] eqn:E2. injection H as <- <-.
    apply register_outcome in E. destruct (outcome_inv _ _ _ _ _ L I E) as [I1 G1].
    destruct (IH _ _ _ E2 I1) as (A & B & C & D). split; [exact A|]. split; [eapply grows_trans; eauto|].
    split; [cbn; now rewrite C|]. intros [|i] now' rq' Hi; cbn in Hi.
    + injection Hi as -> ->. exists e, x, x1. cbn. split; [reflexivity|]. split; [exact E|]. split; [exact I|].
      split; [apply grows_refl|exact B].
    + destruct (D _ _ _ Hi) as (r & a & b & D1 & D2 & D3 & D4 & D5). exists r, a, b. cbn.
      split; [exact D1|]. split; [exact D2|]. split; [exact D3|]. split; [eapply grows_trans; eauto|exact D5].
Qed.

Lemma start_inv G x : fresh_start x -> rinv G x.
Proof. intros [A B]. split; [exact B|]. intros t c H. rewrite A in H. discriminate. Qed.

(** Every record is an old one, an empty shell of a failed registration, or one
    made from a request that follows the rules. *)
Lemma record_origin G : reg_laws G -> forall ops x evs x' c r, rrun G ops x = (evs, x') -> rinv G x ->
  dget (x_cdb x') c = Some r ->
  dget (x_cdb x) c = Some r \/
  exists i now rq, nth_error ops i = Some (now, rq) /\
    ((exists args, nth_error evs i = Some (Ok (Done (c, args))) /\ comb_uri (public_part G r) = Ok args /\ good_record G rq r) \/
     (dget r "redirect_uris" = None /\ forall a, nth_error evs i <> Some (Ok (Done a)))).
Proof.
  intros L. induction ops as [|[now rq] ops IH]; cbn [rrun]; intros x evs x' c r H I Hc.
  - injection H as <- <-. auto.
  - destruct (register G now rq x) as [e x1] eqn:E. destruct (rrun G ops x1) as [es x2] eqn:E2. injection H as <- <-.
    apply register_outcome in E. destruct (outcome_inv _ _ _ _ _ L I E) as [I1 _].
    destruct (IH _ _ _ _ _ E2 I1 Hc) as [Ho|(i & now' & rq' & Hi & Ho)].
    + destruct E as [e x1 Hr Ec Er Hn|e x1 rq1 id t m mt c0 cc Hp Hm Hf Hid Hb Ht Hbt F Er Ec Hd].
      * left. now rewrite <- Ec.
      * rewrite Ec in Ho. destruct (String.eqb c id) eqn:Eid; [|now left]. apply seqb_eq in Eid. subst c. injection Ho as <-.
        right. exists 0, now, rq. split; [reflexivity|]. cbn [nth_error].
        destruct Hd as [[-> Hr]|(args & -> & Ha & Hd)].
        -- right. split; [apply F|]. intros a X. injection X as X. exact (Hr a X).
        -- left. exists args. split; [reflexivity|]. split; [exact Ha|].
           destruct (done_good _ _ _ _ _ _ _ (rl_dict G L _ _ Hp) Hm F Hd) as (D1 & D2 & D3 & _).
           exists rq1. auto.
    + right. exists (S i), now', rq'. split; [exact Hi|exact Ho].
Qed.

(** ** Reading *)
Lemma filter_get (f : string -> bool) (c : dict rval) k : f k = true ->
  dget (filter (fun kv => f (fst kv)) c) k = dget c k.
Proof.
  intros Hf. induction c as [|[k0 v0] r IH]; cbn [filter fst]; [reflexivity|].
  destruct (f k0) eqn:E; cbn [dget]; destruct (String.eqb k k0) eqn:Ek; auto.
  apply seqb_eq in Ek. congruence.
Qed.
Lemma filter_out (f : string -> bool) (c : dict rval) k : f k = false ->
  dget (filter (fun kv => f (fst kv)) c) k = None.
Proof.
  intros Hf. induction c as [|[k0 v0] r IH]; cbn [filter fst]; [reflexivity|].
  destruct (f k0) eqn:E; cbn [dget]; [|exact IH]. destruct (String.eqb k k0) eqn:Ek; [|exact IH].
  apply seqb_eq in Ek. congruence.
Qed.
Lemma comb_get c args k : comb_uri c = Ok args ->
  k <> "redirect_uris" -> k <> "post_logout_redirect_uri" -> k <> "request_uris" -> dget args k = dget c k.
Proof.
  unfold comb_uri. intros H N1 N2 N3.
  set (a1 := match dget c "redirect_uris" with Some (RUris (x :: r)) => _ | _ => c end) in H.
  assert (E1 : dget a1 k = dget c k).
  { unfold a1. destruct (dget c "redirect_uris") as [[| | |[|x l]| | |]|]; try reflexivity. now apply dget_dset_other. }
  set (a2 := match dget a1 "post_logout_redirect_uri" with Some (RUri b q) => _ | _ => a1 end) in H.
  assert (E2 : dget a2 k = dget a1 k).
  { unfold a2. destruct (dget a1 "post_logout_redirect_uri") as [[| | | |b q| |]|]; try reflexivity. now apply dget_dset_other. }
  rewrite <- E1, <- E2.
  destruct (dget a2 "request_uris") as [[| | | | |[|x l]|]|]; try (injection H as <-; reflexivity).
  apply rbind_inv in H as (l' & _ & H). injection H as <-. now apply dget_dset_other.
Qed.

Lemma read_bearer G A now q hdr x db r db' :
  read_registration G A [MBearerHeader] now q hdr x db = (r, db') ->
  forall a, r = Ok a -> dget (x_cdb x) "" = None ->
  exists t c rec, reads_with q hdr c t /\ dget (x_rat x) t = Some c /\ dget (x_cdb x) c = Some rec /\
    comb_uri (public_part G rec) = Ok a.
Proof.
  unfold read_registration, client_authentication, verify_client. cbn [read_endpoint ep_methods try_methods existsb is_none orb].
  intros H a -> N.
  destruct hdr as [h|]; [|cbn in H; discriminate].
  cbn [is_usable] in H. destruct (starts_with "Bearer " h) eqn:Es; [|cbn in H; discriminate].
  apply starts_with_spec in Es as [t ->].
  assert (Esp : split1 " " (append "Bearer " t) = Some ("Bearer", t)) by reflexivity.
  cbn [verify_meth] in H. rewrite Esp in H. unfold catch, bind, ret in H. cbn iota beta in H. cbn [ai_client ai_token ep_from_token read_endpoint] in H.
  destruct (negb (str_true t)); [cbn in H; discriminate|].
  unfold read_client in H. destruct (cr_client_id q) as [c|] eqn:Eq.
  - destruct (dget (x_rat x) t) as [c'|] eqn:Et; [|cbn in H; discriminate].
    destruct (String.eqb c c') eqn:Ec; cbn [attributed ai_client] in H.
    + apply seqb_eq in Ec. subst c'. destruct (dget (x_cdb x) c) as [rec|] eqn:Er; [|discriminate].
      exists t, c, rec. split; [split; [exact Eq|reflexivity]|]. split; [exact Et|]. split; [exact Er|]. congruence.
    + rewrite N in H. discriminate.
  - cbn [attributed ai_client] in H. rewrite N in H. discriminate.
Qed.
Lemma read_bearer_ok G A now q hdr x db t c rec :
  reads_with q hdr c t -> t <> "" -> dget (x_rat x) t = Some c -> dget (x_cdb x) c = Some rec ->
  read_registration G A [MBearerHeader] now q hdr x db = (comb_uri (public_part G rec), db).
Proof.
  intros [Hq ->] Nt Ht Hc. unfold read_registration, client_authentication, verify_client.
  cbn [read_endpoint ep_methods try_methods existsb is_none orb is_usable].
  assert (Es : starts_with "Bearer " (append "Bearer " t) = true) by (apply starts_with_spec; eauto). rewrite Es.
  assert (Esp : split1 " " (append "Bearer " t) = Some ("Bearer", t)) by reflexivity.
  cbn [verify_meth]. rewrite Esp. unfold catch, bind, ret. cbn iota beta. cbn [ai_client ai_token ep_from_token read_endpoint].
  assert (str_true t = true) as -> by now apply str_true_ne. cbn [negb]. unfold read_client. rewrite Hq, Ht, seqb_refl.
  cbn [attributed ai_client]. now rewrite Hc.
Qed.

(** The token told at a registration leads to the client, and the record is what
    was told. *)
Lemma given_leads G ops x evs x' i c t args : reg_laws G -> fresh_start x ->
  rrun G ops x = (evs, x') -> given G ops evs i c t args ->
  exists rec, dget (x_rat x') t = Some c /\ dget (x_cdb x') c = Some rec /\ comb_uri (public_part G rec) = Ok args /\ t <> "".
Proof.
  intros L S H (rq & rq' & (now & Ho & He) & Hp & Hn & Ha).
  destruct (rrun_at G L _ _ _ _ H (start_inv G x S)) as (_ & _ & _ & D).
  destruct (D _ _ _ Ho) as (r & a & b & D1 & D2 & D3 & D4 & (_ & Gc & Gt)).
  assert (r = Ok (Done (c, args))) as -> by congruence.
  inversion D2 as [r0 x0 Hr|r0 x0 rq1 id t0 m mt c0 cc Hp' Hm Hf Hid Hb Ht Hbt F Er Ec Hd]; subst r0 x0.
  - exfalso. exact (Hr _ eq_refl).
  - assert (rq1 = rq') by congruence. subst rq1.
    destruct Hd as [[_ Hd]|(args' & E & Hcomb & Hd)]; [exfalso; exact (Hd _ eq_refl)|].
    assert (Nt : t0 <> "") by (rewrite Ht; apply (rl_text G L)). clear Ht Hid.
    injection E as E1 E2. subst id args'.
    destruct (done_good _ _ _ _ _ _ _ (rl_dict G L _ _ Hp) Hm F Hd) as (_ & _ & _ & _ & D5).
    specialize (D5 Hn). destruct F as (_ & _ & _ & _ & F). rewrite F in D5.
    assert (Hk := comb_get _ _ "registration_access_token" Hcomb ltac:(discriminate) ltac:(discriminate) ltac:(discriminate)).
    rewrite Ha in Hk. unfold public_part in Hk.
    destruct (smem "registration_access_token" (g_public G)) eqn:Ep.
    2:{ rewrite (filter_out (fun k => smem k (g_public G))) in Hk by exact Ep. discriminate. }
    rewrite (filter_get (fun k => smem k (g_public G))) in Hk by exact Ep. rewrite D5 in Hk.
    destruct (reads G) eqn:Erd; [|discriminate]. injection Hk as Hk. subst t0.
    exists cc. split.
    + apply Gt. rewrite Er. unfold rat_with. rewrite Erd. apply dget_dset_same.
    + split; [apply Gc; rewrite Ec, seqb_refl; reflexivity|]. split; [exact Hcomb|exact Nt].
Qed.
