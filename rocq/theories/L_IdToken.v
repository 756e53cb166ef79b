(** What is in the tokens a provider signs. *)
From Verif Require Import M_Base M_Types M_Codec M_Grant M_Env M_Session M_Claims M_Handler
  M_Authz M_TokenEP M_PKCE M_AuthzEP M_Info M_Logout M_History S_Codec S_Grant S_Store S_Claims S_History S_AuthzResp S_Release S_IdToken
  L_Base L_Codec L_Monad L_Grant L_Claims L_Store L_Hist1 L_Hist2 L_Hist3 L_Hist4 L_Hist5 L_Hist6 L_Hist8 L_Pass L_Spec2 L_Release L_Broker.

(** ** The lists of the clients *)
Definition kept_ids (a0 a : dict (dict (list string))) : Prop :=
  forall cid cfg, dget a cid = Some cfg -> exists cfg0, dget a0 cid = Some cfg0
    /\ forall p l k, In (p, l) cfg -> In k l -> (exists l0, In (p, l0) cfg0 /\ In k l0)
         \/ (p = "id_token" /\ exists l0, In ("userinfo", l0) cfg0 /\ In k l0).
Lemma kept_ids_refl a : kept_ids a a.
Proof. intros cid cfg D. exists cfg. split; auto. intros p l k I K. left. eauto. Qed.
Lemma dset_here_In {T} (d : dict T) k v p l : In (p, l) (dset d k v) -> In (p, l) d \/ (p = k /\ l = v).
Proof.
  induction d as [|[k0 v0] d IH]; cbn; [intros [H|[]]; injection H as <- <-; auto|].
  destruct (String.eqb k k0) eqn:E; cbn; intros [H|H]; auto.
  - injection H as <- <-. apply seqb_eq in E. auto.
  - destruct (IH H); auto.
Qed.
Lemma ids_always a0 cid p x s r s' : paired p x -> client_always cid p x s = (r, s') ->
  kept_ids a0 (s_always s) -> kept_ids a0 (s_always s').
Proof.
  intros Pa E K. unfold client_always in E.
  destruct Pa as [->|(-> & ->)]; [injection E as _ <-; exact K|]. cbn [str_true] in E.
  destruct (dget (match dget (s_always s) cid with Some d => d | None => [] end) "id_token") as [l1|] eqn:L1;
    [|injection E as _ <-; exact K].
  injection E as _ <-. intros c cfg H. cbn [s_always] in H. rewrite dget_dset in H.
  destruct (String.eqb c cid) eqn:Ec; [|eapply K; eauto]. apply seqb_eq in Ec. subst c. injection H as <-.
  destruct (dget (s_always s) cid) as [d|] eqn:D; [|discriminate L1].
  destruct (K _ _ D) as (cfg0 & H0 & Hl). exists cfg0. split; auto. intros p l k I Ik.
  apply dset_here_In in I as [I|(-> & ->)]; [eapply Hl; eauto|].
  apply in_app_iff in Ik as [Ik|Ik].
  - apply (Hl "id_token" l1); auto. now apply dget_In.
  - destruct (dget d "userinfo") as [l2|] eqn:L2; [|destruct Ik].
    apply dget_In in L2. destruct (Hl _ _ _ L2 Ik) as [(l0 & X & Y)|(X & _)]; [|discriminate].
    right. split; auto. exists l0. auto.
Qed.

Lemma asked_ids e a0 s ar p sc second k : kept_ids a0 (s_always s) -> paired p second ->
  asked_for e s (Some ar) p sc (ar_client_id ar) second k ->
  asked_for e (st_init a0) (Some ar) p sc (ar_client_id ar) second k \/ listed_for_userinfo e a0 ar p k.
Proof.
  intros K Pa H. destruct H as [| | | |m cfg p' l H1 H2 H3 H4 H5 H6].
  - left. eapply af_request; eauto.
  - left. eapply af_scope; eauto.
  - left. eapply af_base; eauto.
  - left. eapply af_always; eauto.
  - destruct (K _ _ H3) as (cfg0 & H0 & Hl). destruct (Hl _ _ _ H5 H6) as [(l0 & X & Y)|(Ep & l0 & X & Y)].
    + left. eapply af_client; eauto.
    + right. assert (p = "id_token") as Epp.
      { destruct H4 as [<-|(Ne & E2)]; [exact Ep|]. destruct Pa as [Z|(_ & Z)]; [congruence|exact Z]. }
      split; [exact Epp|]. exists m, cfg0, l0. auto.
Qed.

(** ** The payload *)
(** The members that payload_arguments makes itself. *)
Definition pa_members : list string := ["scope"; "aud"; "jti"; "cnf"; "client_id"; "sub"; "acr"].

Lemma gcfr_nopoint e ar sc cid x s r s' : get_claims_from_request e ar "" sc cid x s = (Ok r, s') -> r = [].
Proof.
  unfold get_claims_from_request.
  assert (get_module e "" = Ok None) as -> by (unfold get_module, release_points; destruct (e_oidc e); reflexivity).
  intros H. unfold bind, lift in H. apply ret_ok in H as [<- _]. reflexivity.
Qed.
Lemma gcfr_request e ar p sc cid x s d s' k sp :
  get_claims_from_request e (Some ar) p (Some sc) cid x s = (Ok d, s') -> e_oidc e = true -> p = "id_token" ->
  proper_dicts e ar -> request_says ar p k sp -> dget d k = Some sp.
Proof.
  intros H Eo Ep Pd R. unfold get_claims_from_request in H. apply bind_ok in H as (om & s1 & H1 & H).
  apply lift_ok in H1 as [H1 <-].
  destruct om as [m|].
  2:{ exfalso. revert H1. unfold get_module, release_points. rewrite Eo, Ep. cbn [smem existsb String.eqb].
      change (smem "id_token" ["userinfo"; "introspection"; "id_token"; "access_token"]) with true. cbn iota.
      change (String.eqb "id_token" "id_token") with true. cbn iota. destruct (dget (e_modules e) "id_token"); discriminate. }
  cbv zeta in H. apply bind_ok in H as ([b al] & s2 & Hb & H). apply ret_ok in H as [<- _].
  rewrite dget_dupdate by (eapply request_claims_nodup; eauto).
  apply request_claims_says in R. now rewrite R.
Qed.

Lemma release_keys info restr out k : release info restr = Ok out -> In k (dkeys out) -> In k (dkeys restr).
Proof.
  revert out. induction restr as [|[k' sp] r IH]; intros out; cbn [release]; [intros H; injection H as <-; auto|].
  intros H. apply rbind_ok in H as (b & _ & H). apply rbind_ok in H as (rest & E & H). injection H as <-.
  intros I. cbn. destruct b; [|right; eauto]. destruct (dget info k'); [|right; eauto].
  destruct I as [I|I]; [left; exact I|right; eauto].
Qed.
Lemma release_nodup info restr out : release info restr = Ok out -> NoDup (dkeys restr) -> NoDup (dkeys out).
Proof.
  revert out. induction restr as [|[k' sp] r IH]; intros out; cbn [release]; [intros H _; injection H as <-; constructor|].
  intros H N. apply rbind_ok in H as (b & _ & H). apply rbind_ok in H as (rest & E & H). injection H as <-.
  cbn in N. inversion N; subst. destruct b; [|eauto]. destruct (dget info k'); [|eauto].
  cbn. constructor; [|eauto]. intros I. apply (release_keys _ _ _ _ E) in I. contradiction.
Qed.

Lemma dset_nodup' {T} (d : dict T) k v : NoDup (dkeys d) -> NoDup (dkeys (dset d k v)).
Proof. intros N. change (dset d k v) with (dupdate d [(k, v)]). now apply dupdate_nodup. Qed.

Lemma sign_alg_due e ci : due_alg e ci (idt_sign_alg e ci).
Proof.
  unfold due_alg, idt_sign_alg. destruct (c_idt_alg ci) as [a|]; [left; reflexivity|right].
  destruct (e_idt_alg_def e) as [a|]; [left; auto|right]. do 2 (split; [reflexivity|]).
  destruct (e_idt_algs e) as [|a r] eqn:E; [left; auto|]. destruct (smem "RS256" (a :: r)) eqn:S.
  - left. split; [reflexivity|]. right. now apply smem_In.
  - right. split; [|eauto]. intros I. apply smem_In in I. congruence.
Qed.

Section Payload.
  Variables (e : env) (a0 : dict (dict (list string))).

  (** The members of the payload of a token for [ar], made in a state whose
      lists are [kept_ids]. *)
  Lemma payload_says g sid tc sc second s p s' u ar gid gr l :
    Inv e s -> kept_ids a0 (s_always s) -> paired tc second ->
    dec_sid3 e sid = Ok (u, ar_client_id ar, gid) ->
    hp s l = Some (OGrant gr) -> g_id gr = gid -> g_areq gr = Some ar ->
    payload_arguments e g sid (if smem tc (release_points e) then tc else "") sc second s = (Ok p, s') ->
    (forall x, In x sc -> may_have e ar x) -> proper_dicts e ar ->
    (forall k v, dget p k = Some v -> In k pa_members \/ token_claim e a0 ar tc second u k v)
    /\ (e_oidc e = true -> tc = "id_token" -> forall k sp users x, request_says ar tc k sp ->
          e_users e = Some users -> dget (users u) k = Some x -> claims_match (Some x) sp = Ok true ->
          k <> "acr" -> dget p k = Some x)
    /\ NoDup (dkeys p).
  Proof.
    intros Iv K Pa D Hl Id Ga H Sc Pd. unfold payload_arguments in H.
    apply bind_ok in H as (n & s1 & T & H). pose proof (quiet_tick _ _ _ T) as Q.
    assert (s_always s1 = s_always s) as Al by (unfold tick in T; injection T as _ <-; reflexivity).
    assert (Inv e s1) as Iv1 by (eapply quiet_inv; eauto).
    apply bind_ok in H as (restr & s2 & C & H). apply bind_ok in H as (x & s3 & X & H). apply lift_ok in X as [X <-].
    rewrite D in X. injection X as <-. apply bind_ok in H as (info & s3 & U & H). apply lift_ok in U as [U <-].
    apply bind_ok in H as (a1 & s3 & A1 & H). apply lift_ok in A1 as [A1 <-].
    apply bind_ok in H as (a2 & s3 & A2 & H). apply ret_ok in H as [<- _]. clear A1 A2.
    unfold get_claims in C. apply bind_ok in C as (i & s4 & Ei & C). pose proof (reader_get_session_info _ _ _ _ _ Ei). subst s4.
    destruct (get_session_info_read _ _ _ _ Iv1 Ei) as (_ & D' & _ & O). rewrite D in D'. injection D' as E1 E2 E3.
    rewrite <- E1, <- E2, <- E3 in O. destruct O as (g0 & Hg & Id0 & B).
    apply bind_ok in C as (g1 & s4 & Eg & C). apply grant_at_ok in Eg as [-> Eg]. rewrite Hg in Eg. injection Eg as <-.
    assert (hp s1 l = Some (OGrant gr)) as H1 by (destruct Q as (Q & _); unfold hp in *; congruence).
    assert (l = ss_grant i) as -> by (eapply (inv_uniq _ _ Iv1); eauto; congruence).
    rewrite Hg in H1. injection H1 as ->. rewrite Ga in C. rewrite <- E2 in C.
    set (tech := match g_areq g with
           | Some a => _ | None => _ end) in *.
    assert (NoDup (dkeys tech)) as Nt.
    { unfold tech.
      assert (NoDup (dkeys [("scope", JList (map JStr sc)); ("aud", JList (map JStr (g_resources g))); ("jti", JStr (e_uuid e n))])) as N0.
      { cbn. repeat constructor; cbn; intuition discriminate. }
      destruct (g_areq g) as [a|]; [destruct (str_true (ar_client_id a))|];
        (destruct (dget (g_extra g) "dpop_jkt") as [j|]; [destruct (str_true j)|]); auto using dset_nodup'. }
    assert (forall k v, dget tech k = Some v -> In k pa_members) as Tech.
    { intros k v Hk. apply dget_In in Hk. unfold tech in Hk.
      assert (forall q : dict jval, (forall k v, In (k, v) q -> In k pa_members) -> forall k v,
         In (k, v) (match g_areq g with
           | Some a => if str_true (ar_client_id a)
                       then dset (dset q "client_id" (JStr (ar_client_id a))) "sub" (JStr (g_sub g))
                       else q
           | None => q
           end) -> In k pa_members) as K1.
      { intros q Hq k0 v0. destruct (g_areq g) as [a|]; [|apply Hq]. destruct (str_true _); [|apply Hq].
        intros Ik. apply dset_here_In in Ik as [Ik|(-> & _)]; [|cbn; tauto].
        apply dset_here_In in Ik as [Ik|(-> & _)]; [|cbn; tauto]. eapply Hq; eauto. }
      eapply K1; [|exact Hk]. clear k v Hk K1. intros k v Hk.
      assert (forall k v, In (k, v) [("scope", JList (map JStr sc)); ("aud", JList (map JStr (g_resources g))); ("jti", JStr (e_uuid e n))]
         -> In k pa_members) as K2.
      { intros k0 v0 [X|[X|[X|[]]]]; injection X as <- <-; cbn; tauto. }
      destruct (dget (g_extra g) "dpop_jkt") as [j|]; [|eapply K2; eauto]. destruct (str_true j); [|eapply K2; eauto].
      apply dset_here_In in Hk as [Hk|(-> & _)]; [|cbn; tauto]. eapply K2; eauto. }
    clearbody tech.
    (* the user claims *)
    destruct (e_users e) as [users|] eqn:Us; [|unfold get_user_claims in U; rewrite Us in U; discriminate U].
    assert (smem tc (release_points e) = false -> info = []) as Nop.
    { intros Sm. rewrite Sm in C. apply gcfr_nopoint in C. subst restr. unfold get_user_claims in U. rewrite Us in U. congruence. }
    assert (smem tc (release_points e) = true -> NoDup (dkeys restr)
      /\ (restr = [] \/ forall k sp, dget (request_claims (Some ar) tc) k = Some sp -> dget restr k = Some sp)) as Rs.
    { intros Sm. rewrite Sm in C. destruct Pd as (Pb & Pc).
      apply (gcfr_restr e (Some ar) tc (Some sc) (ar_client_id ar) second s1 restr s2); auto.
      - intros m Im. eapply Pb; eauto.
      - intros a cl c Ea Ec Ic. injection Ea as <-. eapply Pc; eauto. }
    assert (NoDup (dkeys info)) as Ni.
    { destruct (smem tc (release_points e)) eqn:Sm; [|rewrite (Nop eq_refl); constructor].
      destruct (Rs eq_refl) as (Nd & _). unfold get_user_claims in U. rewrite Us in U.
      destruct restr as [|y z]; [injection U as <-; constructor|]. eapply release_nodup; eauto. }
    assert (forall k v, dget info k = Some v -> token_claim e a0 ar tc second u k v) as Inf.
    { intros k v Hk. apply dget_In in Hk.
      destruct (smem tc (release_points e)) eqn:Sm; [|rewrite (Nop eq_refl) in Hk; destruct Hk].
      destruct (user_claims_In _ _ _ _ _ _ _ Us U Hk) as (sp & Isp & Du & Cm).
      destruct (gcfr_run _ _ _ _ _ _ _ _ _ C) as (_ & Af). specialize (Af restr eq_refl k sp Isp).
      assert (eff_client (ar_client_id ar) (Some ar) = ar_client_id ar) as Ef by (unfold eff_client; now destruct (str_true _)).
      rewrite Ef in Af. apply (asked_ids e a0) in Af; [|now rewrite Al|exact Pa].
      split; [exists sc; auto|]. split; [exists users; auto|].
      intros sp' Rq0. destruct (Rs eq_refl) as (Nd & [Z|Rq]); [subst restr; destruct Isp|].
      apply request_claims_says in Rq0. apply Rq in Rq0.
      assert (dget restr k = Some sp) as Dk by (apply In_dget; auto). congruence. }
    assert (forall k q, k <> "acr" -> dget (if a2 then match g_aevent g with
        | Some a => dset q "acr" (JStr (ae_authn_info a)) | None => q end else q) k = dget q k) as Acr.
    { intros k q N. destruct a2; auto. destruct (g_aevent g); auto. now rewrite dget_dset_other. }
    split; [|split].
    - intros k v Hk. destruct (string_dec k "acr") as [->|N]; [left; cbn; tauto|]. rewrite Acr in Hk by exact N.
      rewrite dget_dupdate in Hk by exact Ni. destruct (dget info k) as [w|] eqn:Ik; [|left; eauto].
      injection Hk as <-. right. auto.
    - intros Eo -> k sp us x Rq Us' Du Cm Nk. rewrite Acr by exact Nk. rewrite dget_dupdate by exact Ni.
      assert (smem "id_token" (release_points e) = true) as Sm by (unfold release_points; now rewrite Eo). rewrite Sm in C.
      injection Us' as <-.
      assert (dget restr k = Some sp) as Dk by (eapply gcfr_request; eauto).
      rewrite (user_claims_has _ _ _ _ _ _ _ _ Us U (dget_In _ _ _ Dk) Du Cm). reflexivity.
    - assert (NoDup (dkeys (dupdate tech info))) as Nu by now apply dupdate_nodup.
      destruct a2; auto. destruct (g_aevent g); auto using dset_nodup'.
  Qed.

  (** ** The members the handlers add *)
  Variable now : Z.
  Lemma jwt_claims_In iss lt recv p k v : dget (jwt_claims iss lt now recv p) k = Some v ->
    k = "iss" \/ k = "iat" \/ k = "exp" \/ k = "aud" \/ dget p k = Some v.
  Proof.
    intros H. destruct (string_dec k "iss"); auto. destruct (string_dec k "iat"); auto.
    destruct (string_dec k "exp"); auto. destruct (string_dec k "aud"); auto 6. do 4 right.
    rewrite <- H. unfold jwt_claims. destruct (str_true recv); destruct (Z.eqb lt 0);
    rewrite ?dget_dset_other by auto; reflexivity.
  Qed.
  Lemma jwt_claims_exp iss lt recv p : lt <> 0%Z -> dget (jwt_claims iss lt now recv p) "exp" = Some (JInt (now + lt)).
  Proof.
    intros N. unfold jwt_claims. apply Z.eqb_neq in N. rewrite N. destruct (str_true recv);
    rewrite ?(dget_dset_other _ _ "exp") by discriminate; apply dget_dset_same.
  Qed.
  Lemma jwt_payload_In cls iss lt sid rules p k v : dget (jwt_payload cls iss lt now sid rules p) k = Some v ->
    In k jwt_members \/ dget p k = Some v.
  Proof.
    unfold jwt_payload. cbv zeta. intros H. apply jwt_claims_In in H as [->|[->|[->|[->|H]]]]; try (left; cbn; tauto).
    destruct (string_dec k "token_class") as [->|N1]; [left; cbn; tauto|].
    destruct (string_dec k "sid") as [->|N2]; [left; cbn; tauto|].
    rewrite !dget_dset_other in H by auto. auto.
  Qed.
  Lemma filter_out (f : dict jval) k v : dget (filter (fun kv => negb (smem (fst kv) id_reserved)) f) k = Some v ->
    dget f k = Some v /\ ~ In k id_reserved.
  Proof.
    induction f as [|[k' w] f IH]; [discriminate|]. cbn [filter fst].
    destruct (smem k' id_reserved) eqn:S; cbn [negb].
    - intros H. destruct (IH H) as [A B]. split; auto. cbn. destruct (String.eqb k k') eqn:E; auto.
      apply seqb_eq in E. subst k'. apply smem_In in S. contradiction.
    - cbn [dget]. destruct (String.eqb k k') eqn:E; auto. intros H. split; auto.
      apply seqb_eq in E. subst k'. now apply smem_false in S.
  Qed.
  Lemma filter_in (f : dict jval) k : ~ In k id_reserved ->
    dget (filter (fun kv => negb (smem (fst kv) id_reserved)) f) k = dget f k.
  Proof.
    intros N. induction f as [|[k' w] f IH]; [reflexivity|]. cbn [filter fst].
    destruct (smem k' id_reserved) eqn:S; cbn [negb].
    - rewrite IH. cbn. destruct (String.eqb k k') eqn:E; auto.
      apply seqb_eq in E. subst k'. apply smem_In in S. contradiction.
    - cbn [dget]. destruct (String.eqb k k'); auto.
  Qed.
  Lemma filter_nodup {T} f (d : dict T) : NoDup (dkeys d) -> NoDup (dkeys (filter f d)).
  Proof.
    unfold dkeys. induction d as [|[k w] d IH]; intros N; [constructor|]. cbn in N. inversion N; subst. cbn [filter].
    destruct (f (k, w)); cbn; auto. constructor; auto. intros I. apply in_map_iff in I as ((k1 & w1) & E & I).
    cbn in E. subst k1. apply filter_In in I as [I _]. apply H1. apply in_map_iff. exists (k, w1). auto.
  Qed.

  (** Setting other members. *)
  Lemma step_opt (o : option string) x (y : string -> jval) p k : k <> x ->
    dget (match o with Some a => if str_true a then dset p x (y a) else p | None => p end) k = dget p k.
  Proof. intros N. destruct o as [a|]; auto. destruct (str_true a); auto. now rewrite dget_dset_other. Qed.
  Lemma id_payload_get g sid alg code acc ws info k :
    k <> "nonce" -> k <> "at_hash" -> k <> "c_hash" -> k <> "sid" ->
    dget (id_payload e g sid alg code acc ws info) k
    = dget (dupdate (match g_aevent g with
           | None => [("sub", JStr (g_sub g)); ("sid", JStr sid)]
           | Some a =>
               let p := if Z.eqb (ae_authn_time a) 0 then [("sub", JStr (g_sub g)); ("sid", JStr sid)]
                        else dset [("sub", JStr (g_sub g)); ("sid", JStr sid)] "auth_time" (JInt (ae_authn_time a)) in
               if str_true (ae_authn_info a) then dset p "acr" (JStr (ae_authn_info a)) else p
           end) (filter (fun kv => negb (smem (fst kv) id_reserved)) info)) k.
  Proof.
    intros N1 N2 N3 N4. unfold id_payload. cbv zeta.
    set (q := dupdate _ _).
    assert (forall p, dget (match g_areq g with
            | Some a => match ar_nonce a with Some n => dset p "nonce" (JStr n) | None => p end
            | None => p end) k = dget p k) as K1.
    { intros p. destruct (g_areq g) as [a|]; auto. destruct (ar_nonce a); auto. now rewrite dget_dset_other. }
    rewrite K1. clear K1.
    rewrite (step_opt acc "at_hash" (fun a => JStr (e_left_hash e (append "HS" (last3 alg)) a))) by exact N2.
    rewrite (step_opt code "c_hash" (fun a => JStr (e_left_hash e (append "HS" (last3 alg)) a))) by exact N3.
    destruct ws; auto. now rewrite dget_dset_other.
  Qed.
  Lemma id_payload_time g sid alg code acc ws info ae : g_aevent g = Some ae -> ae_authn_time ae <> 0%Z ->
    dget (id_payload e g sid alg code acc ws info) "auth_time" = Some (JInt (ae_authn_time ae)).
  Proof.
    intros Ga N. rewrite id_payload_get by discriminate. rewrite Ga. cbv zeta.
    rewrite dget_dupdate_notin.
    2:{ destruct (dget (filter _ info) "auth_time") as [v|] eqn:F; auto. apply filter_out in F as [_ F]. exfalso. apply F. cbn. tauto. }
    apply Z.eqb_neq in N. rewrite N. destruct (str_true _); rewrite ?(dget_dset_other _ _ "auth_time") by discriminate; apply dget_dset_same.
  Qed.
  Lemma id_payload_acr g sid alg code acc ws info ae : g_aevent g = Some ae -> ae_authn_info ae <> "" ->
    dget (id_payload e g sid alg code acc ws info) "acr" = Some (JStr (ae_authn_info ae)).
  Proof.
    intros Ga N. rewrite id_payload_get by discriminate. rewrite Ga. cbv zeta.
    rewrite dget_dupdate_notin.
    2:{ destruct (dget (filter _ info) "acr") as [v|] eqn:F; auto. apply filter_out in F as [_ F]. exfalso. apply F. cbn. tauto. }
    replace (str_true (ae_authn_info ae)) with true by (destruct (ae_authn_info ae); [congruence|reflexivity]).
    apply dget_dset_same.
  Qed.
  Lemma id_payload_In g sid alg code acc ws info k v : NoDup (dkeys info) ->
    dget (id_payload e g sid alg code acc ws info) k = Some v -> In k id_members \/ dget info k = Some v.
  Proof.
    intros Nd H.
    destruct (string_dec k "nonce") as [->|N1]; [left; cbn; tauto|]. destruct (string_dec k "at_hash") as [->|N2]; [left; cbn; tauto|].
    destruct (string_dec k "c_hash") as [->|N3]; [left; cbn; tauto|]. destruct (string_dec k "sid") as [->|N4]; [left; cbn; tauto|].
    rewrite id_payload_get in H by assumption. rewrite dget_dupdate in H by now apply filter_nodup.
    destruct (dget (filter _ info) k) as [w|] eqn:F.
    - injection H as <-. apply filter_out in F as [F _]. auto.
    - left. destruct (string_dec k "auth_time") as [->|N5]; [cbn; tauto|]. destruct (string_dec k "acr") as [->|N6]; [cbn; tauto|].
      destruct (string_dec k "sub") as [->|N7]; [cbn; tauto|].
      exfalso. revert H. destruct (g_aevent g) as [a|]; cbv zeta.
      + destruct (Z.eqb _ 0), (str_true _); rewrite ?dget_dset_other by auto; cbn [dget];
          destruct (String.eqb_spec k "sub"), (String.eqb_spec k "sid"); congruence.
      + cbn [dget]; destruct (String.eqb_spec k "sub"), (String.eqb_spec k "sid"); congruence.
  Qed.
  Lemma id_payload_has g sid alg code acc ws info k v : NoDup (dkeys info) -> dget info k = Some v -> ~ In k id_members ->
    dget (id_payload e g sid alg code acc ws info) k = Some v.
  Proof.
    intros Nd H N.
    assert (forall x, In x id_members -> k <> x) as Nk by (intros x I ->; auto).
    rewrite id_payload_get by (apply Nk; cbn; tauto). rewrite dget_dupdate by now apply filter_nodup.
    rewrite filter_in, H; [reflexivity|]. intros I. apply N. revert I. unfold id_reserved, id_members. cbn. tauto.
  Qed.

  Lemma id_payload_sid g sid alg code acc ws info :
    (ws = true -> dget (id_payload e g sid alg code acc ws info) "sid" = Some (JStr sid))
    /\ (NoDup (dkeys info) -> exists x, dget (id_payload e g sid alg code acc ws info) "sid" = Some x /\ (x = JStr sid \/ dget info "sid" = Some x)).
  Proof.
    unfold id_payload. cbv zeta.
    set (q := dupdate _ _).
    assert (forall p, dget (match g_areq g with
            | Some a => match ar_nonce a with Some n => dset p "nonce" (JStr n) | None => p end
            | None => p end) "sid" = dget p "sid") as K1.
    { intros p. destruct (g_areq g) as [a|]; auto. destruct (ar_nonce a); auto. rewrite dget_dset_other; [reflexivity|discriminate]. }
    rewrite K1. clear K1.
    rewrite (step_opt acc "at_hash" (fun a => JStr (e_left_hash e (append "HS" (last3 alg)) a))) by discriminate.
    rewrite (step_opt code "c_hash" (fun a => JStr (e_left_hash e (append "HS" (last3 alg)) a))) by discriminate.
    destruct ws.
    - rewrite dget_dset_same. split; eauto.
    - split; [discriminate|]. intros Nd. subst q. rewrite dget_dupdate by now apply filter_nodup.
      rewrite filter_in by (cbn; intuition discriminate).
      destruct (dget info "sid") as [w|]; [eauto|]. exists (JStr sid). split; [|auto].
      destruct (g_aevent g) as [a|]; [|reflexivity]. destruct (Z.eqb _ 0), (str_true _); reflexivity.
  Qed.
  Lemma wants_included cid ci : dget (e_clients e) cid = Some ci -> wants_session e ci -> include_session_id e cid = true.
  Proof.
    unfold include_session_id. intros ->. intros [[-> ->]|[-> ->]]; [reflexivity|]. cbn [andb]. apply Bool.orb_true_r.
  Qed.

  (** ** The tokens *)
  (** The grant [gid] is one for the request [ar], after the authentication [ae]. *)
  Definition for_req (ar : areq) (ae : aevent) (gid : string) (s : st) : Prop :=
    exists l g, hp s l = Some (OGrant g) /\ g_id g = gid /\ g_areq g = Some ar /\ g_aevent g = Some ae.
  Lemma quiet_for_req ar ae gid s s' : quiet s s' -> for_req ar ae gid s -> for_req ar ae gid s'.
  Proof. intros (Q & _) (l & g & H & X). exists l, g. split; auto. unfold hp in *. congruence. Qed.

  Lemma scope_may_have g ar x : g_areq g = Some ar -> In x (authz_scope e g) -> may_have e ar x.
  Proof.
    unfold authz_scope, may_have. intros Ga. destruct (e_implicit e); [intros []|].
    rewrite Ga. destruct (gc_scope (e_authz e)) as [[|y z]|].
    - destruct (ar_scope ar); [intros H; right; eauto|intros []].
    - intros H. left. eauto.
    - destruct (ar_scope ar); [intros H; right; eauto|intros []].
  Qed.
  Lemma minted_may s l g tc based scope t ar :
    Inv e s -> hp s l = Some (OGrant g) -> g_areq g = Some ar ->
    (forall b, based = Some b -> (exists i, has l i b s) /\ (t_class b = CODE \/ t_class b = REFRESH)) ->
    (forall sc, scope = Some sc -> forall x, In x sc -> may_have e ar x) ->
    minted_from e now g tc based scope t -> forall x, In x (t_scope t) -> may_have e ar x.
  Proof.
    intros I H Ga Hb Hs (_ & _ & _ & _ & _ & _ & _ & _ & _ & _ & _ & _ & Sc) x Ix.
    destruct scope as [sc|]; [subst sc; eapply Hs; eauto|].
    assert (forall y, In y (g_scope g) -> may_have e ar y) as Gs.
    { intros y Iy. destruct (gi_scope _ _ (inv_grants _ _ I _ _ H)) as [E|E]; rewrite E in Iy; [destruct Iy|].
      eapply scope_may_have; eauto. }
    destruct based as [b|]; [|rewrite Sc in Ix; auto]. apply Gs.
    assert (exists p, In p (g_tokens g) /\ token_later b p) as Hp.
    { destruct (Hb b eq_refl) as ((i & g' & t' & H' & Hn & L) & _).
      rewrite H in H'. injection H' as <-. exists t'. split; auto. eapply nth_error_In; eauto. }
    revert x Ix. eapply find_scope_incl; [| | |exact Sc].
    - intros t0 I0. destruct (string_dec (t_class t0) IDTOKEN); auto. left.
      apply (gi_tok _ _ (inv_grants _ _ I _ _ H) t0 I0). auto.
    - intros t0 v I0 B0 p Gp. apply not_idt_cases.
      eapply (parent_class e g); eauto. eapply inv_grants; eauto. eapply inv_nodup; eauto.
    - split; [exact Hp|]. apply not_idt_cases. apply (Hb b eq_refl).
  Qed.

  Definition says (u : string) (ar : areq) (ae : aevent) (tc : string) (ia : idt_args) (v : string) : Prop :=
    (forall lt, tc = IDTOKEN -> dget (e_handlers e) IDTOKEN = Some (HId lt) -> id_token_says e a0 now lt u ar ae (ia_as_if ia) v)
    /\ (forall cls alg iss lt, tc = ACCESS -> dget (e_handlers e) ACCESS = Some (HJWT cls alg iss lt) ->
          access_token_says e a0 alg u ar v).

  Lemma value_says g sid tc sc ia rules h p v u ar ae gid s s1 s2 :
    Inv e s -> kept_ids a0 (s_always s) -> paired tc (ia_as_if ia) ->
    dec_sid3 e sid = Ok (u, ar_client_id ar, gid) -> for_req ar ae gid s -> (forall x, In x sc -> may_have e ar x) ->
    payload_arguments e g sid (if smem tc (release_points e) then tc else "") sc (ia_as_if ia) s = (Ok p, s1) ->
    dget (e_handlers e) tc = Some h ->
    handler_mint e now h sid rules (ia_code ia) (ia_access ia) p s1 = (Ok v, s2) -> says u ar ae tc ia v.
  Proof.
    intros Iv K Pa D F Sc E Dh Em.
    pose proof (quiet_payload _ _ _ _ _ _ _ _ _ E) as Q1.
    destruct F as (l & gr & Hl & Id & Ga & Gae).
    pose proof (fun Pd => payload_says g sid tc sc (ia_as_if ia) s p s1 u ar gid gr l Iv K Pa D Hl Id Ga E Sc Pd) as Py.
    unfold handler_mint in Em. destruct (clash p); [apply raise_inv in Em as [X _]; discriminate|].
    apply bind_ok in Em as (n & s3 & T & Em). pose proof (quiet_tick _ _ _ T) as Q3.
    pose proof (quiet_trans _ _ _ Q1 Q3) as Q.
    split.
    - intros lt -> Dl. rewrite Dl in Dh. injection Dh as <-.
      rewrite D in Em. unfold bind at 1, lift at 1 in Em.
      destruct (dget (e_clients e) (ar_client_id ar)) as [ci|] eqn:Dc; [|discriminate].
      apply bind_ok in Em as (i & s4 & Ei & Em). pose proof (reader_get_session_info _ _ _ _ _ Ei). subst s4.
      assert (Inv e s3) as Iv3 by (eapply quiet_inv; eauto).
      destruct (get_session_info_read _ _ _ _ Iv3 Ei) as (_ & D' & _ & O). rewrite D in D'. injection D' as E1 E2 E3.
      rewrite <- E1, <- E2, <- E3 in O. destruct O as (g1 & Hg & Id1 & B).
      apply bind_ok in Em as (g0 & s4 & Eg & Em). apply grant_at_ok in Eg as [-> Eg]. rewrite Hg in Eg. injection Eg as <-.
      apply lift_ok in Em as [Em _]. cbv zeta in Em.
      assert (hp s3 l = Some (OGrant gr)) as H3 by (destruct Q as (Q & _); unfold hp in *; congruence).
      assert (l = ss_grant i) as -> by (eapply (inv_uniq _ _ Iv3); eauto; congruence).
      rewrite Hg in H3. injection H3 as ->.
      eexists ci, _, n, _. split; [exact Dc|]. split; [apply sign_alg_due|]. split; [exact Em|].
      split; [intros N; now apply jwt_claims_exp|].
      assert (forall q k, k <> "iss" -> k <> "iat" -> k <> "exp" -> k <> "aud" ->
        dget (jwt_claims (e_issuer e) lt now (ar_client_id ar) q) k = dget q k) as Cg.
      { intros q k N1 N2 N3 N4. unfold jwt_claims. destruct (str_true _); destruct (Z.eqb lt 0);
        rewrite ?dget_dset_other by auto; reflexivity. }
      split; [intros N; rewrite Cg by discriminate; now apply id_payload_time|].
      split; [intros N; rewrite Cg by discriminate; now apply id_payload_acr|].
      split; [|split].
      + intros Pd k x Hk. destruct (Py Pd) as (P1 & _ & Nd).
        apply jwt_claims_In in Hk as [->|[->|[->|[->|Hk]]]]; try (left; cbn; tauto).
        apply id_payload_In in Hk as [Hk|Hk]; [left; exact Hk| |exact Nd].
        destruct (P1 _ _ Hk) as [I|C]; [|right; exact C]. left. revert I. unfold pa_members, id_members. cbn. tauto.
      + intros Pd Eo k sp users x Rq Us Du Cm N. destruct (Py Pd) as (_ & P2 & Nd).
        assert (forall y, In y id_members -> k <> y) as Nk by (intros y I ->; auto).
        rewrite Cg by (apply Nk; cbn; tauto). apply id_payload_has; [exact Nd| |exact N].
        eapply P2; eauto. apply Nk. cbn. tauto.
      + exists sid, gid. split; [now apply dec_sid3_ok|]. rewrite Cg by discriminate. split.
        * intros Ws. apply (proj1 (id_payload_sid _ _ _ _ _ _ _)). exact (wants_included _ _ Dc Ws).
        * intros Pd. destruct (Py Pd) as (P1 & _ & Nd).
          destruct (proj2 (id_payload_sid gr sid (idt_sign_alg e ci) (ia_code ia) (ia_access ia)
            (include_session_id e (ar_client_id ar)) p) Nd) as (x & Hx & X).
          exists x. split; [exact Hx|]. destruct X as [->|X]; [auto|]. right.
          destruct (P1 _ _ X) as [I|C]; [|exact C]. exfalso. revert I. unfold pa_members. cbn. intuition discriminate.
    - intros cls alg iss lt -> Dl. rewrite Dl in Dh. injection Dh as <-. apply lift_ok in Em as [Em _].
      eexists n, _. split; [exact Em|]. intros Pd k x Hk. destruct (Py Pd) as (P1 & _ & Nd).
      apply jwt_payload_In in Hk as [Hk|Hk]; [left; exact Hk|].
      destruct (P1 _ _ Hk) as [I|C].
      + left. revert I. unfold pa_members, jwt_members. cbn. tauto.
      + right. destruct Pa as [Z|(_ & Z)]; [rewrite Z in C; exact C|discriminate Z].
  Qed.
End Payload.
