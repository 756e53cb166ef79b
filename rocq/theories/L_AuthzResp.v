(** What an authorization response carries. *)
From Verif Require Import M_Base M_Types M_Codec M_Grant M_Env M_Session M_Claims M_Handler
  M_Authz M_TokenEP M_PKCE M_AuthzEP M_Info M_Logout M_History S_Codec S_Grant S_Store S_History S_AuthzResp S_IdToken
  L_Base L_Codec L_Monad L_Grant L_Claims L_Store L_Hist1 L_Hist2 L_Hist3 L_Hist4 L_Hist5 L_Hist6 L_Hist8 L_Pass L_Spec2 L_IdToken.

(** ** The text of an ID token *)
Lemma drop_app a : forall b, drop (String.length a) (append a b) = b.
Proof. induction a; intros b; cbn; auto. Qed.

Lemma len_append a b : String.length (append a b) = String.length a + String.length b.
Proof. induction a; cbn; auto. Qed.
Lemma last3_app pre d : String.length d = 3 -> last3 (append pre d) = d.
Proof.
  intros L. unfold last3, slice_from, slice_pos. rewrite len_append, L.
  change ((-3 <? 0)%Z) with true. cbn iota.
  replace (Z.to_nat _) with (String.length pre) by lia. apply drop_app.
Qed.

Section Text.
  Variables (e : env) (now : Z).

  Lemma claims_get iss lt recv p k : k <> "iss" -> k <> "iat" -> k <> "exp" -> k <> "aud" ->
    dget (jwt_claims iss lt now recv p) k = dget p k.
  Proof.
    intros A B C D. unfold jwt_claims. destruct (str_true recv); destruct (Z.eqb lt 0);
    rewrite ?dget_dset_other by auto; reflexivity.
  Qed.
  Lemma claims_iss iss lt recv p : dget (jwt_claims iss lt now recv p) "iss" = Some (JStr iss).
  Proof.
    unfold jwt_claims. destruct (str_true recv); destruct (Z.eqb lt 0);
    rewrite ?(dget_dset_other _ _ "iss") by discriminate; apply dget_dset_same.
  Qed.
  Lemma claims_iat iss lt recv p : dget (jwt_claims iss lt now recv p) "iat" = Some (JInt now).
  Proof.
    unfold jwt_claims. destruct (str_true recv); destruct (Z.eqb lt 0);
    rewrite ?(dget_dset_other _ _ "iat") by discriminate; apply dget_dset_same.
  Qed.
  Lemma claims_aud iss lt recv p : recv <> "" -> dget (jwt_claims iss lt now recv p) "aud" = Some (JList [JStr recv]).
  Proof. intros N. unfold jwt_claims. destruct recv; [congruence|]. cbn [str_true]. apply dget_dset_same. Qed.

  Lemma filter_get (f : dict jval) k : In k id_reserved ->
    dget (filter (fun kv => negb (smem (fst kv) id_reserved)) f) k = None.
  Proof.
    intros I. induction f as [|[k' v] f IH]; [reflexivity|]. cbn [filter fst].
    destruct (smem k' id_reserved) eqn:S; cbn [negb]; auto. cbn [dget].
    destruct (String.eqb k k') eqn:E; auto. apply seqb_eq in E. subst k'. apply smem_In in I. congruence.
  Qed.

  Lemma payload_sub g sid alg code acc ws info : dget (id_payload e g sid alg code acc ws info) "sub" = Some (JStr (g_sub g)).
  Proof.
    unfold id_payload. cbv zeta.
    assert (forall p, dget p "sub" = Some (JStr (g_sub g)) ->
      dget (match g_areq g with
            | Some a => match ar_nonce a with Some n => dset p "nonce" (JStr n) | None => p end
            | None => p end) "sub" = Some (JStr (g_sub g))) as K1.
    { intros p H. destruct (g_areq g) as [a|]; auto. destruct (ar_nonce a); auto. now rewrite dget_dset_other. }
    apply K1. clear K1.
    assert (forall (o : option string) x y p, x <> "sub" -> dget p "sub" = Some (JStr (g_sub g)) ->
      dget (match o with Some a => if str_true a then dset p x (y a) else p | None => p end) "sub" = Some (JStr (g_sub g))) as K2.
    { intros [o|] x y p N H; auto. destruct (str_true o); auto. rewrite dget_dset_other; auto. }
    apply (K2 acc "at_hash" (fun a => JStr (e_left_hash e (append "HS" (last3 alg)) a))); [discriminate|].
    apply (K2 code "c_hash" (fun a => JStr (e_left_hash e (append "HS" (last3 alg)) a))); [discriminate|].
    assert (forall p, dget p "sub" = Some (JStr (g_sub g)) ->
       dget (if ws then dset p "sid" (JStr sid) else p) "sub" = Some (JStr (g_sub g))) as K3.
    { intros p H. destruct ws; auto. now rewrite dget_dset_other. }
    apply K3. rewrite dget_dupdate_notin by (apply filter_get; cbn; auto).
    destruct (g_aevent g) as [ae|]; [|reflexivity].
    destruct (Z.eqb _ 0), (str_true _); rewrite ?(dget_dset_other _ _ "sub") by discriminate; reflexivity.
  Qed.
  Lemma payload_nonce g sid alg code acc ws info a : g_areq g = Some a ->
    dget (id_payload e g sid alg code acc ws info) "nonce" = option_map JStr (ar_nonce a).
  Proof.
    intros Ga. unfold id_payload. cbv zeta. rewrite Ga. destruct (ar_nonce a) as [n|]; [apply dget_dset_same|]. cbn [option_map].
    assert (forall (o : option string) x y p, x <> "nonce" -> dget p "nonce" = None ->
      dget (match o with Some a => if str_true a then dset p x (y a) else p | None => p end) "nonce" = (None : option jval)) as K2.
    { intros [o|] x y p N H; auto. destruct (str_true o); auto. rewrite dget_dset_other; auto. }
    apply (K2 acc "at_hash" (fun a => JStr (e_left_hash e (append "HS" (last3 alg)) a))); [discriminate|].
    apply (K2 code "c_hash" (fun a => JStr (e_left_hash e (append "HS" (last3 alg)) a))); [discriminate|].
    assert (forall p : dict jval, dget p "nonce" = None ->
       dget (if ws then dset p "sid" (JStr sid) else p) "nonce" = None) as K3.
    { intros p H. destruct ws; auto. now rewrite dget_dset_other. }
    apply K3. rewrite dget_dupdate_notin by (apply filter_get; cbn; auto 10).
    destruct (g_aevent g) as [ae|]; [|reflexivity].
    destruct (Z.eqb _ 0), (str_true _); rewrite ?(dget_dset_other _ _ "nonce") by discriminate; reflexivity.
  Qed.
  Lemma payload_at g sid alg code acc ws info v : acc = Some v -> v <> "" ->
    dget (id_payload e g sid alg code acc ws info) "at_hash" = Some (JStr (e_left_hash e (append "HS" (last3 alg)) v)).
  Proof.
    intros -> N. unfold id_payload. cbv zeta. replace (str_true v) with true by (destruct v; [congruence|reflexivity]).
    destruct (g_areq g) as [a|]; [|apply dget_dset_same]. destruct (ar_nonce a); [|apply dget_dset_same].
    rewrite dget_dset_other by discriminate. apply dget_dset_same.
  Qed.
  Lemma payload_c g sid alg code acc ws info v : code = Some v -> v <> "" ->
    dget (id_payload e g sid alg code acc ws info) "c_hash" = Some (JStr (e_left_hash e (append "HS" (last3 alg)) v)).
  Proof.
    intros -> N. unfold id_payload. cbv zeta. replace (str_true v) with true by (destruct v; [congruence|reflexivity]).
    set (p := dset _ "c_hash" _).
    assert (dget p "c_hash" = Some (JStr (e_left_hash e (append "HS" (last3 alg)) v))) as K by apply dget_dset_same.
    clearbody p.
    assert (dget (match acc with Some a => if str_true a then dset p "at_hash" (JStr (e_left_hash e (append "HS" (last3 alg)) a)) else p
                  | None => p end) "c_hash" = Some (JStr (e_left_hash e (append "HS" (last3 alg)) v))) as K2.
    { destruct acc as [a|]; auto. destruct (str_true a); auto. now rewrite dget_dset_other. }
    destruct (g_areq g) as [a|]; auto. destruct (ar_nonce a); auto. now rewrite dget_dset_other.
  Qed.
End Text.

Lemma mint_token_type limit g now sid tc based rules scope ttype tid mkval t g' :
  mint_token limit g now sid tc based rules scope ttype tid mkval = Ok (Some (t, g')) ->
  t_type t = (if String.eqb tc ACCESS then Some (if str_true ttype then ttype else "bearer") else None).
Proof.
  unfold mint_token. destruct (negb (grant_active now g)); [discriminate|].
  intros H. apply rbind_ok in H as (br & _ & H). destruct (negb (known_class tc)); [discriminate|].
  apply rbind_ok in H as (sc & _ & H). apply rbind_ok in H as (v & _ & H). injection H as <- _. reflexivity.
Qed.

(** ** The texts of a response *)
Section Specs.
  Variables (e : env) (now : Z) (a0 : dict (dict (list string))).
  Hypothesis W : laws e.
  (** The draws so far. *)
  Variable k : nat.

  Definition newv (v : string) : Prop := exists n, k <= n /\ made e n v.
  Lemma newv_text v : newv v -> v <> "".
  Proof. intros (n & _ & M). apply (law_text _ W _ _ M). Qed.
  Definition since (s : st) : Prop := k <= s_ctr s.
  Lemma st_since : Stable now since.
  Proof. intros s s' [C _] H. unfold since in *. lia. Qed.
  Lemma st_for_req ar ae gid : Stable now (for_req ar ae gid).
  Proof.
    intros s s' L (l & g & H & Id & Ga & Gae). destruct (st_later_grant _ _ _ _ _ L H) as (g' & H' & K).
    exists l, g'. split; auto. destruct K as (A & B & C & _). split; [congruence|]. split; congruence.
  Qed.

  Lemma handler_text lt sid rules code acc p u ar ae gid s v s' :
    Inv e s -> dec_sid3 e sid = Ok (u, ar_client_id ar, gid) -> for_req ar ae gid s -> ar_client_id ar <> "" ->
    (forall x, code = Some x -> newv x) -> (forall x, acc = Some x -> newv x) ->
    handler_mint e now (HId lt) sid rules code acc p s = (Ok v, s') ->
    id_token_for e now u ar code acc v.
  Proof.
    intros Iv D F Nc Hc Ha E. unfold handler_mint in E. destruct (clash p); [apply raise_inv in E as [X _]; discriminate|].
    apply bind_ok in E as (n & s1 & T & E). pose proof (quiet_tick _ _ _ T) as Q.
    rewrite D in E. unfold bind at 1, lift at 1 in E.
    destruct (dget (e_clients e) (ar_client_id ar)) as [ci|] eqn:Dc; [|discriminate].
    apply bind_ok in E as (i & s2 & Ei & E). pose proof (reader_get_session_info _ _ _ _ _ Ei). subst s2.
    assert (Inv e s1) as Iv1 by (eapply quiet_inv; eauto).
    destruct (get_session_info_read _ _ _ _ Iv1 Ei) as (_ & D' & _ & O). rewrite D in D'. injection D' as E1 E2 E3.
    rewrite <- E1, <- E2, <- E3 in O. destruct O as (g & Hg & Id & B).
    apply bind_ok in E as (g0 & s2 & Eg & E). apply grant_at_ok in Eg as [-> Eg]. rewrite Hg in Eg. injection Eg as <-.
    apply lift_ok in E as [E _]. cbv zeta in E.
    apply (quiet_for_req _ _ _ _ _ Q) in F as (l & g1 & H1 & Id1 & Ga & _).
    assert (l = ss_grant i) as -> by (eapply (inv_uniq _ _ Iv1); eauto; congruence).
    rewrite Hg in H1. injection H1 as <-.
    destruct B as (ar1 & ae1 & Ga' & _ & _ & _ & Sb). assert (ar1 = ar) as -> by congruence.
    eexists ci, _, n, _. split; [exact Dc|]. split; [apply sign_alg_due|]. split; [exact E|].
    split; [apply claims_iss|]. split; [now apply claims_aud|]. split; [apply claims_iat|].
    split; [rewrite claims_get by discriminate; rewrite payload_sub; now rewrite Sb|].
    split; [rewrite claims_get by discriminate; now apply payload_nonce|].
    split; intros x pre d X Al Ld; rewrite claims_get by discriminate.
    - rewrite (payload_c _ _ _ _ _ _ _ _ x); auto; [|now apply newv_text, Hc].
      rewrite Al at 1. now rewrite last3_app.
    - rewrite (payload_at _ _ _ _ _ _ _ _ x); auto; [|now apply newv_text, Ha].
      rewrite Al at 1. now rewrite last3_app.
  Qed.

  (** A token made at the authorization endpoint. *)
  Definition text_ok (u : string) (ar : areq) (ae : aevent) (tc : string) (ia : idt_args) (v : string) : Prop :=
    newv v
    /\ (forall lt, tc = IDTOKEN -> dget (e_handlers e) IDTOKEN = Some (HId lt) ->
          id_token_for e now u ar (ia_code ia) (ia_access ia) v)
    /\ says e a0 now u ar ae tc ia v.

  Lemma mint_text l sid tc based rules scope ttype ia u ar ae gid s i s' :
    Inv e s -> kept_ids a0 (s_always s) -> mint_pre e l sid tc based scope s -> paired tc (ia_as_if ia) ->
    (forall sc, scope = Some sc -> forall x, In x sc -> may_have e ar x) -> since s -> dec_sid3 e sid = Ok (u, ar_client_id ar, gid) -> for_req ar ae gid s -> ar_client_id ar <> "" ->
    (forall x, ia_code ia = Some x -> newv x) -> (forall x, ia_access ia = Some x -> newv x) ->
    mint e now l sid tc based rules scope ttype ia s = (Ok (Some i), s') ->
    exists g t, hp s' l = Some (OGrant g) /\ nth_error (g_tokens g) i = Some t /\ text_ok u ar ae tc ia (t_value t)
      /\ t_type t = (if String.eqb tc ACCESS then Some (if str_true ttype then ttype else "bearer") else None).
  Proof.
    intros Iv Ki Mp Pa Hs Sn D F Nc Hc Ha E. unfold mint in E.
    apply bind_ok in E as (g & s1 & G & E). apply grant_at_ok in G as [-> Hl].
    apply bind_ok in E as (n0 & s1 & T & E). pose proof (quiet_tick _ _ _ T) as Q1.
    apply bind_ok in E as (o & s2 & T2 & E). apply lift_ok in T2 as [Mt <-].
    destruct o as [[t g']|]; [|apply ret_ok in E as [E _]; discriminate].
    destruct (dget (e_handlers e) tc) as [h|] eqn:Dh; [|discriminate].
    apply bind_ok in E as (p & s3 & Tp & E). pose proof (quiet_payload _ _ _ _ _ _ _ _ _ Tp) as T3. pose proof (quiet_trans _ _ _ Q1 T3) as Q3.
    apply bind_ok in E as (v & s4 & T4 & E). pose proof (handler_mint_run _ _ _ _ _ _ _ _ _ _ _ T4) as [Q4 Mv].
    destruct (Mv v eq_refl) as (n & Md & N1 & N2).
    unfold bind, upd_obj in E. apply ret_ok in E as [E <-]. injection E as <-.
    assert (hp s4 l = Some (OGrant g)) as H4.
    { destruct Q3 as (Q3 & _), Q4 as (Q4 & _). unfold hp in *. congruence. }
    eexists _, (tok_set_value v t). split; [unfold hp; cbn [s_heap]; rewrite nth_upd_nth_same; fold (hp s4 l); rewrite H4; reflexivity|].
    split; [cbn; rewrite nth_error_app2, Nat.sub_diag by lia; reflexivity|]. cbn [t_value t_type tok_set_value].
    split; [|eapply mint_token_type; eauto]. split; [|split].
    - exists n. split; auto. unfold since in Sn. destruct Q3 as (_ & _ & C3). lia.
    - intros lt -> Dl. rewrite Dl in Dh. injection Dh as <-.
      eapply handler_text; [| | | | | |exact T4]; eauto using quiet_inv, quiet_for_req.
    - assert (g_areq g = Some ar) as Ga.
      { destruct Mp as (_ & (u1 & c1 & gid1 & D1 & g1 & H1 & Id1 & _) & _). rewrite D in D1. injection D1 as <- <- <-.
        rewrite Hl in H1. injection H1 as <-. destruct F as (l2 & g2 & H2 & Id2 & Ga & _).
        assert (l2 = l) as -> by (eapply (inv_uniq _ _ Iv); eauto; congruence). rewrite Hl in H2. congruence. }
      destruct Mp as (_ & _ & Hb & _).
      eapply value_says with (s := s1); [| |exact Pa|exact D| | |exact Tp|exact Dh|exact T4].
      + eapply quiet_inv; eauto.
      + unfold tick in T. injection T as _ <-. exact Ki.
      + eapply quiet_for_req; eauto.
      + intros x Ix. eapply (minted_may e now s l g tc based scope (tok_set_value v t) ar Iv Hl Ga Hb Hs); [|exact Ix].
        eapply mint_token_facts; eauto.
  Qed.

  Lemma az_text l sid tc scope ia u ar ae gid : tc <> REFRESH -> paired tc (ia_as_if ia) ->
    (forall sc, scope = Some sc -> forall x, In x sc -> may_have e ar x) ->
    dec_sid3 e sid = Ok (u, ar_client_id ar, gid) -> ar_client_id ar <> "" ->
    (forall x, ia_code ia = Some x -> newv x) -> (forall x, ia_access ia = Some x -> newv x) ->
    spec2 e now (kept_ids a0) (fun s => mint_pre e l sid tc None scope s /\ since s /\ for_req ar ae gid s)
      (az_value e now l sid tc scope ia) (fun t _ => text_ok u ar ae tc ia (t_value t)).
  Proof.
    intros Nr Pa Hs D Nc Hc Ha s r s' Iv Ki (Mp & Sn & F) E.
    destruct (az_value_spec e now W l sid tc scope ia s r s' Iv Mp E) as (I' & L & _). split; auto. split.
    { refine (holds_az_value e now (kept_ids a0) (ids_always a0) l (mint_pre e l sid tc None scope) sid tc scope ia _ Nr Pa s r s' Iv Ki Mp E).
      intros s0 ((g0 & H0 & _) & _). eauto. }
    split; auto.
    intros t ->. unfold az_value, az_mint in E.
    apply bind_ok in E as (r & s1 & E1 & E). apply bind_ok in E as (i & s2 & En & E).
    assert (s2 = s1 /\ r = Some i) as [-> ->].
    { destruct r as [j|]; [|discriminate]. apply ret_ok in En as [<- <-]. auto. }
    apply tok_at_ok in E as (-> & g1 & H1 & N1).
    apply bind_ok in E1 as (g & s2 & Eg & E1). apply grant_at_ok in Eg as [-> Hl].
    apply bind_ok in E1 as (r & s2 & Em & E1). apply bind_ok in E1 as ([] & s3 & Ex & E1).
    apply bind_ok in E1 as ([] & s4 & Ed & E1). apply ret_ok in E1 as [-> <-].
    destruct (mint_text _ _ _ _ _ _ _ _ _ _ _ _ _ _ _ Iv Ki Mp Pa Hs Sn D F Nc Hc Ha Em) as (g2 & t2 & H2 & N2 & T2 & _).
    assert (exists g3 t3, hp s3 l = Some (OGrant g3) /\ nth_error (g_tokens g3) i = Some t3 /\ t_value t3 = t_value t2)
      as (g3 & t3 & H3 & N3 & V3).
    { destruct (r_exp _) as [x|]; [destruct (Z.eqb x 0)|].
      1,3: apply ret_ok in Ex as [_ <-]; eauto.
      apply bind_ok in Ex as (j & s5 & Ej & Ex). apply ret_ok in Ej as [<- <-].
      unfold upd_tok, upd_obj in Ex. inversion Ex; subst s3; clear Ex.
      eexists _, (tok_set_exp (now + x) t2).
      split; [unfold hp; cbn [s_heap]; rewrite nth_upd_nth_same; fold (hp s2 l); rewrite H2; reflexivity|].
      split; [cbn; rewrite nth_upd_nth_same, N2; reflexivity|reflexivity]. }
    pose proof (gsame_db_set _ _ _ _ _ Ed _ _ H3) as H4. rewrite H1 in H4. injection H4 as ->.
    assert (t = t3) as -> by congruence. now rewrite V3.
  Qed.

  Definition texts (u : string) (ar : areq) (ae : aevent) (a : aresp) : Prop :=
    (forall v, ap_code a = Some v -> newv v) /\ (forall v, ap_access a = Some v -> newv v)
    /\ (forall v, ap_id a = Some v -> newv v)
    /\ (forall v lt, ap_id a = Some v -> dget (e_handlers e) IDTOKEN = Some (HId lt) ->
          id_token_for e now u ar (ap_code a) (ap_access a) v)
    /\ (forall v lt, ap_id a = Some v -> dget (e_handlers e) IDTOKEN = Some (HId lt) ->
          id_token_says e a0 now lt u ar ae (alone ar) v)
    /\ (forall v cls alg iss lt, ap_access a = Some v -> dget (e_handlers e) ACCESS = Some (HJWT cls alg iss lt) ->
          access_token_says e a0 alg u ar v).

  Lemma tokens_text u ar ae sid l scope gid :
    dec_sid3 e sid = Ok (u, ar_client_id ar, gid) -> ar_client_id ar <> "" ->
    spec2 e now (kept_ids a0) (fun s => (final e l s /\ fits e sid l s) /\ since s /\ for_req ar ae gid s)
      (authn_tokens e now ar sid l scope) (fun r s => forall a, r = Good a -> texts u ar ae a).
  Proof.
    intros D Nc. unfold authn_tokens. set (rt := ar_response_type ar).
    assert (Stable now (fun s => (final e l s /\ fits e sid l s) /\ since s /\ for_req ar ae gid s)) as Sf.
    { repeat apply st_and; auto using st_final, st_fits, st_since, st_for_req. }
    eapply spec2_bind with (Q := fun code _ => forall v, code = Some v -> newv v); [exact Sf| |].
    { destruct (smem "code" rt); [|apply spec2_ret; discriminate].
      eapply spec2_seq with (Q := fun t _ => text_ok u ar ae CODE no_args (t_value t)).
      - eapply spec2_pre; [|eapply az_text; eauto; try discriminate; left; reflexivity]. intros s _ ((F & Fs) & X). split; auto. apply final_pre; auto.
      - intros t. apply spec2_ret. intros s [T _] v X. injection X as <-. apply T. }
    intros code. eapply spec2_pure; [intros s _ [_ X]; exact X|]. intros Hc.
    eapply spec2_pre; [intros s _ [X _]; exact X|].
    eapply spec2_bind with (Q := fun acc _ => forall v, option_map fst acc = Some v -> newv v
       /\ says e a0 now u ar ae ACCESS no_args v); [exact Sf| |].
    { destruct (smem "token" rt); [|apply spec2_ret; discriminate].
      eapply spec2_seq with (Q := fun t _ => text_ok u ar ae ACCESS no_args (t_value t)).
      - eapply spec2_pre; [|eapply az_text; eauto; try discriminate; left; reflexivity]. intros s _ ((F & Fs) & X). split; auto. apply final_pre; auto.
      - intros t. apply spec2_ret. intros s (T1 & _ & T2) v X. cbn in X. injection X as <-. auto. }
    intros acc. eapply spec2_pure; [intros s _ [_ X]; exact X|]. intros Ha.
    eapply spec2_pre; [intros s _ [X _]; exact X|].
    eapply spec2_seq with (Q := fun idt _ => forall v, idt = Good (Some v) -> newv v /\
       forall lt, dget (e_handlers e) IDTOKEN = Some (HId lt) -> id_token_for e now u ar code (option_map fst acc) v
         /\ id_token_says e a0 now lt u ar ae (alone ar) v).
    { destruct (smem "id_token" rt); [|apply spec2_ret; discriminate].
      eapply spec2_rbind with (Q := fun sc _ => ar_scope ar = Some sc); [destruct (ar_scope ar); auto using reader_ret, reader_raise| |].
      { intros s sc _ _ H. destruct (ar_scope ar); [|discriminate]. apply ret_ok in H as [<- _]. reflexivity. }
      intros sc. eapply spec2_pure; [intros s _ [_ X]; exact X|]. intros Esc. cbv zeta. set (ia := mk_idt_args _ _ _).
      assert (paired IDTOKEN (ia_as_if ia)) as Pi.
      { unfold ia. cbn. destruct rt as [|x [|y z]]; [left|right|left]; auto. }
      assert (forall sc', Some sc = Some sc' -> forall x, In x sc' -> may_have e ar x) as Ms.
      { intros sc' X x Ix. injection X as <-. right. eauto. }
      eapply spec2_seq with (Q := fun t _ => forall t0, t = Some t0 -> text_ok u ar ae IDTOKEN ia (t_value t0)).
      { unfold except_jwe. apply spec2_catch'.
        - eapply spec2_seq with (Q := fun t _ => text_ok u ar ae IDTOKEN ia (t_value t)).
          + eapply spec2_pre; [|eapply (az_text l sid IDTOKEN (Some sc) ia u ar ae gid); eauto; try discriminate].
            2:{ intros x X. apply (Ha x X). }
            intros s _ (((F & Fs) & X) & _). split; auto. apply final_pre; auto.
          + intros t. apply spec2_ret. intros s T t0 X. injection X as <-. exact T.
        - intros x k' X. destruct x; try discriminate X; injection X as <-; apply spec2_ret; discriminate. }
      intros [t|]; apply spec2_ret; [|discriminate]. intros s T v X. injection X as <-.
      destruct (T _ eq_refl) as (T1 & T2 & T3 & _). split; [exact T1|]. intros lt Dl. split; [exact (T2 lt eq_refl Dl)|].
      exact (T3 lt eq_refl Dl). }
    intros [x|idv]; [apply spec2_ret; discriminate|].
    destruct (forallb _ rt); [|apply spec2_ret; discriminate].
    apply spec2_ret. intros s Hi a X. injection X as <-. unfold texts. cbn.
    split; auto. split; [intros v X; apply (Ha v X)|].
    split; [intros v X|split; [intros v lt X Dl|split; [intros v lt X Dl|]]]; try (subst idv; destruct (Hi v eq_refl) as [A B]).
    - exact A.
    - apply (B lt Dl).
    - apply (B lt Dl).
    - intros v cls alg iss lt X Dl. destruct (Ha v X) as (_ & _ & S). eapply S; eauto.
  Qed.

  Lemma response_text u ar ae sid gid :
    dec_sid3 e sid = Ok (u, ar_client_id ar, gid) -> ar_client_id ar <> "" ->
    spec2 e now (kept_ids a0) (fun s => settled e u ar sid s /\ since s /\ for_req ar ae gid s)
      (create_authn_response e now ar sid) (fun r s => forall a, fst r = Good a -> texts u ar ae a).
  Proof.
    intros D Nc. unfold create_authn_response.
    assert (spec2 e now (kept_ids a0) (fun s => settled e u ar sid s /\ since s /\ for_req ar ae gid s)
       (i <- get_session_info e sid ;;
        let scope := match ar_scope ar with
                   | Some (x :: r) => Some (filter_scopes e (x :: r) (ss_client i))
                   | _ => None end in
        r <- authn_tokens e now ar (ss_sid i) (ss_grant i) scope ;;
        ret (r, negb (smem "code" (ar_response_type ar) && forallb (String.eqb "code") (ar_response_type ar))))
       (fun r s => forall a, fst r = Good a -> texts u ar ae a)) as G.
    { eapply spec2_rbind with
        (Q := fun i s => ss_sid i = sid /\ (final e (ss_grant i) s /\ fits e sid (ss_grant i) s)
                         /\ since s /\ for_req ar ae gid s);
        [apply reader_get_session_info| |].
      { intros s i I ((l & gid' & D1 & O & F) & Sn & Fr) H.
        destruct (get_session_info_read _ _ _ _ I H) as (Es & D' & _ & O'). rewrite D in D1, D'. injection D1 as <-.
        injection D' as E1 E2 E3. rewrite <- E1, <- E2, <- E3 in *.
        split; auto. split; auto.
        assert (l = ss_grant i) as <- by (eapply owns_unique; eauto). split; auto.
        exists u, (ar_client_id ar), gid. auto. }
      intros i. eapply spec2_pure; [intros s _ [_ (E & _)]; exact E|]. intros Es.
      cbv zeta. rewrite Es.
      eapply spec2_seq with (Q := fun r s => forall a, r = Good a -> texts u ar ae a).
      { eapply spec2_pre; [|eapply tokens_text; eauto]. intros s _ (_ & _ & X). exact X. }
      intros r. apply spec2_ret. intros s X. exact X. }
    destruct (ar_response_type ar) as [|x [|y z]] eqn:Rt.
    - exact G.
    - destruct (string_dec x "none") as [->|N].
      + apply spec2_ret. intros s _ a X. cbn in X. injection X as <-. unfold texts. cbn. do 5 (split; [discriminate|]). discriminate.
      + repeat (match goal with
                | |- spec2 _ _ _ _ (match ?a with _ => _ end) _ => is_var a; destruct a; try exact G
                end).
        exfalso; apply N; reflexivity.
    - repeat (match goal with
              | |- spec2 _ _ _ _ (match ?a with _ => _ end) _ => is_var a; destruct a; try exact G
              end).
  Qed.

  (** The session of the request. *)
  Definition begun (u : string) (ar : areq) (ae : aevent) (sid : string) (s : st) : Prop :=
    exists gid, dec_sid3 e sid = Ok (u, ar_client_id ar, gid) /\ for_req ar ae gid s
      /\ exists l, owns e s l u (ar_client_id ar) gid.
  Lemma st_begun u ar ae sid : Stable now (begun u ar ae sid).
  Proof.
    intros s s' L (gid & D & F & l & O). exists gid. split; auto. split; [eapply st_for_req; eauto|].
    exists l. eapply owns_later; eauto.
  Qed.
  Lemma ready_begun u ar sid s : ready e now u ar sid s -> exists ae, ready e now u ar sid s /\ begun u ar ae sid s.
  Proof.
    intros (gid & l & g & D & H & Id & B & C & Ga). pose proof B as (ar1 & ae & _ & _ & Gae & _).
    exists ae. split; [exists gid, l, g; auto 10|]. exists gid. split; auto. split; [exists l, g; auto|].
    exists l, g. auto.
  Qed.

  Lemma post_authentication_text u ar ae sid uri : ar_client_id ar <> "" ->
    spec2 e now (kept_ids a0) (fun s => (ready e now u ar sid s /\ begun u ar ae sid s) /\ since s) (post_authentication e now ar sid uri)
      (fun o s => forall a, ao_args o = Good a -> texts u ar ae a).
  Proof.
    intros Nc. unfold post_authentication.
    set (has := fun l s => final e l s /\ exists gid, dec_sid3 e sid = Ok (u, ar_client_id ar, gid)
                                          /\ owns e s l u (ar_client_id ar) gid).
    eapply spec2_seq with (Q := fun l s => has l s /\ begun u ar ae sid s /\ since s).
    { eapply spec2_keep with (K := fun s => begun u ar ae sid s /\ since s);
        [apply st_and; auto using st_begun, st_since|intros s [[X Y] Z]; split; [exact Y|exact Z]|].
      eapply spec2_pre; [|apply spec2_of; [apply authz_spec; auto|apply (holds_authz e now (kept_ids a0) (ids_always a0) u); auto]].
      intros s _ [[X _] _]; exact X. }
    intros l. set (P := fun s => has l s /\ begun u ar ae sid s /\ since s).
    assert (Stable now P) as StP.
    { apply st_and; [unfold has; stab|apply st_and; auto using st_begun, st_since]. }
    eapply spec2_rbind with (Q := fun _ _ => True); [apply reader_grant_at|auto|]. intros g.
    eapply spec2_pre with (P' := P); [tauto|].
    destruct (negb (grant_active now g)); [apply spec2_ret; discriminate|].
    eapply spec2_rbind with (Q := fun x _ => dec_sid3 e sid = Ok x); [apply reader_lift| |].
    { intros s x _ _ H. apply lift_ok in H. apply H. }
    intros [[u0 c0] gid]. eapply spec2_pure; [intros s _ [_ X]; exact X|]. intros D.
    eapply spec2_pure with (phi := u0 = u /\ c0 = ar_client_id ar).
    { intros s _ ((_ & (gid' & D' & _) & _) & _). rewrite D in D'. injection D' as -> -> _. auto. }
    intros [-> ->].
    eapply spec2_pre with (P' := P); [tauto|].
    eapply spec2_bind with (Q := fun _ _ => True); [exact StP| |].
    { apply spec2_catch'.
      - eapply spec2_seq with (Q := fun _ _ => True).
        + eapply spec2_pre; [|apply spec2_of; [apply db_set_spec; [exact W|eapply dec_sid3_separable; eauto]|apply holds_db_set]].
          intros s I ((_ & gid' & D' & O) & _). split; [|cbn; split; discriminate]. intros u1 c1 g1 r X. rewrite D in D'. injection D' as ->.
          injection X; intros; subst; auto.
        + intros ?. apply spec2_ret. auto.
      - intros x k' X. injection X as <-. apply spec2_ret. auto. }
    intros ok. eapply spec2_pre with (P' := P); [tauto|].
    destruct (negb ok); [apply spec2_ret; discriminate|].
    eapply spec2_seq with (Q := fun r s => forall a, fst r = Good a -> texts u ar ae a).
    { eapply spec2_pre; [|eapply response_text; eauto]. intros s _ ((Fn & gid1 & D1 & O) & (gid' & D' & F & _) & Sn).
      rewrite D in D', D1. injection D' as <-. injection D1 as <-. split; auto. exists l, gid. auto. }
    intros [args frag]. cbn [fst].
    assert (forall o, (forall a, ao_args o = Good a -> args = Good a) ->
      spec2 e now (kept_ids a0) (fun s => forall a, args = Good a -> texts u ar ae a) (ret o)
        (fun o s => forall a, ao_args o = Good a -> texts u ar ae a)) as Fin.
    { intros o H. apply spec2_ret. auto. }
    destruct uri as [v|]; [|apply Fin; discriminate].
    destruct (ar_response_mode ar) as [m|]; [|apply Fin; auto].
    destruct (response_mode m (Some frag)) as [[form fr]|x]; apply Fin; auto; discriminate.
  Qed.

  (** The response to [ar], made for [u]. *)
  Definition responded (u : string) (ar : areq) (a : aresp) (s : st) : Prop :=
    exists sid ae, answered e now u ar sid a s /\ texts u ar ae a /\ begun u ar ae sid s.
  Lemma st_responded u ar a : Stable now (responded u ar a).
  Proof.
    intros s s' L (sid & ae & A & T & B). exists sid, ae. split; [eapply st_answered; eauto|]. split; auto. eapply st_begun; eauto.
  Qed.

  Lemma authz_part2_text u iframe ar ae sid uri : ar_client_id ar <> "" ->
    spec2 e now (kept_ids a0) (fun s => (ready e now u ar sid s /\ begun u ar ae sid s) /\ since s) (authz_part2 e now iframe ar sid uri)
      (fun o s => forall a, ao_args o = Good a -> responded u ar a s).
  Proof.
    intros Nc.
    assert (spec2 e now (kept_ids a0) (fun s => (ready e now u ar sid s /\ begun u ar ae sid s) /\ since s) (authz_part2 e now iframe ar sid uri)
      (fun o s => forall a, ao_args o = Good a -> texts u ar ae a)) as T.
    { unfold authz_part2.
      eapply spec2_seq with (Q := fun r s => forall o a, r = Some o -> ao_args o = Good a -> texts u ar ae a).
      { apply spec2_catch'.
        - eapply spec2_seq; [apply post_authentication_text; auto|]. intros o. apply spec2_ret.
          intros s H o' a X. injection X as <-. auto.
        - intros x k' X. injection X as <-. apply spec2_ret. discriminate. }
      assert (forall P, spec2 e now (kept_ids a0) P (lift (error_by_response_mode ar "server_error"))
                 (fun o s => forall a, ao_args o = Good a -> texts u ar ae a)) as Er.
      { intros P. apply spec2_lift. intros s o _ H a X. apply ebrm_err in H. congruence. }
      intros [o|]; [|apply Er]. cbv zeta.
      destruct iframe.
      2:{ apply spec2_ret. intros s H a X. cbn in X. eauto. }
      eapply spec2_bind with (Q := fun _ _ => True).
      { intros s s' L H. exact H. }
      { apply spec2_catch'.
        - eapply spec2_rbind with (Q := fun _ _ => True); [apply reader_get_event|auto|]. intros ?. apply spec2_ret. auto.
        - intros x k' X. destruct (is_KeyError x); [|discriminate]. injection X as <-. apply spec2_ret. auto. }
      intros [ev|]; [|apply Er].
      eapply spec2_rbind with (Q := fun _ _ => True); [apply reader_need|auto|]. intros a.
      destruct (negb (event_valid now a)); [apply Er|].
      apply spec2_ret. intros s ((H & _) & _) b X. cbn in X. eauto. }
    eapply spec2_post; [|eapply spec2_with; [eapply spec2_keep with (K := begun u ar ae sid);
      [apply st_begun|intros s [[_ X] _]; exact X|exact T]|
       eapply spec_pre; [|apply (authz_part2_spec e now W u); auto]; intros s _ [[X _] _]; exact X]].
    intros o s _ ((A & B) & C) a X. exists sid, ae. auto.
  Qed.

  Lemma login_text iframe ar uid acr exp_in uri :
    good_id (ar_client_id ar) -> good_id uid ->
    spec2 e now (kept_ids a0) since (login e now iframe ar uid acr exp_in uri)
      (fun o s => forall a, ao_args o = Good a -> responded uid ar a s).
  Proof.
    intros Gc Gu. unfold login.
    eapply spec2_seq; [eapply spec2_keep with (K := since); [apply st_since|auto|]|].
    { eapply spec2_pre with (P' := fun _ => True); [auto|]. apply spec2_of; [apply ep_create_session_spec; auto|apply holds_create]. }
    intros sid. eapply spec2_pre with (P' := fun s => exists ae, (ready e now uid ar sid s /\ begun uid ar ae sid s) /\ since s).
    { intros s _ [R Sn]. destruct (ready_begun _ _ _ _ R) as (ae & X). exists ae. auto. }
    apply spec2_ex. intros ae. apply authz_part2_text. apply Gc.
  Qed.

  Lemma setup_auth_who ar ru acr exp_in ans s sid u s' :
    setup_auth e now ar ru acr exp_in ans s = (Ok (SGo sid u), s') -> exists osid, ans = AUser u osid.
  Proof.
    unfold setup_auth. intros E. apply bind_ok in E as (id & s1 & Ei & E).
    destruct id as [[u0 sid0]|].
    2:{ apply ret_ok in E as [E _]. destruct (smem "none" (prompts ar)); discriminate. }
    assert (ans = AUser u0 sid0) as ->.
    { destruct ans as [|u1 sid1]; [discriminate|].
      destruct (ostr_true sid1).
      - apply bind_ok in Ei as (l & s2 & _ & Ei). apply bind_ok in Ei as (g & s3 & _ & Ei).
        apply ret_ok in Ei as [X _]. destruct (grant_active now g); congruence.
      - apply ret_ok in Ei as [X _]. congruence. }
    enough (u0 = u) as -> by eauto.
    destruct (smem "login" (prompts ar)); [apply ret_ok in E as [E _]; discriminate|].
    destruct (match ru with Some r => negb (String.eqb u0 r) | None => false end).
    { apply ret_ok in E as [E _]. destruct (smem "none" (prompts ar)); discriminate. }
    apply bind_ok in E as (o & s2 & _ & E). destruct o as [x|]; [|apply ret_ok in E as [E _]; discriminate].
    destruct (str_true x).
    - apply bind_ok in E as (ev & s3 & _ & E). apply bind_ok in E as (a & s4 & _ & E).
      destruct (negb (event_valid now a)); apply ret_ok in E as [E _]; congruence.
    - apply bind_ok in E as (y & s3 & _ & E). apply ret_ok in E as [E _]. congruence.
  Qed.

  Lemma authorize_text deny iframe ar ru acr exp_in ans uri :
    good_id (ar_client_id ar) ->
    match ans with
    | ANobody => True
    | AUser u sid => good_id u /\ forall s u' c g, sid = Some s -> dec_sid3 e s = Ok (u', c, g) -> u' = u
    end ->
    spec2 e now (kept_ids a0) since (authorize e now deny iframe ar ru acr exp_in ans uri)
      (fun r s => forall o a, r = ROut o -> ao_args o = Good a ->
                    exists u osid, ans = AUser u osid /\ responded u ar a s).
  Proof.
    intros Gc Pa. unfold authorize. destruct (dget (e_clients e) (ar_client_id ar)); [|apply spec2_raise].
    eapply spec2_rbind with (Q := fun _ _ => True); [apply reader_lift|auto|]. intros ?.
    eapply spec2_seq with (Q := fun r s => (forall sid u, r = SGo sid u ->
        (exists osid, ans = AUser u osid) /\ ready e now u ar sid s) /\ since s).
    { eapply spec2_keep with (K := since); [apply st_since|tauto|].
      apply spec2_of; [|apply holds_setup].
      intros s r s' I _ E. destruct (setup_auth_spec e now W ar ru acr exp_in ans Gc Pa s r s' I Logic.I E) as (A & B & C).
      split; auto. split; auto. intros x -> sid u ->. split; eauto using setup_auth_who. }
    intros [| |sid u].
    - apply spec2_ret. discriminate.
    - destruct (ar_response_mode ar); [|apply spec2_ret; discriminate].
      eapply spec2_rbind with (Q := fun _ _ => True); [apply reader_lift|auto|]. intros r. apply spec2_ret. discriminate.
    - eapply spec2_pure with (phi := exists osid, ans = AUser u osid).
      { intros s _ [H _]. apply (H sid u eq_refl). }
      intros (osid & Ea).
      eapply spec2_seq with (Q := fun o s => forall a, ao_args o = Good a -> responded u ar a s).
      { eapply spec2_pre with (P' := fun s => exists ae, (ready e now u ar sid s /\ begun u ar ae sid s) /\ since s).
        { intros s _ [H Sn]. destruct (H sid u eq_refl) as [_ R]. destruct (ready_begun _ _ _ _ R) as (ae & X). exists ae. auto. }
        apply spec2_ex. intros ae. apply authz_part2_text. apply Gc. }
      intros o. apply spec2_ret. intros s H o1 a1 X Y. injection X as <-. eauto.
  Qed.
End Specs.

(** ** Steps *)
Section Steps.
  Variable e : env.
  Hypothesis W : laws e.

  Lemma known_made s l g t n : Inv e s -> hp s l = Some (OGrant g) -> In t (g_tokens g) ->
    s_ctr s <= n -> ~ made e n (t_value t).
  Proof.
    intros I H T L M. destruct (inv_made _ _ I _ _ _ H T) as (m & Mm & Lm).
    pose proof (law_made _ W _ _ _ M Mm). lia.
  Qed.

  Lemma told_asked now l tc sc ar x o s : told e now l tc sc (smem x (ar_response_type ar)) o s -> as_asked ar x o.
  Proof.
    unfold told, as_asked. destruct (smem x (ar_response_type ar)) eqn:E.
    - apply smem_In in E. intros (t & -> & _). split; eauto.
    - apply smem_false in E. intros ->. split; [intros (v & X); discriminate|tauto].
  Qed.

  Lemma told_new now h l tc sc b o s g :
    Inv e (h_st h) -> hp s l = Some (OGrant g) -> told e now l tc sc b o s ->
    (forall v, o = Some v -> newv e (s_ctr (h_st h)) v) -> new_token h g tc o.
  Proof.
    intros I Hg T N v ->. split.
    - intros (tc' & gid & g0 & t & (l0 & H0 & _) & Ht & Ev & _). destruct (N v eq_refl) as (n & L & M). rewrite <- Ev in M.
      exact (known_made _ _ _ _ _ I H0 Ht L M).
    - destruct b; cbn in T; [|discriminate]. destruct T as (t & X & i & g0 & t0 & (g1 & t1 & H1 & N1 & T1) & (g2 & t2 & H2 & N2 & T2) & Tl & _ & _ & Mf).
      rewrite Hg in H1, H2. injection H1 as <-. injection H2 as <-. injection X as ->. rewrite N1 in N2. injection N2 as <-.
      exists t1. split; [eapply nth_error_In; eauto|].
      destruct T1 as (C1 & _ & B1 & _), T2 as (_ & V2 & _), Mf as (_ & Mc & _ & Mb & _).
      split; [congruence|]. split; [congruence|]. rewrite B1, Mb. reflexivity.
  Qed.

  Lemma told_time now l tc sc ar a s g : hp s l = Some (OGrant g) -> tc = ACCESS ->
    told e now l tc sc (smem "token" (ar_response_type ar)) (ap_access a) s ->
    timed e now l (smem "token" (ar_response_type ar)) (ap_access a) (ap_expires a) s -> tells_time now g a.
  Proof.
    intros Hg -> T Ti. unfold tells_time. destruct (smem "token" (ar_response_type ar)); unfold told, timed in T, Ti.
    2:{ rewrite T. exact Ti. }
    destruct Ti as (t & -> & (i & g0 & t0 & (g1 & t1 & H1 & N1 & T1) & (g2 & t2 & H2 & N2 & T2) & Tl & _ & _ & Mf) & ->).
    rewrite Hg in H1, H2. injection H1 as <-. injection H2 as <-. rewrite N1 in N2. injection N2 as <-.
    exists t1. split; [eapply nth_error_In; eauto|].
    destruct T1 as (C1 & _), T2 as (_ & V2 & _ & _ & _ & X2 & _), Mf as (_ & Mc & _).
    split; [congruence|]. split; [change (t_class t1 = ACCESS); congruence|]. unfold lasts, expires_in. rewrite X2.
    destruct (Z.eqb_spec (t_exp t) 0); [auto|]. split; auto. lia.
  Qed.

  Lemma responded_answers a0 now h h' u ar a :
    HI e h -> HI e h' -> responded e now a0 (s_ctr (h_st h)) u ar a (h_st h') -> answers e now h h' u ar a.
  Proof.
    assert (ap_state a = nonempty (ar_state ar) -> same_state ar a) as Ss.
    { intros Es x. rewrite Es. destruct (ar_state ar) as [y|]; cbn [nonempty]; [|split; [discriminate|intros [X _]; discriminate]].
      destruct y as [|c y]; cbn [str_true]; split; try discriminate.
      - intros [X N]. injection X as <-. congruence.
      - intros X. injection X as <-. split; [reflexivity|discriminate].
      - intros [X _]. exact X. }
    intros Hh Hh' (sid & ae & [(R & Nc & Na & Ni & St & Sc & Ex)|(l & gid & D & O & P & Sc)] & T & gid' & D' & F & _);
      [split; auto; left; auto 10|].
    split; [apply Ss, P|right].
    rewrite D in D'. injection D' as <-. destruct O as (g & Hg & Id & B).
    destruct F as (l' & g' & Hg' & Id' & Ga & _).
    assert (l' = l) as -> by (eapply (inv_uniq _ _ (hi_inv _ _ Hh')); eauto; congruence).
    rewrite Hg in Hg'. injection Hg' as <-.
    destruct P as (Pc & Pa & Pi & Pr & _ & Pt), T as (Tc & Ta & Ti & Tx & _).
    split.
    { unfold tells_scopes. rewrite Sc. destruct (ar_scope ar) as [[|x r]|]; auto. exists (x :: r). split; auto.
      intros y. apply filter_scopes_spec. }
    split; [eapply told_asked; eauto|]. split; [eapply told_asked; eauto|]. split; [eapply told_asked; eauto|].
    split. { intros x X. rewrite forallb_forall in Pr. apply smem_In. auto. }
    exists gid, g. split; [exists l; auto|]. split; auto. split; auto.
    pose proof (hi_inv _ _ Hh) as I.
    split; [eapply (told_new now h l CODE); eauto|]. split; [eapply (told_new now h l ACCESS); eauto|].
    split; [eapply (told_time now l ACCESS); eauto|].
    split; [eapply (told_new now h l IDTOKEN); eauto|]. auto.
  Qed.

  (** What the response carries, in terms of the settings the provider was
      started with. *)
  Definition due (a0 : dict (dict (list string))) (now : Z) (h' : hst) (u : string) (ar : areq) (a : aresp) : Prop :=
    exists gid g ae, grant_of h' gid g /\ belongs e g u (ar_client_id ar) /\ g_areq g = Some ar /\ g_aevent g = Some ae
      /\ signed_as_due e a0 now u ar ae (alone ar) (ap_id a) (ap_access a).
  Lemma responded_due a0 now k h' u ar a : HI e h' -> responded e now a0 k u ar a (h_st h') -> due a0 now h' u ar a.
  Proof.
    intros Hh (sid & ae & _ & (_ & _ & _ & _ & T1 & T2) & gid & _ & (l & g & H & Id & Ga & Gae) & l' & g' & H' & Id' & B).
    assert (l' = l) as -> by (eapply (inv_uniq _ _ (hi_inv _ _ Hh)); eauto; congruence).
    rewrite H in H'. injection H' as <-.
    exists gid, g, ae. split; [exists l; auto|]. split; [exact B|]. split; [exact Ga|]. split; [exact Gae|].
    split; [exact T1|exact T2].
  Qed.
  Lemma login_due a0 h now iframe ar uid acr exp_in uri o h' a :
    HI e h -> kept_ids a0 (s_always (h_st h)) -> good_id (ar_client_id ar) -> good_id uid ->
    step e h (OLogin now iframe ar uid acr exp_in uri) = (EvLogin (Ok o), h') -> ao_args o = Good a ->
    due a0 now h' uid ar a.
  Proof.
    intros Hi Ki Gc Gu Es A.
    destruct (step_keeps e W _ (OLogin now iframe ar uid acr exp_in uri) _ _ Hi (conj Gc Gu) Es) as (Hi' & _).
    apply (responded_due a0 now (s_ctr (h_st h))); auto. unfold step, on_st in Es.
    destruct (login e now iframe ar uid acr exp_in uri (h_st h)) as [r s] eqn:E. injection Es as E1 E2. subst r h'.
    destruct (login_text e now a0 W (s_ctr (h_st h)) iframe ar uid acr exp_in uri Gc Gu _ _ _ (hi_inv _ _ Hi) Ki (le_n _) E)
      as (_ & _ & _ & K). apply (K o eq_refl a A).
  Qed.
  Lemma authorize_due a0 h now deny iframe ar ru acr exp_in ans uri o h' a :
    HI e h -> kept_ids a0 (s_always (h_st h)) -> proper e (OAuthorize now deny iframe ar ru acr exp_in ans uri) ->
    step e h (OAuthorize now deny iframe ar ru acr exp_in ans uri) = (EvAuthorize (Ok (ROut o)), h') -> ao_args o = Good a ->
    exists u sid, ans = AUser u sid /\ due a0 now h' u ar a.
  Proof.
    intros Hi Ki Pr Es A. destruct (step_keeps e W _ _ _ _ Hi Pr Es) as (Hi' & _). destruct Pr as [Gc Pa].
    unfold step, on_st in Es.
    destruct (authorize e now deny iframe ar ru acr exp_in ans uri (h_st h)) as [r s] eqn:E. injection Es as E1 E2. subst r h'.
    destruct (authorize_text e now a0 W (s_ctr (h_st h)) deny iframe ar ru acr exp_in ans uri Gc Pa _ _ _ (hi_inv _ _ Hi) Ki (le_n _) E)
      as (_ & _ & _ & K). destruct (K _ eq_refl o a eq_refl A) as (u & osid & Ea & R).
    exists u, osid. split; auto. eapply responded_due; eauto.
  Qed.

  Lemma login_answers ops evs h now iframe ar uid acr exp_in uri o h' a :
    history e ops evs h -> good_id (ar_client_id ar) -> good_id uid ->
    step e h (OLogin now iframe ar uid acr exp_in uri) = (EvLogin (Ok o), h') -> ao_args o = Good a ->
    answers e now h h' uid ar a.
  Proof.
    intros Hh Gc Gu Es A. pose proof (history_hi e W _ _ _ Hh) as Hi.
    destruct (step_keeps e W _ (OLogin now iframe ar uid acr exp_in uri) _ _ Hi (conj Gc Gu) Es) as (Hi' & _).
    apply (responded_answers (s_always (h_st h))); auto. unfold step, on_st in Es.
    destruct (login e now iframe ar uid acr exp_in uri (h_st h)) as [r s] eqn:E. injection Es as E1 E2. subst r h'.
    destruct (login_text e now (s_always (h_st h)) W (s_ctr (h_st h)) iframe ar uid acr exp_in uri Gc Gu _ _ _ (hi_inv _ _ Hi) (kept_ids_refl _) (le_n _) E)
      as (_ & _ & _ & K). apply (K o eq_refl a A).
  Qed.

  Lemma authorize_answers ops evs h now deny iframe ar ru acr exp_in ans uri o h' a :
    history e ops evs h -> proper e (OAuthorize now deny iframe ar ru acr exp_in ans uri) ->
    step e h (OAuthorize now deny iframe ar ru acr exp_in ans uri) = (EvAuthorize (Ok (ROut o)), h') -> ao_args o = Good a ->
    exists u sid, ans = AUser u sid /\ answers e now h h' u ar a.
  Proof.
    intros Hh Pr Es A. pose proof (history_hi e W _ _ _ Hh) as Hi.
    destruct (step_keeps e W _ _ _ _ Hi Pr Es) as (Hi' & _). destruct Pr as [Gc Pa].
    unfold step, on_st in Es.
    destruct (authorize e now deny iframe ar ru acr exp_in ans uri (h_st h)) as [r s] eqn:E. injection Es as E1 E2. subst r h'.
    destruct (authorize_text e now (s_always (h_st h)) W (s_ctr (h_st h)) deny iframe ar ru acr exp_in ans uri Gc Pa _ _ _ (hi_inv _ _ Hi) (kept_ids_refl _) (le_n _) E)
      as (_ & _ & _ & K). destruct (K _ eq_refl o a eq_refl A) as (u & osid & Ea & R).
    exists u, osid. split; auto. apply (responded_answers (s_always (h_st h))); auto.
  Qed.
End Steps.
