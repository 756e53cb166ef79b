(** Histories, part 11: single calls in reachable states. *)
From Verif Require Import M_Base M_Types M_Codec M_Grant M_Env M_Session M_Claims M_Handler
  M_Authz M_TokenEP M_PKCE M_AuthzEP M_Info M_Logout M_History S_Codec S_Grant S_History
  L_Base L_Codec L_Monad L_Grant L_Claims L_Store L_Hist1 L_Hist2 L_Hist3 L_Hist4 L_Hist5 L_Hist6
  L_Hist7 L_Hist8 L_Emit L_Hist9 L_Hist10.

(** What the whole parse phase accepts, the endpoint's own part accepted; and the
    add-on, if it looks at the request. *)
Lemma pkce_check_same e now q s q' s' : pkce_check e now q s = (Ok (Good q'), s') -> q' = q.
Proof.
  unfold pkce_check. intros E.
  apply bind_ok in E as (oi & s1 & _ & E). destruct oi as [i|]; [|discriminate].
  apply bind_ok in E as (g & s2 & _ & E). apply bind_ok in E as (ar & s3 & _ & E).
  destruct (ar_code_challenge ar) as [ch|]; [|injection E as <- _; auto].
  destruct (tr_verifier q) as [vf|]; [|discriminate].
  apply bind_ok in E as (m & s4 & _ & E). apply bind_ok in E as (b & s5 & _ & E).
  destruct b; [injection E as <- _; auto|discriminate].
Qed.
Lemma parse_all_good e now cid q s q' s' : token_parse_all e now cid q s = (Ok (Good q'), s') ->
  exists s0, token_parse e now cid q s = (Ok (Good q'), s0)
    /\ (e_pkce e && String.eqb (tr_grant_type q') CODE = true -> pkce_check e now q' s0 = (Ok (Good q'), s')).
Proof.
  unfold token_parse_all. intros E. apply bind_ok in E as (r & s0 & Ep & E). destruct r as [x|q1]; [discriminate|].
  exists s0. destruct (e_pkce e && String.eqb (tr_grant_type q1) CODE) eqn:B.
  - pose proof (pkce_check_same _ _ _ _ _ _ E) as ->. auto.
  - injection E as <- <-. split; auto. congruence.
Qed.

Section H.
  Variables (e : env) (W : laws e).

  Lemma by_token_read now v s i s1 : Inv e s -> get_session_info_by_token e now v s = (Ok i, s1) ->
    quiet s s1 /\ Inv e s1 /\ owns e s (ss_grant i) (ss_user i) (ss_client i) (ss_gid i).
  Proof.
    intros I E. pose proof (quiet_by_token _ _ _ _ _ _ E) as Q. pose proof (quiet_inv e _ _ Q I) as I1.
    destruct (by_token_spec e now v (fun _ => True) _ _ _ I Logic.I E) as (_ & _ & X).
    destruct (X i eq_refl) as (_ & gr & H & O). split; auto. split; auto.
    exists gr. split; auto. destruct Q as (Hh & _). unfold hp in *. now rewrite <- Hh.
  Qed.

  (** A redeemed code is used. *)
  Lemma redeemed_used ops evs h i q a v gid g t : history e ops evs h -> answer_at evs i q a ->
    presents q v "authorization_code" -> grant_of h gid g -> In t (g_tokens g) -> t_value t = v ->
    t_class t = CODE /\ (1 <= t_used t)%Z.
  Proof.
    intros Hi Ni Pr G It V. destruct (answer_grant e W _ _ _ _ _ _ Hi Ni) as
      (al & now & k & issue & h1 & s2 & l & m & t0 & u & c & gid0 & E1 & _ & No & H1 & I2 & Hh & Ep & L12 & Ht1 & Ht & (g0 & Hg & Eg & B) & Ec
       & St & Ba & Br & Bi & Cs).
    destruct Pr as [(_ & Gt & P)|(X & _)]; [|discriminate].
    destruct Cs as [(_ & C & P1 & N & _)|(G' & _)]; [|rewrite Gt in G'; discriminate].
    assert (t_value t0 = v) as V0 by congruence.
    destruct (has_now e _ _ _ _ (hi_inv _ _ H1) Ht1) as (b & Hb & Lb & Ub).
    assert (t_value b = v) as Vb by (destruct Lb as (_ & X & _); congruence).
    assert (t_class b = CODE) as Cb by (destruct Lb as (X & _); congruence).
    destruct (token_event_code e W now h1 q issue l m b a s2 v) as (_ & Sv & _); auto.
    destruct Sv as (_ & _ & _ & _ & (t1 & L1 & Hr)).
    assert (has l m (tok_register t1) (h_st h)) as (g3 & t3 & H3 & N3 & L3).
    { apply (St (has l m (tok_register t1))); auto. intros n. apply (st_has n). }
    unfold token_later in L1, L3. cbn in L3.
    assert (In t3 (g_tokens g3)) as It3 by (eapply nth_error_In; eauto).
    destruct (one_owner e W ops evs h gid (g_id g3) g g3 t t3 Hi G) as (_ & _ & ->); auto.
    { exists l. auto. } { intuition congruence. }
    split; [intuition congruence|]. intuition lia.
  Qed.

  (** *** C03 *)
  Lemma code_rules h gid g t : HI e h -> grant_of h gid g -> In t (g_tokens g) -> t_class t = CODE ->
    (1 <= t_used t)%Z -> forall now, tok_active now t = false.
  Proof.
    intros [I _] (l & H & _) It C U now. destruct (tok_active now t) eqn:A; auto.
    apply tok_active_live in A as (_ & A & _).
    rewrite (to_code _ _ (gi_tok _ _ (inv_grants _ _ I _ _ H) t It) C) in A.
    specialize (A _ eq_refl). lia.
  Qed.

  (** The run of [code_parse] once the code has been looked up. *)
  Lemma code_parse_found now q v s i s1 : tr_code q = Some v ->
    get_session_info_by_token e now v s = (Ok i, s1) ->
    code_parse e now q s = (g <- grant_at (ss_grant i) ;;
      match get_token g v with
      | None => ret (Err "invalid_request")
      | Some t =>
          if negb (String.eqb (t_class t) CODE) then ret (Err "invalid_request")
          else if e_oidc e && negb (Z.eqb (t_used t) 0) then
            on_tokens (ss_grant i) (revoke_token (e_limit e) "" v true) ;;
            ret (Err "invalid_grant")
          else if negb (tok_active now t) then
            ret (Err (if e_oidc e then "invalid_grant" else "invalid_request"))
          else
            match tr_client q with
            | Some _ => ret (Good q)
            | None => match g_areq g with
                      | Some a => ret (Good (tr_set_client (ar_client_id a) q))
                      | None => raise TypeError
                      end
            end
      end) s1.
  Proof.
    intros Eq El. unfold code_parse. rewrite Eq.
    unfold bind at 1. unfold catch at 1. unfold bind at 1. cbn [ret].
    unfold bind at 1. unfold ret at 1. rewrite El. reflexivity.
  Qed.
  Lemma code_parse_not_found now q s : 
    (forall v, tr_code q = Some v -> forall i s1, get_session_info_by_token e now v s <> (Ok i, s1)) ->
    forall r s', code_parse e now q s = (r, s') -> quiet s s' /\ forall q', r <> Ok (Good q').
  Proof.
    intros Hn r s' E. unfold code_parse in E.
    apply bind_inv in E as [(o & s2 & E1 & E2)|(x & E1 & ->)].
    - apply catch_inv in E1 as [(o' & E1 & X)|[(x & s3 & k & E1 & X & E3)|(x & _ & _ & X)]]; [| |discriminate].
      + injection X as <-. exfalso. apply bind_ok in E1 as (c & s4 & Ec & E1).
        destruct (tr_code q) as [v|] eqn:Eq; [|discriminate]. apply ret_ok in Ec as [<- <-].
        apply bind_ok in E1 as (i & s5 & El & E1). eapply Hn; eauto.
      + assert (k = ret None) as -> by (destruct (is_KeyError x); [congruence|destruct x; congruence]).
        apply ret_ok in E3 as [<- <-]. apply ret_inv in E2 as [-> <-]. split; [|discriminate].
        apply bind_inv in E1 as [(c & s4 & Ec & E1)|(x' & Ec & X')].
        * destruct (tr_code q); [|discriminate]. apply ret_ok in Ec as [<- <-].
          apply bind_inv in E1 as [(i & s5 & El & E1)|(x' & El & _)]; [discriminate|].
          eapply quiet_by_token; eauto.
        * destruct (tr_code q); [discriminate|]. apply raise_inv in Ec as [_ <-]. apply quiet_refl.
    - split; [|discriminate]. 
      apply catch_inv in E1 as [(o' & _ & X)|[(x' & s3 & k & _ & X & E3)|(x' & E1 & _ & X)]]; [discriminate| |].
      + assert (k = ret None) as -> by (destruct (is_KeyError x'); [congruence|destruct x'; congruence]). discriminate.
      + apply bind_inv in E1 as [(c & s4 & Ec & E1)|(x2 & Ec & X')].
        * destruct (tr_code q); [|discriminate]. apply ret_ok in Ec as [<- <-].
          apply bind_inv in E1 as [(i & s5 & El & E1)|(x2 & El & _)]; [discriminate|].
          eapply quiet_by_token; eauto.
        * destruct (tr_code q); [discriminate|]. apply raise_inv in Ec as [_ <-]. apply quiet_refl.
  Qed.

  Lemma found_dec now q s : (exists v i s1, tr_code q = Some v /\ get_session_info_by_token e now v s = (Ok i, s1))
    \/ (forall v, tr_code q = Some v -> forall i s1, get_session_info_by_token e now v s <> (Ok i, s1)).
  Proof.
    destruct (tr_code q) as [v|]; [|right; discriminate].
    destruct (get_session_info_by_token e now v s) as [[i|x] s1] eqn:El.
    - left. eauto.
    - right. intros v' X. injection X as <-. intros. congruence.
  Qed.

  (** A redeemed code is never accepted again. *)
  Lemma replay_refused ops evs h i q a v now cid q' r h' : history e ops evs h -> answer_at evs i q a ->
    presents q v "authorization_code" -> presents q' v "authorization_code" ->
    step e h (OParse now cid q') = (EvParse r, h') -> forall q2, r <> Ok (Good q2).
  Proof.
    intros Hi Ni Pr Pr' E q2 ->. cbn [step] in E.
    destruct (token_parse_all e now cid q' (h_st h)) as [r s] eqn:Ep. injection E as -> _.
    apply parse_all_good in Ep as (s0 & Ep & _).
    pose proof (history_hi e W _ _ _ Hi) as Hh.
    destruct Pr' as [(_ & Gt & P)|(X & _)]; [|discriminate].
    unfold token_parse in Ep. destruct (dget (e_clients e) cid); [|discriminate].
    match type of Ep with (if ?b then _ else _) _ = _ => destruct b end; [discriminate|].
    match type of Ep with (if ?b then _ else _) _ = _ => destruct b end; [discriminate|].
    rewrite Gt in Ep. change (String.eqb "authorization_code" CODE) with true in Ep. cbn iota in Ep.
    destruct (found_dec now q' (h_st h)) as [(v' & si & s1 & Ev & El)|Hn].
    2: { destruct (code_parse_not_found _ _ _ Hn _ _ Ep) as [_ X]. eapply X; eauto. }
    assert (v' = v) as -> by congruence. rewrite (code_parse_found _ _ _ _ _ _ Ev El) in Ep.
    destruct (by_token_read _ _ _ _ _ (hi_inv _ _ Hh) El) as (Q & I1 & gr & Hgr & Og & _).
    apply bind_ok in Ep as (g & s2 & Eg & Ep). apply grant_at_ok in Eg as [-> Hg].
    assert (g = gr) as ->. { destruct Q as (Q & _). unfold hp in *. rewrite Q in Hg. congruence. }
    destruct (get_token gr v) as [t|] eqn:Gt'; [|discriminate]. apply get_token_In in Gt' as [It Vt].
    assert (grant_of h (g_id gr) gr) as G by (exists (ss_grant si); auto).
    destruct (redeemed_used _ _ _ _ _ _ _ _ _ _ Hi Ni Pr G It Vt) as [C U].
    rewrite C in Ep. change (negb (String.eqb CODE CODE)) with false in Ep. cbn iota in Ep.
    destruct (e_oidc e && negb (Z.eqb (t_used t) 0)).
    - apply bind_ok in Ep as (? & ? & _ & Ep). discriminate.
    - rewrite (code_rules _ _ _ _ Hh G It C U) in Ep. discriminate.
  Qed.

  (** At the OpenID Connect endpoint it also kills all that came from the code. *)
  Lemma replay_kills ops evs h i q a v now cid q' gid g : history e ops evs h -> answer_at evs i q a ->
    presents q v "authorization_code" -> presents q' v "authorization_code" ->
    e_oidc e = true -> may_use e cid "authorization_code" -> leads_to e now h v gid ->
    grant_of h gid g -> in_grant g v "authorization_code" -> List.length (g_tokens g) < e_limit e ->
    exists ts' h', step e h (OParse now cid q') = (EvParse (Ok (Err "invalid_grant")), h')
      /\ only_tokens h h' gid (g_tokens g) ts'
      /\ revoked_exactly (descends (g_tokens g) v) (g_tokens g) ts'.
  Proof.
    intros Hi Ni Pr Pr' Oi (cl & Ecl & Agt & Ah) (si & s1 & El & Egi) G (t & It & Vt & Ct) Lim.
    pose proof (history_hi e W _ _ _ Hi) as Hh.
    destruct Pr' as [(_ & Gt & P)|(X & _)]; [|discriminate].
    destruct (by_token_read _ _ _ _ _ (hi_inv _ _ Hh) El) as (Q & I1 & gr & Hgr & Og & _).
    assert (grant_of h gid gr) as G' by (exists (ss_grant si); split; auto; congruence).
    assert (gr = g) as -> by (eapply grant_of_unique; eauto).
    destruct (redeemed_used _ _ _ _ _ _ _ _ _ _ Hi Ni Pr G It Vt) as [C U].
    pose proof (history_forest e W _ _ _ _ _ Hi G) as Fo.
    assert (str_true v = true) as Sv.
    { destruct Fo as (_ & Ne & _). destruct v; [|reflexivity]. exfalso. apply Ne. rewrite <- Vt. now apply in_map. }
    destruct (revoke_based_ok (e_limit e) v (g_tokens g) Fo Sv) as (ts' & Er & Sk & Rv); [lia|intros; lia|].
    assert (hp s1 (ss_grant si) = Some (OGrant g)) as Hg1.
    { destruct Q as (Q & _). unfold hp in *. now rewrite Q. }
    assert (get_token g v = Some t) as Gtk.
    { rewrite <- Vt. apply get_token_forest; auto. }
    exists ts'. eexists. split; [|split].
    - cbn [step]. unfold token_parse_all. unfold bind at 1. unfold token_parse. rewrite Ecl.
      replace (match c_grant_types cl with Some l => negb (smem (tr_grant_type q') l) | None => false end) with false.
      2: { rewrite Gt. destruct (c_grant_types cl) as [l|]; auto. symmetry. apply negb_false_iff. apply smem_In. auto. }
      rewrite Gt. replace (negb (smem "authorization_code" (e_helpers e))) with false.
      2: { symmetry. apply negb_false_iff. now apply smem_In. }
      change (String.eqb "authorization_code" CODE) with true. cbn iota.
      rewrite (code_parse_found _ _ _ _ _ _ P El).
      assert (grant_at (ss_grant si) s1 = (Ok g, s1)) as Ega.
      { unfold grant_at, bind, deref. unfold hp in Hg1. rewrite Hg1. reflexivity. }
      rewrite (bind_run _ _ _ _ _ Ega). rewrite Gtk, C. change (negb (String.eqb CODE CODE)) with false. cbn iota.
      rewrite Oi. replace (negb (Z.eqb (t_used t) 0)) with true.
      2: { symmetry. apply negb_true_iff. apply Z.eqb_neq. lia. }
      cbn [andb]. unfold on_tokens. unfold bind at 1. rewrite (bind_run _ _ _ _ _ Ega). rewrite Er.
      unfold bind, upd_obj, lift, ret. cbn. reflexivity.
    - unfold only_tokens. cbn [h_st h_parsed s_db s_heap]. destruct Q as (Qh & Qd & _).
      split; [exact Qd|]. split; [reflexivity|]. exists (ss_grant si), g.
      split; [exact Hgr|]. split; [congruence|]. split; [reflexivity|]. split.
      + unfold upd_obj. cbn. rewrite Qh. rewrite nth_upd_nth_same. unfold hp in Hgr. rewrite Hgr. reflexivity.
      + intros l' Nl. cbn. rewrite Qh. apply nth_upd_nth_other. auto.
    - apply revoked_exactly_of; auto.
  Qed.

  (** *** C09, mismatch *)
  Lemma redirect_mismatch ops evs h k q v gid g ar uri now issue ev h' : history e ops evs h ->
    nth_error (h_parsed h) k = Some q -> presents q v "authorization_code" ->
    grant_of h gid g -> in_grant g v "authorization_code" -> g_areq g = Some ar ->
    ar_redirect_uri ar = Some uri -> tr_redirect q <> Some uri ->
    step e h (OProcess now k issue) = (ev, h') ->
    (forall a, ev <> EvToken q (Ok (Good a))) /\ same_tokens h h'.
  Proof.
    intros Hi Nk Pr G (t & It & Vt & Ct) Ea Eu Nu E. pose proof (history_hi e W _ _ _ Hi) as Hh.
    destruct Pr as [(_ & Gt & P)|(X & _)]; [|discriminate].
    cbn [step] in E. rewrite Nk in E. unfold on_st in E.
    destruct (token_process e now q issue (h_st h)) as [r s'] eqn:Ep. injection E as <- <-.
    assert ((forall a, r <> Ok (Good a)) /\ (forall l, match hp (h_st h) l with
        | Some (OGrant g1) => exists g2, hp s' l = Some (OGrant g2) /\ g_id g2 = g_id g1 /\ g_tokens g2 = g_tokens g1
        | o => hp s' l = o end)) as [R K].
    2: { split; [intros a X; injection X; apply R|]. split.
         - intros gid1 g1 (l & A1 & A2). specialize (K l). unfold hp in K. rewrite A1 in K. destruct K as (g2 & B1 & B2 & B3).
           exists g2. split; auto. exists l. split; auto. congruence.
         - intros gid1 g1 (l & A1 & A2). specialize (K l). cbn in A1. unfold hp in K.
           destruct (nth_error (s_heap (h_st h)) l) as [[| g2|]|] eqn:B1; try (rewrite A1 in K; discriminate).
           destruct K as (g3 & C1 & C2 & C3). rewrite A1 in C1. injection C1 as <-. exists g2. split; auto.
           exists l. split; auto. congruence. }
    assert (forall s1, s_heap s1 = s_heap (h_st h) -> forall l, match hp (h_st h) l with
        | Some (OGrant g1) => exists g2, hp s1 l = Some (OGrant g2) /\ g_id g2 = g_id g1 /\ g_tokens g2 = g_tokens g1
        | o => hp s1 l = o end) as Same.
    { intros s1 Q l. unfold hp. rewrite Q. destruct (nth_error _ l) as [[| g1|]|]; eauto. }
    (* the helper *)
    assert (forall r s', code_process e now q issue (h_st h) = (r, s') ->
       (forall a, r <> Ok (Good a)) /\ (forall l, match hp (h_st h) l with
        | Some (OGrant g1) => exists g2, hp s' l = Some (OGrant g2) /\ g_id g2 = g_id g1 /\ g_tokens g2 = g_tokens g1
        | o => hp s' l = o end)) as Cp.
    { clear r s' Ep. intros r s' Ep. unfold code_process in Ep. rewrite Gt in Ep.
      change (negb (String.eqb "authorization_code" CODE)) with false in Ep. cbn iota in Ep. rewrite P in Ep.
      assert (replace_char " " "+" v = v) as Rc.
      { apply replace_char_id. destruct G as (l & H & _).
        destruct (inv_made _ _ (hi_inv _ _ Hh) _ _ _ H It) as (n & M & _). rewrite Vt in M. apply (law_text _ W _ _ M). }
      cbv zeta in Ep. rewrite Rc in Ep.
      apply bind_inv in Ep as [(i & s1 & El & Ep)|(x & El & ->)].
      2: { split; [discriminate|]. apply Same. apply (quiet_by_token _ _ _ _ _ _ El). }
      destruct (by_token_read _ _ _ _ _ (hi_inv _ _ Hh) El) as (Q & I1 & gr & Hgr & Og & _).
      destruct Q as (Qh & Qd & _).
      destruct (tr_client q) as [rc|]; apply bind_inv in Ep as [(rc' & s2 & Erc & Ep)|(x & Erc & ->)]; try discriminate.
      2: { split; [discriminate|]. apply raise_inv in Erc as [_ <-]. now apply Same. }
      apply ret_ok in Erc as [<- <-].
      destruct (negb (String.eqb (ss_client i) rc)).
      { apply ret_inv in Ep as [-> <-]. split; [discriminate|]. now apply Same. }
      apply bind_inv in Ep as [(gts & s2 & Egt & Ep)|(x & Egt & ->)]; apply lift_inv in Egt as [Egt <-].
      2: { split; [discriminate|]. now apply Same. }
      apply bind_inv in Ep as [(g1 & s2 & Eg & Ep)|(x & Eg & ->)].
      2: { split; [discriminate|]. apply reader_grant_at in Eg as ->. now apply Same. }
      apply grant_at_ok in Eg as [-> Hg1].
      assert (g1 = gr) as ->. { unfold hp in *. rewrite Qh in Hg1. congruence. }
      match type of Ep with bind (match ?d with _ => _ end) _ _ = _ => set (dp := d) in Ep end.
      assert (exists s3, (match dp with
        | Some j => upd_obj (ss_grant i) (on_grant (fun g => g_set_extra (dset (g_extra g) "dpop_jkt" j) g))
        | None => ret tt end) s1 = (Ok tt, s3) /\ (forall l, match hp (h_st h) l with
        | Some (OGrant g1) => exists g2, hp s3 l = Some (OGrant g2) /\ g_id g2 = g_id g1 /\ g_tokens g2 = g_tokens g1
        | o => hp s3 l = o end)) as (s3 & E3 & K3).
      { destruct dp as [j|]; [|exists s1; split; [reflexivity|now apply Same]].
        eexists. split; [reflexivity|]. intros l. unfold hp. cbn. rewrite Qh.
        destruct (Nat.eq_dec l (ss_grant i)) as [->|Nl].
        - rewrite nth_upd_nth_same. unfold hp in Hgr. rewrite Hgr. cbn. eexists. split; [reflexivity|]. cbn. auto.
        - rewrite nth_upd_nth_other by auto. destruct (nth_error _ l) as [[| g1|]|]; eauto. }
      rewrite (bind_run _ _ _ _ _ E3) in Ep.
      apply bind_inv in Ep as [(pos & s4 & Epos & Ep)|(x & Epos & ->)].
      2: { split; [discriminate|]. apply reader_need in Epos as ->. exact K3. }
      pose proof (reader_need _ _ _ _ Epos) as ->. 
      destruct (find_pos v (g_tokens gr) 0) as [pos'|] eqn:Fp; [|discriminate]. apply ret_ok in Epos as [-> _].
      apply find_pos_ok in Fp as (t' & Nt' & Vt').
      assert (gr = g) as ->.
      { destruct (one_owner e W ops evs h (g_id gr) gid gr g t' t Hi) as (_ & X & _); auto.
        - exists (ss_grant i). auto.
        - eapply nth_error_In; eauto.
        - congruence. }
      apply bind_inv in Ep as [(b & s4 & Eb & Ep)|(x & Eb & ->)].
      2: { split; [discriminate|]. apply reader_tok_at in Eb as ->. exact K3. }
      apply reader_tok_at in Eb as ->. rewrite Ea in Ep.
      apply bind_inv in Ep as [(ar' & s4 & Ea' & Ep)|(x & Ea' & ->)]; [|discriminate].
      apply ret_ok in Ea' as [<- <-]. rewrite Eu in Ep.
      apply bind_inv in Ep as [(same & s4 & Es & Ep)|(x & Es & ->)].
      2: { split; [discriminate|]. destruct (tr_redirect q); [discriminate|]. apply raise_inv in Es as [_ <-]. exact K3. }
      destruct (tr_redirect q) as [w|] eqn:Er; [|discriminate]. apply ret_ok in Es as [<- <-].
      assert (String.eqb w uri = false) as X. { apply seqb_neq. congruence. }
      rewrite X in Ep. cbn [negb] in Ep. apply ret_inv in Ep as [-> <-]. split; [discriminate|]. exact K3. }
    unfold token_process in Ep.
    assert (forall a, r <> Ok (Good a)) as R0.
    { intros a ->. apply bind_ok in Ep as (o & s1 & E1 & E2).
      destruct o as [x|a']; [discriminate|]. destruct (negb _); [discriminate|].
      apply catch_inv in E1 as [(o & E1 & X)|[(x & s3 & k' & E1 & X & E3)|(x & _ & _ & X)]]; [| |discriminate].
      - rewrite Gt in E1. change (String.eqb "authorization_code" CODE) with true in E1. cbn iota in E1.
        destruct (Cp _ _ E1) as [X1 _]. injection X as <-. eapply X1; reflexivity.
      - assert (k' = ret (Err "invalid_request")) as -> by (destruct x; congruence). discriminate. }
    split; [exact R0|].
    apply bind_inv in Ep as [(o & s1 & E1 & E2)|(x & E1 & ->)].
    - destruct (negb _); [apply ret_inv in E1 as [X <-]; injection X as ->; apply ret_inv in E2 as [_ <-]; now apply Same|].
      apply catch_inv in E1 as [(o' & E1 & X)|[(x & s3 & k' & E1 & X & E3)|(x & _ & _ & X)]]; [| |discriminate].
      + rewrite Gt in E1. change (String.eqb "authorization_code" CODE) with true in E1. cbn iota in E1.
        destruct (Cp _ _ E1) as [X1 K]. injection X as <-. destruct o as [x|a]; [|exfalso; eapply X1; reflexivity].
        apply ret_inv in E2 as [_ <-]. exact K.
      + assert (k' = ret (Err "invalid_request")) as -> by (destruct x; congruence).
        apply ret_ok in E3 as [<- <-]. apply ret_inv in E2 as [_ <-].
        rewrite Gt in E1. change (String.eqb "authorization_code" CODE) with true in E1. cbn iota in E1.
        destruct (Cp _ _ E1) as [_ K]. exact K.
    - destruct (negb _); [discriminate|].
      apply catch_inv in E1 as [(o' & _ & X)|[(x' & s3 & k' & E1 & X & E3)|(x' & E1 & _ & X)]]; [discriminate| |].
      + assert (k' = ret (Err "invalid_request")) as -> by (destruct x'; congruence). discriminate.
      + rewrite Gt in E1. change (String.eqb "authorization_code" CODE) with true in E1. cbn iota in E1.
        destruct (Cp _ _ E1) as [_ K]. exact K.
  Qed.

  (** *** C07: what a refresh may ask for *)
  Lemma find_scope_inherited g : forest (g_tokens g) -> forall k b sc,
    match b with Some t => In t (g_tokens g) | None => True end ->
    find_scope k g b = Ok sc -> inherited_scope (g_tokens g) (g_scope g) (option_map t_value b) sc.
  Proof.
    intros F. induction k as [|k IH]; intros b sc Ib E; cbn in E; [discriminate|].
    destruct b as [t|]; [|injection E as <-; constructor]. cbn.
    destruct (t_scope t) as [|x r] eqn:S; cbn in E.
    - apply inh_up with t; auto. destruct (t_based t) as [b|] eqn:B; [|injection E as <-; constructor].
      apply In_nth_error in Ib as [j Nj]. destruct F as (F1 & F2 & F3) eqn:EF.
      destruct (F3 j t b Nj B) as (i & p & Li & Np & Vp).
      assert (str_true b = true) as Sb.
      { subst b. eapply forest_child_nonempty; [exact (conj F1 (conj F2 F3))|exact Np]. }
      rewrite Sb in E. rewrite <- Vp, get_token_forest in E; [|exact (conj F1 (conj F2 F3))|eapply nth_error_In; eauto].
      apply IH in E; [|eapply nth_error_In; eauto]. cbn in E. congruence.
    - injection E as <-. rewrite <- S. apply inh_own; auto. congruence.
  Qed.

  Lemma refresh_scope_checked ops evs h now cid q q' h' v sc : history e ops evs h ->
    step e h (OParse now cid q) = (EvParse (Ok (Good q')), h') ->
    presents q v "refresh_token" -> tr_scope q = Some sc ->
    exists gid g t sc', grant_of h gid g /\ In t (g_tokens g) /\ t_value t = v /\ t_class t = "refresh_token"
      /\ inherited_scope (g_tokens g) (g_scope g) (t_based t) sc' /\ incl sc sc'.
  Proof.
    intros Hi E Pr Es. pose proof (history_hi e W _ _ _ Hi) as Hh.
    destruct Pr as [(X & _)|(_ & Gt & P)]; [discriminate|].
    cbn [step] in E. destruct (token_parse_all e now cid q (h_st h)) as [r s] eqn:Ep. injection E as -> _.
    apply parse_all_good in Ep as (s0 & Ep & _).
    unfold token_parse in Ep. destruct (dget (e_clients e) cid); [|discriminate].
    match type of Ep with (if ?b then _ else _) _ = _ => destruct b end; [discriminate|].
    match type of Ep with (if ?b then _ else _) _ = _ => destruct b end; [discriminate|].
    rewrite Gt in Ep. change (String.eqb "refresh_token" CODE) with false in Ep.
    change (String.eqb "refresh_token" REFRESH) with true in Ep. cbn iota in Ep.
    unfold refresh_parse in Ep. rewrite P in Ep. apply bind_ok in Ep as (w & s1 & Ew & Ep).
    apply ret_ok in Ew as [<- <-]. apply bind_ok in Ep as (o & s2 & Eo & Ep).
    destruct o as [i|]; [|discriminate].
    apply catch_inv in Eo as [(o' & Eo & X)|[(x & s3 & k & Eo & X & E3)|(x & _ & _ & X)]]; [| |discriminate].
    2: { destruct (is_KeyError x); [|discriminate]. injection X as <-. discriminate. }
    injection X as <-. apply bind_ok in Eo as (i' & s3 & El & Eo). apply ret_ok in Eo as [X <-]. injection X as ->.
    destruct (by_token_read _ _ _ _ _ (hi_inv _ _ Hh) El) as (Q & I1 & gr & Hgr & Og & _).
    apply bind_ok in Ep as (g & s4 & Eg & Ep). apply grant_at_ok in Eg as [-> Hg].
    assert (g = gr) as ->. { destruct Q as (Q & _). unfold hp in *. rewrite Q in Hg. congruence. }
    destruct (get_token gr v) as [t|] eqn:Gtk; [|discriminate].
    destruct (negb (String.eqb (t_class t) REFRESH)) eqn:Cl; [discriminate|]. apply negb_false_iff, seqb_eq in Cl.
    destruct (negb (tok_active now t)); [discriminate|]. rewrite Es in Ep.
    apply bind_ok in Ep as (psc & s5 & Eps & Ep). apply lift_ok in Eps as [Eps <-].
    destruct (subset_b sc psc) eqn:Sb; [|discriminate]. apply subset_b_incl in Sb.
    apply get_token_In in Gtk as [It Vt].
    assert (grant_of h (g_id gr) gr) as G by (exists (ss_grant i); auto).
    pose proof (history_forest e W _ _ _ _ _ Hi G) as Fo.
    exists (g_id gr), gr, t, psc. split; [auto|]. split; [auto|]. split; [auto|]. split; [auto|]. split; [|auto].
    unfold parent_scope in Eps. destruct (t_based t) as [b|] eqn:B.
    - apply In_nth_error in It as [j Nj]. destruct Fo as (F1 & F2 & F3).
      destruct (F3 j t b Nj B) as (i0 & p & Li & Np & Vp).
      rewrite <- Vp, get_token_forest in Eps; [|exact (conj F1 (conj F2 F3))|eapply nth_error_In; eauto].
      apply find_scope_inherited in Eps; [|exact (conj F1 (conj F2 F3))|eapply nth_error_In; eauto].
      cbn in Eps. congruence.
    - apply find_scope_inherited in Eps; auto.
  Qed.
End H.

(** ** C22 *)
Lemma parse_refused e h now cid q ev h' : ~ may_use e cid (tr_grant_type q) ->
  step e h (OParse now cid q) = (ev, h') ->
  h' = h /\ (ev = EvParse (Ok (Err "invalid_request"))
             \/ (dget (e_clients e) cid = None /\ ev = EvParse (Raise KeyError))).
Proof.
  intros N E. cbn [step] in E. unfold token_parse_all in E. unfold bind at 1 in E. unfold token_parse in E.
  destruct (dget (e_clients e) cid) as [cl|] eqn:Ec.
  2: { cbn in E. injection E as <- <-. split; [now destruct h|]. right. auto. }
  destruct (match c_grant_types cl with Some l => negb (smem (tr_grant_type q) l) | None => false end) eqn:A.
  { cbn in E. injection E as <- <-. split; [now destruct h|]. left. auto. }
  destruct (negb (smem (tr_grant_type q) (e_helpers e))) eqn:B.
  { cbn in E. injection E as <- <-. split; [now destruct h|]. left. auto. }
  exfalso. apply N. exists cl. split; auto. split.
  - intros l El. rewrite El in A. apply negb_false_iff in A. exact (proj1 (smem_In _ _) A).
  - apply negb_false_iff in B. exact (proj1 (smem_In _ _) B).
Qed.

Lemma refresh_allowed e (W : laws e) ops evs h i q a v c : history e ops evs h -> answer_at evs i q a ->
  tr_grant_type q = "authorization_code" -> rs_refresh a = Some v -> tr_client q = Some c ->
  supports e c "refresh_token".
Proof.
  intros Hi Ni Gt Er Ec. destruct (answer_grant e W _ _ _ _ _ _ Hi Ni) as
      (al & now & k & issue & h1 & s2 & l & m & t & u & c' & gid & E1 & _ & No & H1 & I2 & Hh & Ep & L12 & Ht1 & Ht & _ & Ec'
       & St & Ba & Br & Bi & Cs).
  destruct Cs as [(_ & C & P1 & N & _ & X)|(G' & _)]; [|rewrite Gt in G'; discriminate].
  destruct X as (g0 & ar & _ & _ & _ & _ & X). destruct (X v Er) as (c2 & gts & E2 & Eg & I).
  assert (c2 = c) as -> by congruence. unfold grant_types_of in Eg.
  destruct (dget (e_clients e) c) as [cl|] eqn:D; [|discriminate]. exists cl. split; auto.
  destruct (c_grant_types cl) as [l0|] eqn:Gl; [left; exists l0; split; auto; injection Eg as ->; exact I|].
  right. split; auto. destruct (e_grant_types e) as [l1|]; [|discriminate]. exists l1. split; auto. injection Eg as ->. exact I.
Qed.
