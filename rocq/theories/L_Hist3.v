(** Histories, part 3: minting, storing, revoking, and the authorization
    policy. *)
From Verif Require Import M_Base M_Types M_Codec M_Grant M_Env M_Session M_Claims M_Handler
  M_Authz M_TokenEP M_PKCE M_AuthzEP M_Info M_Logout M_History S_Codec S_Grant S_Store S_History
  L_Base L_Codec L_Monad L_Grant L_Store L_Hist1 L_Hist2.

(** ** Minting *)

(** What holds of a new token [t] minted from the grant [g]. *)
Definition minted_from (e : env) (now : Z) (g : grant) (tc : string) (based : option token)
    (scope : option (list string)) (t : token) : Prop :=
  grant_active now g = true
  /\ t_class t = tc /\ In tc [CODE; ACCESS; REFRESH; IDTOKEN]
  /\ t_based t = option_map t_value based
  /\ (forall b, based = Some b -> supports_minting b tc = true /\ tok_active now b = true)
  /\ t_revoked t = false /\ t_used t = 0%Z /\ t_nbf t = 0%Z /\ t_issued t = now
  /\ (tc = CODE -> r_max (t_rules t) = Some 1%Z)
  /\ (t_type t <> None <-> tc = ACCESS) /\ (tc <> IDTOKEN -> t_sid t = EmptyString)
  /\ match scope with
     | Some sc => t_scope t = sc
     | None => match based with
               | Some b => find_scope (e_limit e) g (Some b) = Ok (t_scope t)
               | None => t_scope t = g_scope g
               end
     end.

Lemma mint_token_facts e g now sid tc based rules scope ttype tid mkval t g' v :
  mint_token (e_limit e) g now sid tc based rules scope ttype tid mkval = Ok (Some (t, g')) ->
  minted_from e now g tc based scope (tok_set_value v t).
Proof.
  unfold mint_token. destruct (grant_active now g) eqn:A; cbn [negb]; [|discriminate].
  intros H. apply rbind_ok in H as (br & B & H).
  destruct (known_class tc) eqn:Kc; cbn [negb] in H; [|discriminate].
  apply rbind_ok in H as (sc & S & H). apply rbind_ok in H as (v0 & _ & H).
  injection H as <- _. unfold minted_from, tok_set_value, new_token. cbn.
  split; auto. split; auto. split. { exact (proj1 (smem_In tc [CODE; ACCESS; REFRESH; IDTOKEN]) Kc). }
  split. { destruct based as [b|]; cbn in *; [|congruence].
           destruct (supports_minting b tc); cbn in B; [|discriminate].
           destruct (tok_active now b); cbn in B; [|discriminate]. congruence. }
  split. { intros b ->. destruct (supports_minting b tc); cbn in B; [|discriminate].
           destruct (tok_active now b); cbn in B; [|discriminate]. auto. }
  repeat (split; [reflexivity|]).
  split. { intros ->. reflexivity. }
  split. { destruct (String.eqb_spec tc ACCESS); split; congruence. }
  split. { intros N. destruct (String.eqb_spec tc IDTOKEN); congruence. }
  destruct scope as [sc'|]; [congruence|]. destruct based; congruence.
Qed.

Lemma mint_token_sid e g now sid tc based rules scope ttype tid mkval t g' :
  mint_token (e_limit e) g now sid tc based rules scope ttype tid mkval = Ok (Some (t, g')) ->
  t_class t = IDTOKEN -> t_sid t = sid.
Proof.
  unfold mint_token. destruct (grant_active now g); cbn [negb]; [|discriminate].
  intros H. apply rbind_ok in H as (br & B & H).
  destruct (known_class tc); cbn [negb] in H; [|discriminate].
  apply rbind_ok in H as (sc & _ & H). apply rbind_ok in H as (v0 & _ & H). injection H as <- _.
  cbn. now intros ->.
Qed.

Lemma mint_run e now l sid tc based rules scope ttype ia s r s' :
  mint e now l sid tc based rules scope ttype ia s = (r, s') ->
  (quiet s s' /\ forall i, r <> Ok (Some i))
  \/ exists g t n, hp s l = Some (OGrant g) /\ r = Ok (Some (List.length (g_tokens g)))
     /\ s_heap s' = upd_nth l (add_tok t) (s_heap s) /\ s_db s' = s_db s
     /\ s_ctr s <= n /\ n < s_ctr s' /\ made e n (t_value t)
     /\ minted_from e now g tc based scope t /\ (t_class t = IDTOKEN -> t_sid t = sid).
Proof.
  unfold mint. intros H.
  apply bind_inv in H as [(g & s1 & G & H)|(x & G & ->)].
  2:{ apply reader_grant_at in G. subst. left. split; [apply quiet_refl|congruence]. }
  apply grant_at_ok in G as [-> Hl].
  apply bind_inv in H as [(n0 & s1 & T & H)|(x & T & ->)]; [|discriminate T].
  pose proof (quiet_tick _ _ _ T) as Q1.
  apply bind_inv in H as [(o & s2 & T2 & H)|(x & T2 & ->)].
  2:{ apply lift_inv in T2 as [_ <-]. left. split; auto. congruence. }
  apply lift_ok in T2 as [Mt <-].
  destruct o as [[t g']|].
  2:{ apply ret_inv in H as [-> <-]. left. split; auto. congruence. }
  destruct (dget (e_handlers e) tc) as [h|].
  2:{ apply raise_inv in H as [-> <-]. left. split; auto. congruence. }
  apply bind_inv in H as [(p & s3 & T3 & H)|(x & T3 & ->)].
  2:{ apply quiet_payload in T3. left. split; [eapply quiet_trans; eauto|congruence]. }
  apply quiet_payload in T3. pose proof (quiet_trans _ _ _ Q1 T3) as Q3.
  apply bind_inv in H as [(v & s4 & T4 & H)|(x & T4 & ->)].
  2:{ apply handler_mint_run in T4 as [T4 _]. left. split; [eapply quiet_trans; eauto|congruence]. }
  apply handler_mint_run in T4 as [T4 Mv]. destruct (Mv v eq_refl) as (n & Md & N1 & N2).
  unfold bind, upd_obj in H. apply ret_inv in H as [-> <-].
  right. exists g, (tok_set_value v t), n. cbn.
  destruct Q3 as (H3 & D3 & C3). destruct T4 as (H4 & D4 & C4).
  split; auto. split; auto. split. { rewrite H4, H3. reflexivity. }
  split. { congruence. } split. { lia. } split; auto. split; auto.
  split; [eapply mint_token_facts; eauto|]. intros Cl. cbn. eapply mint_token_sid; eauto.
Qed.

(** find_scope stays inside the scope of the grant. *)
Lemma find_scope_incl g k b sc :
  (forall t, In t (g_tokens g) -> incl (t_scope t) (g_scope g) \/ t_class t = IDTOKEN) ->
  (forall t v, In t (g_tokens g) -> t_based t = Some v -> forall p, get_token g v = Some p ->
     t_class p <> IDTOKEN) ->
  (match b with Some t => (exists t0, In t0 (g_tokens g) /\ token_later t t0) /\ t_class t <> IDTOKEN
              | None => True end) ->
  find_scope k g b = Ok sc -> incl sc (g_scope g).
Proof.
  intros Hs Hp. revert b. induction k as [|k IH]; intros b Hb F; [discriminate|]. cbn in F.
  destruct b as [t|].
  - destruct Hb as ((t0 & In0 & Lt) & Cl).
    destruct Lt as (L1 & L2 & L3 & _ & _ & _ & _ & _ & L9 & _).
    destruct (list_true (t_scope t)).
    + injection F as <-. destruct (Hs _ In0) as [X|X]; [now rewrite L9 in X|congruence].
    + destruct (t_based t) as [v|] eqn:B.
      * destruct (str_true v); [|injection F as <-; apply incl_refl].
        apply IH in F; auto. destruct (get_token g v) as [p|] eqn:G; auto.
        split.
        -- exists p. split; [eapply get_token_In; eauto|apply token_later_refl].
        -- eapply Hp; [exact In0| |exact G]. congruence.
      * injection F as <-. apply incl_refl.
  - injection F as <-. apply incl_refl.
Qed.

(** The parents of tokens are codes and refresh tokens. *)
Lemma parent_class e g : ginv e g -> NoDup (map t_value (g_tokens g)) ->
  forall t v, In t (g_tokens g) -> t_based t = Some v -> forall p, get_token g v = Some p ->
  t_class p = CODE \/ t_class p = REFRESH.
Proof.
  intros G Nd t v It B p Gp. apply In_nth_error in It as [i Hi].
  destruct (gi_parent _ _ G i t v Hi B) as (j & q & _ & Hj & V & C).
  apply get_token_In in Gp as [Ip Vp]. apply In_nth_error in Ip as [k Hk].
  assert (k = j) as ->; [|congruence].
  eapply (NoDup_nth_error (map t_value (g_tokens g))); eauto.
  - rewrite map_length. apply nth_error_Some. congruence.
  - rewrite (map_nth_error t_value _ _ Hk), (map_nth_error t_value _ _ Hj). congruence.
Qed.
Lemma inv_nodup e s l g : Inv e s -> hp s l = Some (OGrant g) -> NoDup (map t_value (g_tokens g)).
Proof.
  intros I H. apply NoDup_nth_error. intros i j Hi E.
  rewrite !nth_error_map in E. rewrite map_length in Hi. apply nth_error_Some in Hi.
  destruct (nth_error (g_tokens g) i) as [t|] eqn:Ei; [|congruence].
  destruct (nth_error (g_tokens g) j) as [t'|] eqn:Ej; [|discriminate].
  cbn in E. injection E as E. eapply (inv_vals _ _ I l l); eauto.
Qed.

Lemma not_idt_cases c : c = CODE \/ c = REFRESH -> c <> IDTOKEN.
Proof. intros [-> | ->]; discriminate. Qed.

(** The token made by minting is as the invariant demands. *)
Lemma minted_ok e now s l g tc based scope t :
  Inv e s -> hp s l = Some (OGrant g) -> final e l s ->
  (forall b, based = Some b -> (exists i, has l i b s) /\ (t_class b = CODE \/ t_class b = REFRESH)) ->
  (forall sc, scope = Some sc -> tc <> IDTOKEN -> incl sc (authz_scope e g)) ->
  (tc = CODE -> based = None /\ scope = None) ->
  minted_from e now g tc based scope t ->
  tok_ok g t
  /\ (forall v, t_based t = Some v -> exists p, In p (g_tokens g) /\ t_value p = v
        /\ (t_class p = CODE \/ t_class p = REFRESH))
  /\ g_scope g = authz_scope e g.
Proof.
  intros I H Fi Hb Hs Hc (A & C & K & B & Bb & R & U & N & Is & Mx & Ty & Sd & Sc).
  assert (forall b, based = Some b -> exists p, In p (g_tokens g) /\ token_later b p) as Hp.
  { intros b Eb. destruct (Hb b Eb) as ((i & g' & t' & H' & Hn & L) & _).
    rewrite H in H'. injection H' as <-. exists t'. split; auto. eapply nth_error_In; eauto. }
  assert (g_scope g = authz_scope e g) as F.
  { destruct Fi as (g' & H' & F). rewrite H in H'. injection H' as <-.
    destruct (gi_scope _ _ (inv_grants _ _ I _ _ H)) as [E|E]; auto.
    destruct (authz_scope e g) as [|x y] eqn:Ea; auto. apply F. congruence. }
  split; [|split]; auto.
  - constructor; try lia; auto.
    + rewrite C. exact Mx.
    + rewrite C. intros Nid. destruct scope as [sc|].
      * rewrite Sc, F. auto.
      * destruct based as [b|]; [|rewrite Sc; apply incl_refl].
        eapply find_scope_incl; [| | |exact Sc].
        -- intros t0 I0. destruct (string_dec (t_class t0) IDTOKEN); auto. left.
           apply (gi_tok _ _ (inv_grants _ _ I _ _ H) t0 I0). auto.
        -- intros t0 v I0 B0 p Gp. apply not_idt_cases.
           eapply (parent_class e g); eauto. eapply inv_grants; eauto. eapply inv_nodup; eauto.
        -- split; [apply Hp; auto|]. apply not_idt_cases. apply (Hb b eq_refl).
    + rewrite C. exact K.
    + rewrite C. intros Ec. destruct (Hc Ec) as [-> ->]. exact Sc.
    + rewrite C. exact Ty.
    + rewrite C. exact Sd.
  - intros v Ev. rewrite B in Ev. destruct based as [b|]; [|discriminate]. injection Ev as <-.
    destruct (Hp b eq_refl) as (p & Ip & L). exists p. split; auto. destruct L as (L1 & L2 & _).
    split; auto. rewrite L1. apply (Hb b eq_refl).
Qed.

(** A grant list with one more token, the last of which is changed. *)
Lemma upd_nth_twice {A} l (f f' : A -> A) h : upd_nth l f' (upd_nth l f h) = upd_nth l (fun x => f' (f x)) h.
Proof. revert l; induction h as [|x h IH]; intros [|l]; cbn; auto. now rewrite IH. Qed.
Lemma upd_nth_ext {A} l (f f' : A -> A) h : (forall x, nth_error h l = Some x -> f x = f' x) ->
  upd_nth l f h = upd_nth l f' h.
Proof.
  revert l; induction h as [|x h IH]; intros [|l] H; cbn; auto.
  - now rewrite H.
  - rewrite (IH l); auto.
Qed.
Lemma upd_last {A} (l : list A) x f : upd_nth (List.length l) f (l ++ [x]) = l ++ [f x].
Proof. induction l as [|y l IH]; cbn; auto. now rewrite IH. Qed.

Lemma dec_sid_plain e sid p : laws e -> dec_sid e sid = Ok p -> unpack_session_key sid = [sid].
Proof.
  intros W H. unfold dec_sid, decrypt_session_id in H. destruct (b64d _ sid) eqn:B; [|discriminate].
  apply (law_sid _ W) in B. apply split_nodiv. now apply nodiv_spec.
Qed.

(** Writing one key that is not the key of a grant. *)
Lemma dec_key_neq a q : ~ occurs_in ";;" a -> separable q -> 2 <= List.length q -> session_key q <> a.
Proof.
  intros N S L E. assert ([a] = q).
  { assert (q <> []) by (destruct q; cbn in L; [lia|congruence]).
    apply session_key_inj; auto; try discriminate.
    split. { intros x [<-|[]]; auto. } intros pre x y post X. exfalso.
    apply (f_equal (@List.length _)) in X. rewrite app_length in X. cbn in X. lia. }
  subst q. cbn in L. lia.
Qed.
Lemma two_three_neq u c q : separable [u; c] -> separable q -> List.length q = 3 ->
  session_key q <> session_key [u; c].
Proof.
  intros S S' L E. assert (q = [u; c]).
  { apply session_key_inj; auto; try discriminate. destruct q; cbn in L; [lia|congruence]. }
  subst q. cbn in L. lia.
Qed.
Lemma sep_2 u c g : separable [u; c; g] -> separable [u; c].
Proof. exact (separable_prefix [u; c] [g]). Qed.
Lemma sep_first u r : separable (u :: r) -> ~ occurs_in ";;" u.
Proof. intros [A _]. apply A. now left. Qed.
Lemma sep_good u c g : good_id u -> good_id c -> ~ occurs_in ";;" g -> separable [u; c; g].
Proof.
  intros (_ & U1 & U2) (_ & C1 & C2) G. split.
  - intros x [<-|[<-|[<-|[]]]]; auto.
  - intros pre x y post E. destruct pre as [|a [|b [|d pre]]]; cbn in E.
    + injection E as <- _ _. auto.
    + injection E as _ <- _ _. auto.
    + discriminate.
    + injection E as _ _ _ E. destruct pre; discriminate.
Qed.

Section Specs.
  Variables (e : env) (now : Z).
  Hypothesis W : laws e.

  Lemma db_put_spec k l (P : st -> Prop) (Q : unit -> st -> Prop) :
    (forall s, Inv e s -> P s -> forall u c g, separable [u; c; g] -> session_key [u; c; g] = k ->
       owns e s l u c g) ->
    (forall s, Inv e s -> P s -> stored s k l) ->
    (forall s s', P s -> s_heap s' = s_heap s -> s_db s' = dset (s_db s) k l -> Q tt s') ->
    spec e now P (db_put k l) Q.
  Proof.
    intros H Hs K s r s' I p E. unfold db_put in E. injection E as <- <-. split.
    - apply inv_db; auto; [apply dset_keys_nodup, I| |].
      + intros u c g l' S D. destruct (string_dec (session_key [u; c; g]) k) as [Ek|Nk].
        * rewrite Ek in *. rewrite dget_dset_same in D. injection D as <-. right. eapply H; eauto.
        * rewrite dget_dset_other in D by auto. auto.
      + intros k' l' D. destruct (string_dec k' k) as [->|Nk].
        * rewrite dget_dset_same in D. injection D as <-. right. auto.
        * rewrite dget_dset_other in D by auto. auto.
    - split; [apply later_db; auto|]. intros [] _. eapply K; eauto.
  Qed.

  Lemma new_obj_spec o (P : st -> Prop) (Q : nat -> st -> Prop) :
    (match o with OGrant _ => False | OInfo i => si_sub i = [] | ONone => True end) ->
    (forall s, P s -> Q (List.length (s_heap s))
                        (mk_st (s_heap s ++ [o]) (s_db s) (s_ctr s) (s_always s))) ->
    spec e now P (new_obj o) Q.
  Proof.
    intros N K s r s' I p E. unfold new_obj in E. injection E as <- <-. split.
    - apply inv_app; auto.
    - split; [apply later_app; auto|]. intros a X. injection X as <-. auto.
  Qed.

  Lemma upd_obj_spec l f (P : st -> Prop) (Q : unit -> st -> Prop) :
    (forall s o, Inv e s -> P s -> hp s l = Some o -> obj_change e o (f o) /\ obj_later now o (f o)) ->
    (forall s, P s -> Q tt (mk_st (upd_nth l f (s_heap s)) (s_db s) (s_ctr s) (s_always s))) ->
    spec e now P (upd_obj l f) Q.
  Proof.
    intros H K s r s' I p E. unfold upd_obj in E. injection E as <- <-. split.
    - apply inv_upd; auto. intros o Ho. eapply H; eauto.
    - split; [|intros [] _; auto]. apply later_upd; auto. intros o Ho. eapply H; eauto.
  Qed.

  (** Storing again, or for the first time. *)
  Lemma db_get_or_spec k i P : si_sub i = [] -> spec e now P (db_get_or k i) (fun _ _ => True).
  Proof.
    intros Z. unfold db_get_or. apply keeps_spec. apply keeps_bind; [apply keeps_reader, reader_lookup|].
    intros [l|]; [apply keeps_reader, reader_ret|]. apply new_obj_spec; cbn; auto.
  Qed.
  Lemma info_upd_spec l f P : (forall i, info_later i (f i)) ->
    (forall i x, In x (si_sub (f i)) -> In x (si_sub i) \/ clean x) ->
    spec e now P (upd_obj l (on_info f)) (fun _ _ => True).
  Proof.
    intros H C. apply upd_obj_spec; auto. intros s o _ _ _. destruct o; cbn; [auto| |auto].
    intuition (auto using grant_later_refl).
  Qed.
  Lemma si_add_later x i : info_later i (si_add x i).
  Proof. unfold si_add, info_later. destruct (smem x (si_sub i)); cbn; auto. Qed.
  Lemma si_add_clean y i x : clean y -> In x (si_sub (si_add y i)) -> In x (si_sub i) \/ clean x.
  Proof.
    intros C. unfold si_add. destruct (smem y (si_sub i)); cbn; auto.
    intros H. apply in_app_or in H as [H|[<-|[]]]; auto.
  Qed.
  Lemma clean_true x : str_true x = true -> ~ occurs_in ";;" x -> clean x.
  Proof. intros T N. split; auto. intros ->. discriminate T. Qed.

  (** [l] is a session info. *)
  Definition is_info (l : nat) (s : st) : Prop := exists i, hp s l = Some (OInfo i).
  Lemma st_is_info l : Stable now (is_info l).
  Proof.
    intros s s' [_ L] (i & H). destruct (L _ _ H) as (o & Ho & K). destruct o; cbn in K; try tauto.
    eexists; eauto.
  Qed.
  Lemma info_stored k l s : is_info l s -> stored s k l.
  Proof. intros (i & H). unfold stored. now rewrite H. Qed.
  (** [l] is a session info or a grant. *)
  Definition is_obj (l : nat) (s : st) : Prop :=
    match hp s l with Some (OInfo _) | Some (OGrant _) => True | _ => False end.
  Lemma st_is_obj l : Stable now (is_obj l).
  Proof.
    intros s s' [_ L]. unfold is_obj. destruct (hp s l) as [o|] eqn:H; [|tauto].
    destruct (L _ _ H) as (o' & -> & K). destruct o, o'; cbn in K; tauto.
  Qed.
  Lemma info_obj l s : is_info l s -> is_obj l s.
  Proof. intros (i & H). unfold is_obj. now rewrite H. Qed.
  Lemma stored_obj k l s : stored s k l -> is_obj l s.
  Proof. unfold stored, is_obj. destruct (hp s l) as [[| |]|]; tauto. Qed.
  Lemma obj_stored k l s : ~ occurs_in ";;" k -> is_obj l s -> stored s k l.
  Proof. intros N. unfold stored, is_obj. destruct (hp s l) as [[| |]|]; tauto. Qed.
  Lemma owns_obj s l u c g : owns e s l u c g -> is_obj l s.
  Proof. intros (gr & H & _). unfold is_obj. now rewrite H. Qed.
  Lemma subordinate_info l s sub s' : subordinate l s = (Ok sub, s') -> is_info l s.
  Proof.
    unfold subordinate. intros H. apply bind_ok in H as (o & s1 & D & H). unfold deref in D.
    destruct (nth_error (s_heap s) l) as [o'|] eqn:E; [|discriminate]. injection D as -> <-.
    destruct o as [i| |]; try discriminate H. exists i. exact E.
  Qed.
  Lemma owns_stored s l u c g : separable [u; c; g] -> owns e s l u c g -> stored s (session_key [u; c; g]) l.
  Proof. intros S (gr & H & Eg & _). unfold stored. rewrite H. left. exists u, c. now rewrite Eg. Qed.

  Lemma db_set_spec p l :
    separable p ->
    spec e now
      (fun s => (forall u c g r, p = u :: c :: g :: r -> owns e s l u c g)
                /\ (List.length p = 2 -> is_info l s) /\ (List.length p = 1 -> is_obj l s))
      (db_set p l) (fun _ _ => True).
  Proof.
    intros S. unfold db_set. set (P := fun s : st => _ /\ _).
    assert (Stable now P) as StP.
    { intros s s' L (H & K & J). split; [|split; intros N; [eapply st_is_info|eapply st_is_obj]; eauto].
      intros u c g r E. eapply owns_later; eauto. }
    eapply spec_bind; [exact StP|apply spec_lift; intros s a _ E; exact E|]. intros [[u c] g].
    eapply spec_pure with (phi := eval_path p = Ok (u, c, g)); [intros s _ [_ E]; exact E|]. intros Ev.
    eapply spec_pre with (P' := P); [tauto|].
    assert (~ occurs_in ";;" u) as Nu.
    { destruct p as [|a [|b [|d p]]]; cbn in Ev; try discriminate; injection Ev; intros; subst;
        eapply sep_first; eauto. }
    assert (forall c0, c = Some c0 -> separable [u; c0]) as Sc.
    { intros c0 ->. destruct p as [|a [|b [|d p]]]; cbn in Ev; try discriminate; injection Ev; intros; subst; auto.
      apply (separable_prefix [u; c0] (d :: p)). exact S. }
    assert (forall c0 g0, c = Some c0 -> g = Some g0 -> separable [u; c0; g0] /\ exists r, p = u :: c0 :: g0 :: r) as Sg.
    { intros c0 g0 -> ->. destruct p as [|a [|b [|d p]]]; cbn in Ev; try discriminate; injection Ev; intros; subst.
      split; [|eauto]. apply (separable_prefix [u; c0; g0] p). exact S. }
    assert (g = None \/ exists c0, c = Some c0) as Gc.
    { destruct p as [|a [|b [|d p]]]; cbn in Ev; try discriminate; injection Ev; intros; subst; eauto. }
    assert (ostr_true g = false -> c <> None -> forall s, Inv e s -> P s -> is_info l s) as Short.
    { intros G Nc s I (Ow & In & _). destruct g as [g0|].
      - exfalso. destruct Gc as [Gc|(c0 & ->)]; [discriminate|].
        destruct (Sg c0 g0 eq_refl eq_refl) as (_ & rr & Ep). destruct (Ow _ _ _ _ Ep) as (gr & Hg & Eg & _).
        destruct (inv_ids _ _ I _ _ Hg) as (n & Eu & _). destruct (law_uuid_id _ W n) as [(Ne & _) _].
        destruct g0; [congruence|discriminate G].
      - apply In. destruct p as [|a [|b [|d p]]]; cbn in Ev; try discriminate; cbn; [|lia].
        injection Ev; intros; subst. congruence. }
    eapply spec_bind; [exact StP| |].
    { instantiate (1 := fun _ _ => True). destruct (ostr_true g) eqn:G; [|apply spec_ret; auto].
      destruct g as [g0|]; [|discriminate]. destruct Gc as [Gc|(c0 & ->)]; [discriminate|].
      destruct (Sg c0 g0 eq_refl eq_refl) as (Sep & rr & Ep). cbn [ostr].
      apply db_put_spec; auto.
      - intros s I (Ps & _) u1 c1 g1 S1 Ek.
        assert ([u1; c1; g1] = [u; c0; g0]) as X by (apply session_key_inj; auto; discriminate).
        injection X as -> -> ->. eapply Ps; eauto.
      - intros s I [Ps _]. eapply owns_stored; eauto. }
    intros ?. eapply spec_pre with (P' := P); [tauto|].
    eapply spec_bind with (Q := fun _ _ => True); [exact StP| |].
    { destruct (ostr_true c) eqn:C; [|apply spec_ret; auto].
      destruct c as [c0|]; [|discriminate]. cbn [ostr].
      eapply spec_bind; [exact StP|apply db_get_or_spec; reflexivity|]. intros ci.
      eapply spec_pre with (P' := P); [tauto|].
      assert (forall v (R : st -> Prop), (forall s, Inv e s -> R s -> is_info v s) ->
                spec e now R (db_put (session_key [u; c0]) v) (fun _ _ => True)) as Put.
      { intros v R Hi. apply db_put_spec; auto.
        - intros s I _ u1 c1 g1 S1 Ek. exfalso. revert Ek. apply two_three_neq; auto.
        - intros s I r. apply info_stored. auto. }
      destruct (ostr_true g) eqn:G; cbn [negb]; [|apply Put; apply Short; auto; discriminate].
      eapply spec_rbind with (Q := fun _ s => is_info ci s); [apply reader_subordinate| |].
      { intros s sb _ _ H. eapply subordinate_info; eauto. }
      intros sub. eapply spec_pre with (P' := is_info ci); [tauto|].
      destruct (smem (ostr g) sub); [apply spec_ret; auto|].
      eapply spec_bind; [apply st_is_info|apply info_upd_spec; [intros; apply si_add_later|]|].
      - intros i x. apply si_add_clean. destruct g as [g0|]; [|discriminate]. cbn [ostr].
        destruct (Sg c0 g0 eq_refl eq_refl) as ((Sep & _) & _). apply clean_true; auto. apply Sep. cbn; auto.
      - intros ?. apply Put. tauto. }
    intros ?. eapply spec_pre with (P' := P); [tauto|].
    eapply spec_bind; [exact StP|apply db_get_or_spec; reflexivity|]. intros ui.
    eapply spec_pre with (P' := P); [tauto|].
    assert (forall v (R : st -> Prop), (forall s, Inv e s -> R s -> is_obj v s) ->
              spec e now R (db_put u v) (fun _ _ => True)) as Put.
    { intros v R Hi. apply db_put_spec; auto.
      - intros s I _ u1 c1 g1 S1 Ek. exfalso. revert Ek. apply dec_key_neq; auto; cbn; lia.
      - intros s I r. apply obj_stored; auto. }
    destruct c as [c0|].
    2:{ apply Put. intros s _ (_ & _ & J). apply J.
        destruct p as [|a1 [|b1 [|d p]]]; cbn in Ev; try discriminate; reflexivity. }
    destruct (str_true c0) eqn:Tc; [|apply spec_ret; auto].
    eapply spec_rbind with (Q := fun _ s => is_info ui s); [apply reader_subordinate| |].
    { intros s sb _ _ H. eapply subordinate_info; eauto. }
    intros sub. eapply spec_pre with (P' := is_info ui); [tauto|].
    destruct (smem c0 sub); [apply spec_ret; auto|].
    eapply spec_bind; [apply st_is_info|apply info_upd_spec; [intros; apply si_add_later|]|].
    - intros i x. apply si_add_clean. destruct (Sc c0 eq_refl) as (Sep & _). apply clean_true; auto.
      apply Sep. cbn; auto.
    - intros ?. apply Put. intros s _ [Hi _]. apply info_obj. exact Hi.
  Qed.

  Lemma db_set_owns p u c g l : separable p -> p = [u; c; g] ->
    spec e now (fun s => owns e s l u c g) (db_set p l) (fun _ _ => True).
  Proof.
    intros S ->. eapply spec_pre; [|apply db_set_spec; exact S]. intros s _ O. split.
    - intros u' c' g' r X. injection X as <- <- <- _. exact O.
    - cbn. split; discriminate.
  Qed.

  Lemma db_set_plain x l : ~ occurs_in ";;" x -> spec e now (is_obj l) (db_set [x] l) (fun _ _ => True).
  Proof.
    intros N. eapply spec_pre; [|apply db_set_spec].
    - intros s _ Hi. split; [|split; [discriminate|auto]]. intros u c g r X. discriminate.
    - split. { intros y [<-|[]]; auto. } intros pre a b post X. exfalso.
      apply (f_equal (@List.length _)) in X. rewrite app_length in X. cbn in X. lia.
  Qed.

  (** *** The composite: mint, set the expiry, store *)
  Definition new_tok (l : nat) (tc : string) (based : option token) (scope : option (list string))
      (s : st) (i : nat) (t : token) : Prop :=
    exists g, hp s l = Some (OGrant g) /\ i = List.length (g_tokens g)
      /\ minted_from e now g tc based scope t /\ (exists n, made e n (t_value t) /\ s_ctr s <= n).

  Definition within (l : nat) (sc : list string) (s : st) : Prop :=
    exists g, hp s l = Some (OGrant g) /\ incl sc (authz_scope e g).

  (** The session id [sid] is that of the grant at [l]. *)
  Definition fits (sid : string) (l : nat) (s : st) : Prop :=
    exists u c g, dec_sid3 e sid = Ok (u, c, g) /\ owns e s l u c g.
  Lemma fits_dec sid l s : fits sid l s -> exists p, dec_sid e sid = Ok p.
  Proof. intros (u & c & g & D & _). eexists. eapply dec_sid3_ok; eauto. Qed.

  Definition mint_pre (l : nat) (sid tc : string) (based : option token) (scope : option (list string))
      (s : st) : Prop :=
    final e l s /\ fits sid l s
    /\ (forall b, based = Some b -> (exists i, has l i b s) /\ (t_class b = CODE \/ t_class b = REFRESH))
    /\ (forall sc, scope = Some sc -> tc <> IDTOKEN -> within l sc s)
    /\ (tc = CODE -> based = None /\ scope = None).

  (** Minting followed by a change [f] of the new token, if any. *)
  Lemma mint_then l sid tc based rules scope ttype ia f s r s' :
    Inv e s -> mint_pre l sid tc based scope s ->
    (forall t g, minted_from e now g tc based scope t -> minted_from e now g tc based scope (f t)) ->
    (forall t, t_value (f t) = t_value t /\ t_sid (f t) = t_sid t /\ t_class (f t) = t_class t) ->
    (forall g, g_set_tokens (g_tokens g) g = g) ->
    mint e now l sid tc based rules scope ttype ia s = (r, s') ->
    match r with
    | Ok (Some i) =>
        exists t, new_tok l tc based scope s i (f t)
        /\ Inv e (mk_st (upd_nth l (on_grant (fun g => g_set_tokens (upd_nth i f (g_tokens g)) g)) (s_heap s'))
                    (s_db s') (s_ctr s') (s_always s'))
        /\ st_later now s
             (mk_st (upd_nth l (on_grant (fun g => g_set_tokens (upd_nth i f (g_tokens g)) g)) (s_heap s'))
                    (s_db s') (s_ctr s') (s_always s'))
        /\ has l i (f t)
             (mk_st (upd_nth l (on_grant (fun g => g_set_tokens (upd_nth i f (g_tokens g)) g)) (s_heap s'))
                    (s_db s') (s_ctr s') (s_always s'))
    | _ => Inv e s' /\ st_later now s s'
    end.
  Proof.
    intros I (Fi & Fs & Hb & Hsc & Hcd) Hf Vf _ E. apply mint_run in E as [(Q & N)|(g & t & n & H & -> & Hh & D & N1 & N2 & Md & Mf & Si)].

    - assert (Inv e s' /\ st_later now s s') as X
        by (split; [eapply quiet_inv; eauto|apply quiet_later; auto]).
      destruct r as [[i|]|x]; auto. destruct (N i eq_refl).
    - exists t. specialize (Hf _ _ Mf).
      assert (forall sc, scope = Some sc -> tc <> IDTOKEN -> incl sc (authz_scope e g)) as Hs.
      { intros sc Es Nid. destruct (Hsc sc Es Nid) as (g0 & H1 & Sub).
        rewrite H in H1. injection H1 as <-. exact Sub. }
      destruct (minted_ok e now s l g tc based scope (f t) I H Fi Hb Hs Hcd Hf) as (Tk & Pa & F).
      assert (upd_nth l (on_grant (fun g => g_set_tokens (upd_nth (List.length (g_tokens g) - 1) f (g_tokens g)) g))
                (s_heap s') = upd_nth l (add_tok (f t)) (s_heap s)) as _ by
        (rewrite Hh, upd_nth_twice; apply upd_nth_ext; intros o Ho;
         unfold hp in H; rewrite H in Ho; injection Ho as <-; cbn;
         rewrite app_length; cbn [List.length]; rewrite Nat.add_sub, upd_last; reflexivity).
      assert (upd_nth l (on_grant (fun g0 => g_set_tokens (upd_nth (List.length (g_tokens g)) f (g_tokens g0)) g0))
                (s_heap s') = upd_nth l (add_tok (f t)) (s_heap s)) as Eh.
      { rewrite Hh, upd_nth_twice. apply upd_nth_ext. intros o Ho.
        unfold hp in H. rewrite H in Ho. injection Ho as <-. cbn.
        rewrite upd_last. reflexivity. }
      rewrite Eh. rewrite D.
      split. { exists g. split; auto. split; auto. split; auto. exists n. rewrite (proj1 (Vf t)). auto. }
      split.
      { eapply inv_add_tok; eauto; [now rewrite (proj1 (Vf t))|].
        destruct (Vf t) as (_ & Vs & Vc). rewrite Vs, Vc. intros Cl. rewrite (Si Cl).
        destruct Fs as (u & c & gid & D3 & gr & Hr & Ei & Be). rewrite H in Hr. injection Hr as <-.
        exists u, c. rewrite Ei. auto. }
      split. { eapply later_add_tok; eauto. lia. apply Mf. }
      exists (g_add_token (f t) g), (f t). split; [rewrite hp_upd_same, H; reflexivity|].
      split; [|apply token_later_refl]. cbn. rewrite nth_error_app2, Nat.sub_diag by lia. reflexivity.
  Qed.

  Lemma upd_nth_id {A} i (l : list A) : upd_nth i (fun x => x) l = l.
  Proof. revert i; induction l as [|x l IH]; intros [|i]; cbn; auto. now rewrite IH. Qed.
  Lemma g_set_tokens_id g : g_set_tokens (g_tokens g) g = g.
  Proof. now destruct g. Qed.

  (** Minting, then the expiry (or not), then storing under the session id. *)
  Definition mint_store (l : nat) (sid tc : string) (based : option token) (rules : option rule)
      (scope : option (list string)) (ttype : string) (ia : idt_args) (x : option Z) : M st (option nat) :=
    r <- mint e now l sid tc based rules scope ttype ia ;;
    (match x with
     | Some x => i <- need r ;; upd_tok l i (tok_set_exp (now + x))
     | None => ret tt
     end) ;;
    db_set (unpack_session_key sid) l ;;
    ret r.

  Lemma mint_store_run l sid tc based rules scope ttype ia x s r s' : 
    Inv e s -> mint_pre l sid tc based scope s ->
    mint_store l sid tc based rules scope ttype ia x s = (r, s') ->
    Inv e s' /\ st_later now s s'
    /\ (forall i, r = Ok (Some i) -> exists t, new_tok l tc based scope s i t /\ has l i t s').
  Proof.
    intros I Pre E. unfold mint_store in E.
    assert (exists p, dec_sid e sid = Ok p) as (p & Dp) by (eapply fits_dec; apply Pre).
    assert (is_obj l s) as Bs.
    { destruct Pre as (_ & (u & c & g & _ & O) & _). eapply owns_obj; eauto. }
    apply bind_inv in E as [(o & s1 & M1 & E)|(y & M1 & ->)].
    2:{ eapply (mint_then _ _ _ _ _ _ _ _ (fun t => t)) in M1; eauto using g_set_tokens_id.
        destruct M1. split; auto. split; auto. discriminate. }
    set (f := match x with Some x => tok_set_exp (now + x) | None => fun t => t end).
    eapply (mint_then _ _ _ _ _ _ _ _ f) in M1; eauto using g_set_tokens_id.
    2:{ intros t g Mf. unfold f. destruct x; auto. }
    2:{ intros t. unfold f. destruct x; repeat split. }
    assert (spec e now (is_obj l) (db_set (unpack_session_key sid) l ;; ret o) (fun a _ => a = o)) as Fin.
    { rewrite (dec_sid_plain _ _ _ W Dp). eapply spec_seq; [apply db_set_plain|].
      - unfold dec_sid, decrypt_session_id in Dp. destruct (b64d _ sid) eqn:B; [|discriminate].
        apply (law_sid _ W) in B. exact B.
      - intros ?. apply spec_ret; auto. }
    destruct o as [i|].
    - destruct M1 as (t & Nt & I1 & L1 & H1).
      assert (exists s2, bind match x with
                 | Some x => i0 <- need (Some i) ;; upd_tok l i0 (tok_set_exp (now + x))
                 | None => ret tt end
                 (fun _ => db_set (unpack_session_key sid) l ;; ret (Some i)) s1
               = (db_set (unpack_session_key sid) l ;; ret (Some i)) s2
               /\ Inv e s2 /\ st_later now s s2 /\ has l i (f t) s2) as (s2 & E2 & I2 & L2 & H2).
      { destruct x as [x|].
        - eexists. split; [reflexivity|]. auto.
        - exists s1. split; [reflexivity|]. unfold f in *.
          assert (upd_nth l (on_grant (fun g => g_set_tokens (upd_nth i (fun t => t) (g_tokens g)) g)) (s_heap s1)
                  = s_heap s1) as X.
          { rewrite <- (upd_nth_id l (s_heap s1)) at 2. apply upd_nth_ext. intros o _. destruct o; auto.
            cbn. now rewrite upd_nth_id, g_set_tokens_id. }
          rewrite X in *. destruct s1; cbn in *. auto. }
      assert (is_obj l s2) as B2 by (eapply st_is_obj; eauto).
      rewrite E2 in E. destruct (Fin _ _ _ I2 B2 E) as (I3 & L3 & Q3).
      split; auto. split; [eapply st_later_trans; eauto|].
      intros j Ej. specialize (Q3 _ Ej). injection Q3 as ->. exists (f t). split; auto.
      eapply (st_has now); eauto.
    - destruct M1 as (I1 & L1). destruct x as [x|].
      + cbn in E. injection E as <- <-. split; auto. split; auto. discriminate.
      + assert (is_obj l s1) as B1 by (eapply st_is_obj; eauto). destruct (Fin _ _ _ I1 B1 E) as (I3 & L3 & Q3).
        split; auto. split; [eapply st_later_trans; eauto|].
        intros j Ej. specialize (Q3 _ Ej). discriminate.
  Qed.
End Specs.
