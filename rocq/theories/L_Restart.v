(** A restart changes nothing that can be asked for. *)
From Verif Require Import M_Base M_Types M_Codec M_Grant M_Env M_Session M_Claims M_Handler
  M_Authz M_TokenEP M_PKCE M_AuthzEP M_Info M_Logout M_Dump M_History S_Codec S_Store S_History S_Restart
  L_Base L_Codec L_Monad L_Store L_Hist1 L_Hist2 L_Hist8 L_PKCE L_Dump.

(** The same records under the same keys. *)
Definition sim (s s' : st) : Prop :=
  forall k, match dget (s_db s) k, dget (s_db s') k with
            | None, None => True
            | Some l, Some l' => exists o, hp s l = Some o /\ hp s' l' = Some o
            | _, _ => False
            end.
Definition sameobj (s s' : st) (l l' : nat) : Prop := exists o, hp s l = Some o /\ hp s' l' = Some o.

Lemma reloaded_sim s s' : (forall k l, dget (s_db s) k = Some l -> stored s k l) -> reloaded s s' -> sim s s'.
Proof.
  intros T R k. destruct (dget (s_db s) k) as [l|] eqn:E.
  - pose proof (T _ _ E) as S. unfold stored in S. destruct (hp s l) as [o|] eqn:Ho; [|contradiction].
    destruct (rl_get _ _ R _ _ _ E Ho) as (l' & E' & H' & _). rewrite E'. exists o. auto.
  - apply dget_None_keys in E. rewrite <- (rl_keys _ _ R) in E. apply dget_None_keys in E. now rewrite E.
Qed.
Lemma sim_quiet s s' s1 s1' : sim s s' -> quiet s s1 -> quiet s' s1' -> sim s1 s1'.
Proof.
  intros S (H & D & _) (H' & D' & _) k. specialize (S k). unfold hp in *. now rewrite H, D, H', D'.
Qed.
Lemma sim_look s s' k l : sim s s' -> dget (s_db s) k = Some l ->
  exists l' o, dget (s_db s') k = Some l' /\ hp s l = Some o /\ hp s' l' = Some o.
Proof. intros S E. specialize (S k). rewrite E in S. destruct (dget (s_db s') k) as [l'|]; [|contradiction]. destruct S as (o & A & B). eauto. Qed.
Lemma sim_none s s' k : sim s s' -> dget (s_db s) k = None -> dget (s_db s') k = None.
Proof. intros S E. specialize (S k). rewrite E in S. now destruct (dget (s_db s') k). Qed.

Lemma run_deref s l o : hp s l = Some o -> deref l s = (Ok o, s).
Proof. unfold deref, hp. now intros ->. Qed.
Lemma run_sub s l o : hp s l = Some o ->
  subordinate l s = (match o with OInfo i => Ok (si_sub i) | _ => Raise AttributeError end, s).
Proof. intros H. unfold subordinate, bind. rewrite (run_deref _ _ _ H). now destruct o. Qed.

(** Two computations that go the same way in states with the same records. *)
Definition agr {A} (P : st -> st -> Prop) (R : st -> st -> A -> A -> Prop) (m m' : M st A) : Prop :=
  forall s s', sim s s' -> P s s' ->
    exists r r' s1 s1', m s = (r, s1) /\ m' s' = (r', s1') /\ sim s1 s1'
      /\ match r, r' with
         | Ok a, Ok a' => R s1 s1' a a'
         | Raise x, Raise y => x = y
         | _, _ => False
         end.
Definition always : st -> st -> Prop := fun _ _ => True.
Definition same {A} : st -> st -> A -> A -> Prop := fun _ _ a a' => a = a'.

Lemma agr_ret {A} (P : st -> st -> Prop) (R : st -> st -> A -> A -> Prop) a a' : (forall s s', P s s' -> R s s' a a') -> agr P R (ret a) (ret a').
Proof. intros H s s' S p. exists (Ok a), (Ok a'), s, s'. repeat split; auto. Qed.
Lemma agr_raise {A} (P : st -> st -> Prop) (R : st -> st -> A -> A -> Prop) x : agr P R (raise x) (raise x).
Proof. intros s s' S p. exists (Raise x), (Raise x), s, s'. repeat split; auto. Qed.
Lemma agr_lift {A} (P : st -> st -> Prop) (x : res A) : agr P same (lift x) (lift x).
Proof. intros s s' S p. exists x, x, s, s'. repeat split; auto. destruct x; reflexivity. Qed.
Lemma agr_bind {A B} (P : st -> st -> Prop) (R : st -> st -> A -> A -> Prop) (Q : st -> st -> B -> B -> Prop) m m' f f' :
  agr P R m m' -> (forall a a', agr (fun s s' => R s s' a a') Q (f a) (f' a')) -> agr P Q (bind m f) (bind m' f').
Proof.
  intros H K s s' S p. destruct (H s s' S p) as (r & r' & s1 & s1' & E & E' & S1 & X). unfold bind. rewrite E, E'.
  destruct r as [a|x], r' as [a'|y]; try contradiction.
  - exact (K a a' s1 s1' S1 X).
  - exists (Raise x), (Raise y), s1, s1'. repeat split; auto.
Qed.
Lemma agr_pre {A} (P P' : st -> st -> Prop) (R : st -> st -> A -> A -> Prop) m m' :
  (forall s s', P s s' -> P' s s') -> agr P' R m m' -> agr P R m m'.
Proof. intros H K s s' S p. apply K; auto. Qed.
Lemma agr_assume {A} (P : st -> st -> Prop) (X : Prop) (R : st -> st -> A -> A -> Prop) m m' :
  (forall s s', P s s' -> X) -> (X -> agr P R m m') -> agr P R m m'.
Proof. intros H K s s' S p. apply K; eauto. Qed.

Lemma agr_deref l l' : agr (fun s s' => sameobj s s' l l') (fun s s' o o' => o = o' /\ sameobj s s' l l') (deref l) (deref l').
Proof.
  intros s s' S (o & H & H'). exists (Ok o), (Ok o), s, s'. rewrite (run_deref _ _ _ H), (run_deref _ _ _ H').
  repeat split; auto. exists o. auto.
Qed.
Lemma agr_subordinate l l' : agr (fun s s' => sameobj s s' l l') same (subordinate l) (subordinate l').
Proof.
  unfold subordinate. eapply agr_bind; [apply agr_deref|]. intros o o'. eapply agr_assume; [intros s s' [X _]; exact X|].
  intros <-. destruct o; [apply agr_ret; reflexivity|apply agr_raise|apply agr_raise].
Qed.
Lemma agr_grant_at l l' : agr (fun s s' => sameobj s s' l l') same (grant_at l) (grant_at l').
Proof.
  unfold grant_at. eapply agr_bind; [apply agr_deref|]. intros o o'. eapply agr_assume; [intros s s' [X _]; exact X|].
  intros <-. destruct o; [apply agr_raise|apply agr_ret; reflexivity|apply agr_raise].
Qed.
Definition both (s s' : st) (a a' : option nat) : Prop :=
  match a, a' with None, None => True | Some l, Some l' => sameobj s s' l l' | _, _ => False end.
Lemma agr_lookup k : agr always both (db_lookup k) (db_lookup k).
Proof.
  intros s s' S _. exists (Ok (dget (s_db s) k)), (Ok (dget (s_db s') k)), s, s'. do 3 (split; auto).
  specialize (S k). unfold both, sameobj. destruct (dget (s_db s) k), (dget (s_db s') k); auto.
Qed.
Lemma agr_both {B} (Q : st -> st -> B -> B -> Prop) a a' m m' f f' :
  (a = None -> a' = None -> agr always Q m m') ->
  (forall l l', agr (fun s s' => sameobj s s' l l') Q (f l) (f' l')) ->
  agr (fun s s' => both s s' a a') Q (match a with None => m | Some l => f l end) (match a' with None => m' | Some l => f' l end).
Proof.
  intros H K. destruct a as [l|], a' as [l'|]; cbn [both].
  - apply K.
  - intros s s' _ [].
  - intros s s' _ [].
  - eapply agr_pre; [|apply H; auto]. unfold always. auto.
Qed.

Definition where_same (s s' : st) (l l' : nat) : Prop := sameobj s s' l l'.
Lemma agr_db_get p : agr always where_same (db_get p) (db_get p).
Proof.
  unfold db_get. eapply agr_bind; [apply agr_lift|]. intros [[u c] g] x. eapply agr_assume; [intros s s' X; exact X|].
  intros <-. eapply agr_pre; [|eapply agr_bind; [apply agr_lookup|]]; [unfold always; auto|].
  intros a a'. apply agr_both; [intros _ _; apply agr_raise|]. intros l l'.
  eapply agr_bind; [apply agr_deref|]. intros o o'. eapply agr_assume; [intros s s' [X _]; exact X|]. intros <-.
  assert (agr (fun s s' => o = o /\ sameobj s s' l l') where_same
    (match c with
     | None => ret l
     | Some c => sub <- subordinate l ;;
                 if negb (smem c sub) then raise ValueError
                 else oc <- db_lookup (session_key [u; c]) ;;
                      match oc with
                      | None => raise NoSuchClientSession
                      | Some cl => match g with
                                   | None => ret cl
                                   | Some g => csub <- subordinate cl ;;
                                       if negb (smem g csub) then raise ValueError
                                       else og <- db_lookup (session_key [u; c; g]) ;;
                                            match og with None => raise NoSuchGrant | Some gl => ret gl end
                                   end
                      end
     end)
    (match c with
     | None => ret l'
     | Some c => sub <- subordinate l' ;;
                 if negb (smem c sub) then raise ValueError
                 else oc <- db_lookup (session_key [u; c]) ;;
                      match oc with
                      | None => raise NoSuchClientSession
                      | Some cl => match g with
                                   | None => ret cl
                                   | Some g => csub <- subordinate cl ;;
                                       if negb (smem g csub) then raise ValueError
                                       else og <- db_lookup (session_key [u; c; g]) ;;
                                            match og with None => raise NoSuchGrant | Some gl => ret gl end
                                   end
                      end
     end)) as K.
  { destruct c as [c|]; [|apply agr_ret; intros s s' [_ X]; exact X].
    eapply agr_pre; [intros s s' [_ X]; exact X|].
    eapply agr_bind; [apply agr_subordinate|]. intros sub sub'. eapply agr_assume; [intros s s' X; exact X|]. intros <-.
    destruct (negb (smem c sub)); [apply agr_raise|].
    eapply agr_pre; [|eapply agr_bind; [apply agr_lookup|]]; [unfold always; auto|].
    intros b b'. apply agr_both; [intros _ _; apply agr_raise|]. intros cl cl'.
    destruct g as [g|]; [|apply agr_ret; auto].
    eapply agr_bind; [apply agr_subordinate|]. intros csub csub'. eapply agr_assume; [intros s s' X; exact X|]. intros <-.
    destruct (negb (smem g csub)); [apply agr_raise|].
    eapply agr_pre; [|eapply agr_bind; [apply agr_lookup|]]; [unfold always; auto|].
    intros d d'. apply agr_both; [intros _ _; apply agr_raise|]. intros gl gl'. apply agr_ret. auto. }
  destruct o; [exact K|exact K|apply agr_raise].
Qed.

Section R.
  Variables (e : env) (W : laws e).

  Definition same_sess (s s' : st) (i i' : sess) : Prop :=
    ss_user i = ss_user i' /\ ss_client i = ss_client i' /\ ss_gid i = ss_gid i'
    /\ sameobj s s' (ss_grant i) (ss_grant i').

  Lemma agr_session_info sid sid' : dec_sid3 e sid = dec_sid3 e sid' ->
    agr always same_sess (get_session_info e sid) (get_session_info e sid').
  Proof.
    intros D. unfold get_session_info. rewrite <- D. eapply agr_bind; [apply agr_lift|]. intros [[u c] g] x.
    eapply agr_assume; [intros s s' X; exact X|]. intros <-.
    eapply agr_pre; [|eapply agr_bind; [apply agr_db_get|]]; [unfold always; auto|].
    intros l l'. apply agr_ret. intros s s' H. repeat split; auto.
  Qed.
  Lemma agr_compatible sid : agr always (fun _ _ x y => dec_sid3 e x = dec_sid3 e y) (compatible_sid e sid) (compatible_sid e sid).
  Proof.
    unfold compatible_sid. destruct (Nat.eqb _ _); [|apply agr_ret; auto].
    intros s s' S _. unfold enc_sid, bind, tick, ret. do 4 eexists. split; [reflexivity|]. split; [reflexivity|].
    split; [exact S|]. cbn. unfold dec_sid3. erewrite dec_any_nonce by exact W. reflexivity.
  Qed.
  Lemma agr_by_token now v : agr always same_sess (get_session_info_by_token e now v) (get_session_info_by_token e now v).
  Proof.
    unfold get_session_info_by_token. eapply agr_bind; [apply agr_lift|]. intros i i'.
    eapply agr_assume; [intros s s' X; exact X|]. intros <-. destruct (negb _); [apply agr_raise|].
    eapply agr_pre; [|eapply agr_bind; [apply agr_compatible|]]; [unfold always; auto|].
    intros x y. eapply agr_assume; [intros s s' X; exact X|]. intros D.
    eapply agr_pre; [|apply agr_session_info; exact D]. unfold always; auto.
  Qed.
  Definition opt_sess (s s' : st) (o o' : option sess) : Prop :=
    match o, o' with None, None => True | Some i, Some i' => same_sess s s' i i' | _, _ => False end.
  Lemma agr_try {B} now v (h : exn -> option (M st (option sess))) (Q : st -> st -> B -> B -> Prop) :
    (forall x, h x = None \/ h x = Some (ret None)) ->
    agr always opt_sess (catch (i <- get_session_info_by_token e now v ;; ret (Some i)) h)
      (catch (i <- get_session_info_by_token e now v ;; ret (Some i)) h).
  Proof.
    intros Hh s s' S _. destruct (agr_by_token now v s s' S Logic.I) as (r & r' & s1 & s1' & E & E' & S1 & X).
    unfold catch, bind. rewrite E, E'. destruct r as [i|x], r' as [i'|y]; try contradiction.
    - exists (Ok (Some i)), (Ok (Some i')), s1, s1'. repeat split; auto; apply X.
    - subst y. destruct (Hh x) as [->| ->].
      + exists (Raise x), (Raise x), s1, s1'. repeat split; auto.
      + exists (Ok None), (Ok None), s1, s1'. repeat split; auto.
  Qed.

  Lemma agr_introspect now release tok : agr always same (introspect e now release tok) (introspect e now release tok).
  Proof.
    unfold introspect. eapply agr_bind; [apply (agr_try (B := unit) now tok _ (fun _ _ _ _ => True)); intros []; auto|].
    intros o o'. destruct o as [i|], o' as [i'|]; try (intros s s' _ []; fail); [|apply agr_ret; reflexivity].
    eapply agr_assume; [intros s s' (A & B & _); exact (conj A B)|]. intros [<- <-].
    eapply agr_pre; [|eapply agr_bind; [apply (agr_grant_at (ss_grant i) (ss_grant i'))|]]; [intros s s' (_ & _ & _ & X); exact X|].
    intros g g'. eapply agr_assume; [intros s s' X; exact X|]. intros <-.
    destruct (get_token g tok) as [t|]; [|apply agr_raise].
    eapply agr_bind; [apply agr_lift|]. intros r r'. eapply agr_assume; [intros s s' X; exact X|]. intros <-.
    destruct r as [r|]; [|apply agr_ret; reflexivity]. cbv zeta.
    destruct (dget (g_claims g) "introspection") as [[|x xs]|]; try (apply agr_ret; reflexivity).
    eapply agr_bind; [apply agr_lift|]. intros f f'. eapply agr_assume; [intros s s' X; exact X|]. intros <-.
    apply agr_ret. reflexivity.
  Qed.
  Lemma agr_userinfo now tok : agr always same (userinfo e now tok) (userinfo e now tok).
  Proof.
    unfold userinfo. eapply agr_bind.
    { apply (agr_try (B := unit) now tok _ (fun _ _ _ _ => True)). intros x. destruct (is_lookup_error x); auto. }
    intros o o'. destruct o as [i|], o' as [i'|]; try (intros s s' _ []; fail); [|apply agr_ret; reflexivity].
    eapply agr_assume; [intros s s' (A & B & _); exact (conj A B)|]. intros [<- <-].
    eapply agr_pre; [|eapply agr_bind; [apply (agr_grant_at (ss_grant i) (ss_grant i'))|]]; [intros s s' (_ & _ & _ & X); exact X|].
    intros g g'. eapply agr_assume; [intros s s' X; exact X|]. intros <-.
    destruct (get_token g tok) as [t|]; [|apply agr_raise].
    destruct (negb _); [apply agr_ret; reflexivity|]. destruct (negb _); [apply agr_ret; reflexivity|].
    destruct (g_aevent g) as [ev|]; [|apply agr_raise]. destruct (_ <? _)%Z; [apply agr_ret; reflexivity|].
    eapply agr_bind; [apply agr_lift|]. intros f f'. eapply agr_assume; [intros s s' X; exact X|]. intros <-. cbv zeta.
    eapply agr_bind; [apply agr_lift|]. intros a a'. eapply agr_assume; [intros s s' X; exact X|]. intros <-.
    apply agr_ret. reflexivity.
  Qed.

  (** ** Restarts *)
  Lemma restart_ok ops evs h now : history e ops evs h ->
    exists h', step e h (OReload now) = (EvDone (Ok tt), h') /\ reloaded (h_st h) (h_st h') /\ Inv e (h_st h)
      /\ Inv e (h_st h') /\ h_parsed h' = h_parsed h /\ sim (h_st h) (h_st h').
  Proof.
    intros Hi. pose proof (hi_inv _ _ (history_hi e W _ _ _ Hi)) as I.
    destruct (reload_ok e now (h_st h) I) as (s' & E & R). exists (mk_hst s' (h_parsed h)).
    cbn [step]. unfold on_st. rewrite E. cbn [h_st h_parsed]. split; auto. split; auto. split; auto.
    split; [eapply reloaded_inv; eauto|]. split; auto. apply reloaded_sim; auto. apply (inv_stored _ _ I).
  Qed.

  Lemma entry_sim h h' k : sim (h_st h) (h_st h') -> entry h' k = entry h k.
  Proof.
    intros S. specialize (S k). unfold entry. destruct (dget (s_db (h_st h)) k), (dget (s_db (h_st h')) k); try contradiction; auto.
    destruct S as (o & A & B). unfold hp in *. congruence.
  Qed.
  Lemma finds_sim h h' p o : sim (h_st h) (h_st h') -> finds h p o -> finds h' p o.
  Proof.
    intros S (l & Rd & H). destruct (agr_db_get p _ _ S Logic.I) as (r & r' & s1 & s1' & E & E' & _ & X).
    unfold reads in Rd. rewrite Rd in E. injection E as <- <-. destruct r' as [l'|]; [|contradiction].
    pose proof (db_get_state p (h_st h')) as Y. rewrite E' in Y. cbn in Y. subst s1'.
    exists l'. split; auto. destruct X as (o1 & A & B). unfold hp in *. congruence.
  Qed.
  Lemma fails_sim h h' p x : sim (h_st h) (h_st h') -> fails h p x -> fails h' p x.
  Proof.
    intros S F. destruct (agr_db_get p _ _ S Logic.I) as (r & r' & s1 & s1' & E & E' & _ & X).
    unfold fails in F. rewrite F in E. injection E as <- <-. destruct r' as [l'|y]; [contradiction|]. subst y.
    pose proof (db_get_state p (h_st h')) as Y. rewrite E' in Y. cbn in Y. subst s1'. exact E'.
  Qed.
  Lemma sim_sym s s' : sim s s' -> sim s' s.
  Proof.
    intros S k. specialize (S k). destruct (dget (s_db s) k), (dget (s_db s') k); auto. destruct S as (o & A & B). eauto.
  Qed.
  Lemma grant_of_reloaded h h' gid g : reloaded (h_st h) (h_st h') -> grant_of h' gid g <-> grant_of h gid g.
  Proof.
    intros R. split; intros (l & H & Id); exists l; split; auto.
    - eapply reloaded_grants; eauto.
    - eapply reloaded_heap; eauto.
  Qed.
  Lemma restart_keeps ops evs h now : history e ops evs h ->
    exists h', step e h (OReload now) = (EvDone (Ok tt), h')
      /\ (forall k, entry h' k = entry h k)
      /\ (forall gid g, grant_of h' gid g <-> grant_of h gid g)
      /\ (forall p o, finds h' p o <-> finds h p o)
      /\ (forall p x, fails h' p x <-> fails h p x)
      /\ h_parsed h' = h_parsed h /\ s_always (h_st h') = s_always (h_st h).
  Proof.
    intros Hi. destruct (restart_ok ops evs h now Hi) as (h' & E & R & _ & _ & P & S). exists h'. split; auto.
    split; [intros k; now apply entry_sim|]. split; [intros; now apply grant_of_reloaded|].
    split; [intros p o; split; apply finds_sim; auto using sim_sym|].
    split; [intros p x; split; apply fails_sim; auto using sim_sym|]. split; auto. apply (rl_always _ _ R).
  Qed.

  (** Saving what was restored gives what was saved. *)
  Lemma dump_db_state d : forall s, snd (dump_db d s) = s.
  Proof.
    induction d as [|[k l] d IH]; intros s; auto. cbn [dump_db]. unfold bind at 1, deref.
    destruct (nth_error (s_heap s) l) as [o|]; auto. unfold bind at 1, lift. destruct (dump_obj o); auto.
    unfold bind at 1. specialize (IH s). destruct (dump_db d s) as [[xs|y] s1]; cbn in *; auto.
  Qed.
  Lemma run_dump s k l o d : hp s l = Some o ->
    fst (dump_db ((k, l) :: d) s) = rbind (dump_obj o) (fun v => rbind (fst (dump_db d s)) (fun r => Ok ((k, v) :: r))).
  Proof.
    intros H. cbn [dump_db]. unfold bind at 1. rewrite (run_deref _ _ _ H). unfold bind at 1, lift.
    destruct (dump_obj o); [|reflexivity]. unfold bind. destruct (dump_db d s) as [[r|x] s1]; reflexivity.
  Qed.
  Lemma dump_db_sim s s' d d' : Forall2 (fun a b => fst a = fst b /\ sameobj s s' (snd a) (snd b)) d d' ->
    fst (dump_db d s) = fst (dump_db d' s').
  Proof.
    induction 1 as [|[k l] [k' l'] d d' (E & o & H & H') F IH]; auto. cbn [fst snd] in E, H, H'. subst k'.
    rewrite (run_dump _ _ _ _ _ H), (run_dump _ _ _ _ _ H'), IH. reflexivity.
  Qed.
  Lemma keys_same_sim s s' : sim s s' -> forall d d', map fst d = map fst d' ->
    (forall k l, In (k, l) d -> dget (s_db s) k = Some l) -> (forall k l, In (k, l) d' -> dget (s_db s') k = Some l) ->
    Forall2 (fun a b => fst a = fst b /\ sameobj s s' (snd a) (snd b)) d d'.
  Proof.
    intros S. induction d as [|[k l] d IH]; intros [|[k' l'] d'] E A B; try discriminate; constructor.
    - cbn in *. injection E as -> E. split; auto. specialize (S k').
      rewrite (A k' l (or_introl eq_refl)), (B k' l' (or_introl eq_refl)) in S. exact S.
    - injection E as _ E. apply IH; auto.
      + intros. apply A. now right.
      + intros. apply B. now right.
  Qed.
  Lemma restart_same_dump ops evs h now : history e ops evs h ->
    exists h' d, step e h (OReload now) = (EvDone (Ok tt), h')
      /\ dump_all (h_st h) = (Ok d, h_st h) /\ dump_all (h_st h') = (Ok d, h_st h').
  Proof.
    intros Hi. destruct (restart_ok ops evs h now Hi) as (h' & E & R & I & I' & P & S).
    destruct (dump_db_ok e (h_st h) (s_db (h_st h)) (inv_grants _ _ I)) as (d & D & _).
    { intros k l X. apply (inv_stored _ _ I). apply dget_of_In; auto. apply (inv_dict _ _ I). }
    destruct (dump_db_ok e (h_st h') (s_db (h_st h')) (inv_grants _ _ I')) as (d' & D' & _).
    { intros k l X. apply (inv_stored _ _ I'). apply dget_of_In; auto. apply (inv_dict _ _ I'). }
    exists h', d. split; auto. split; [exact D|]. unfold dump_all. rewrite D'. f_equal.
    assert (fst (dump_db (s_db (h_st h)) (h_st h)) = fst (dump_db (s_db (h_st h')) (h_st h'))) as X.
    { apply dump_db_sim. apply keys_same_sim; auto.
      - symmetry. apply (rl_keys _ _ R).
      - intros k l K. apply dget_of_In; auto. apply (inv_dict _ _ I).
      - intros k l K. apply dget_of_In; auto. apply (inv_dict _ _ I'). }
    rewrite D, D' in X. symmetry. exact X.
  Qed.

  Lemma restart_answers ops evs h now h' : history e ops evs h -> step e h (OReload now) = (EvDone (Ok tt), h') ->
    forall t release tok, fst (step e h' (OIntrospect t release tok)) = fst (step e h (OIntrospect t release tok))
      /\ fst (step e h' (OUserinfo t tok)) = fst (step e h (OUserinfo t tok)).
  Proof.
    intros Hi E t release tok. destruct (restart_ok ops evs h now Hi) as (h1 & E1 & _ & _ & _ & _ & S).
    rewrite E in E1. injection E1 as <-. cbn [step]. unfold on_st. split.
    - destruct (agr_introspect t release tok _ _ S Logic.I) as (r & r' & s1 & s1' & X & X' & _ & K). rewrite X, X'. cbn.
      destruct r, r'; try contradiction; unfold same in K; congruence.
    - destruct (agr_userinfo t tok _ _ S Logic.I) as (r & r' & s1 & s1' & X & X' & _ & K). rewrite X, X'. cbn.
      destruct r, r'; try contradiction; unfold same in K; congruence.
  Qed.
End R.
