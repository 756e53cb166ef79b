(** Lemmas: the configuration, the token handlers, the scopes. *)
From Verif Require Import M_Base M_Types M_Codec M_Grant M_Env M_Session M_Claims M_Handler M_Uri M_Meta M_ClientAuthn M_Setup.
From Verif Require Import S_Codec S_Handler S_Claims S_Setup L_Base L_Monad L_Codec L_Handler L_Claims L_Broker L_Setup.

Lemma ktrue_spec v : ktrue v = true <-> filled v.
Proof.
  destruct v as [|b|z|s|l|d]; cbn; try tauto.
  - split; [discriminate|tauto].
  - rewrite negb_true_iff, Z.eqb_neq. tauto.
  - destruct s; cbn; split; congruence.
  - destruct l; split; congruence.
  - destruct d; split; congruence.
Qed.
Lemma chosen_fun defaults fmt given key v v' :
  chosen defaults fmt given key v -> chosen defaults fmt given key v' -> v = v'.
Proof.
  intros [v1 A B|d A B] H; inversion H as [v2 C D|d2 C D]; subst; try congruence.
  - exfalso. eapply C; eauto.
  - exfalso. eapply A; eauto.
Qed.

Section Conf.
  Variables (defaults : dict kval) (fmt : kval -> kval) (abspath : string -> string).

  Definition pick (given : dict kval) (key : string) : option kval :=
    match dget given key with
    | Some v => if ktrue v then Some v else option_map fmt (dget defaults key)
    | None => option_map fmt (dget defaults key)
    end.
  Lemma pick_spec given key v : pick given key = Some v <-> chosen defaults fmt given key v.
  Proof.
    unfold pick. destruct (dget given key) as [w|] eqn:G; [destruct (ktrue w) eqn:T|].
    - apply ktrue_spec in T. split.
      + intros [= <-]. now apply ch_given.
      + intros [w' A B|d A B]; [congruence|]. exfalso. eapply A; eauto.
    - assert (N : ~ filled w) by (rewrite <- ktrue_spec; congruence).
      destruct (dget defaults key) as [d|] eqn:D; cbn; split.
      + intros [= <-]. apply ch_default; [intros x E; congruence|exact D].
      + intros [w' A B|d' A B]; congruence.
      + discriminate.
      + intros [w' A B|d' A B]; congruence.
    - destruct (dget defaults key) as [d|] eqn:D; cbn; split.
      + intros [= <-]. apply ch_default; [intros x E; congruence|exact D].
      + intros [w' A B|d' A B]; congruence.
      + discriminate.
      + intros [w' A B|d' A B]; congruence.
  Qed.

  (** The name a parameter gets, and the value. *)
  Definition renamed (key : string) : string := if String.eqb key "keys" then "key_conf" else key.
  Definition adapted (key : string) (v : kval) : option kval :=
    if String.eqb key "template_dir" then match v with KText s => Some (KText (abspath s)) | _ => None end
    else Some v.

  Lemma configure_get params given : NoDup (map renamed params) -> forall acc conf,
    configure defaults fmt abspath params given acc = Ok conf ->
    (forall key, In key params ->
       match pick given key with
       | Some v => exists w, adapted key v = Some w /\ dget conf (renamed key) = Some w
       | None => dget conf (renamed key) = dget acc (renamed key)
       end)
    /\ (forall n, ~ In n (map renamed params) -> dget conf n = dget acc n).
  Proof.
    induction params as [|key r IH]; intros ND acc conf E.
    { cbn in E. injection E as <-. split; [intros k []|auto]. }
    cbn [map] in ND. inversion ND as [|x l NI ND']; subst. cbn [configure] in E.
    change (match dget given key with
            | Some v => if ktrue v then Some v else option_map fmt (dget defaults key)
            | None => option_map fmt (dget defaults key) end) with (pick given key) in E.
    destruct (pick given key) as [v|] eqn:P.
    - apply rbind_ok in E as (w & W & E).
      change (if String.eqb key "keys" then "key_conf" else key) with (renamed key) in E.
      destruct (IH ND' _ _ E) as [H1 H2].
      assert (AW : adapted key v = Some w).
      { unfold adapted. destruct (String.eqb key "template_dir"); [destruct v; try discriminate|]; congruence. }
      split.
      + intros k [<-|I].
        * rewrite P. exists w. split; [exact AW|]. rewrite H2 by exact NI. apply dget_dset_same.
        * assert (Nk : renamed k <> renamed key) by (intros X; apply NI; rewrite <- X; now apply in_map).
          specialize (H1 _ I). destruct (pick given k); [exact H1|]. rewrite H1. now apply dget_dset_other.
      + intros n N. cbn [map] in N. rewrite H2 by (intros X; apply N; now right).
        apply dget_dset_other. intros X. apply N. left. congruence.
    - destruct (IH ND' _ _ E) as [H1 H2]. split.
      + intros k [<-|I]; [rewrite P; now apply H2|]. now apply H1.
      + intros n N. cbn [map] in N. apply H2. intros X. apply N. now right.
  Qed.
End Conf.

Lemma as_parameters_spec n : In n as_parameters <-> server_parameter n.
Proof.
  split.
  - unfold as_parameters. intros I. repeat (destruct I as [<-|I]; [constructor|]). destruct I.
  - intros []; unfold as_parameters; repeat (first [left; reflexivity|right]).
Qed.
Lemma op_parameters_spec n : In n op_parameters <-> provider_parameter n.
Proof.
  unfold op_parameters. rewrite in_app_iff, as_parameters_spec. split.
  - intros [I|I]; [constructor; exact I|].
    repeat (destruct I as [<-|I]; [first [exact pp_id_token|exact pp_hint_acr|exact pp_hint|exact pp_sub|exact pp_scopes]|]).
    destruct I.
  - intros [m H| | | | |]; [left; exact H|right..]; cbn; tauto.
Qed.
Lemma renamed_as : NoDup (map renamed as_parameters).
Proof. apply (NoDup_count_occ' string_dec). intros x I. cbn in I. repeat destruct I as [<-|I]; try reflexivity. destruct I. Qed.
Lemma renamed_op : NoDup (map renamed op_parameters).
Proof. apply (NoDup_count_occ' string_dec). intros x I. cbn in I. repeat destruct I as [<-|I]; try reflexivity. destruct I. Qed.

Lemma conf_plain defaults fmt abspath params given conf key :
  is_params params -> configure defaults fmt abspath params given [] = Ok conf ->
  In key params -> key <> "keys" -> key <> "template_dir" ->
  forall v, dget conf key = Some v <-> chosen defaults fmt given key v.
Proof.
  intros P E I N1 N2 v.
  assert (ND : NoDup (map renamed params)) by (destruct P as [->| ->]; [apply renamed_as|apply renamed_op]).
  destruct (configure_get _ _ _ _ _ ND _ _ E) as [H _]. specialize (H _ I).
  unfold renamed, adapted in H. apply seqb_neq in N1, N2. rewrite N1, N2 in H.
  rewrite <- pick_spec. destruct (pick defaults fmt given key) as [w|].
  - destruct H as (w' & [= <-] & D). rewrite D. tauto.
  - rewrite H. cbn. split; discriminate.
Qed.
Lemma conf_keys defaults fmt abspath params given conf :
  is_params params -> configure defaults fmt abspath params given [] = Ok conf ->
  dget conf "keys" = None /\ forall v, dget conf "key_conf" = Some v <-> chosen defaults fmt given "keys" v.
Proof.
  intros P E.
  assert (ND : NoDup (map renamed params)) by (destruct P as [->| ->]; [apply renamed_as|apply renamed_op]).
  assert (I : In "keys" params) by (destruct P as [->| ->]; apply smem_In; vm_compute; reflexivity).
  assert (N : ~ In "keys" (map renamed params)) by (destruct P as [->| ->]; apply smem_false; vm_compute; reflexivity).
  destruct (configure_get _ _ _ _ _ ND _ _ E) as [H H2]. split.
  - now rewrite H2.
  - intros v. specialize (H _ I). unfold renamed, adapted in H. cbn in H.
    rewrite <- pick_spec. destruct (pick defaults fmt given "keys") as [w|].
    + destruct H as (w' & [= <-] & D). rewrite D. tauto.
    + rewrite H. cbn. split; discriminate.
Qed.
Lemma conf_templates defaults fmt abspath params given conf :
  is_params params -> configure defaults fmt abspath params given [] = Ok conf ->
  forall v, dget conf "template_dir" = Some v <->
    exists s, chosen defaults fmt given "template_dir" (KText s) /\ v = KText (abspath s).
Proof.
  intros P E v.
  assert (ND : NoDup (map renamed params)) by (destruct P as [->| ->]; [apply renamed_as|apply renamed_op]).
  assert (I : In "template_dir" params) by (destruct P as [->| ->]; apply smem_In; vm_compute; reflexivity).
  destruct (configure_get _ _ _ _ _ ND _ _ E) as [H _]. specialize (H _ I).
  unfold renamed, adapted in H. cbn in H. setoid_rewrite <- pick_spec.
  destruct (pick defaults fmt given "template_dir") as [w|].
  - destruct H as (w' & A & D). rewrite D. destruct w; try discriminate A. injection A as <-.
    split; [intros [= <-]; eauto|]. intros (s' & [= <-] & ->). reflexivity.
  - rewrite H. cbn. split; [discriminate|]. intros (s & X & _). discriminate.
Qed.
Lemma conf_ignored defaults fmt abspath params given conf n :
  is_params params -> configure defaults fmt abspath params given [] = Ok conf ->
  ~ In n params -> n <> "key_conf" -> dget conf n = None.
Proof.
  intros P E N NK.
  assert (ND : NoDup (map renamed params)) by (destruct P as [->| ->]; [apply renamed_as|apply renamed_op]).
  destruct (configure_get _ _ _ _ _ ND _ _ E) as [_ H]. rewrite H; [reflexivity|].
  rewrite in_map_iff. intros (k & R & I). unfold renamed in R. destruct (String.eqb k "keys"); congruence.
Qed.

(** Token handlers. *)
Lemma lifetime_of_spec s d : wants_lifetime s d (or_else (kw_lifetime (handler_kwargs s)) d).
Proof.
  unfold handler_kwargs.
  assert (K : (forall y, ts_lifetime s = Some y -> y = 0%Z) ->
              wants_lifetime s d (or_else (kw_lifetime (or_else (ts_kwargs s) (mk_tkw None None None None))) d)).
  { intros H. destruct (ts_kwargs s) as [k|] eqn:K; cbn.
    - destruct (kw_lifetime k) as [z|] eqn:L; cbn.
      + apply wl_kwargs; [exact H|]. exists k. auto.
      + apply wl_default; [exact H|]. intros z (k' & K' & L'). congruence.
    - apply wl_default; [exact H|]. intros z (k' & K' & L'). congruence. }
  destruct (ts_lifetime s) as [z|] eqn:L.
  - destruct (Z.eqb z 0) eqn:Z0.
    + apply Z.eqb_eq in Z0. apply K. intros y E. congruence.
    + apply Z.eqb_neq in Z0. cbn. now apply wl_own.
  - apply K. discriminate.
Qed.
Lemma wants_lifetime_fun s d z z' : wants_lifetime s d z -> wants_lifetime s d z' -> z = z'.
Proof.
  intros [z1 A B|z1 A (k & B & C)|A B] H; inversion H as [z2 D E|z2 D (k' & E & F)|D E]; subst; try congruence;
    exfalso; try (apply B; eapply D; eassumption); try (apply E; eapply A; eassumption);
    try (eapply B; exists k'; eauto; fail); eapply E; exists k; eauto.
Qed.
Lemma kw_pw_lifetime s : kw_password (handler_kwargs s) = kw_password (or_else (ts_kwargs s) (mk_tkw None None None None)).
Proof. unfold handler_kwargs. destruct (ts_lifetime s) as [z|]; [destruct (Z.eqb z 0)|]; reflexivity. Qed.
Lemma kw_alg_lifetime s : kw_alg (handler_kwargs s) = kw_alg (or_else (ts_kwargs s) (mk_tkw None None None None)).
Proof. unfold handler_kwargs. destruct (ts_lifetime s) as [z|]; [destruct (Z.eqb z 0)|]; reflexivity. Qed.
Lemma kw_iss_lifetime s : kw_issuer (handler_kwargs s) = kw_issuer (or_else (ts_kwargs s) (mk_tkw None None None None)).
Proof. unfold handler_kwargs. destruct (ts_lifetime s) as [z|]; [destruct (Z.eqb z 0)|]; reflexivity. Qed.

Lemma add_passwd_lifetime key s d z : wants_lifetime (add_passwd key s) d z <-> wants_lifetime s d z.
Proof.
  destruct key as [p|]; [|tauto]. unfold add_passwd.
  destruct s as [c [k|] l pw]; cbn; split; intros [y A B|y A (k' & B & C)|A B]; cbn in *;
    try (now apply wl_own); try congruence.
  - injection B as <-. cbn in C. apply wl_kwargs; [exact A|]. exists k. auto.
  - apply wl_default; [exact A|]. intros y (k' & K & L). cbn in K. injection K as <-.
    apply (B y). eexists. split; [reflexivity|]. exact L.
  - injection B as <-. apply wl_kwargs; [exact A|]. eexists. split; [reflexivity|]. exact C.
  - apply wl_default; [exact A|]. intros y (k' & K & L). cbn in K. injection K as <-.
    apply (B y). exists k. split; [reflexivity|]. exact L.
  - apply wl_default; [exact A|]. intros y (k' & K & L). cbn in K. discriminate.
  - apply wl_default; [exact A|]. intros y (k' & K & L). cbn in K. discriminate.
Qed.

(** An opaque handler: no class is named. *)
Lemma opaque_one issuer jar kid cls s o : ts_class s = None ->
  one_handler issuer jar kid cls (Some s) = Ok o ->
  exists pw z, o = Some (HDefault pw cls z) /\ wants_key s (jar kid) pw /\ wants_lifetime s 300 z.
Proof.
  intros C E. unfold one_handler, default_token in E. rewrite C in E.
  apply rbind_ok in E as (h & E & R). injection R as <-.
  pose proof (lifetime_of_spec (add_passwd (jar kid) s) 300) as L.
  apply add_passwd_lifetime in L. unfold init_token_handler in E.
  assert (C' : ts_class (add_passwd (jar kid) s) = None)
    by (unfold add_passwd; destruct (jar kid), (ts_kwargs s); exact C).
  rewrite C' in E. cbn [rbind] in E.
  assert (exists pw, h = HDefault pw cls (or_else (kw_lifetime (handler_kwargs (add_passwd (jar kid) s))) 300%Z)
          /\ match ts_password (add_passwd (jar kid) s) with
             | Some p => pw = p
             | None => kw_password (handler_kwargs (add_passwd (jar kid) s)) = Some pw end) as (pw & -> & P).
  { destruct (ts_password (add_passwd (jar kid) s)) as [p|] eqn:W; cbn in E.
    - injection E as <-. eauto.
    - destruct (kw_password _) eqn:P; [|discriminate]. injection E as <-. eauto. }
  eexists pw, _. split; [reflexivity|]. split; [|exact L].
  clear L E C'. rewrite kw_pw_lifetime in P. unfold add_passwd in P. destruct (jar kid) as [p|] eqn:J.
  - destruct (ts_kwargs s) as [k|] eqn:K; cbn in P.
    + destruct (ts_password s) as [p'|] eqn:W.
      * subst pw. apply wk_own; [exact W|]. right. congruence.
      * injection P as <-. apply wk_jar; auto.
    + subst pw. apply wk_jar; auto.
  - destruct (ts_password s) as [p|] eqn:W.
    + subst pw. apply wk_own; auto.
    + apply wk_kwargs; auto. destruct (ts_kwargs s) as [k|] eqn:K; [|discriminate P].
      exists k. auto.
Qed.

(** A named class. *)
Lemma jwt_init issuer s c cls h : ts_class s = Some c -> jwt_class c ->
  init_token_handler issuer s cls = Ok h ->
  exists alg iss z, h = HJWT cls alg iss z /\ asks_alg s alg /\ asks_issuer s issuer iss /\ wants_lifetime s 1800 z.
Proof.
  intros C J E. unfold init_token_handler in E. rewrite C in E.
  assert (I : importer load_class c = Ok KJWT) by (destruct J as [->| ->]; vm_compute; reflexivity).
  rewrite I in E. cbn [rbind] in E. injection E as <-.
  eexists _, _, _. split; [reflexivity|]. split; [|split; [|apply lifetime_of_spec]].
  - rewrite kw_alg_lifetime. unfold asks_alg, in_kwargs. destruct (ts_kwargs s) as [k|]; cbn.
    + destruct (kw_alg k) as [a|] eqn:A; cbn; [left; eauto|]. right. split; [|reflexivity].
      intros x (k' & [= <-] & X). congruence.
    + right. split; [|reflexivity]. intros x (k' & X & _). discriminate.
  - rewrite kw_iss_lifetime. unfold asks_issuer, in_kwargs. destruct (ts_kwargs s) as [k|]; cbn.
    + destruct (kw_issuer k) as [a|] eqn:A.
      * destruct a as [|x a]; cbn.
        -- right. split; [|reflexivity]. intros x (k' & [= <-] & X). congruence.
        -- left. split; [eauto|discriminate].
      * right. split; [|reflexivity]. intros x (k' & [= <-] & X). congruence.
    + right. split; [|reflexivity]. intros x (k' & X & _). discriminate.
Qed.
Lemma jwt_not_default s c : ts_class s = Some c -> jwt_class c -> default_token s = false.
Proof. intros C [->| ->]; unfold default_token; rewrite C; reflexivity. Qed.
Lemma id_init issuer s c cls h : ts_class s = Some c -> id_class c ->
  init_token_handler issuer s cls = Ok h -> exists z, h = HId z /\ wants_lifetime s 300 z.
Proof.
  intros C J E. unfold init_token_handler in E. rewrite C in E.
  assert (I : importer load_class c = Ok KId) by (destruct J as [->| ->]; vm_compute; reflexivity).
  rewrite I in E. cbn [rbind] in E. injection E as <-.
  eexists. split; [reflexivity|]. apply lifetime_of_spec.
Qed.

(** The factory. *)
Lemma one_some issuer jar kid cls s o : one_handler issuer jar kid cls (Some s) = Ok o -> exists h, o = Some h.
Proof. unfold one_handler. intros E. apply rbind_ok in E as (h & _ & R). injection R as <-. eauto. Qed.
Lemma factory_get issuer jar given code token refresh idt hs kid cls s :
  factory issuer jar given code token refresh idt = Ok hs ->
  asked_for_tokens code token refresh kid cls s ->
  exists o, one_handler issuer (jar (handler_kids given code refresh token)) kid cls (Some s) = Ok o
    /\ dget hs cls = Some o.
Proof.
  intros E A. unfold factory in E.
  apply rbind_ok in E as (c & C & E). apply rbind_ok in E as (t & T & E). apply rbind_ok in E as (r & R & E).
  apply rbind_ok in E as (i & I & E). injection E as <-.
  destruct A as [(-> & -> & ->)|[(-> & -> & ->)|(-> & -> & ->)]].
  - exists c. split; [exact C|]. reflexivity.
  - exists t. split; [exact T|]. reflexivity.
  - exists r. split; [exact R|]. destruct (one_some _ _ _ _ _ _ R) as (h & ->). reflexivity.
Qed.
Lemma factory_id issuer jar given code token refresh s hs :
  factory issuer jar given code token refresh (Some s) = Ok hs ->
  exists h, init_token_handler issuer s "" = Ok h /\ dget hs "id_token" = Some (Some h).
Proof.
  intros E. unfold factory in E.
  apply rbind_ok in E as (c & C & E). apply rbind_ok in E as (t & T & E). apply rbind_ok in E as (r & R & E).
  apply rbind_ok in E as (i & I & E). injection E as <-. apply rbind_ok in I as (h & H & I). injection I as <-.
  exists h. split; [exact H|]. destruct r; reflexivity.
Qed.
Lemma factory_names issuer jar given code token refresh idt hs n h :
  factory issuer jar given code token refresh idt = Ok hs -> dget hs n = Some (Some h) ->
  (exists kid s, asked_for_tokens code token refresh kid n s) \/ (n = "id_token" /\ exists s, idt = Some s).
Proof.
  intros E D. unfold factory in E.
  apply rbind_ok in E as (c & C & E). apply rbind_ok in E as (t & T & E). apply rbind_ok in E as (r & R & E).
  apply rbind_ok in E as (i & I & E). injection E as <-. apply dget_In in D.
  assert (X : (n, Some h) = ("authorization_code", c) \/ (n, Some h) = ("access_token", t) \/
              (n, Some h) = ("refresh_token", r) \/ (n, Some h) = ("id_token", i)).
  { cbn in D. destruct D as [D|[D|D]]; auto. apply in_app_or in D as [D|D].
    - destruct r; [destruct D as [D|[]]|destruct D]. auto.
    - destruct i; [destruct D as [D|[]]|destruct D]. auto. }
  unfold asked_for_tokens. destruct X as [[= -> <-]|[[= -> <-]|[[= -> <-]|[= -> <-]]]].
  - left. destruct code as [s|]; [|discriminate]. exists "code", s. auto.
  - left. destruct token as [s|]; [|discriminate]. exists "token", s. auto.
  - left. destruct refresh as [s|]; [|discriminate]. exists "refresh", s. auto.
  - right. split; [reflexivity|]. destruct idt as [s|]; [eauto|discriminate].
Qed.

Lemma opaque_handler issuer jar given code token refresh idt hs kid cls s :
  factory issuer jar given code token refresh idt = Ok hs ->
  asked_for_tokens code token refresh kid cls s -> ts_class s = None ->
  exists pw z, dget hs cls = Some (Some (HDefault pw cls z)) /\
    wants_key s (jar (handler_kids given code refresh token) kid) pw /\ wants_lifetime s 300 z.
Proof.
  intros E A C. destruct (factory_get _ _ _ _ _ _ _ _ _ _ _ E A) as (o & O & D).
  destruct (opaque_one _ _ _ _ _ _ C O) as (pw & z & -> & K & L). exists pw, z. auto.
Qed.
Lemma jwt_handler issuer jar given code token refresh idt hs kid cls s c :
  factory issuer jar given code token refresh idt = Ok hs ->
  asked_for_tokens code token refresh kid cls s -> ts_class s = Some c -> jwt_class c ->
  exists alg iss z, dget hs cls = Some (Some (HJWT cls alg iss z)) /\
    asks_alg s alg /\ asks_issuer s issuer iss /\ wants_lifetime s 1800 z.
Proof.
  intros E A C J. destruct (factory_get _ _ _ _ _ _ _ _ _ _ _ E A) as (o & O & D).
  unfold one_handler in O. rewrite (jwt_not_default _ _ C J) in O. apply rbind_ok in O as (h & H & O).
  injection O as <-. destruct (jwt_init _ _ _ _ _ C J H) as (alg & iss & z & -> & X). exists alg, iss, z. auto.
Qed.
Lemma id_handler issuer jar given code token refresh s hs c :
  factory issuer jar given code token refresh (Some s) = Ok hs -> ts_class s = Some c -> id_class c ->
  exists z, dget hs "id_token" = Some (Some (HId z)) /\ wants_lifetime s 300 z.
Proof.
  intros E C J. destruct (factory_id _ _ _ _ _ _ _ _ E) as (h & H & D).
  destruct (id_init _ _ _ _ _ C J H) as (z & -> & L). exists z. auto.
Qed.

(** Keys are made for exactly the opaque handlers. *)
Lemma kids_spec code token refresh kid : In kid (handler_kids [] code refresh token) <->
  exists cls s, asked_for_tokens code token refresh kid cls s /\
    (ts_class s = None \/ ts_class s = Some "oidcop.token.DefaultToken").
Proof.
  assert (T : forall s, default_token s = true <-> (ts_class s = None \/ ts_class s = Some "oidcop.token.DefaultToken")).
  { intros s. unfold default_token. destruct (ts_class s) as [c|]; [|tauto]. rewrite seqb_eq.
    split; [intros ->; auto|intros [H|H]; congruence]. }
  unfold handler_kids, default_kids, asked_for_tokens. rewrite in_flat_map. split.
  - intros ((k & o) & I & J). cbn [fst snd] in J. destruct o as [s|]; [|destruct J].
    destruct (default_token s) eqn:D; [|destruct J]. destruct J as [<-|[]]. apply T in D.
    cbn in I. destruct I as [[= <- ->]|[[= <- ->]|[[= <- ->]|[]]]]; eexists _, s; (split; [|exact D]); auto 8.
  - intros (cls & s & A & D). apply T in D.
    destruct A as [(-> & _ & ->)|[(-> & _ & ->)|(-> & _ & ->)]].
    + exists ("code", Some s). cbn [fst snd]. rewrite D. cbn. auto.
    + exists ("token", Some s). cbn [fst snd]. rewrite D. cbn. auto.
    + exists ("refresh", Some s). cbn [fst snd]. rewrite D. cbn. auto.
Qed.

(** A token of one opaque handler is refused by the others. *)
Lemma asked_known code token refresh kid cls s : asked_for_tokens code token refresh kid cls s -> known_class cls.
Proof. unfold known_class. intros [(_ & -> & _)|[(_ & -> & _)|(_ & -> & _)]]; vm_compute; auto 6. Qed.
Lemma no_mixing c issuer jar given code token refresh idt hs kid kid' cls cls' s s' :
  fernet_correct c -> fernet_authentic c -> base64_correct c ->
  factory issuer jar given code token refresh idt = Ok hs ->
  asked_for_tokens code token refresh kid cls s -> ts_class s = None ->
  asked_for_tokens code token refresh kid' cls' s' -> ts_class s' = None -> cls <> cls' ->
  exists pw z pw' z', dget hs cls = Some (Some (HDefault pw cls z)) /\ dget hs cls' = Some (Some (HDefault pw' cls' z')) /\
    forall rnd nonce now sid,
      let t := default_mint c pw cls z rnd nonce now sid false in
      (exists i, default_info c pw cls t = Ok i /\ ti_sid i = sid) /\
      (default_info c pw' cls' t = Raise UnknownToken \/ default_info c pw' cls' t = Raise WrongTokenClass).
Proof.
  intros F1 F2 B E A C A' C' N.
  destruct (opaque_handler _ _ _ _ _ _ _ _ _ _ _ E A C) as (pw & z & D & _).
  destruct (opaque_handler _ _ _ _ _ _ _ _ _ _ _ E A' C') as (pw' & z' & D' & _).
  exists pw, z, pw', z'. split; [exact D|]. split; [exact D'|]. intros rnd nonce now sid. cbv zeta. split.
  - destruct (default_info_reports c pw cls z rnd nonce now sid F1 B (known_nonempty _ (asked_known _ _ _ _ _ _ A)))
      as (i & I1 & I2 & _). eauto.
  - destruct (string_dec pw pw') as [->|NP].
    + right. apply default_info_other; auto; eapply asked_known; eauto.
    + left. now apply default_info_other_key.
Qed.

(** Scopes. *)
Lemma union_In l l' x : In x (union l l') <-> In x l \/ In x l'.
Proof. unfold union. rewrite nodup_In, in_app_iff. tauto. Qed.

Lemma plain_allowed e so cid x : plain_client e cid ->
  (scope_allowed (with_scopes e so) cid x <-> In x (so_allowed so)).
Proof.
  intros P. split.
  - intros [c l [_ R] A _|c m l [_ R] A B _|_ I]; [| |exact I].
    + destruct (P _ R). congruence.
    + destruct (P _ R). congruence.
  - intros I. apply sa_provider; [|exact I]. intros c [_ R]. apply (P _ R).
Qed.
Lemma plain_mapping e so cid : plain_client e cid -> mapping (with_scopes e so) cid (so_map so).
Proof. intros P. apply (mp_provider (with_scopes e so)). intros c [_ R]. apply (P _ R). Qed.
Lemma plain_claims e so cid scopes k : plain_client e cid -> so_map so <> [] ->
  (In k (dkeys (scopes_to_claims (with_scopes e so) scopes cid)) <->
   exists x names, In x scopes /\ In x (so_allowed so) /\ dget (so_map so) x = Some names /\ In k names).
Proof.
  intros P N. rewrite (scopes_to_claims_spec _ _ _ _ _ (plain_mapping e so cid P) N).
  split; intros (x & l & A & B & C); exists x, l; (split; [exact A|]); (split; [|exact C]);
    now apply (plain_allowed e so cid x P).
Qed.

Lemma dset_nonempty {V} (d : dict V) k v : dset d k v <> [].
Proof. destruct d as [|[k' v'] d]; cbn; [discriminate|]. destruct (String.eqb k k'); discriminate. Qed.
Lemma dupdate_nonempty {V} (f d : dict V) : d <> [] -> dupdate d f <> [].
Proof.
  revert d. induction f as [|[k v] f IH]; intros d N; [exact N|]. unfold dupdate. cbn [fold_left fst snd].
  apply (IH (dset d k v)). apply dset_nonempty.
Qed.
Lemma custom_map kw x : NoDup (dkeys kw) -> dget (dupdate SCOPE2CLAIMS kw) x =
  match dget kw x with Some v => Some v | None => dget SCOPE2CLAIMS x end.
Proof. intros ND. now apply dget_dupdate. Qed.

Lemma custom_allowed kw s x : In x (so_allowed (add_custom_scopes kw s)) <-> In x (so_supported s) \/ In x (dkeys kw).
Proof. apply union_In. Qed.
Lemma custom_claims e cid kw s scopes k : plain_client e cid -> NoDup (dkeys kw) ->
  (In k (dkeys (scopes_to_claims (with_scopes e (add_custom_scopes kw s)) scopes cid)) <->
   exists x names, In x scopes /\ In k names /\
     (In (x, names) kw \/ (~ In x (dkeys kw) /\ In x (so_supported s) /\ In (x, names) SCOPE2CLAIMS))).
Proof.
  intros P ND. rewrite (plain_claims _ _ _ _ _ P) by (apply dupdate_nonempty; discriminate).
  cbn [so_map add_custom_scopes]. split.
  - intros (x & l & A & B & C & D). exists x, l. split; [exact A|]. split; [exact D|].
    rewrite (custom_map _ _ ND) in C. apply custom_allowed in B. destruct (dget kw x) as [l'|] eqn:G.
    + left. injection C as ->. now apply dget_In.
    + right. assert (N : ~ In x (dkeys kw)) by (now apply dget_None_keys). split; [exact N|].
      split; [tauto|]. now apply dget_In.
  - intros (x & l & A & D & H). exists x, l. split; [exact A|]. destruct H as [H|(N & S & H)].
    + split; [apply custom_allowed; right; apply in_map_iff; exists (x, l); auto|].
      split; [|exact D]. rewrite (custom_map _ _ ND). now rewrite (In_dget _ _ _ ND H).
    + split; [apply custom_allowed; now left|]. split; [|exact D]. rewrite (custom_map _ _ ND).
      apply dget_None_keys in N. rewrite N. apply In_dget; [|exact H].
      apply (NoDup_count_occ' string_dec). intros y I. cbn in I. repeat destruct I as [<-|I]; try reflexivity. destruct I.
Qed.
Lemma custom_metadata kw s : (forall x, In x (so_supported (add_custom_scopes kw s)) <->
    In x (so_supported s) \/ In x (dkeys kw))
  /\ (forall k, In k (so_claims (add_custom_scopes kw s)) <->
    In k (so_claims s) \/ exists x names, In (x, names) kw /\ In k names).
Proof.
  split; [intros x; apply union_In|]. intros k. cbn [so_claims add_custom_scopes]. rewrite union_In.
  rewrite in_concat. split; (intros [H|H]; [now left|right]).
  - destruct H as (l & I & K). apply in_map_iff in I as ((x & l') & <- & I). exists x, l'. auto.
  - destruct H as (x & l & I & K). exists l. split; [|exact K]. apply in_map_iff. exists (x, l). auto.
Qed.

Lemma start_default mp cl : so_supported (scopes_start mp [] None cl) = so_allowed (scopes_start mp [] None cl)
  /\ (mp <> [] -> so_map (scopes_start mp [] None cl) = mp /\ so_allowed (scopes_start mp [] None cl) = dkeys mp).
Proof. split; [reflexivity|]. destruct mp; [congruence|]. auto. Qed.
Lemma start_claims mp allowed sup e cid k : plain_client e cid ->
  let s := scopes_start mp allowed sup None in
  In k (so_claims s) <-> In k (dkeys (scopes_to_claims (with_scopes e s) (so_supported s) cid)).
Proof.
  intros P s. assert (N : so_map s <> []) by (unfold s; cbn; destruct mp; discriminate).
  rewrite (plain_claims _ _ _ _ _ P N). unfold s, scopes_start. cbn [so_claims or_else so_map so_allowed so_supported].
  set (m := match mp with [] => SCOPE2CLAIMS | _ => mp end).
  assert (EM : eff_map m = m) by (unfold m; destruct mp; reflexivity).
  rewrite convert_keys, EM. clearbody m. split.
  - intros (x & l & A & B & C). apply filter_In in A as [A1 A2]. apply smem_In in A2. exists x, l. auto.
  - intros (x & l & A & B & C & D). exists x, l. split; [|auto]. apply filter_In. split; [exact A|]. now apply smem_In.
Qed.

(** The served document. *)
Lemma served_same paths info : (forall n, In n endpoint_members -> dget paths n = None) -> serve_metadata paths info = info.
Proof.
  intros H. unfold serve_metadata. generalize endpoint_members, H. clear H. intros l.
  induction l as [|n l IH]; intros H; [reflexivity|]. cbn [fold_left]. rewrite H by now left.
  apply IH. intros m I. apply H. now right.
Qed.
Lemma shipped_same paths info : (forall n, In n (dkeys paths) -> In n shipped_names) -> serve_metadata paths info = info.
Proof.
  intros H. apply served_same. intros n I. apply dget_None_keys. intros K. apply H in K.
  assert (F : existsb (fun m => smem m shipped_names) endpoint_members = false) by reflexivity.
  assert (T : existsb (fun m => smem m shipped_names) endpoint_members = true).
  { apply existsb_exists. exists n. split; [exact I|]. now apply smem_In. }
  congruence.
Qed.
