(** The concrete provider of S_Hex satisfies the laws. *)
From Verif Require Import M_Base M_Types M_Codec M_Grant M_Env M_Session M_Claims M_Handler
  M_Authz M_TokenEP M_PKCE M_AuthzEP M_Info M_Logout M_History S_Codec S_Toy S_History S_Hex
  L_Base L_Codec.

Lemma hex_value_digit n : n < 16 -> hex_value (hex_digit n) = Some n.
Proof. intros H. do 16 (destruct n as [|n]; [reflexivity|]). lia. Qed.
Lemma hex_div c : Nat.div (nat_of_ascii c) 16 < 16.
Proof.
  apply Nat.div_lt_upper_bound; [lia|]. pose proof (nat_ascii_bounded c). lia.
Qed.
Lemma unhex_hex s : unhex (hex s) = Some s.
Proof.
  induction s as [|c s IH]; [reflexivity|]. cbn [hex unhex].
  rewrite !hex_value_digit, IH by (apply hex_div || (apply Nat.mod_upper_bound; lia)).
  f_equal. f_equal. rewrite Nat.mul_comm, <- Nat.div_mod by lia. apply ascii_nat_embedding.
Qed.

(** The characters of hexadecimal text. *)
Fixpoint all_hex (s : string) : Prop :=
  match s with EmptyString => True | String c r => hex_value c <> None /\ all_hex r end.
Lemma unhex_all n : forall s x, String.length s <= n -> unhex s = Some x -> all_hex s.
Proof.
  induction n as [|n IH]; intros s x L H.
  - destruct s; cbn in *; [auto|lia].
  - destruct s as [|a [|b r]]; cbn in *; auto; [discriminate|].
    destruct (hex_value a), (hex_value b); try discriminate.
    destruct (unhex r) eqn:E; [|discriminate].
    split; [congruence|]. split; [congruence|]. eapply (IH r); [lia|exact E].
Qed.
Lemma hex_occurs c s : hex_value c = None -> all_hex s -> forall p, occurs_in (String c p) s -> False.
Proof.
  intros N A p (a & b & ->). induction a as [|x a IH]; cbn in A.
  - destruct A. congruence.
  - apply IH, A.
Qed.
Lemma digit_no_occurs c s p : digit_val c = None -> all_digits s -> ~ occurs_in (String c p) s.
Proof.
  intros N A (a & b & ->). induction a as [|x a IH]; cbn in A.
  - destruct A as [[d D] _]. congruence.
  - apply IH, A.
Qed.

Lemma hex_uuid n : good_id (append "u" (show_N (N.of_nat n)))
  /\ ~ ends_in_white_space (append "u" (show_N (N.of_nat n))).
Proof.
  pose proof (show_N_digits (N.of_nat n)) as D. set (s := show_N (N.of_nat n)) in *.
  split; [split; [discriminate|split]|].
  - intros (a & b & E). destruct a as [|x a]; cbn in E; [discriminate|]. injection E as _ E.
    apply (digit_no_occurs ";" s ";" eq_refl D). exists a, b. exact E.
  - intros (a & E). destruct a as [|x a]; cbn in E; [discriminate|]. injection E as _ E.
    apply (digit_no_occurs ";" s "" eq_refl D). exists a, "". exact E.
  - rewrite <- rstrip_eq_iff. cbn [append rstrip]. rewrite all_digits_rstrip by exact D.
    destruct s; reflexivity.
Qed.

Lemma hex_made oidc rot n v : made (hex_env oidc rot) n v ->
  (exists pw text, v = hex (lv_pack [pw; show_N (N.of_nat n); text])) \/ v = append "J" (show_N (N.of_nat n)).
Proof.
  intros [(pw & text & ->)|(alg & p & E)]; cbn [hex_env e_crypto hex_crypto b64e fenc e_sign toy_env] in *.
  - left. eauto.
  - right. congruence.
Qed.
Lemma hex_inj a b : hex a = hex b -> a = b.
Proof. intros H. apply (f_equal unhex) in H. rewrite !unhex_hex in H. congruence. Qed.
Lemma hex_not_J s r : hex s <> String "J" r.
Proof.
  destruct s as [|c s]; cbn [hex]; [discriminate|]. intros E.
  pose proof (hex_value_digit _ (hex_div c)) as H.
  assert (hex_digit (Nat.div (nat_of_ascii c) 16) = "J"%char) as X by congruence.
  rewrite X in H. discriminate.
Qed.

Lemma hex_laws oidc rot : laws (hex_env oidc rot).
Proof.
  constructor.
  - intros key nonce text. cbn [hex_env e_crypto hex_crypto fdec fenc].
    change [key; show_N (N.of_nat nonce); text] with ([key; show_N (N.of_nat nonce)] ++ [text]).
    rewrite lv_loop_pack_exact. cbn [app]. now rewrite seqb_refl.
  - intros s. apply unhex_hex.
  - intros s x H. cbn [hex_env e_crypto hex_crypto b64d] in H. apply (unhex_all _ _ _ (le_n _)) in H.
    intros K. eapply (hex_occurs ";" s); [reflexivity|exact H|exact K].
  - intros n m H. cbn [hex_env e_uuid toy_env] in H. apply sapp_inj_l in H. apply show_N_inj in H. lia.
  - intros n. apply hex_uuid.
  - intros n m v A B. apply hex_made in A as [(p & t & A)|A]; apply hex_made in B as [(p' & t' & B)|B]; subst v.
    + apply hex_inj, lv_pack_inj in B. injection B as _ B _. apply show_N_inj in B. lia.
    + exfalso. eapply hex_not_J. exact B.
    + exfalso. eapply hex_not_J. symmetry. exact B.
    + apply sapp_inj_l in B. apply show_N_inj in B. lia.
  - intros n v A. apply hex_made in A as [(p & t & ->)| ->].
    + split.
      * intros E. apply (f_equal unhex) in E. rewrite unhex_hex in E. cbn [unhex lv_pack] in E.
        injection E as E. pose proof (show_N_ne (N.of_nat (String.length p))).
        destruct (show_N (N.of_nat (String.length p))); [congruence|discriminate].
      * intros K. eapply (hex_occurs " "); [reflexivity| |exact K].
        eapply unhex_all; [apply le_n|apply unhex_hex].
    + split; [discriminate|]. intros (a & b & E). destruct a as [|x a]; cbn in E; [discriminate|].
      injection E as _ E. eapply (digit_no_occurs " " _ "" eq_refl (show_N_digits (N.of_nat n))).
      exists a, b. exact E.
Qed.

(** A run of [play] is a run of its calls. *)
Lemma play_exec e fs : forall h evs ops evs' h', play e h evs fs = (ops, (evs', h')) ->
  exists r, exec e h ops = (r, h') /\ evs' = evs ++ r.
Proof.
  induction fs as [|f fs IH]; intros h evs ops evs' h' H; cbn in H.
  - injection H as <- <- <-. exists []. cbn. now rewrite app_nil_r.
  - destruct (step e h (f evs)) as [ev h1] eqn:Es.
    destruct (play e h1 (evs ++ [ev]) fs) as [ops' [a b]] eqn:Ep. injection H as <- <- <-.
    apply IH in Ep as (r & E & ->). exists (ev :: r). cbn. rewrite Es, E. split; auto.
    now rewrite <- app_assoc.
Qed.

Lemma plain_good x : plain_id x = true -> good_id x.
Proof.
  unfold plain_id. intros H. apply andb_true_iff in H as [H1 H2]. apply negb_true_iff in H2.
  assert (forall a b, x <> append a (append ";" b)) as K.
  { intros a b ->. clear H1. induction a as [|c a IH]; cbn in H2; [discriminate|].
    apply IH. destruct (Ascii.eqb c ";"); [discriminate|exact H2]. }
  split; [intros ->; discriminate|]. split.
  - intros (a & b & E). apply (K a (append ";" b)). exact E.
  - intros (a & E). apply (K a ""). exact E.
Qed.
Lemma plain_proper e o : plain_call o = true -> proper e o.
Proof.
  destruct o; cbn; auto.
  - intros H. apply andb_true_iff in H as [H1 H2]. split; [now apply plain_good|].
    destruct ans as [|u [sid|]]; auto; [discriminate|]. split; [now apply plain_good|]. discriminate.
  - intros H. apply andb_true_iff in H as [H1 H2]. split; now apply plain_good.
Qed.
Lemma play_history e fs ops evs h : play e (h_init []) [] fs = (ops, (evs, h)) ->
  forallb plain_call ops = true -> history e ops evs h.
Proof.
  intros P F. apply play_exec in P as (r & E & ->). split.
  - apply Forall_forall. intros o I. apply plain_proper. rewrite forallb_forall in F. auto.
  - exists []. exact E.
Qed.
Definition run_ops (e : env) (fs : list (list event -> op)) := fst (play e (h_init []) [] fs).
Definition run_evs (e : env) (fs : list (list event -> op)) := fst (snd (play e (h_init []) [] fs)).
Definition run_end (e : env) (fs : list (list event -> op)) := snd (snd (play e (h_init []) [] fs)).
Lemma run_history e fs : forallb plain_call (run_ops e fs) = true ->
  history e (run_ops e fs) (run_evs e fs) (run_end e fs).
Proof.
  unfold run_ops, run_evs, run_end. destruct (play e (h_init []) [] fs) as [ops [evs h]] eqn:E.
  cbn. intros F. eapply play_history; eauto.
Qed.

(** Checks that decide parts of the vocabulary in a concrete state. *)
Definition in_grant_b (g : grant) (v tc : string) : bool :=
  existsb (fun t => String.eqb (t_value t) v && String.eqb (t_class t) tc) (g_tokens g).
Lemma in_grant_check : forall g v tc, in_grant_b g v tc = true -> in_grant g v tc.
Proof.
  intros g v tc H. apply existsb_exists in H. destruct H as (t & I & H).
  apply andb_true_iff in H. destruct H as [A B]. apply String.eqb_eq in A, B. exists t. auto.
Qed.
Definition drawn_from_b (g : grant) (p v tc : string) : bool :=
  existsb (fun t => String.eqb (t_value t) v && String.eqb (t_class t) tc
                    && match t_based t with Some b => String.eqb b p | None => false end) (g_tokens g).
Lemma drawn_from_check : forall g p v tc, drawn_from_b g p v tc = true -> drawn_from g p v tc.
Proof.
  intros g p v tc H. apply existsb_exists in H. destruct H as (t & I & H).
  apply andb_true_iff in H. destruct H as [H C]. apply andb_true_iff in H. destruct H as [A B].
  apply String.eqb_eq in A, B. exists t. destruct (t_based t) as [b|] eqn:E; [|discriminate].
  apply String.eqb_eq in C. subst. auto.
Qed.
