(** C20: usage rules. *)
From Verif Require Import M_Base M_Types M_Grant M_Env M_Claims M_Authz M_Rules S_Rules L_Base L_Claims L_Rules.

(** A concrete memory: the global table at 2, the table of client "c" at 6,
    DEFAULT_USAGE at 8, the rules of a grant at 10. *)
Definition ex_mem : mem :=
  [ CFields [("expires_in", "300"); ("max_usage", "1")]; CFields [("expires_in", "3600")];
    CTable [("authorization_code", 0); ("access_token", 1)];
    CFields [("expires_in", "60")]; CFields []; CFields [("expires_in", "9")];
    CTable [("authorization_code", 3); ("access_token", 4); ("refresh_token", 5)];
    CFields [("expires_in", "3600")]; CTable [("refresh_token", 7)];
    CFields [("expires_in", "1")]; CTable [("refresh_token", 9)] ].
Definition ex_conf : rconf := mk_rconf (Some 2) [("c", 6)] 8.
Definition ex_noglob : rconf := mk_rconf None [("c", 6)] 8.

Definition tab (s : mem) (l : nat) : rtable := fun tc =>
  match nth_error s l with
  | Some (CTable d) => match dget d tc with
                       | Some x => match nth_error s x with Some (CFields f) => Some (fun k => dget f k) | _ => None end
                       | None => None end
  | _ => None end.

(** For every token class and every member, the rules for a client are the
    client's own where it has some, else the global ones; an explicitly empty
    entry of the client clears the class; a client without own rules has the
    global ones. *)
Theorem C20_field_by_field C s G c o :
  global_table C s G -> client_table C s c o -> c <> "" ->
  exists u s' T, ask_rules C c s = (Ok u, s') /\ holds_table s' u T
    /\ forall tc, merged (G tc) (match o with Some P => P tc | None => None end) (T tc).
Proof. exact (ask_ok C s G c o). Qed.
Print Assumptions C20_field_by_field.

Example C20_field_by_field_ex :
  global_table ex_conf ex_mem (tab ex_mem 2) /\ client_table ex_conf ex_mem "c" (Some (tab ex_mem 6))
  /\ exists u s', ask_rules ex_conf "c" ex_mem = (Ok u, s')
     /\ exists code acc ref, tab s' u "authorization_code" = Some code /\ tab s' u "access_token" = Some acc
     /\ tab s' u "refresh_token" = Some ref
     /\ code "expires_in" = Some "60" /\ code "max_usage" = Some "1" /\ acc "expires_in" = None
     /\ ref "expires_in" = Some "9".
Proof.
  assert (forall l d, nth_error ex_mem l = Some (CTable d) -> NoDup (dkeys d) ->
     (forall k x, dget d k = Some x -> exists f, nth_error ex_mem x = Some (CFields f) /\ NoDup (dkeys f)) ->
     holds_table ex_mem l (tab ex_mem l)) as H.
  { intros l d E N F. exists d. split; auto. split; auto. intros tc. unfold tab. rewrite E.
    destruct (dget d tc) as [x|] eqn:D; auto. destruct (F _ _ D) as (f & Ef & Nf). rewrite Ef. exists f. auto. }
  split; [|split].
  - apply (H 2 _ eq_refl); [repeat constructor; cbn; intuition discriminate|].
    intros k x D. apply dget_In in D as [D|[D|[]]]; injection D as <- <-; eexists; (split; [reflexivity|]);
    repeat constructor; cbn; intuition discriminate.
  - apply (H 6 _ eq_refl); [repeat constructor; cbn; intuition discriminate|].
    intros k x D. apply dget_In in D as [D|[D|[D|[]]]]; injection D as <- <-; eexists; (split; [reflexivity|]);
    repeat constructor; cbn; intuition discriminate.
  - repeat eexists; vm_compute; reflexivity.
Qed.

(** Without a client, the rules are the global ones. *)
Theorem C20_no_client C s G :
  global_table C s G -> exists u s', ask_rules C "" s = (Ok u, s') /\ holds_table s' u G.
Proof. exact (ask_global C s G). Qed.
Print Assumptions C20_no_client.

(** Asking, for whatever client and with whatever outcome, changes no dict that
    was there before. *)
Theorem C20_asking_changes_nothing C c s r s' :
  ask_rules C c s = (r, s') -> forall l x, nth_error s l = Some x -> nth_error s' l = Some x.
Proof. exact (ask_kept C c s r s'). Qed.
Print Assumptions C20_asking_changes_nothing.

(** So the rules of one client are the same, whether or not those of another
    were asked for before. *)
Theorem C20_no_leak C s G c o c' r s1 :
  global_table C s G -> client_table C s c o -> c <> "" -> ask_rules C c' s = (r, s1) ->
  exists u s' T, ask_rules C c s1 = (Ok u, s') /\ holds_table s' u T
    /\ forall tc, merged (G tc) (match o with Some P => P tc | None => None end) (T tc).
Proof.
  intros HG HC Nc E. pose proof (ask_kept C c' s r s1 E) as K.
  exact (ask_ok C s1 G c o (global_kept _ _ _ _ K HG) (client_kept _ _ _ _ _ K HC) Nc).
Qed.
Print Assumptions C20_no_leak.

(** The function of M_Authz, which the histories use, computes the same. *)
Theorem C20_rules_of_histories glob clients cid c per tc :
  cid <> "" -> dget clients cid = Some c -> c_rules c = Some per ->
  dget (usage_rules glob clients cid) tc =
  match dget per tc, dget (match glob with Some g => g | None => [] end) tc with
  | None, g => g
  | Some p, g => Some (if rule_true p then rule_update (match g with Some g => g | None => empty_rule end) p
                       else empty_rule)
  end.
Proof.
  intros Nc D R. unfold usage_rules. assert (str_true cid = true) as -> by (destruct cid; auto; congruence). cbn [negb].
  rewrite D, R. set (G := match glob with Some g => g | None => [] end).
  assert (forall p, Some p = Some (if rule_true p then rule_update empty_rule p else empty_rule)) as Id.
  { intros [[m|] [x|] [y|]]; reflexivity. }
  assert (forall (l acc : dict rule), dget (fold_left (fun acc kr => if dmem acc (fst kr) then acc else dset acc (fst kr) (snd kr)) l acc) tc
    = match dget acc tc with Some x => Some x | None => dget l tc end) as F.
  { induction l as [|[k r] l IH]; intros acc; cbn; [now destruct (dget acc tc)|]. rewrite IH. destruct (dmem acc k) eqn:M.
    - destruct (String.eqb tc k) eqn:E; [|reflexivity]. apply seqb_eq in E. subst. apply dmem_true in M as (v & ->). reflexivity.
    - rewrite dget_dset. destruct (String.eqb tc k) eqn:E; [|reflexivity]. apply seqb_eq in E. subst.
      apply dmem_false in M. now rewrite M. }
  assert (dget (merge_rules G per) tc = match dget per tc, dget G tc with
    | None, g => g
    | Some p, g => Some (if rule_true p then rule_update (match g with Some g => g | None => empty_rule end) p else empty_rule) end) as K.
  { unfold merge_rules. rewrite F.
    assert (forall g : dict rule, dget (map (fun kr => (fst kr, merge_rule (dget per (fst kr)) (snd kr))) g) tc
      = match dget g tc with Some x => Some (merge_rule (dget per tc) x) | None => None end) as ->.
    { induction g as [|[k x] g IH]; cbn; [reflexivity|]. destruct (String.eqb tc k) eqn:E; [|exact IH].
      apply seqb_eq in E. now subst. }
    destruct (dget G tc) as [x|]; [destruct (dget per tc) as [p|]; reflexivity|].
    destruct (dget per tc) as [p|]; [apply Id|reflexivity]. }
  destruct G as [|kr G]; [|exact K]. cbn. destruct (dget per tc) as [p|]; [apply Id|reflexivity].
Qed.
Print Assumptions C20_rules_of_histories.

(** "What is done with the answer for one client does not change the configured
    rules" is false: the answer may be the client's own dict. *)
Theorem C20_answer_is_a_copy_refuted :
  exists C s u s', ask_rules C "c" s = (Ok u, s') /\ dget (rc_clients C) "c" = Some u.
Proof. exists ex_noglob, ex_mem, 6. eexists. vm_compute. split; reflexivity. Qed.
Print Assumptions C20_answer_is_a_copy_refuted.

(** "Asking for the rules of one client and grant does not change those of
    another client" is false of get_usage_rules, which writes the rules of the
    grant into the defaults: here client "a" is asked for between two questions
    about "b", neither has own rules, and the grant of "b" has none. *)
Theorem C20_get_usage_rules_no_leak_refuted :
  exists C s gr gb l1 s1 s2 l2 l3 s3 f1 f3,
    get_usage_rules C "refresh_token" gb "b" s = (Ok l1, s1) /\ nth_error s1 l1 = Some (CFields f1)
    /\ get_usage_rules C "refresh_token" gr "a" s1 = (Ok l2, s2)
    /\ get_usage_rules C "refresh_token" gb "b" s2 = (Ok l3, s3) /\ nth_error s3 l3 = Some (CFields f3)
    /\ dget f1 "expires_in" = Some "3600" /\ dget f3 "expires_in" = Some "1".
Proof.
  exists ex_conf, (ex_mem ++ [CTable []]), 10, 11. repeat eexists; vm_compute; reflexivity.
Qed.
Print Assumptions C20_get_usage_rules_no_leak_refuted.
