(** The toy signature scheme obeys the law assumed of JWS. *)
From Coq Require Import Lia.
From Verif Require Import M_Base M_Types M_Codec M_Grant M_Env S_Codec S_Toy S_Jws S_Handler.
From Verif Require Import M_Handler L_Base L_Codec L_Claims.

Lemma lv_loop_pack l : lv_loop (String.length (lv_pack l)) (lv_pack l) = Ok l.
Proof.
  destruct (list_last_case l) as [->|[i [a ->]]]; [reflexivity|].
  pose proof (lv_loop_pack_cut i a a (String.length (lv_pack (i ++ [a])))) as L.
  rewrite lv_pack_app in L |- *. cbn [lv_pack] in L |- *. rewrite sapp_nil_r in L |- *.
  apply L; [exists ""; now rewrite sapp_nil_r|lia].
Qed.

Lemma lv_pack_length x l : In x l -> String.length x < String.length (lv_pack l).
Proof.
  induction l as [|a l IH]; [intros []|].
  cbn [lv_pack]. rewrite sapp_length. cbn [String.length]. rewrite sapp_length.
  intros [->|H]; [lia|]. specialize (IH H). lia.
Qed.

Lemma parse_ser v : forall fuel, String.length (ser v) < fuel -> parse fuel (ser v) = Some v.
Proof.
  induction v as [|b|z|s|l IH|l IH] using jval_ind'; intros fuel Hf;
    destruct fuel as [|f]; try lia; cbn [ser parse].
  - reflexivity.
  - destruct b; reflexivity.
  - cbn [Ascii.eqb Bool.eqb]. now rewrite py_int_show_Z.
  - reflexivity.
  - cbn [Ascii.eqb Bool.eqb]. rewrite lv_loop_pack.
    cbn [ser String.length] in Hf.
    assert (Hl : forall x, In x l -> parse f (ser x) = Some x).
    { intros x Hx. rewrite Forall_forall in IH. apply IH; [assumption|].
      pose proof (lv_pack_length (ser x) (map ser l) (in_map ser l x Hx)). lia. }
    clear Hf IH. assert (all_some (map (parse f) (map ser l)) = Some l) as ->; [|reflexivity].
    induction l as [|x l IH]; [reflexivity|]. cbn [map all_some].
    rewrite (Hl x (or_introl eq_refl)). rewrite IH; [reflexivity|].
    intros y Hy. apply Hl. now right.
  - cbn [Ascii.eqb Bool.eqb]. rewrite lv_loop_pack.
    cbn [ser String.length] in Hf.
    assert (Hl : forall k x, In (k, x) l -> parse f (ser x) = Some x).
    { intros k x Hx. rewrite Forall_forall in IH. apply (IH (k, x)); [assumption|].
      match type of Hf with context [lv_pack ?L] =>
        assert (Hin : In (ser x) L) end.
      { apply in_flat_map. exists (k, x). split; [assumption|]. right. now left. }
      apply lv_pack_length in Hin. cbn [snd]. lia. }
    clear Hf IH.
    match goal with |- context [pairs _ ?L] => assert (pairs (parse f) L = Some l) as -> end;
      [|reflexivity].
    induction l as [|[k x] l IH]; [reflexivity|]. cbn [flat_map app pairs].
    rewrite (Hl k x (or_introl eq_refl)). rewrite IH; [reflexivity|].
    intros k' y Hy. apply (Hl k'). now right.
Qed.

Lemma toy_open_sign alg n p tok : toy_sign alg n p = Ok tok -> toy_open tok = Some (alg, p).
Proof.
  unfold toy_sign. intros H.
  assert (tok = lv_pack [alg; show_N (N.of_nat n); ser (JObj p)]) as -> by congruence.
  unfold toy_open. rewrite lv_loop_pack. rewrite parse_ser by lia. reflexivity.
Qed.

Lemma toy_jws_correct e h : jws_correct (with_jws e h).
Proof.
  intros alg n p tok H. cbn [with_jws e_sign e_verify] in *. apply toy_open_sign in H.
  unfold toy_verify. rewrite H.
  assert (smem alg [alg] = true) as -> by (apply smem_In; now left). reflexivity.
Qed.
