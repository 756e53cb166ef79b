(** Property theorems about cookies (C32). *)
From Verif Require Import M_Base M_Codec M_Cookie S_Codec S_Hex S_Cookie L_Base L_Cookie.

(** ** Cookies made are read back *)
Theorem C32_round_trip : forall L h now os,
  cookie_laws L -> usable h -> os <> [] ->
  (forall o, In o os -> fits h (o_value o) (o_type o) (o_time o)) ->
  exists cs, Forall2 (made_for L h now) os cs /\
    forall name, parse_cookie L h name cs =
      Ok (Some (map content_of (filter (fun o => String.eqb (o_name o) name) os))).
Proof. exact round_trip. Qed.
Print Assumptions C32_round_trip.

(** ** What is accepted is exactly what the keys vouch for *)
Theorem C32_accepted_iff : forall L h name v x,
  parse_cookie L h name [mkCookie (Some name) (Some v)] = Ok (Some [x]) <->
  exists payload, vouched L h v payload (ct_time x) /\ payload_of (ct_value x) (ct_type x) payload.
Proof. exact accepted_iff. Qed.
Print Assumptions C32_accepted_iff.

Theorem C32_parsed_is_vouched : forall L h name cs out x,
  parse_cookie L h name cs = Ok (Some out) -> In x out ->
  exists v payload, In (mkCookie (Some name) (Some v)) cs /\ vouched L h v payload (ct_time x) /\
    payload_of (ct_value x) (ct_type x) payload.
Proof. exact parsed_authentic. Qed.
Print Assumptions C32_parsed_is_vouched.

Theorem C32_other_number_of_parts : forall L h name v,
  bars v <> 2 -> bars v <> 3 ->
  parse_cookie L h name [mkCookie (Some name) (Some v)] = Ok (Some []).
Proof. exact other_parts. Qed.
Print Assumptions C32_other_number_of_parts.

(** ** With unforgeable signatures and ciphertexts *)
Theorem C32_only_what_was_made : forall L h issued name cs out x,
  sealed L h issued -> parse_cookie L h name cs = Ok (Some out) -> In x out ->
  let payload := append (ct_value x) (append "::" (ct_type x)) in
  exists p t, In (p, t) issued /\ append payload (ct_time x) = append p t /\
    (ch_sign h = None \/ String.length (ct_time x) = String.length t -> payload = p /\ ct_time x = t).
Proof. exact parsed_was_made. Qed.
Print Assumptions C32_only_what_was_made.

(** Three handlers, and cookies with two names. *)
Definition signing : handler := mkHandler (Some "s3cret") None.
Definition encrypting : handler := mkHandler None (Some "0123456789abcdef").
Definition both : handler := mkHandler (Some "s3cret") (Some "0123456789abcdef").
Definition two_orders : list order :=
  [mkOrder "oidc_op" "the session" "sso" "1600000000" "iv1"; mkOrder "oidc_op_sman" "state" "" "1600000001" "iv2"].

Lemma plain_fits : forall h, In h [signing; encrypting; both] ->
  forall o, In o two_orders -> fits h (o_value o) (o_type o) (o_time o).
Proof.
  assert (N : forall p s, contains p s = false -> ~ occurs_in p s).
  { intros p s E K. apply contains_spec in K. congruence. }
  assert (Z : forall s, rstrip (Ascii.eqb ":") s = s -> ~ ends_in ":" s).
  { intros s E1 [a Ha]. rewrite Ha in E1.
    assert (X : rstrip (Ascii.eqb ":") (append a ":") = rstrip (Ascii.eqb ":") a).
    { apply rstrip_app_all. intros c Hc. cbn in Hc. rewrite orb_false_r in Hc. now rewrite Ascii.eqb_sym. }
    rewrite X in E1. pose proof (rstrip_length (Ascii.eqb ":") a) as Ln. rewrite E1, sapp_length in Ln. cbn in Ln. lia. }
  intros h Hh o Ho.
  destruct Ho as [<-|[<-|[]]];
    (constructor; cbn [o_value o_type o_time o_name two_orders];
     [apply N; reflexivity|apply Z; reflexivity|apply N; reflexivity|intros [? ?]; discriminate
     |split; [discriminate|apply N; reflexivity]|intros _; split; apply N; reflexivity
     |intros _; apply L_Codec.rstrip_eq_iff; reflexivity]).
Qed.
Example C32_example :
  cookie_laws hex_clib /\ usable signing /\ usable encrypting /\ usable both
  /\ (forall h, In h [signing; encrypting; both] ->
      forall o, In o two_orders -> fits h (o_value o) (o_type o) (o_time o)).
Proof.
  split; [exact hex_cookie_laws|]. split; [discriminate|]. split; [left; reflexivity|]. split; [left; reflexivity|].
  exact plain_fits.
Qed.

(** A library that accepts one signature only. *)
Definition one_clib : clib := {|
  cl_sign := fun k m => append "m" m;
  cl_verify := fun k m mac => Ok (String.eqb m "the session::sso1600000000" && String.eqb mac (append "m" m));
  cl_enc := fun k iv m => (m, "tag");
  cl_dec := fun k iv ctx tag => Ok None;
  cl_b64e := hex;
  cl_b64d := fun s => match unhex s with Some x => Ok x | None => Raise ValueError end
|}.
Example C32_sealed_example :
  sealed one_clib signing [("the session::sso", "1600000000")] /\
  exists cs, Forall2 (made_for one_clib signing "1") [mkOrder "oidc_op" "the session" "sso" "1600000000" "iv1"] cs /\
    parse_cookie one_clib signing "oidc_op" cs = Ok (Some [mkContent "the session" "sso" "1600000000"]).
Proof.
  split.
  - constructor.
    + intros k msg mac _ H. cbn in H.
      destruct (String.eqb msg "the session::sso1600000000") eqn:E; [|discriminate].
      apply seqb_eq in E. exists "the session::sso", "1600000000". split; [now left|exact E].
    + discriminate.
    + intros p t [[= <- <-]|[]]. apply L_Codec.rstrip_eq_iff. reflexivity.
  - eexists. split; [constructor; [reflexivity|constructor]|]. vm_compute. reflexivity.
Qed.

(** ** What does not hold *)

(** The signature covers payload and time stamp without a border between
    them: anyone can move characters across it, without a key. *)
Theorem C32_time_stamp_bound_refuted : exists L h mac,
  cookie_laws L /\ usable h /\
  make_cookie_content L h "" "n" "v" "x1" "500" "1" = Ok (mkCookie (Some "n") (Some (append "500|v::x1|" mac))) /\
  parse_cookie L h "n" [mkCookie (Some "n") (Some (append "1500|v::x|" mac))]
    = Ok (Some [mkContent "v" "x" "1500"]).
Proof.
  exists hex_clib, signing, (hex "ms3cretv::x1500"). split; [exact hex_cookie_laws|].
  split; [discriminate|]. split; vm_compute; reflexivity.
Qed.
Print Assumptions C32_time_stamp_bound_refuted.

(** A value that ends in a colon is read back as another value. *)
Theorem C32_round_trip_every_value_refuted : exists L h c,
  cookie_laws L /\ usable h /\ make_cookie_content L h "" "n" "a:" "b" "500" "1" = Ok c /\
  parse_cookie L h "n" [c] = Ok (Some [mkContent "a" ":b" "500"]).
Proof.
  exists hex_clib, signing. eexists. split; [exact hex_cookie_laws|].
  split; [discriminate|]. split; vm_compute; reflexivity.
Qed.
Print Assumptions C32_round_trip_every_value_refuted.

(** A value with a bar makes a signed cookie that its own handler does not
    recognise, or cannot read at all. *)
Theorem C32_round_trip_bar_refuted : exists L h c c',
  cookie_laws L /\ usable h /\
  make_cookie_content L h "" "n" "a|b|c" "t" "500" "1" = Ok c /\ parse_cookie L h "n" [c] = Ok (Some []) /\
  make_cookie_content L h "" "n" "a|b" "t" "500" "1" = Ok c' /\ parse_cookie L h "n" [c'] = Raise ValueError.
Proof.
  exists hex_clib, signing. eexists _, _. split; [exact hex_cookie_laws|].
  split; [discriminate|]. split; [vm_compute; reflexivity|]. split; [vm_compute; reflexivity|].
  split; vm_compute; reflexivity.
Qed.
Print Assumptions C32_round_trip_bar_refuted.

(** One forged cookie of the same name hides the genuine one: reading raises. *)
Theorem C32_forged_cookie_skipped_refuted : exists L h good bad e,
  cookie_laws L /\ usable h /\ make_cookie_content L h "" "n" "v" "t" "500" "1" = Ok good /\
  parse_cookie L h "n" [good] = Ok (Some [mkContent "v" "t" "500"]) /\
  parse_cookie L h "n" [good; bad] = Raise e.
Proof.
  exists hex_clib, signing. eexists. exists (mkCookie (Some "n") (Some "500|v::t|aa")). eexists.
  split; [exact hex_cookie_laws|].
  split; [discriminate|]. split; [vm_compute; reflexivity|]. split; vm_compute; reflexivity.
Qed.
Print Assumptions C32_forged_cookie_skipped_refuted.

(** A handler without any key makes cookies that it cannot read. *)
Theorem C32_no_key_refuted : exists L c,
  cookie_laws L /\ make_cookie_content L (mkHandler None None) "" "n" "v" "t" "500" "1" = Ok c /\
  parse_cookie L (mkHandler None None) "n" [c] = Raise AttributeError.
Proof.
  exists hex_clib. eexists. split; [exact hex_cookie_laws|]. split; vm_compute; reflexivity.
Qed.
Print Assumptions C32_no_key_refuted.
