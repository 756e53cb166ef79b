(** Property theorems about the choice of the authentication method (C37). *)
From Verif Require Import M_Base M_Uri M_Broker S_Broker L_Base L_Broker.

(** ** The method satisfies the request *)

(** With several methods, and whatever was registered and removed before: the
    method is the first one registered for the first class asked for that has
    any; and there is none exactly if no method is registered for any of the
    classes. *)
Theorem C37_first_class_with_a_method : forall ops hints q acrs,
  tidy ops -> asks hints q acrs -> List.length (methods ops) <> 1 -> acrs <> [] ->
  (forall x, pick_auth (after ops) hints q = Ok (Some x) <-> best (methods ops) acrs x) /\
  (pick_auth (after ops) hints q = Ok None <->
     forall p a, In p (methods ops) -> In a acrs -> mi_acr (snd p) <> a).
Proof. exact pick_auth_spec. Qed.
Print Assumptions C37_first_class_with_a_method.

(** If no class is asked for, or there is only one method, the oldest is used. *)
Theorem C37_default : forall ops hints q,
  tidy ops -> (List.length (methods ops) = 1 \/ asks hints q []) ->
  pick_auth (after ops) hints q = Ok (match methods ops with [] => None | (_, x) :: _ => Some x end).
Proof. exact default_spec. Qed.
Print Assumptions C37_default.

(** The authorization endpoint goes on only with such a method. *)
Theorem C37_endpoint : forall ops hints q x,
  tidy ops -> choose (after ops) hints None None q = Ok x ->
  (exists acrs, asks hints q acrs /\ acrs <> [] /\ best (methods ops) acrs x) \/
  ((List.length (methods ops) = 1 \/ asks hints q []) /\ exists k l, methods ops = (k, x) :: l).
Proof. exact choose_spec. Qed.
Print Assumptions C37_endpoint.

Definition demo_methods : list bop :=
  [BSet "anon" (Some "unspecified") (Some "NoAuthn"); BSet "user" (Some "password") (Some "UserPass");
   BSet "old" (Some "token") (Some "Old"); BDel "old"; BSet "tok" (Some "token") (Some "Token")].
Definition ask_values (l : list string) : brq := mkBrq (Some l) None None None.
Example C37_example :
  tidy demo_methods /\ asks None (ask_values ["gold"; "token"; "password"]) ["gold"; "token"; "password"] /\
  choose (after demo_methods) None None None (ask_values ["gold"; "token"; "password"]) = Ok (mkMinfo "token" "Token") /\
  choose (after demo_methods) None None None (ask_values ["gold"]) = Raise KeyError /\
  choose (after demo_methods) None None None (mkBrq None None None None) = Ok (mkMinfo "unspecified" "NoAuthn") /\
  choose (after demo_methods) None None None (mkBrq None (Some (AcrObj None (Some ["x"; "password"]))) None None) =
    Ok (mkMinfo "password" "UserPass").
Proof.
  split; [cbn; intuition discriminate|]. split; [now apply asks_values|]. vm_compute. repeat split; reflexivity.
Qed.

(** A single method is used even for a class it is not registered for. *)
Theorem C37_single_method_refuted : exists ops q x,
  tidy ops /\ asks None q ["gold"] /\ choose (after ops) None None None q = Ok x /\ mi_acr x <> "gold".
Proof.
  exists [BSet "user" (Some "password") (Some "UserPass")], (ask_values ["gold"]), (mkMinfo "password" "UserPass").
  split; [cbn; tauto|]. split; [now apply asks_values|]. split; [vm_compute; reflexivity|discriminate].
Qed.
Print Assumptions C37_single_method_refuted.

(** A request that asks for some ID-token claim, but not for acr, gets no method
    at all if there are several. *)
Theorem C37_other_claims_refuted : exists ops q,
  tidy ops /\ bq_acr_values q = None /\ bq_claims q = Some AcrNull /\ List.length (methods ops) = 3 /\
  pick_auth (after ops) None q = Raise TypeError /\ choose (after ops) None None None q = Raise KeyError.
Proof.
  exists demo_methods, (mkBrq None (Some AcrNull) None None).
  split; [cbn; intuition discriminate|]. vm_compute. repeat split; reflexivity.
Qed.
Print Assumptions C37_other_claims_refuted.

(** A class given by the server's own caller never yields a method. *)
Theorem C37_given_class_refuted : exists ops acr q x,
  tidy ops /\ pick (after ops) acr = Ok [x] /\ mi_acr x = acr /\
  choose (after ops) None (Some acr) None q = Raise TypeError.
Proof.
  exists demo_methods, "password", (mkBrq None None None None), (mkMinfo "password" "UserPass").
  split; [cbn; intuition discriminate|]. vm_compute. repeat split; reflexivity.
Qed.
Print Assumptions C37_given_class_refuted.

(** Registering a key again while it is in use leaves the old class behind:
    a method that is not registered for the class is picked. *)
Theorem C37_reused_key_refuted : exists ops q x,
  asks None q ["password"] /\ pick_auth (after ops) None q = Ok (Some x) /\ mi_acr x <> "password".
Proof.
  exists [BSet "user" (Some "password") (Some "UserPass"); BSet "tok" (Some "token") (Some "Token");
          BSet "user" (Some "none") (Some "NoAuthn")], (ask_values ["password"]), (mkMinfo "none" "NoAuthn").
  split; [now apply asks_values|]. split; [vm_compute; reflexivity|discriminate].
Qed.
Print Assumptions C37_reused_key_refuted.
