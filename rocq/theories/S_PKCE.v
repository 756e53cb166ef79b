(** Specification vocabulary for PKCE. *)
From Verif Require Import M_Base M_Types M_Env M_TokenEP M_PKCE M_History S_History.

(** The verifier [v] matches the challenge [ch] under the method [m]. *)
Definition matches (e : env) (m v ch : string) : Prop :=
  (m = "plain" /\ v = ch)
  \/ ((m = "S256" \/ m = "S384" \/ m = "S512") /\ e_cc_hash e m v = Ok ch).

(** PKCE is essential for a client with the setting [own], if any. *)
Definition essential (p : pkce_conf) (own : option bool) : Prop :=
  own = Some true \/ (own = None /\ pk_essential p = Some true).

(** The request [ar'] is [ar], except for the challenge method: an absent one
    became "plain". *)
Definition same_but_method (ar ar' : areq) : Prop :=
  ar_client_id ar' = ar_client_id ar /\ ar_redirect_uri ar' = ar_redirect_uri ar
  /\ ar_response_type ar' = ar_response_type ar /\ ar_scope ar' = ar_scope ar
  /\ ar_state ar' = ar_state ar /\ ar_nonce ar' = ar_nonce ar
  /\ ar_code_challenge ar' = ar_code_challenge ar /\ ar_claims ar' = ar_claims ar
  /\ ar_prompt ar' = ar_prompt ar /\ ar_max_age ar' = ar_max_age ar
  /\ ar_response_mode ar' = ar_response_mode ar /\ ar_other ar' = ar_other ar
  /\ ar_code_challenge_method ar' = Some (match ar_code_challenge_method ar with
                                          | Some m => m | None => "plain" end).

(** Every authorization call of [ops] is for a request that the PKCE add-on
    accepted; [own c] is the setting of the client [c]. *)
Definition checked_by (p : pkce_conf) (own : string -> option bool) (ops : list op) : Prop :=
  forall o ar, In o ops -> authorizes o ar ->
    exists ar0, post_authn_parse p (own (ar_client_id ar0)) ar0 = Good ar.
