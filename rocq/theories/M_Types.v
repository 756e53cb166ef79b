(** Data shared by the session model: JSON values, claims requests,
    authorization requests and authentication events. *)
From Verif Require Import M_Base.

(** ** JSON values, as user claims and claim requests hold them.
    Simplification: objects compare as ordered association lists
    ([jval_eqb]); Python compares dicts without regard to order, and Python's
    [1 == True] is not modelled. *)
Inductive jval : Type :=
| JNull
| JBool (b : bool)
| JInt (z : Z)
| JStr (s : string)
| JList (l : list jval)
| JObj (l : list (string * jval)).

Fixpoint jval_eqb (a b : jval) {struct a} : bool :=
  match a, b with
  | JNull, JNull => true
  | JBool x, JBool y => Bool.eqb x y
  | JInt x, JInt y => Z.eqb x y
  | JStr x, JStr y => String.eqb x y
  | JList x, JList y =>
      (fix go (x y : list jval) : bool :=
         match x, y with
         | [], [] => true
         | u :: x', v :: y' => jval_eqb u v && go x' y'
         | _, _ => false
         end) x y
  | JObj x, JObj y =>
      (fix go (x y : list (string * jval)) : bool :=
         match x, y with
         | [], [] => true
         | (ku, u) :: x', (kv, v) :: y' =>
             String.eqb ku kv && jval_eqb u v && go x' y'
         | _, _ => false
         end) x y
  | _, _ => false
  end.

(** A claim specification: [None] (null) or an object with members such as
    essential, value, values; OIDC core 5.5.1, read by
    src/oidcop/session/claims.py 223-260. *)
Definition cspec : Type := option (dict jval).

(** Release point -> claim name -> specification. *)
Definition claims_map : Type := dict (dict cspec).

(** ** Authentication events: src/oidcop/authn_event.py 19-51
    (members uid, authn_info, authn_time, valid_until). *)
Record aevent : Type := mk_aevent {
  ae_uid : string;
  ae_authn_info : string;
  ae_authn_time : Z;
  ae_valid_until : Z
}.

(** ** Authorization requests (oidcmsg's AuthorizationRequest, an external
    class): the members the modelled code reads. [ar_scope] and
    [ar_response_type] are the already split lists. Any other member is in
    [ar_other]. *)
Record areq : Type := mk_areq {
  ar_client_id : string;
  ar_redirect_uri : option string;
  ar_response_type : list string;
  ar_scope : option (list string);
  ar_state : option string;
  ar_nonce : option string;
  ar_code_challenge : option string;
  ar_code_challenge_method : option string;
  ar_claims : option claims_map;
  ar_sector : string;
  ar_prompt : option (list string);
  ar_max_age : option Z;
  ar_response_mode : option string;
  ar_other : dict string
}.
