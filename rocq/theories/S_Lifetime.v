(** Specification vocabulary for how long tokens live. *)
From Verif Require Import M_Base M_Types M_Codec M_Grant M_Env M_Session M_Handler M_Authz M_TokenEP M_AuthzEP
  M_History S_History.

(** The seconds a token lives, given the usage rule for its class: what the rule
    says as "expires_in", where 0 and nothing mean for ever. Without a rule, or
    with an empty one, it is [dflt]. *)
Inductive rule_lifetime (dflt : option Z) : option rule -> option Z -> Prop :=
| life_no_rule : rule_lifetime dflt None dflt
| life_empty_rule : rule_lifetime dflt (Some (mk_rule None None None)) dflt
| life_for_ever m x y : (m <> None \/ x <> None \/ y <> None) -> (y = None \/ y = Some 0%Z) ->
    rule_lifetime dflt (Some (mk_rule m x y)) None
| life_given m x y : y <> 0%Z -> rule_lifetime dflt (Some (mk_rule m x (Some y))) (Some y).

(** [t] expires [x] seconds after it was issued; an expiry of 0 is none. *)
Definition expires_after (t : token) (x : option Z) : Prop :=
  match x with Some x => t_exp t = (t_issued t + x)%Z | None => t_exp t = 0%Z end.

(** What the token endpoint gives a token it has no rule for: half an hour. *)
Definition half_an_hour : option Z := Some 1800%Z.

(** [t], whose class has the rule [r], lives as long as the rule says. A token
    that is made from no other comes from the authorization endpoint. *)
Definition lives_by (r : option rule) (t : token) : Prop :=
  exists x, expires_after t x
    /\ rule_lifetime (match t_based t with None => None | Some _ => half_an_hour end) r x.

(** The usage rules of configure.py 45-66 and 241-262: OP_DEFAULT_CONFIG and
    DEFAULT_EXTENDED_CONF. *)
Definition default_rules : dict rule :=
  [ ("authorization_code", mk_rule (Some ["access_token"; "refresh_token"; "id_token"]) (Some 1%Z) None);
    ("access_token", mk_rule None None None);
    ("refresh_token", mk_rule (Some ["access_token"; "refresh_token"]) None (Some (-1)%Z)) ].

(** The clock does not go back. *)
Definition in_order (ops : list op) : Prop :=
  forall i j o o', i <= j -> nth_error ops i = Some o -> nth_error ops j = Some o' -> (op_time o <= op_time o')%Z.
