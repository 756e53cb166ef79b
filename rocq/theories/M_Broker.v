(** Model of the choice of an authentication method:
    src/oidcop/user_authn/authn_context.py, src/oidcop/login_hint.py and
    pick_authn_method of src/oidcop/oauth2/authorization.py. *)
From Verif Require Import M_Base M_Uri.

(** What is registered for a method: its context class and the method itself
    (a name). Other attributes are not modelled. *)
Record minfo : Type := mkMinfo { mi_acr : string; mi_method : string }.

(** AuthnBroker: src/oidcop/user_authn/authn_context.py 23-26. *)
Record broker : Type := mkBroker { br_db : dict minfo; br_ids : dict (list string) }.
Definition empty_broker : broker := mkBroker [] [].

(** AuthnBroker.__setitem__: 28-44. A specification without class or method
    raises ValueError. *)
Definition br_set (b : broker) (key : string) (acr method : option string) : res broker :=
  match acr, method with
  | Some a, Some m =>
      Ok (mkBroker (dset (br_db b) key (mkMinfo a m))
            (match dget (br_ids b) a with
             | Some l => dset (br_ids b) a (l ++ [key])
             | None => dset (br_ids b) a [key]
             end))
  | _, _ => Raise ValueError
  end.

(** list.remove: the first occurrence, ValueError if there is none. *)
Fixpoint list_remove (x : string) (l : list string) : res (list string) :=
  match l with
  | [] => Raise ValueError
  | y :: r => if String.eqb x y then Ok r else rbind (list_remove x r) (fun r' => Ok (y :: r'))
  end.

(** AuthnBroker.__delitem__: 46-51. The second component is the state: an
    exception leaves the entry deleted. *)
Definition br_del (b : broker) (key : string) : res unit * broker :=
  match dget (br_db b) key with
  | None => (Raise KeyError, b)
  | Some i =>
      let db := ddel (br_db b) key in
      match dget (br_ids b) (mi_acr i) with
      | None => (Raise KeyError, mkBroker db (br_ids b))
      | Some l =>
          match list_remove key l with
          | Raise x => (Raise x, mkBroker db (br_ids b))
          | Ok [] => (Ok tt, mkBroker db (ddel (br_ids b) (mi_acr i)))
          | Ok l' => (Ok tt, mkBroker db (dset (br_ids b) (mi_acr i) l'))
          end
      end
  end.

(** AuthnBroker._pick_by_class_ref: 56-62. *)
Fixpoint look_all (db : dict minfo) (ids : list string) : res (list minfo) :=
  match ids with
  | [] => Ok []
  | i :: r => match dget db i with
              | None => Raise KeyError
              | Some x => rbind (look_all db r) (fun l => Ok (x :: l))
              end
  end.
Definition pick (b : broker) (acr : string) : res (list minfo) :=
  match dget (br_ids b) acr with None => Ok [] | Some ids => look_all (br_db b) ids end.

(** AuthnBroker.default: 106-110. *)
Definition br_default (b : broker) : option minfo :=
  match br_db b with [] => None | (_, i) :: _ => Some i end.

(** What a request says about context classes: acr_values, the claim acr of the
    ID-token claims asked for, the class in a verified ID-token hint, the login
    hint. The claims are None if the request asks for no ID-token claims. *)
Inductive acr_spec : Type :=
| AcrNull                            (* not asked for, or asked for by null *)
| AcrObj (value : option string) (values : option (list string)).
Record brq : Type := mkBrq {
  bq_acr_values : option (list string);
  bq_claims : option acr_spec;
  bq_hint : option (option string);
  bq_login_hint : option string
}.

(** _acr_claim: 113-122. Looking for a key in None raises TypeError. *)
Definition acr_claim (q : brq) : res (option (list string)) :=
  match bq_claims q with
  | None => Ok None
  | Some AcrNull => Raise TypeError
  | Some (AcrObj (Some v) _) => Ok (Some [v])
  | Some (AcrObj None (Some l)) => Ok (Some l)
  | Some (AcrObj None None) => Ok None
  end.

(** LoginHint2Acrs.__call__: src/oidcop/login_hint.py 25-37. *)
Definition hint2acrs (m : dict (list string)) (hint : string) : res (list string) :=
  rbind (urlsplit hint) (fun p => Ok (match dget m (us_scheme p) with Some l => l | None => [] end)).

(** pick_auth: src/oidcop/user_authn/authn_context.py 125-166, pick_all false.
    [hints]: the scheme map, if configured. *)
Definition wanted (hints : option (dict (list string))) (q : brq) : res (list string) :=
  match bq_acr_values q with
  | Some l => Ok l
  | None =>
      rbind (acr_claim q) (fun c =>
      match c with
      | Some (x :: l) => Ok (x :: l)
      | _ =>
          match bq_hint q with
          | Some (Some a) => Ok (if str_true a then [a] else [])
          | Some None => Ok []
          | None =>
              match bq_login_hint q, hints with
              | Some h, Some m => if str_true h then hint2acrs m h else Ok []
              | _, _ => Ok []
              end
          end
      end)
  end.
Fixpoint first_pick (b : broker) (acrs : list string) : res (option minfo) :=
  match acrs with
  | [] => Ok None
  | a :: r => rbind (pick b a) (fun l => match l with x :: _ => Ok (Some x) | [] => first_pick b r end)
  end.
Definition pick_auth (b : broker) (hints : option (dict (list string))) (q : brq) : res (option minfo) :=
  if Nat.eqb (List.length (br_db b)) 1 then Ok (br_default b)
  else rbind (wanted hints q) (fun acrs =>
       match acrs with [] => Ok (br_default b) | _ => first_pick b acrs end).

(** Authorization.pick_authn_method and the look-up of "method" and "acr" in
    its answer: src/oidcop/oauth2/authorization.py 461-483, 549-552. The answer
    for a given class is a list, whose look-up raises TypeError; the answer that
    no method was found has neither key. *)
Definition choose (b : broker) (hints : option (dict (list string))) (acr auth_id : option string) (q : brq)
  : res minfo :=
  match auth_id with
  | Some (String c i) => match dget (br_db b) (String c i) with Some x => Ok x | None => Raise KeyError end
  | _ =>
      match acr with
      | Some (String c a) => match pick b (String c a) with
                             | Ok (_ :: _) => Raise TypeError
                             | Ok [] => Raise KeyError
                             | Raise x => Raise x
                             end
      | _ => match pick_auth b hints q with Ok (Some x) => Ok x | _ => Raise KeyError end
      end
  end.
