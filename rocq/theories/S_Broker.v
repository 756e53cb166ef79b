(** Specification vocabulary for the choice of an authentication method. *)
From Verif Require Import M_Base M_Uri M_Broker.

(** Histories of registrations and removals of methods. *)
Inductive bop : Type :=
| BSet (key : string) (acr method : option string)
| BDel (key : string).
Definition bstep (b : broker) (o : bop) : broker :=
  match o with
  | BSet k a m => match br_set b k a m with Ok b' => b' | Raise _ => b end
  | BDel k => snd (br_del b k)
  end.
Definition after (ops : list bop) : broker := fold_left bstep ops empty_broker.

(** What is registered, oldest first. *)
Definition reg_step (r : list (string * minfo)) (o : bop) : list (string * minfo) :=
  match o with
  | BSet k (Some a) (Some m) => r ++ [(k, mkMinfo a m)]
  | BSet _ _ _ => r
  | BDel k => filter (fun p => negb (String.eqb (fst p) k)) r
  end.
Definition methods (ops : list bop) : list (string * minfo) := fold_left reg_step ops [].

(** No key is used again while it is in use. *)
Fixpoint tidy_from (r : list (string * minfo)) (ops : list bop) : Prop :=
  match ops with
  | [] => True
  | o :: ops =>
      match o with BSet k _ _ => ~ In k (map fst r) | BDel _ => True end /\ tidy_from (reg_step r o) ops
  end.
Definition tidy (ops : list bop) : Prop := tidy_from [] ops.

(** The classes a request asks for, in order of preference. *)
Definition names_class (q : brq) (l : list string) : Prop :=
  (exists v vs, bq_claims q = Some (AcrObj (Some v) vs) /\ l = [v]) \/
  (bq_claims q = Some (AcrObj None (Some l)) /\ l <> []).
Definition no_class (q : brq) : Prop :=
  bq_claims q = None \/ bq_claims q = Some (AcrObj None None) \/ bq_claims q = Some (AcrObj None (Some [])).
Inductive asks (hints : option (dict (list string))) (q : brq) : list string -> Prop :=
| asks_values l : bq_acr_values q = Some l -> asks hints q l
| asks_claim l : bq_acr_values q = None -> names_class q l -> asks hints q l
| asks_hint a l : bq_acr_values q = None -> no_class q -> bq_hint q = Some a ->
    (l = [] /\ (a = None \/ a = Some "") \/ exists x, a = Some x /\ x <> "" /\ l = [x]) -> asks hints q l
| asks_login h m p l : bq_acr_values q = None -> no_class q -> bq_hint q = None ->
    bq_login_hint q = Some h -> h <> "" -> hints = Some m -> urlsplit h = Ok p ->
    (dget m (us_scheme p) = Some l \/ dget m (us_scheme p) = None /\ l = []) -> asks hints q l
| asks_nothing : bq_acr_values q = None -> no_class q -> bq_hint q = None ->
    (bq_login_hint q = None \/ bq_login_hint q = Some "" \/ hints = None) -> asks hints q [].

(** The method [x] is the first registered for the first class of [acrs] that
    any method is registered for. *)
Definition best (r : list (string * minfo)) (acrs : list string) (x : minfo) : Prop :=
  exists pre a post l1 k l2,
    acrs = pre ++ a :: post /\ r = l1 ++ (k, x) :: l2 /\ mi_acr x = a /\
    (forall p, In p l1 -> mi_acr (snd p) <> a) /\
    (forall p b, In p r -> In b pre -> mi_acr (snd p) <> b).
