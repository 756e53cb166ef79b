(** Specification vocabulary for usage rules. *)
From Verif Require Import M_Base M_Rules.

(** The rules of one token class: a value for some of the members. *)
Definition rules : Type := string -> option string.
(** A table of rules: for some of the token classes. *)
Definition rtable : Type := string -> option rules.

(** In memory [s], the dict at [l] holds these rules, or this table. *)
Definition holds_rules (s : mem) (l : nat) (r : rules) : Prop :=
  exists d, nth_error s l = Some (CFields d) /\ NoDup (dkeys d) /\ forall f, r f = dget d f.
Definition holds_table (s : mem) (l : nat) (T : rtable) : Prop :=
  exists d, nth_error s l = Some (CTable d) /\ NoDup (dkeys d)
    /\ forall tc, match dget d tc, T tc with
                  | Some l', Some r => holds_rules s l' r
                  | None, None => True
                  | _, _ => False
                  end.

Definition no_rules : rules := fun _ => None.
Definition no_table : rtable := fun _ => None.

(** The configured tables: the global one ([no_table] if there is none), and the
    one of client [c], if it has one. *)
Definition global_table (C : rconf) (s : mem) (G : rtable) : Prop :=
  match rc_global C with Some g => holds_table s g G | None => forall tc, G tc = None end.
Definition client_table (C : rconf) (s : mem) (c : string) (o : option rtable) : Prop :=
  match dget (rc_clients C) c, o with
  | Some p, Some P => holds_table s p P
  | None, None => True
  | _, _ => False
  end.

(** Two rules, or two tables, say the same. *)
Definition same_rules (a b : option rules) : Prop :=
  match a, b with
  | Some x, Some y => forall f, x f = y f
  | None, None => True
  | _, _ => False
  end.

(** The rules for one class, given the global and the client's rules for it:
    the client's, member by member, over the global ones; nothing, if the
    client's are explicitly empty. *)
Definition merged (glob per : option rules) (m : option rules) : Prop :=
  match per with
  | None => same_rules m glob
  | Some p => exists r, m = Some r
      /\ ((forall f, p f = None) -> forall f, r f = None)
      /\ ((exists f, p f <> None) ->
          forall f, r f = match p f with Some v => Some v
                          | None => match glob with Some g => g f | None => None end end)
  end.
