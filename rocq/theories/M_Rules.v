(** Usage rules as the Python objects they are: dicts that are shared between
    the configuration, the client database and the answers.
    src/oidcop/authz/__init__.py 23-57 and src/oidcop/session/grant.py 405-436.
    (M_Authz has the same functions on values; L_Rules relates the two.) *)
From Verif Require Import M_Base M_Types M_Claims.

(** A dict in memory: the rules of one token class (member name to value, the
    values are never changed in place and are opaque here), or a table from
    token class to the dict of its rules. *)
Inductive cell : Type :=
| CFields (d : dict string)
| CTable (d : dict nat).
Definition mem : Type := list cell.

(** The places that hold rules: grant_config["usage_rules"], if configured;
    cdb[client]["token_usage_rules"], for each client that is registered and has
    some; DEFAULT_USAGE. *)
Record rconf : Type := mk_rconf {
  rc_global : option nat;
  rc_clients : dict nat;
  rc_default : nat
}.

Definition alloc (c : cell) : M mem nat :=
  s <- get_st ;; put_st (s ++ [c]) ;; ret (List.length s).
Definition fields_at (l : nat) : M mem (dict string) :=
  s <- get_st ;; match nth_error s l with Some (CFields d) => ret d | _ => raise TypeError end.
Definition table_at (l : nat) : M mem (dict nat) :=
  s <- get_st ;; match nth_error s l with Some (CTable d) => ret d | _ => raise TypeError end.
Fixpoint set_nth (l : nat) (c : cell) (s : mem) : mem :=
  match s, l with
  | [], _ => []
  | _ :: r, 0 => c :: r
  | x :: r, Datatypes.S n => x :: set_nth n c r
  end.
Definition store (l : nat) (c : cell) : M mem unit := s <- get_st ;; put_st (set_nth l c s).

(** copy.deepcopy of a table, authz/__init__.py 25. Two classes that share one
    dict of rules in the configuration get a copy each here; deepcopy would keep
    them shared. Configurations that are read from a file share nothing. *)
Fixpoint copy_entries (d : dict nat) : M mem (dict nat) :=
  match d with
  | [] => ret []
  | (k, l) :: r =>
      f <- fields_at l ;; l' <- alloc (CFields f) ;; r' <- copy_entries r ;; ret ((k, l') :: r')
  end.
Definition deepcopy (l : nat) : M mem nat :=
  d <- table_at l ;; d' <- copy_entries d ;; alloc (CTable d').

(** authz/__init__.py 38-43: the loop over the global classes. *)
Fixpoint override (per : dict nat) (u : nat) (d : dict nat) : M mem unit :=
  match d with
  | [] => ret tt
  | (k, l) :: r =>
      match dget per k with
      | None => ret tt
      | Some p =>
          pf <- fields_at p ;;
          if list_true pf then f <- fields_at l ;; store l (CFields (dupdate f pf))
          else e <- alloc (CFields []) ;; t <- table_at u ;; store u (CTable (dset t k e))
      end ;;
      override per u r
  end.

(** authz/__init__.py 44-46: the classes that only the client has. *)
Fixpoint complete (u : nat) (per : dict nat) : M mem unit :=
  match per with
  | [] => ret tt
  | (k, l) :: r =>
      t <- table_at u ;;
      (if dmem t k then ret tt else store u (CTable (dset t k l))) ;;
      complete u r
  end.

(** AuthzHandling.usage_rules: authz/__init__.py 23-50. *)
Definition ask_rules (C : rconf) (cid : string) : M mem nat :=
  u <- match rc_global C with Some g => deepcopy g | None => alloc (CTable []) end ;;
  if negb (str_true cid) then ret u
  else match dget (rc_clients C) cid with
       | None => ret u
       | Some p =>
           d <- table_at u ;;
           if list_true d then
             per <- table_at p ;; override per u d ;; complete u per ;; ret u
           else ret p
       end.

(** AuthzHandling.usage_rules_for: authz/__init__.py 52-57. *)
Definition ask_rules_for (C : rconf) (cid tc : string) : M mem nat :=
  u <- ask_rules C cid ;; d <- table_at u ;;
  match dget d tc with Some l => ret l | None => alloc (CFields []) end.

(** get_usage_rules: src/oidcop/session/grant.py 416-436; [gr] is
    grant.usage_rules. *)
Definition get_usage_rules (C : rconf) (tc : string) (gr : nat) (cid : string) : M mem nat :=
  l <- ask_rules_for C cid tc ;; f <- fields_at l ;;
  l <- (if list_true f then ret l
        else d <- table_at (rc_default C) ;;
             match dget d tc with Some x => ret x | None => raise KeyError end) ;;
  g <- table_at gr ;;
  match dget g tc with
  | None => ret l
  | Some x => gf <- fields_at x ;;
              if list_true gf then f <- fields_at l ;; store l (CFields (dupdate f gf)) ;; ret l
              else ret l
  end.
