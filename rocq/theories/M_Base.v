(** Base vocabulary of the model: exceptions as values, the state-and-exception
    monad, Python dicts, and the Python string operations the code uses. *)
From Coq Require Export List ZArith String Ascii Bool Arith Lia.
From Coq Require Import DecimalString DecimalN.
Export ListNotations.
Open Scope string_scope.
Open Scope list_scope.

(** ** Exceptions.
    The exception classes raised by the modelled functions
    (src/oidcop/exception.py 1-110, src/oidcop/token/exception.py 1-33,
    src/oidcop/session/__init__.py 1-6, src/oidcop/session/database.py 26-35,
    and Python's built-ins). [MintingNotAllowed] is the class of
    src/oidcop/session/__init__.py 5, which session/grant.py raises;
    [MintingNotAllowedTok] is the unrelated class of the same name of
    src/oidcop/session/token.py 8, which the token endpoints catch.
    [Other n] stands for any exception of a library that no modelled handler
    catches by name. *)
Inductive exn : Set :=
| KeyError | ValueError | IndexError | TypeError | AttributeError
| RecursionError
| NoSuchClientSession | NoSuchGrant | InconsistentDatabase
| UnknownToken | WrongTokenClass | ToOld
| MintingNotAllowed | MintingNotAllowedTok
| JWEException | NoSuitableSigningKeys | JWSException | Invalid
| InvalidCookieSign | Unsupported
| UnknownClient | InvalidClient | UnAuthorizedClient | ClientAuthenticationError
| BearerTokenAuthenticationError | NotForMe | UnknownAssertionType
| RedirectURIError | URIErrorExn | ParameterErrorExn | UnAuthorizedClientScope
| InvalidRequest | NoSuchAuthentication | ToOldAuthn | MultipleUsage
| InvalidRedirectURIError | InvalidSectorIdentifier | CapabilitiesMisMatch
| ConfigurationError | ProcessError | ImproperlyConfigured | FailedAuthentication
| ServiceErrorExn | LoginRequired | InstantiationError
| Other (n : nat).

(** [isinstance(e, KeyError)]: src/oidcop/session/database.py 26-31. *)
Definition is_KeyError (e : exn) : bool :=
  match e with KeyError | NoSuchClientSession | NoSuchGrant => true | _ => false end.

(** [isinstance(e, TokenException)]: src/oidcop/token/exception.py 1-33. *)
Definition is_TokenException (e : exn) : bool :=
  match e with UnknownToken | WrongTokenClass => true | _ => false end.

Inductive res (A : Type) : Type :=
| Ok (a : A)
| Raise (e : exn).
Arguments Ok {A} a.
Arguments Raise {A} e.

Definition rbind {A B} (x : res A) (f : A -> res B) : res B :=
  match x with Ok a => f a | Raise e => Raise e end.

Definition is_ok {A} (x : res A) : bool := match x with Ok _ => true | Raise _ => false end.

(** ** The state-and-exception monad. What was done to the state before an
    exception stays done, as in Python. *)
Definition M (S A : Type) : Type := S -> res A * S.

Definition ret {S A} (a : A) : M S A := fun s => (Ok a, s).
Definition raise {S A} (e : exn) : M S A := fun s => (Raise e, s).
Definition bind {S A B} (m : M S A) (f : A -> M S B) : M S B :=
  fun s => match m s with
           | (Ok a, s') => f a s'
           | (Raise e, s') => (Raise e, s')
           end.
Definition get_st {S} : M S S := fun s => (Ok s, s).
Definition put_st {S} (s' : S) : M S unit := fun _ => (Ok tt, s').
Definition lift {S A} (r : res A) : M S A := fun s => (r, s).
(** [try: m except: h] where [h] decides on the exception. *)
Definition catch {S A} (m : M S A) (h : exn -> option (M S A)) : M S A :=
  fun s => match m s with
           | (Ok a, s') => (Ok a, s')
           | (Raise e, s') => match h e with Some k => k s' | None => (Raise e, s') end
           end.

Declare Scope monad_scope.
Delimit Scope monad_scope with monad.
Notation "x <- m ;; k" := (bind m (fun x => k))
  (at level 61, m at next level, right associativity) : monad_scope.
Notation "m ;; k" := (bind m (fun _ => k))
  (at level 61, right associativity) : monad_scope.
Open Scope monad_scope.

(** ** Python dicts with string keys: association lists in insertion order. *)
Definition dict (V : Type) : Type := list (string * V).

Fixpoint dget {V} (d : dict V) (k : string) : option V :=
  match d with
  | [] => None
  | (k', v) :: r => if String.eqb k k' then Some v else dget r k
  end.

Definition dmem {V} (d : dict V) (k : string) : bool :=
  match dget d k with Some _ => true | None => false end.

(** [d[k] = v]: keeps the position of an existing key, else appends. *)
Fixpoint dset {V} (d : dict V) (k : string) (v : V) : dict V :=
  match d with
  | [] => [(k, v)]
  | (k', v') :: r => if String.eqb k k' then (k', v) :: r else (k', v') :: dset r k v
  end.

(** [del d[k]], for a key that is there. *)
Fixpoint ddel {V} (d : dict V) (k : string) : dict V :=
  match d with
  | [] => []
  | (k', v') :: r => if String.eqb k k' then r else (k', v') :: ddel r k
  end.

(** [d.update(e)]. *)
Definition dupdate {V} (d e : dict V) : dict V :=
  fold_left (fun acc kv => dset acc (fst kv) (snd kv)) e d.

Definition dkeys {V} (d : dict V) : list string := map fst d.

(** [x in l] for a list of strings. *)
Definition smem (x : string) (l : list string) : bool :=
  existsb (String.eqb x) l.

(** [set(a).issubset(set(b))]. *)
Definition subset_b (a b : list string) : bool := forallb (fun x => smem x b) a.

(** [l.remove(x)] for an [x] that is there: first occurrence. *)
Fixpoint sremove (x : string) (l : list string) : list string :=
  match l with
  | [] => []
  | y :: r => if String.eqb x y then r else y :: sremove x r
  end.

(** Truth value of a string. *)
Definition str_true (s : string) : bool :=
  match s with EmptyString => false | _ => true end.

Definition list_true {A} (l : list A) : bool :=
  match l with [] => false | _ => true end.

(** ** Strings. *)

(** [s.startswith(p)]. *)
Fixpoint starts_with (p s : string) : bool :=
  match p, s with
  | EmptyString, _ => true
  | String a p', String b s' => Ascii.eqb a b && starts_with p' s'
  | String _ _, EmptyString => false
  end.

Definition cons_head (c : ascii) (l : list string) : list string :=
  match l with
  | [] => [String c EmptyString]
  | x :: r => String c x :: r
  end.

(** [s.split(sep)] for a non-empty [sep]: left to right, not overlapping.
    [skip] counts the characters of a separator still to be dropped. *)
Fixpoint split_go (sep s : string) (skip : nat) : list string :=
  match s with
  | EmptyString => [EmptyString]
  | String c s' =>
      match skip with
      | S k => split_go sep s' k
      | O => if starts_with sep s
             then EmptyString :: split_go sep s' (String.length sep - 1)
             else cons_head c (split_go sep s' 0)
      end
  end.
Definition py_split (sep s : string) : list string := split_go sep s 0.

(** [sep.join(l)]. *)
Fixpoint py_join (sep : string) (l : list string) : string :=
  match l with
  | [] => EmptyString
  | [x] => x
  | x :: r => append x (append sep (py_join sep r))
  end.

(** [s.split(c, 1)] for one character: [None] when [c] does not occur. *)
Fixpoint split1 (c : ascii) (s : string) : option (string * string) :=
  match s with
  | EmptyString => None
  | String a s' =>
      if Ascii.eqb a c then Some (EmptyString, s')
      else match split1 c s' with
           | Some (x, y) => Some (String a x, y)
           | None => None
           end
  end.

(** White space for [str.strip], within the 8-bit range. *)
Definition is_space (c : ascii) : bool :=
  let n := N_of_ascii c in
  ((9 <=? n)%N && (n <=? 13)%N) || ((28 <=? n)%N && (n <=? 32)%N)
  || (n =? 133)%N || (n =? 160)%N.

Definition is_blank (c : ascii) : bool := Ascii.eqb c " ".

Fixpoint lstrip (p : ascii -> bool) (s : string) : string :=
  match s with
  | String c s' => if p c then lstrip p s' else s
  | EmptyString => EmptyString
  end.

Fixpoint rstrip (p : ascii -> bool) (s : string) : string :=
  match s with
  | EmptyString => EmptyString
  | String c s' =>
      match rstrip p s' with
      | EmptyString => if p c then EmptyString else String c EmptyString
      | r => String c r
      end
  end.

(** [s.strip()]. *)
Definition py_strip (s : string) : string := rstrip is_space (lstrip is_space s).

Fixpoint srev_append (s acc : string) : string :=
  match s with EmptyString => acc | String c r => srev_append r (String c acc) end.

Definition ends_with (p s : string) : bool :=
  starts_with (srev_append p EmptyString) (srev_append s EmptyString).

Fixpoint take (n : nat) (s : string) : string :=
  match n, s with
  | S k, String c s' => String c (take k s')
  | _, _ => EmptyString
  end.

Fixpoint drop (n : nat) (s : string) : string :=
  match n, s with
  | S k, String _ s' => drop k s'
  | _, _ => s
  end.

(** [s[:i]] and [s[i:]] with Python's treatment of negative [i]. *)
Definition slice_pos (s : string) (i : Z) : nat :=
  if (i <? 0)%Z then Z.to_nat (Z.max 0 (Z.of_nat (String.length s) + i))
  else Z.to_nat i.
Definition slice_to (s : string) (i : Z) : string := take (slice_pos s i) s.
Definition slice_from (s : string) (i : Z) : string := drop (slice_pos s i) s.

(** [str(n)]. *)
Definition show_N (n : N) : string := NilEmpty.string_of_uint (N.to_uint n).
Definition show_Z (z : Z) : string :=
  if (z <? 0)%Z then String "-" (show_N (Z.to_N (- z))) else show_N (Z.to_N z).

Definition digit_val (c : ascii) : option Z :=
  let n := N_of_ascii c in
  if ((48 <=? n)%N && (n <=? 57)%N)%bool then Some (Z.of_N (n - 48)%N) else None.

(** Digits with single underscores between them, as [int()] accepts them. *)
Fixpoint parse_digits (s : string) (acc : Z) : option Z :=
  match s with
  | EmptyString => Some acc
  | String c s' =>
      match digit_val c with
      | Some d => parse_digits s' (acc * 10 + d)%Z
      | None =>
          if Ascii.eqb c "_" then
            match s' with
            | String c2 _ => match digit_val c2 with
                             | Some _ => parse_digits s' acc
                             | None => None
                             end
            | EmptyString => None
            end
          else None
      end
  end.

Definition parse_uint (s : string) : option Z :=
  match s with
  | EmptyString => None
  | String c _ => match digit_val c with
                  | Some _ => parse_digits s 0
                  | None => None
                  end
  end.

(** [int(s)] for a string; [None] is ValueError. *)
Definition py_int (s : string) : option Z :=
  match py_strip s with
  | EmptyString => None
  | String c r =>
      if Ascii.eqb c "-" then option_map Z.opp (parse_uint r)
      else if Ascii.eqb c "+" then parse_uint r
      else parse_uint (String c r)
  end.

(** [s.replace(c, d)] for single characters. *)
Fixpoint replace_char (a b : ascii) (s : string) : string :=
  match s with
  | EmptyString => EmptyString
  | String c s' => String (if Ascii.eqb c a then b else c) (replace_char a b s')
  end.

(** [c in s] for a character. *)
Fixpoint has_char (c : ascii) (s : string) : bool :=
  match s with
  | EmptyString => false
  | String a s' => Ascii.eqb a c || has_char c s'
  end.

(** [sub in s]. *)
Fixpoint contains (sub s : string) : bool :=
  starts_with sub s ||
  match s with EmptyString => false | String _ s' => contains sub s' end.
