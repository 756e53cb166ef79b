(** Vocabulary for providers that process token requests in threads. *)
From Verif Require Import M_Base M_Types M_Grant M_Env M_TokenEP M_History M_Threads S_History.

(** [w] is reached from a new provider by the moves [ms], in this order, and
    [xs] is what was seen. Nothing is assumed about which thread moves when,
    about the clock, or about how the configuration changes. *)
Definition schedule (e : env) (ms : list move) (xs : list sight) (w : pool) : Prop :=
  Forall (fun m => forall o, m = MCall o -> proper e o) ms
  /\ exists always, pexec e (p_init e always) ms = (xs, w).

(** The configuration [c] is in force at some time of the schedule. *)
Definition in_force (e : env) (ms : list move) (c : env) : Prop := c = e \/ In (MConf c) ms.

(** At the [i]-th move the token request [q] was answered by the response [a]:
    by a thread, or by a call that was processed as one action. *)
Definition answered_at (xs : list sight) (i : nat) (q : treq) (a : tresp) : Prop :=
  (exists k, nth_error xs i = Some (SeenAnswer k q (Ok (Good a))))
  \/ nth_error xs i = Some (SeenCall (EvToken q (Ok (Good a)))).

(** The processing that gave the answer at the [i]-th move began with the
    [j]-th move. *)
Definition began_at (xs : list sight) (j i : nat) : Prop :=
  (exists k q q' r, nth_error xs j = Some (SeenStart k q) /\ nth_error xs i = Some (SeenAnswer k q' r))
  \/ (j = i /\ exists ev, nth_error xs i = Some (SeenCall ev)).

(** The clock does not go back behind [now]. *)
Definition not_before (now : Z) (m : move) : Prop :=
  match m with
  | MCall o => (now <= op_time o)%Z
  | MStart _ _ | MConf _ => True
  | MAct n _ => (now <= n)%Z
  end.
