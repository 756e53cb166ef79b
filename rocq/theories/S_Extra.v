(** Specification vocabulary for arguments that are added to responses. *)
From Verif Require Import M_Base M_Types M_Env M_Response M_Extra.

(** Python's truth: not empty, not zero. *)
Definition some_value (v : mval) : Prop :=
  match v with MStr s => s <> EmptyString | MInt n => n <> 0%Z | MList l => l <> [] end.

(** The operator asks that authorization responses say [n], taken from an
    attribute of the provider that has the value [v]. *)
Definition wanted (kwargs : xconf) (attrs : dict mval) (n : string) (v : mval) : Prop :=
  exists args param, dget kwargs "authorization" = Some args /\ In (n, param) args /\ dget attrs param = Some v /\ some_value v.

(** The text [x] is read where the value [v] was sent; [joined]: lists are sent
    as one text. *)
Definition reads (joined : bool) (v : mval) (x : string) : Prop :=
  match v with
  | MStr s => x = s
  | MInt n => x = show_Z n
  | MList l => if joined then x = py_join " " l else In x l
  end.

(** A configuration is a dictionary of dictionaries. *)
Definition well_formed (kwargs : xconf) : Prop :=
  NoDup (dkeys kwargs) /\ forall k args, In (k, args) kwargs -> NoDup (dkeys args).

(** All attributes it names for authorization responses exist. *)
Definition attributes_exist (kwargs : xconf) (attrs : dict mval) : Prop :=
  forall args n param, dget kwargs "authorization" = Some args -> In (n, param) args -> dget attrs param <> None.

(** What a response says once the add-on is in place: what the operator asks for,
    and, under all other names, what it said before ([P]). *)
Definition extended_says (kwargs : xconf) (attrs : dict mval) (joined : list string) (P : string -> string -> Prop) (n x : string) : Prop :=
  (exists v, wanted kwargs attrs n v /\ reads (smem n joined) v x) \/ ((forall v, ~ wanted kwargs attrs n v) /\ P n x).
