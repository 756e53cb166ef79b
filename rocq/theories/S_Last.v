(** Specification vocabulary for what lasts. *)
From Verif Require Import M_Base M_Types M_Codec M_Grant M_Env M_Session M_Claims M_Handler M_History S_History.

(** The provider reads the text [v] at [now'] as it does at [now]. (Opaque
    tokens are read alike at all times; a signed token is not read any more
    when the time it states is over.) *)
Definition read_alike (e : env) (v : string) (now now' : Z) : Prop :=
  forall i, token_info e now v = Ok i -> token_info e now' v = Ok i.
