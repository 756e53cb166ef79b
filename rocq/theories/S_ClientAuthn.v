(** Specification vocabulary for client authentication. *)
From Verif Require Import M_Base M_ClientAuthn S_Codec.

(** The Authorization header is HTTP Basic with the name [c] and the password
    [s]. *)
Definition basic_header (A : aenv) (hdr : option string) (c s : string) : Prop :=
  exists t a b, hdr = Some (append "Basic " t) /\ a_b64 A t = Ok (append a (append ":" b))
    /\ ~ occurs_in ":" a /\ ~ occurs_in ":" b /\ a_unquote A a = c /\ a_unquote A b = s.

(** The body of the request carries the name [c] and the secret [s]. *)
Definition body_secret (q : creq) (c s : string) : Prop :=
  cr_client_id q = Some c /\ cr_client_secret q = Some s.

(** [c] is registered with the secret [s]. *)
Definition has_secret (A : aenv) (c s : string) : Prop :=
  exists eta, dget (a_cdb A) c = Some (CInfo (Some s) eta).

(** [c] is registered, and its secret has not expired. *)
Definition in_force (A : aenv) (now : Z) (c : string) : Prop :=
  exists s eta, dget (a_cdb A) c = Some (CInfo s eta) /\ (eta = 0 \/ now <= eta)%Z.

(** [x] succeeded, and attributes the request to [c] by the method called [m]. *)
Definition authenticated (x : res (option ainfo)) (m : string) (c : string) : Prop :=
  exists i, x = Ok (Some i) /\ ai_method i = m /\ ai_client i = Some c.

(** [x] succeeded by means of the JWT [a]. *)
Definition by_jwt (x : res (option ainfo)) (m : string) (a : assertion) : Prop :=
  exists i, x = Ok (Some i) /\ ai_method i = m /\ ai_jwt i = Some a.

(** The [i]-th attempt was [x], and this was its outcome. *)
Definition attempted (A : aenv) (db : jtis) (xs : list attempt) (i : nat) (x : attempt)
    (o : res (option ainfo)) : Prop :=
  nth_error xs i = Some x /\ nth_error (fst (attempts A db xs)) i = Some o.
