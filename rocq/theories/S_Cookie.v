(** Specification vocabulary for cookies. *)
From Verif Require Import M_Base M_Codec M_Cookie S_Codec S_Hex.

(** What is assumed of the cryptographic library and of base64. *)
Record cookie_laws (L : clib) : Prop := {
  law_mac : forall k m, cl_verify L k m (cl_sign L k m) = Ok true;
  law_mac_some : forall k m, cl_sign L k m <> EmptyString;
  law_tag : forall k iv m, cl_dec L k iv (fst (cl_enc L k iv m)) (snd (cl_enc L k iv m)) = Ok (Some m);
  law_64 : forall s, cl_b64d L (cl_b64e L s) = Ok s;
  law_64_bar : forall s, ~ occurs_in "|" (cl_b64e L s);
  law_64_white : forall s, ~ ends_in_white_space (cl_b64e L s)
}.

(** A handler that can make and read cookies: it has an encryption key of an
    AES size, or else a signing key. *)
Definition usable (h : handler) : Prop :=
  match ch_enc h with
  | Some k => In (String.length k) [16; 24; 32]
  | None => ch_sign h <> None
  end.

(** The contents a cookie of the handler can carry. *)
Record fits (h : handler) (value typ time : string) : Prop := {
  fit_value : ~ occurs_in "::" value;
  fit_value_end : ~ ends_in ":" value;
  fit_type : ~ occurs_in "::" typ;
  fit_some : ~ (value = "" /\ typ = "");
  fit_time : time <> "" /\ ~ occurs_in "|" time;
  fit_plain : ch_enc h = None -> ~ occurs_in "|" value /\ ~ occurs_in "|" typ;
  fit_end : ch_sign h = None -> ~ ends_in_white_space time
}.

(** What a caller hands over to have a cookie made. *)
Record order : Type := mkOrder {
  o_name : string; o_value : string; o_type : string; o_time : string; o_iv : string
}.
Definition made_for (L : clib) (h : handler) (now : string) (o : order) (c : cookie) : Prop :=
  make_cookie_content L h (o_iv o) (o_name o) (o_value o) (o_type o) (o_time o) now = Ok c.
Definition content_of (o : order) : content := mkContent (o_value o) (o_type o) (o_time o).

(** The handler's keys vouch for payload and time of a cookie string. *)
Inductive vouched (L : clib) (h : handler) : string -> string -> string -> Prop :=
| by_mac k time payload b mac :
    ~ occurs_in "|" time -> ~ occurs_in "|" payload -> ~ occurs_in "|" b ->
    ch_sign h = Some k -> cl_b64d L b = Ok mac ->
    cl_verify L k (append payload time) mac = Ok true ->
    vouched L h (append time (append "|" (append payload (append "|" b)))) payload time
| by_tag k t i c g iv ctx tag msg payload time rest :
    ~ occurs_in "|" t -> ~ occurs_in "|" i -> ~ occurs_in "|" c -> ~ occurs_in "|" g ->
    ch_enc h = Some k -> cl_b64d L i = Ok iv -> cl_b64d L c = Ok ctx -> cl_b64d L g = Ok tag ->
    cl_dec L k iv ctx tag = Ok (Some msg) ->
    lv_unpack msg = Ok (payload :: time :: rest) ->
    (forall m, rest = [m] -> exists sk mac, ch_sign h = Some sk /\ cl_b64d L m = Ok mac /\
       cl_verify L sk (append payload time) mac = Ok true) ->
    vouched L h (append t (append "|" (append i (append "|" (append c (append "|" g)))))) payload time.

(** The payload made of a value and a type, both recoverable from it. *)
Definition payload_of (value typ payload : string) : Prop :=
  payload = append value (append "::" typ) /\
  ~ occurs_in "::" value /\ ~ ends_in ":" value /\ ~ occurs_in "::" typ.

(** The library accepts, under the keys of the handler, nothing but what the
    handler itself signed and encrypted for the payloads and times issued. *)
Record sealed (L : clib) (h : handler) (issued : list (string * string)) : Prop := {
  sealed_mac : forall k msg mac, ch_sign h = Some k -> cl_verify L k msg mac = Ok true ->
    exists p t, In (p, t) issued /\ msg = append p t;
  sealed_text : forall k iv ctx tag msg, ch_enc h = Some k -> cl_dec L k iv ctx tag = Ok (Some msg) ->
    exists p t, In (p, t) issued /\ (msg = lv_pack [p; t] \/ exists m, msg = lv_pack [p; t; m]);
  sealed_time : forall p t, In (p, t) issued -> ~ ends_in_white_space t
}.

(** The number of parts separated by bars. *)
Fixpoint bars (s : string) : nat :=
  match s with
  | EmptyString => 0
  | String c r => (if Ascii.eqb c "|" then 1 else 0) + bars r
  end.

(** A concrete library that satisfies the laws, for examples. *)
Definition hex_clib : clib := {|
  cl_sign := fun k m => append "m" (append k m);
  cl_verify := fun k m mac => Ok (String.eqb mac (append "m" (append k m)));
  cl_enc := fun k iv m => (append k m, "tag");
  cl_dec := fun k iv ctx tag =>
    if starts_with k ctx && String.eqb tag "tag"
    then Ok (Some (drop (String.length k) ctx))
    else Ok None;
  cl_b64e := hex;
  cl_b64d := fun s => match unhex s with Some x => Ok x | None => Raise ValueError end
|}.
