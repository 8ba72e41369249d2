(* Vocabulary for the properties of the RANAP receive paths. *)
From Verif Require Import Base Aper Container Container_spec RanapTypes DispatchTab Dispatch RanapProc Factory_spec.
From Coq Require Import String.
Local Open Scope list_scope.
Local Open Scope N_scope.

(* the three paths: CN connection-oriented, CN connectionless, RAN connection-oriented *)
Definition paths : list path := [cn_co; cn_cl; ran_co].
(* the message type a path decodes and frees a procedure as *)
Definition decoded_as (P : path) (d p : N) : option msgdef := match dec_tab P d with Some tab => case_of p tab | None => None end.
Definition freed_as (P : path) (d p : N) : option msgdef := match free_tab P d with Some tab => case_of p tab | None => None end.
(* no IE id occurs twice in the message that is decoded *)
Definition ids_once (P : path) (data : list N) : Prop :=
  forall d p cr b m l, pdu_in T_RANAP_RANAP_PDU data = Some (d, p, cr, b) -> decoded_as P d p = Some m -> body m b = Some l -> NoDup (ids_of l).
(* the PDU and all IEs of its procedure decode, and [g] is the result *)
Definition delivers (P : path) (data : list N) (g : rmsg) : Prop :=
  exists d p cr b m, pdu_in T_RANAP_RANAP_PDU data = Some (d, p, cr, b) /\ decoded_as P d p = Some m /\
    d_ok (decode_msg m b) = true /\ g = mkRmsg d p cr (Some (m, d_ies (decode_msg m b))).
(* TS 25.413 assigns this message to the procedure, in this direction *)
Definition assigned (d p : N) (key : string) : Prop := exists cr, In (d, p, cr, key) ranap_procedures.
