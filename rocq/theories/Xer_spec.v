(* Vocabulary for the property about printing. *)
From Verif Require Import Base Aper Container Factory Xer.
From Coq Require Import String List ZArith NArith.
Import ListNotations.
Local Open Scope list_scope.

(* the IEs of a message body *)
Definition ies_in (m : msgdef) (octets : list N) (l : list val) : Prop :=
  exists rest, decode (m_cont m) octets = Some (VSeq [Some (VList l)] rest).
(* the value and type of an IE that the message has *)
Definition value_of (m : msgdef) (ie : val) (p : printed) : Prop :=
  exists id crit o r v, ie = VSeq [Some (VInt id); Some (VEnum crit); Some (VOcts o)] [] /\
    In r (m_rows m) /\ r_id r = Z.to_N id /\ decode (r_ty r) o = Some v /\ p = PValue (r_tyname r) v.
(* the octets of an IE *)
Definition octets_of (ie : val) (o : list N) : Prop :=
  exists id crit, ie = VSeq [Some (VInt id); Some (VEnum crit); Some (VOcts o)] [].
(* the two calls that ask for a RAB to be set up *)
Definition rab_request (k : call) : bool := match k with CallRabVoice _ _ _ _ | CallRabData _ _ _ _ => true | _ => false end.
