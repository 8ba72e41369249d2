(* Vocabulary for what happens when memory runs out while a message is made:
   the requests for memory, and who decides about them. *)
From Verif Require Import Base Factory RuaFactory.

(* What memory is asked for:
   AIe     the structure of an IE
   AValue  the octets of the value of an IE
   ABody   the octets of the message body
   AMsg    the message buffer
   APair   the structure of a pair of IEs, or the octets of one of its values
   ATemp   a part of the arguments that is built on the heap
   ACell   the array of pointers of a list, when a list grows
   ACopy   a copy of octets given by the caller
   AExt    the octets of a protocol extension *)
Inductive akind := AIe | AValue | ABody | AMsg | APair | ATemp | ACell | ACopy | AExt.
(* the n-th request is denied *)
Definition oracle := nat -> akind -> bool.
(* the requests whose failure is reported by a return value that is looked at *)
Definition looked_at (k : akind) : bool := match k with AIe | AValue | ABody | AMsg => true | _ => false end.
(* there is memory for everything; none for one kind of request *)
Definition plenty : oracle := fun _ _ => false.
Definition akind_eqb (a b : akind) : bool :=
  match a, b with
  | AIe, AIe | AValue, AValue | ABody, ABody | AMsg, AMsg | APair, APair | ATemp, ATemp | ACell, ACell | ACopy, ACopy | AExt, AExt => true
  | _, _ => false
  end.
Definition none_for (k : akind) : oracle := fun _ k' => akind_eqb k k'.

(* The calls that build part of their arguments on the heap. *)
Definition heap_args (c : call) : bool :=
  match c with
  | CallSecModCmd _ _ _ _ _ | CallCommonId (Some _) | CallPaging _ _ _ _ | CallRabVoice _ _ _ _ | CallRabData _ _ _ _ | CallRabRelReq _ _ => true
  | _ => false
  end.
(* Those whose first request is for such a part; an empty IMSI is not written. *)
Definition heap_first (c : call) : bool :=
  match c with
  | CallSecModCmd _ _ _ 6 _ | CallCommonId (Some (_ :: _)) | CallPaging (_ :: _) _ _ _ | CallRabVoice _ _ _ _ | CallRabData _ _ _ _
  | CallRabRelReq _ _ => true
  | _ => false
  end.
(* The calls whose message has no other list than that of its IEs, and whose
   arguments are all on the stack. *)
Definition one_list (c : call) : bool :=
  match c with
  | CallReset _ _ _ | CallResetAck _ _ | CallErrorInd _ _ _ _ | CallInitialUe _ _ _ _ _ | CallDt _ _ | CallSecModCompl _ _ | CallIuRelCmd _
  | CallIuRelCompl | CallIuRelReq _ => true
  | _ => false
  end.
(* A message without IEs: kind of message, procedure, criticality, and a body of
   three octets: no extension, 0 IEs. *)
Definition without_ies (b : list N) : Prop := exists d p c, b = [d; p; c; 3; 0; 0; 0]%N.
(* A RAB ASSIGNMENT REQUEST (0) whose only IE, RAB-SetupOrModifyList (54), is a
   list with one entry (0 0) that is itself empty (0). *)
Definition nothing_assigned : list N := [0; 0; 0; 10; 0; 0; 1; 0; 54; 64; 3; 0; 0; 0]%N.
(* The same call with an empty RANAP message. *)
Definition emptied (c : rua_call) : rua_call :=
  match c with
  | RUdt (Some _) => RUdt (Some [])
  | RConn is_ps id (Some _) => RConn is_ps id (Some [])
  | RDt is_ps id (Some _) => RDt is_ps id (Some [])
  | c => c
  end.
