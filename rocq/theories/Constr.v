(* The functions of src/{ranap,rua,hnbap,sabp}/*.c that check whether a value is
   within its limits, and how they are installed in the type descriptors.

   Simplified: the callback that reports a violation and its text are not
   modelled, nor is the NULL value, which every function refuses.  A BIT STRING is the list of its bits (C: octets and the number
   of unused bits).  The walk over the components of SEQUENCE, SEQUENCE OF and
   CHOICE is libasn1c's (not in /repo) and not modelled; it calls these
   functions for the components. *)
From Verif Require Import Base Aper.
From Coq Require Import String List.
Local Open Scope list_scope.
Local Open Scope Z_scope.

(* A literal in a comparison with [long value], with suffix l or ull.  In the
   latter case the comparison is done on unsigned 64-bit numbers. *)
(* e.g. src/ranap/RANAP_GeographicalCoordinates.c:155 *)
Record lit := mkLit { l_unsigned : bool; l_val : Z }.
(* conversion to unsigned long long; e.g. src/ranap/RANAP_GeographicalCoordinates.c:155 *)
Definition u64 (z : Z) : Z := z mod 2 ^ 64.
(* value >= literal; e.g. src/ranap/RANAP_GeographicalCoordinates.c:130, 155 *)
Definition c_ge (v : Z) (l : lit) : bool := if l_unsigned l then u64 (l_val l) <=? u64 v else l_val l <=? v.
(* value <= literal; e.g. src/ranap/RANAP_Event1I-Parameters.c:24 *)
Definition c_le (v : Z) (l : lit) : bool := if l_unsigned l then u64 v <=? u64 (l_val l) else v <=? l_val l.

(* conditions on a size; e.g. src/ranap/RANAP_LAC.c:25, RANAP_APN.c:25, RANAP_CommonID.c:25 *)
Inductive scond := SEq (n : Z) | SIn (lo hi : Z) | SMax (n : Z).
(* e.g. src/ranap/RANAP_LAC.c:25, RANAP_APN.c:25, RANAP_CommonID.c:25 *)
Definition size_ok (c : scond) (n : Z) : bool :=
  match c with SEq m => n =? m | SIn lo hi => (lo <=? n) && (n <=? hi) | SMax m => n <=? m end.

(* the bodies of the functions, in the order of src/ranap/RANAP_PriorityLevel.c:10-33,
   RANAP_LAC.c:10-34, RANAP_RAB-ID.c:10-39, RANAP_CommonID.c:10-34, RANAP_Criticality.c:10-16,
   RANAP_UnsuccessfullyTransmittedDataVolume.c:10-24 *)
Inductive cfun :=
| CRange (lo hi : lit)
| COcts (c : scond)
| CBits (c : scond)
| CElems (c : scond)
| CDelegate (other : string)
| CAlways.
(* What a function says of the value itself.  CElems goes on to check the elements and
   CDelegate installs and calls another function, see [call]. *)
(* the conditions of the same functions *)
Definition accepts (f : cfun) (v : val) : bool :=
  match f, v with
  | CRange lo hi, VInt z => c_ge z lo && c_le z hi
  | COcts c, VOcts l => size_ok c (Z.of_nat (List.length l))
  | CBits c, VBits l => size_ok c (Z.of_nat (List.length l))
  | CElems c, VList l => size_ok c (Z.of_nat (List.length l))
  | (CDelegate _ | CAlways), _ => true
  | _, _ => false
  end.

(* A descriptor that is implemented using another: its own function and the other
   descriptor; e.g. src/ranap/RANAP_RAB-ID.c:10-39, 45-63 *)
Record own := mkOwn { o_name : string; o_fun : cfun; o_base : string }.
(* what check_constraints of a descriptor points to; the functions of libasn1c's
   own descriptors (integers, enumerations, strings) accept everything.
   e.g. src/ranap/RANAP_RAB-ID.c:147-171 *)
Inductive fptr := FGeneric | FBody (f : cfun).
(* The writable part of the descriptors: check_constraints, and whether the other
   functions (free, print, decode, encode) have been replaced by those of libasn1c.
   e.g. src/ranap/RANAP_RAB-ID.c:45-63 *)
Record cst := mkCst { s_chk : string -> fptr; s_used : string -> bool }.

(* src/ranap/RANAP_RAB-ID.c:45-63: assignment to a member of *td *)
Definition upd {A} (f : string -> A) (n : string) (x : A) : string -> A := fun m => if (m =? n)%string then x else f m.
Section Tab.
Context (tab : list own).
(* the descriptor as compiled; e.g. src/ranap/RANAP_RAB-ID.c:147-171 *)
Definition own_of (n : string) : option own := find (fun o => (o_name o =? n)%string) tab.
(* e.g. src/ranap/RANAP_RAB-ID.c:147-171 *)
Definition start : cst := mkCst (fun n => match own_of n with Some o => FBody (o_fun o) | None => FGeneric end) (fun _ => false).

(* Calling the function [f] with td = [n].  A function that delegates takes over
   the function of the other descriptor and calls that one.  [fuel] bounds the length
   of a chain of delegations; None if it is exhausted. *)
(* e.g. src/ranap/RANAP_Criticality.c:10-16, RANAP_ChosenEncryptionAlgorithm.c:10-27 *)
Fixpoint call (fuel : nat) (s : cst) (n : string) (f : fptr) (v : val) : option (cst * bool) :=
  match f with
  | FGeneric => Some (s, true)
  | FBody (CDelegate o) =>
      match fuel with
      | O => None
      | S fuel => let g := s_chk s o in call fuel (mkCst (upd (s_chk s) n g) (s_used s)) n g v
      end
  | FBody f => Some (s, accepts f v)
  end.
(* asn_DEF_n.check_constraints(&asn_DEF_n, value); e.g. src/ranap/RANAP_RAB-ID.c:147-171 *)
Definition check (s : cst) (n : string) (v : val) : option (cst * bool) := call 3 s n (s_chk s n) v.

(* X_inherit_TYPE_descriptor(td) for td = [n] and X = [b], followed by the call of
   the function that was inherited, which is again such a function if the other
   descriptor is implemented using a third one and has not been used yet *)
(* e.g. src/ranap/RANAP_RAB-ID.c:45-63, 116-122; RANAP_ChosenEncryptionAlgorithm.c:35-60 *)
Fixpoint inherit (fuel : nat) (s : cst) (n b : string) : option cst :=
  match own_of b with
  | None => Some s
  | Some o =>
      let s := mkCst (upd (s_chk s) n (s_chk s (o_base o))) (s_used s) in
      match fuel with
      | O => None
      | S fuel => if s_used s (o_base o) then Some s else inherit fuel s n (o_base o)
      end
  end.
(* any of the functions free, print, decode and encode of the descriptor *)
(* e.g. src/ranap/RANAP_RAB-ID.c:65-137 *)
Definition use (s : cst) (n : string) : option cst :=
  if s_used s n then Some s else
  match own_of n with
  | None => Some s
  | Some _ => option_map (fun s => mkCst (s_chk s) (upd (s_used s) n true)) (inherit 3 s n n)
  end.

(* histories *)
(* vocabulary, not in /repo *)
Inductive cop := Use (n : string) | Check (n : string) (v : val).
(* vocabulary, not in /repo *)
Definition cstep (s : cst) (o : cop) : option cst :=
  match o with Use n => use s n | Check n v => option_map fst (check s n v) end.
(* vocabulary, not in /repo *)
Fixpoint crun (s : cst) (l : list cop) : option cst :=
  match l with [] => Some s | o :: l => match cstep s o with Some s => crun s l | None => None end end.
End Tab.
