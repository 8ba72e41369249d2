(* Model of the decoders for the elements of RAB lists: /repo/src/ranap_common.c:560-678. *)
From Verif Require Import Base Aper RanapTypes.
From Coq Require Import List.

(* What a decoder leaves: return value, the destination (None: all zero), the values
   allocated for it, of which the destination refers to the parts, and the values
   released *)
(* ranap_common.c:570-582 *)
Record item_res := mkItem { i_rc : Z; i_dest : option val; i_alloc : list val; i_freed : list val }.
(* The second argument: NULL, an ANY without octets (buf is NULL), or one with
   octets.  ranap_common.c:562 *)
Inductive any_arg := AnyNull | AnyEmpty | AnyOctets (o : list N).
(* The common text of the five functions, with the descriptor as an argument; [dst]:
   the first argument is not NULL.  ANY_to_type_aper (libasn1c) returns 0 and a NULL
   structure for an ANY without octets, which memcpy then reads; it frees what it
   decoded if it fails.  FREEMEM releases the structure, whose parts are then owned
   by the destination; as everywhere in the model only contents are accounted for.
   Simplification: XER output is left out. *)
(* ranap_common.c:560-583 *)
Definition decode_from_list (t : ty) (dst : bool) (a : any_arg) : outcome item_res :=
  match a with
  | AnyNull => Fault Assertion
  | AnyEmpty => if dst then Fault NullDeref else Fault Assertion
  | AnyOctets o =>
      if dst then
        match decode t o with
        | None => Ok (mkItem (-1) None [] [])
        | Some v => Ok (mkItem 0 (Some v) [v] [])
        end
      else Fault Assertion
  end.
(* ranap_decode_rab_setupormodifieditemies_fromlist ranap_common.c:560-583 *)
Definition rab_setupormodifieditem := decode_from_list T_RANAP_RAB_SetupOrModifiedItem.
(* ranap_decode_rab_faileditemies_fromlist ranap_common.c:585-606 *)
Definition rab_faileditem := decode_from_list T_RANAP_RAB_FailedItem.
(* ranap_decode_rab_releaseitemies_fromlist ranap_common.c:608-629 *)
Definition rab_releaseitem := decode_from_list T_RANAP_RAB_ReleaseItem.
(* ranap_decode_rab_releaseditemies_fromlist ranap_common.c:631-652 *)
Definition rab_releaseditem := decode_from_list T_RANAP_RAB_ReleasedItem.
(* ranap_decode_rab_setupormodifyitemfirst ranap_common.c:654-678 *)
Definition rab_setupormodifyitemfirst := decode_from_list T_RANAP_RAB_SetupOrModifyItemFirst.
