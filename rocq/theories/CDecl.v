(* The C declarations of the headers in include/osmocom, and of a type descriptor what concerns
   memory: the parts of the language that asn1c writes. *)
From Verif Require Import Base.
From Coq Require Import String List.
Import ListNotations.

(* a type as it is written; CList t is A_SEQUENCE_OF(t), an array of pointers to t
   (libasn1c asn_SEQUENCE_OF.h; include/osmocom/ranap/RANAP_IE-Extensions.h:24-29) *)
Inductive ctype :=
| CName (n : string)       (* a type name, of C or of a typedef *)
| CStruct (n : string)
| CUnion (n : string)
| CEnum (n : string)
| CList (t : ctype).
(* T name; or T *name; (include/osmocom/ranap/RANAP_InterfacesToTraceItem.h:37-38) *)
Record cmember := CM { cm_name : string; cm_pointer : bool; cm_type : ctype }.

(* an entry of asn_TYPE_member_t: its ATF_POINTER flag, its field "optional", the member its
   offset is computed from, the descriptor of its type, and the type that its own constraint
   function casts to ("" without function, "none" if the function looks at no value)
   (src/ranap/RANAP_InterfacesToTraceItem.c:177-197) *)
Record elem := El { el_pointer : bool; el_optional : N; el_struct : string; el_path : list string; el_def : string; el_check : string }.
(* a type's constraint function (src/ranap/RANAP_InterfacesToTraceItem.c:10-16,
   src/rua/RUA_IntraDomainNasNodeSelector.c:10-37): taken from another type, or its own, which casts to a type or
   looks at no value *)
Inductive check := Of (d : string) | Cast (t : string) | NoLook.
(* the specifics: the structure whose size and whose members' offsets they give; of a SEQUENCE
   also the optional members and how many of them are root members and extension additions; of an
   INTEGER whether it is unsigned (src/ranap/RANAP_InterfacesToTraceItem.c:205-214,
   src/ranap/RANAP_Cause.c:89-98, src/ranap/RANAP_IE-Extensions.c:29-33,
   src/ranap/RANAP_UnsuccessfullyTransmittedDataVolume.c:129-133) *)
Inductive specs :=
| SpNone
| SpInt (is_unsigned : bool)
| SpSeq (size : string) (ctx : string * string) (oms : list N) (roms aoms : N)
| SpChoice (size : string) (ctx present present_size : string * string)
| SpList (size : string) (ctx : string * string).
(* a descriptor: its name without asn_DEF_, the types its free, print, APER decoder and APER
   encoder functions come from, its constraint function, elements and specifics.  The functions
   that asn1c writes for types without structure first copy those of another descriptor
   (…_inherit_TYPE_descriptor) and then call them; the model has the copied ones.
   (src/ranap/RANAP_InterfacesToTraceItem.c:215-240) *)
Record desc := De { de_name : string; de_ops : list string; de_check : check; de_elems : list elem; de_specs : specs }.
