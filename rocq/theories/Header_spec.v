(* What the headers must declare for the ASN.1 modules, and when a type descriptor describes the
   memory that the headers declare. *)
From Verif Require Import Base Asn1_spec CDecl HeaderTab DescTab NamedNumbers RanapAsn RuaAsn HnbapAsn SabpAsn.
From Coq Require Import String Ascii List.
Import ListNotations.
Local Open Scope Z_scope.
Local Open Scope list_scope.
Local Open Scope string_scope.

(* ---------------- C ---------------- *)
(* the numbers of enumerators: as written, else one more than the one before, the first 0 *)
Fixpoint enumerate (next : Z) (l : list (string * option Z)) : list (string * Z) :=
  match l with
  | [] => []
  | (n, o) :: r => let z := match o with Some z => z | None => next end in (n, z) :: enumerate (z + 1) r
  end.
Definition c_enum (l : list (string * option Z)) : list (string * Z) := enumerate 0 l.

(* ---------------- names ---------------- *)
Section Names.
Context (prefix : string) (G : grammar) (named : list (string * list (string * Z))).

(* [a] is written in the modules, and the C name of that type is [p]: types written inside
   another one take their C name from the component they are the type of *)
Inductive occurs : string -> asn -> Prop :=
| oc_type n a : In (n, a) (g_types G) -> occurs (prefix ++ c_name n) a
| oc_field p ext root adds m o a : occurs p (ASeq ext root adds) -> In (m, (o, a)) (root ++ adds)%list -> occurs (p ++ "__" ++ c_name m) a
| oc_alt p ext root more m a : occurs p (AChoice ext root more) -> In (m, a) (root ++ more)%list -> occurs (p ++ "__" ++ c_name m) a
| oc_member p r a : occurs p (ASeqOf r a) -> occurs (p ++ "__Member") a.

(* numbered from 0 in their order *)
Definition in_order (l : list string) : list (string * Z) := combine l (numbered 0 (List.length l)).

(* the enumeration [e] and its enumerators for the modules: one for each ENUMERATED type, one for
   the alternatives of each CHOICE, where 0 means none, and one for each INTEGER type with names *)
Inductive enum_for : string -> list (string * Z) -> Prop :=
| ef_enumerated p ext root more : occurs p (AEnum ext root more) ->
    enum_for p (in_order (map (fun i => (p ++ "_" ++ c_name i)%string) (root ++ more)%list))
| ef_choice p ext root more : occurs p (AChoice ext root more) ->
    enum_for (p ++ "_PR") (in_order ((p ++ "_PR_NOTHING")%string :: map (fun i => (p ++ "_PR_" ++ c_name (fst i))%string) (root ++ more)%list))
| ef_integer n l : In (n, l) named -> (exists r, In (n, AInt r) (g_types G)) ->
    enum_for (prefix ++ c_name n) (map (fun i => (prefix ++ c_name n ++ "_" ++ c_name (fst i), snd i)) l).

(* ---------------- C types for ASN.1 types ---------------- *)
(* the integers of C types, on machines where long is smallest *)
Inductive c_range : string -> Z -> Z -> Prop :=
| cr_long : c_range "long" (-2147483648) 2147483647
| cr_ulong : c_range "unsigned long" 0 4294967295.

(* the C type for the type [a] called [p] *)
Inductive c_type_for : string -> asn -> ctype -> Prop :=
| ct_null p : c_type_for p ANull (CName "NULL_t")
| ct_bool p : c_type_for p ABool (CName "BOOLEAN_t")
| ct_any p : c_type_for p AAny (CName "ANY_t")
| ct_oid p : c_type_for p AOid (CName "OBJECT_IDENTIFIER_t")
| ct_int p r lo hi c clo chi : bound_is G (r_lo r) lo -> bound_is G (r_hi r) hi -> c_range c clo chi -> clo <= lo -> hi <= chi ->
    c_type_for p (AInt (Some r)) (CName c)
| ct_enum p ext root more : c_type_for p (AEnum ext root more) (CName "long")
| ct_bits p r : c_type_for p (ABits r) (CName "BIT_STRING_t")
| ct_octs p r : c_type_for p (AOcts r) (CName "OCTET_STRING_t")
| ct_seq p ext root adds : c_type_for p (ASeq ext root adds) (CStruct p)
| ct_seqof p r a : c_type_for p (ASeqOf r a) (CStruct p)
| ct_choice p ext root more : c_type_for p (AChoice ext root more) (CStruct p)
| ct_ref p n : c_type_for p (ARef n) (CName (prefix ++ c_name n ++ "_t")).
End Names.

(* ---------------- declarations ---------------- *)
Record decls := Decls {
  dl_enums : list (string * list (string * option Z)); dl_typedefs : list (string * ctype);
  dl_structs : list (string * list cmember); dl_unions : list (string * list cmember) }.
Definition context : cmember := CM "_asn_ctx" false (CName "asn_struct_ctx_t").

Section Declared.
Context (prefix : string) (G : grammar) (H : decls).
Notation structure p ms := (In (p, ms) (dl_structs H)).

(* a component: its name, whether it may be absent and its C type; one that may be absent is a
   pointer *)
Definition component (p : string) (f : string * (bool * asn)) (m : cmember) : Prop :=
  cm_name m = c_name (fst f) /\ cm_pointer m = fst (snd f) /\ c_type_for prefix G (p ++ "__" ++ c_name (fst f)) (snd (snd f)) (cm_type m).
Definition absent_ok (f : string * (bool * asn)) : string * (bool * asn) := (fst f, (true, snd (snd f))).
Definition alternative (p : string) (f : string * asn) (m : cmember) : Prop :=
  cm_name m = c_name (fst f) /\ cm_pointer m = false /\ c_type_for prefix G (p ++ "__" ++ c_name (fst f)) (snd f) (cm_type m).

(* what is declared for the type [a] called [p] *)
Inductive declared (p : string) : asn -> Prop :=
| de_seq ext root adds ms : Forall2 (component p) (root ++ map absent_ok adds)%list ms -> structure p (ms ++ [context])%list -> declared p (ASeq ext root adds)
| de_choice ext root more ms : Forall2 (alternative p) (root ++ more)%list ms -> In (p ++ "_u", ms) (dl_unions H) ->
    structure p [CM "present" false (CName (p ++ "_PR")); CM "choice" false (CUnion (p ++ "_u")); context] -> declared p (AChoice ext root more)
| de_list r a t : c_type_for prefix G (p ++ "__Member") a t -> structure p [CM "list" false (CList t); context] -> declared p (ASeqOf r a)
| de_other a : match a with ASeq _ _ _ | AChoice _ _ _ | ASeqOf _ _ => False | _ => True end -> declared p a.

(* ---------------- descriptors ---------------- *)
Context (D : list desc).
(* a type name stands for what it is defined as *)
Inductive is_type : ctype -> ctype -> Prop :=
| it_same t : is_type t t
| it_defined n t u : In (n, t) (dl_typedefs H) -> is_type t u -> is_type (CName n) u.
(* the C types that the functions of libasn1c work on *)
Definition library : list (string * string) :=
  [("NativeInteger", "long"); ("NativeEnumerated", "long"); ("OCTET_STRING", "OCTET_STRING_t"); ("BIT_STRING", "BIT_STRING_t");
   ("ANY", "ANY_t"); ("NULL", "NULL_t"); ("BOOLEAN", "BOOLEAN_t"); ("OBJECT_IDENTIFIER", "OBJECT_IDENTIFIER_t")].
(* a constraint function that casts to [c] may be called with a pointer to a [t] *)
Definition may_cast (c : string) (t : ctype) : Prop :=
  c = "" \/ c = "none" \/ is_type t (CName c) \/
  c = "A_SEQUENCE_OF" /\ exists s u ms, is_type t (CStruct s) /\ structure s (CM "list" false (CList u) :: ms).
Definition may_check (k : check) (f : string) (t : ctype) : Prop :=
  match k with Of g => g = f | Cast c => c <> "" /\ may_cast c t | NoLook => True end.
Definition all_ops (d : desc) (f : string) : Prop := de_ops d = [f; f; f; f].

(* the functions of the descriptor [d], when given the address of a C object of type [t], find
   every part of the value where [t] has it and as the type that [t] has for it *)
Inductive fits : string -> ctype -> Prop :=
| fi_library f c t : In (f, c) library -> is_type t (CName c) -> fits f t
| fi_like d f t : In d D -> all_ops d f -> may_check (de_check d) f t -> de_elems d = [] -> de_specs d = SpNone \/ de_specs d = SpInt false ->
    fits f t -> fits (de_name d) t
| fi_unsigned d t : In d D -> all_ops d "NativeInteger" -> may_check (de_check d) "NativeInteger" t -> de_elems d = [] ->
    de_specs d = SpInt true -> is_type t (CName "unsigned long") -> fits (de_name d) t
| fi_seq d t s oms ro ao ms : In d D -> all_ops d "SEQUENCE" -> may_check (de_check d) "SEQUENCE" t ->
    de_specs d = SpSeq s (s, "_asn_ctx") oms ro ao -> is_type t (CStruct s) -> structure s (ms ++ [context])%list ->
    Forall2 (fun e m => el_struct e = s /\ el_path e = [cm_name m] /\ el_pointer e = cm_pointer m /\
                        may_cast (el_check e) (cm_type m) /\ fits (el_def e) (cm_type m)) (de_elems d) ms ->
    fits (de_name d) t
| fi_choice d t s ms : In d D -> all_ops d "CHOICE" -> may_check (de_check d) "CHOICE" t ->
    de_specs d = SpChoice s (s, "_asn_ctx") (s, "present") (s, "present") -> is_type t (CStruct s) ->
    structure s [CM "present" false (CName (s ++ "_PR")); CM "choice" false (CUnion (s ++ "_u")); context] -> In (s ++ "_u", ms) (dl_unions H) ->
    Forall2 (fun e m => el_struct e = s /\ el_path e = ["choice"; cm_name m] /\ el_pointer e = cm_pointer m /\
                        may_cast (el_check e) (cm_type m) /\ fits (el_def e) (cm_type m)) (de_elems d) ms ->
    fits (de_name d) t
| fi_list d t s e u : In d D -> all_ops d "SEQUENCE_OF" -> may_check (de_check d) "SEQUENCE_OF" t ->
    de_specs d = SpList s (s, "_asn_ctx") -> is_type t (CStruct s) -> structure s [CM "list" false (CList u); context] ->
    de_elems d = [e] -> el_path e = [] -> el_pointer e = true -> may_cast (el_check e) u -> fits (el_def e) u ->
    fits (de_name d) t.
End Declared.

(* a descriptor that other files can name *)
Fixpoint has_colon (s : string) : bool :=
  match s with EmptyString => false | String c r => if Ascii.eqb c ":" then true else has_colon r end.
Definition exported (d : desc) : Prop := has_colon (de_name d) = false.

(* the positions of the components that may be absent, and how many of them are root components;
   each such component has a count other than 0 in its entry, the others have 0 *)
Fixpoint positions {A} (k : N) (keep : A -> bool) (l : list A) : list N :=
  match l with [] => [] | x :: r => ((if keep x then [k] else []) ++ positions (k + 1)%N keep r)%list end.
(* [d] is for the structure [p] *)
Definition for_structure (p : string) (d : desc) : Prop :=
  match de_specs d with SpSeq s _ _ _ _ | SpChoice s _ _ _ | SpList s _ => s = p | SpNone | SpInt _ => False end.
Definition optional_right (p : string) (root adds : list (string * (bool * asn))) (d : desc) : Prop :=
  (exists c,
    de_specs d = SpSeq p c (positions 0%N (fun f => fst (snd f)) (root ++ map absent_ok adds)%list)
                       (N.of_nat (List.length (filter (fun f => fst (snd f)) root))) (N.of_nat (List.length adds))) /\
  map (fun e => negb (el_optional e =? 0)%N) (de_elems d) = map (fun f => fst (snd f)) (root ++ map absent_ok adds)%list.

(* ---------------- the four protocols ---------------- *)
Record proto := Proto {
  pr_prefix : string; pr_grammar : grammar; pr_named : list (string * list (string * Z)); pr_headers : decls; pr_descs : list desc }.
Definition header_protos : list proto :=
  [Proto "RANAP_" ranap_asn ranap_named (Decls ranap_enums ranap_typedefs ranap_structs ranap_unions) ranap_descs;
   Proto "RUA_" rua_asn rua_named (Decls rua_enums rua_typedefs rua_structs rua_unions) rua_descs;
   Proto "HNBAP_" hnbap_asn hnbap_named (Decls hnbap_enums hnbap_typedefs hnbap_structs hnbap_unions) hnbap_descs;
   Proto "SABP_" sabp_asn sabp_named (Decls sabp_enums sabp_typedefs sabp_structs sabp_unions) sabp_descs].
