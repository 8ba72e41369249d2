(* What "within its limits" means, and what a caller of the checks sees. *)
From Verif Require Import Base Aper Aper_spec AllTypes Constr ConstrTab.
From Coq Require Import String List.
Import ListNotations.
Local Open Scope string_scope.
Local Open Scope Z_scope.

(* the type with this name *)
Definition type_of (n : string) : option ty := option_map snd (find (fun p => (fst p =? n)%string) all_types).
(* component i of a type: of a SEQUENCE or CHOICE; the element of a SEQUENCE OF *)
Definition component (t : ty) (i : nat) : option ty :=
  match t with
  | TSeq _ r a => option_map snd (nth_error (r ++ a) i)
  | TChoice _ r m => nth_error (r ++ m) i
  | TSeqOf _ t => match i with O => Some t | _ => None end
  | _ => None
  end.

Definition in_range (c : con) (z : Z) : Prop := c_lb c <= z <= c_ub c.
(* the limits that the specification gives before any extension marker: on the
   number, on the length, on the enumeration *)
Definition limits (t : ty) (v : val) : Prop :=
  match t, v with
  | TInt (Some c), VInt z => in_range c z
  | TOcts (Some c), VOcts l => in_range c (Z.of_nat (length l))
  | TBits (Some c), VBits l => in_range c (Z.of_nat (length l))
  | TSeqOf (Some c) _, VList l => in_range c (Z.of_nat (length l))
  | TEnum _ root more, VEnum z => In z (root ++ more)
  | _, _ => True
  end.
(* what can be stored in the structure generated for the type: a long, octets with a length, ... *)
Definition storable (t : ty) (v : val) : Prop :=
  match t, v with
  | TNull, VNull => True
  | TBool, VBool _ => True
  | TInt _, VInt z => - 2 ^ 63 <= z < 2 ^ 63
  | TEnum _ _ _, VEnum z => - 2 ^ 63 <= z < 2 ^ 63
  | TBits _, VBits _ => True
  | TOcts _, VOcts l => forall o, In o l -> (o < 256)%N
  | TSeqOf _ _, VList _ => True
  | TSeq _ _ _, VSeq _ _ => True
  | TChoice _ _ _, VChoice _ _ => True
  | _, _ => False
  end.

(* What check_constraints of the type says of a value in a program that has done [l]
   before: Some true for accepted. *)
Definition verdict (l : list cop) (n : string) (v : val) : option bool :=
  match crun own_checks (start own_checks) l with
  | Some s => option_map snd (check s n v)
  | None => None
  end.
(* the types that have a function of their own *)
Definition has_check (n : string) : Prop := exists o, In o own_checks /\ o_name o = n.
(* such a type that is only another name for the type [m], whose function it calls *)
Definition synonym_of (n m : string) : Prop := exists o, In o own_checks /\ o_name o = n /\ o_fun o = CDelegate m.
(* the function called for component i of the type with this name *)
Definition component_check (n : string) (i : nat) (f : cfun) : Prop := In (n, i, f) member_checks.

(* the type of component i of the type with this name: the type whose function is called
   when the component has none of its own *)
Definition component_type (n : string) (i : nat) (m : string) : Prop :=
  exists l, In (n, l) member_types /\ In (i, m) l.
(* a SEQUENCE, a CHOICE or a SEQUENCE OF: its check is that of its components *)
Definition constructed (t : ty) : Prop := match t with TSeq _ _ _ | TChoice _ _ _ | TSeqOf _ _ => True | _ => False end.
(* a type of ASN.1 itself, without limits *)
Definition unlimited (t : ty) : Prop :=
  match t with TNull | TBool | TInt None | TOcts None | TBits None => True | _ => False end.

Definition enumeration (t : ty) : Prop := match t with TEnum _ _ _ => True | _ => False end.
Definition list_type (t : ty) : Prop := match t with TSeqOf _ _ => True | _ => False end.

(* The types, and components of types, whose function is not right, see
   C89_rsrq, C89_volume and C89_sign. *)
Definition exceptional : list string := ["RANAP_RSRQ_Extension"; "RANAP_UnsuccessfullyTransmittedDataVolume"].
Definition exceptional_components : list (string * nat) :=
  [("RANAP_GeographicalCoordinates", 2%nat); ("HNBAP_GeographicalCoordinates", 2%nat); ("RANAP_Event1F_Parameters", 1%nat)].
