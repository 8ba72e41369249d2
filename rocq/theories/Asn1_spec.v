(* The type notation of the protocol modules in asn1/ (X.680), and what a type
   written in it means as an abstract PER type. *)
From Verif Require Import Base Aper.
From Coq Require Import String Ascii List.
Import ListNotations.
Local Open Scope Z_scope.
Local Open Scope list_scope.

(* a bound of a constraint: a number, or a named constant such as maxNrOfErrors *)
Inductive bound := Num (z : Z) | Cst (n : string).
(* (lo..hi), (n), (lo..hi, ...) *)
Record range := Rng { r_lo : bound; r_hi : bound; r_ext : bool }.

Inductive asn :=
| ANull
| ABool
| AAny                                          (* an open type *)
| AOid                                          (* OBJECT IDENTIFIER *)
| AInt (r : option range)
| AEnum (ext : bool) (root more : list string)  (* [more]: after the "..." *)
| ABits (size : option range)
| AOcts (size : option range)
| ASeq (ext : bool) (root adds : list (string * (bool * asn)))  (* true: OPTIONAL *)
| ASeqOf (size : option range) (t : asn)
| AChoice (ext : bool) (root more : list (string * asn))
| ARef (n : string).

Record grammar := Gram { g_types : list (string * asn); g_consts : list (string * Z) }.

Section Meaning.
Context (G : grammar).

Inductive bound_is : bound -> Z -> Prop :=
| b_num z : bound_is (Num z) z
| b_cst n z : In (n, z) (g_consts G) -> bound_is (Cst n) z.

(* an absent constraint stays absent; bounds are inclusive *)
Inductive range_is : option range -> option con -> Prop :=
| r_none : range_is None None
| r_some r lo hi : bound_is (r_lo r) lo -> bound_is (r_hi r) hi ->
    range_is (Some r) (Some (mkCon (r_ext r) lo hi)).

(* n successive integers from k on *)
Definition numbered (k n : nat) : list Z := map Z.of_nat (List.seq k n).

(* X.680: enumeration items without a number are numbered from 0 in textual
   order, those after the extension marker following on; under AUTOMATIC TAGS the
   alternatives of a CHOICE are tagged, so ordered, in textual order.
   An open type is carried as an octet string; the model does the same with an
   object identifier's contents octets. *)
Inductive means : asn -> ty -> Prop :=
| m_null : means ANull TNull
| m_bool : means ABool TBool
| m_any : means AAny (TOcts None)
| m_oid : means AOid (TOcts None)
| m_int r c : range_is r c -> means (AInt r) (TInt c)
| m_enum ext root more :
    means (AEnum ext root more)
          (TEnum ext (numbered 0 (List.length root))
                 (numbered (List.length root) (List.length more)))
| m_bits r c : range_is r c -> means (ABits r) (TBits c)
| m_octs r c : range_is r c -> means (AOcts r) (TOcts c)
| m_seq ext root adds root' adds' :
    fields root root' -> fields adds adds' ->
    means (ASeq ext root adds) (TSeq ext root' adds')
| m_seqof r c a t : range_is r c -> means a t -> means (ASeqOf r a) (TSeqOf c t)
| m_choice ext root more root' more' :
    alts root root' -> alts more more' ->
    means (AChoice ext root more) (TChoice ext root' more')
| m_ref n a t : In (n, a) (g_types G) -> means a t -> means (ARef n) t
with fields : list (string * (bool * asn)) -> list (bool * ty) -> Prop :=
| f_nil : fields [] []
| f_cons n o a t l l' : means a t -> fields l l' ->
    fields ((n, (o, a)) :: l) ((o, t) :: l')
with alts : list (string * asn) -> list ty -> Prop :=
| a_nil : alts [] []
| a_cons n a t l l' : means a t -> alts l l' -> alts ((n, a) :: l) (t :: l').
End Meaning.

(* the C identifier of an ASN.1 name: hyphens become underscores *)
Fixpoint c_name (s : string) : string :=
  match s with
  | EmptyString => EmptyString
  | String c r => String (if Ascii.eqb c "-" then "_"%char else c) (c_name r)
  end.

(* a table of descriptors implements a grammar: it has an entry for exactly the
   types the grammar names (the entries whose name contains "__" belong to types
   written inline in another one), and each entry is what the ASN.1 type means *)
Fixpoint inline_name (s : string) : bool :=
  match s with
  | String "_" (String "_" _) => true
  | String _ r => inline_name r
  | EmptyString => false
  end.
Record implements (prefix : string) (G : grammar) (tab : list (string * ty)) : Prop := {
  im_names : NoDup (map fst (g_types G)) /\ NoDup (map fst (g_consts G)) /\ NoDup (map fst tab);
  im_all : forall n a, In (n, a) (g_types G) ->
    exists t, In (append prefix (c_name n), t) tab;
  im_sound : forall x t, In (x, t) tab -> inline_name x = false ->
    exists n a, x = append prefix (c_name n) /\ In (n, a) (g_types G) /\
      (forall t', means G a t' <-> t' = t)
}.
