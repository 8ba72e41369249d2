(* Two releases of one ASN.1 type, and what they have in common. Stated without
   reference to the codec. *)
From Verif Require Import Base Aper.

(* [evolves old new]: the later release only adds behind extension markers:
   further values of an extensible ENUMERATED, further alternatives of an
   extensible CHOICE, further components of an extensible SEQUENCE, at any depth *)
Inductive evolves : ty -> ty -> Prop :=
| ev_null : evolves TNull TNull
| ev_bool : evolves TBool TBool
| ev_int c : evolves (TInt c) (TInt c)
| ev_bits c : evolves (TBits c) (TBits c)
| ev_octs c : evolves (TOcts c) (TOcts c)
| ev_enum e r m x : (e = false -> x = []) -> evolves (TEnum e r m) (TEnum e r (m ++ x))
| ev_seqof c t t' : evolves t t' -> evolves (TSeqOf c t) (TSeqOf c t')
| ev_seq e root root' adds adds' x :
    evolve_all root root' -> evolve_all adds adds' -> (e = false -> x = []) ->
    evolves (TSeq e root adds) (TSeq e root' (adds' ++ x))
| ev_choice e root root' more more' x :
    Forall2 evolves root root' -> Forall2 evolves more more' -> (e = false -> x = []) ->
    evolves (TChoice e root more) (TChoice e root' (more' ++ x))
with evolve_all : list (bool * ty) -> list (bool * ty) -> Prop :=
| ea_nil : evolve_all [] []
| ea_cons o t t' l l' : evolves t t' -> evolve_all l l' -> evolve_all ((o, t) :: l) ((o, t') :: l').

(* [known extra old v w]: [w] is the part of the value [v] of the later release
   that the earlier release knows; the components it does not know satisfy
   [extra] and are left out. A value of which the earlier release knows nothing
   (a new alternative or enumeration value) has no known part. *)
Inductive known (extra : list (option val) -> Prop) : ty -> val -> val -> Prop :=
| k_null v : known extra TNull v v
| k_bool v : known extra TBool v v
| k_int c v : known extra (TInt c) v v
| k_bits c v : known extra (TBits c) v v
| k_octs c v : known extra (TOcts c) v v
| k_enum e r m z : In z (r ++ m) -> known extra (TEnum e r m) (VEnum z) (VEnum z)
| k_seqof c t l l' : Forall2 (known extra t) l l' -> known extra (TSeqOf c t) (VList l) (VList l')
| k_seq e root adds vr wr va wa x :
    known_all extra root vr wr -> known_all extra adds va wa -> extra x ->
    known extra (TSeq e root adds) (VSeq vr (va ++ x)) (VSeq wr wa)
| k_choice e root more i t v w : nth_error (root ++ more) i = Some t -> known extra t v w ->
    known extra (TChoice e root more) (VChoice i v) (VChoice i w)
with known_all (extra : list (option val) -> Prop) : list (bool * ty) -> list (option val) -> list (option val) -> Prop :=
| ka_nil : known_all extra [] [] []
| ka_some o t l v w vs ws : known extra t v w -> known_all extra l vs ws ->
    known_all extra ((o, t) :: l) (Some v :: vs) (Some w :: ws)
| ka_none o t l vs ws : known_all extra l vs ws ->
    known_all extra ((o, t) :: l) (None :: vs) (None :: ws).

Definition any_extra (x : list (option val)) : Prop := True.
Definition no_extra (x : list (option val)) : Prop := forall v, In v x -> v = None.
