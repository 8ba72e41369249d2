(* Which values a type descriptor admits, stated without reference to the
   encoder: constraints respected, mandatory components present. *)
From Verif Require Import Base Aper.
Local Open Scope Z_scope.

(* value [z] (or size [z]) allowed by a constraint: none, in range, or any if
   the constraint is extensible *)
Definition allowed (c : option con) (z : Z) : Prop :=
  match c with
  | None => True
  | Some c => c_ext c = true \/ c_lb c <= z <= c_ub c
  end.

Inductive valid : ty -> val -> Prop :=
| v_null : valid TNull VNull
| v_bool x : valid TBool (VBool x)
| v_int c z : allowed c z -> valid (TInt c) (VInt z)
| v_enum_root e r m z : In z r -> valid (TEnum e r m) (VEnum z)
| v_enum_more r m z : In z m -> valid (TEnum true r m) (VEnum z)
| v_bits c l : allowed c (Z.of_nat (length l)) -> valid (TBits c) (VBits l)
| v_octs c l : allowed c (Z.of_nat (length l)) -> (forall o, In o l -> (o < 256)%N) -> valid (TOcts c) (VOcts l)
| v_seqof c t l : allowed c (Z.of_nat (length l)) -> (forall v, In v l -> valid t v) -> valid (TSeqOf c t) (VList l)
| v_seq e root adds vr va :
    length vr = length root ->
    length va = length adds ->
    (* a root component is absent only if it is OPTIONAL *)
    (forall i t, nth_error root i = Some (false, t) -> nth_error vr i <> Some None) ->
    (forall i o t v, nth_error root i = Some (o, t) -> nth_error vr i = Some (Some v) -> valid t v) ->
    (* any extension addition may be absent *)
    (forall i o t v, nth_error adds i = Some (o, t) -> nth_error va i = Some (Some v) -> valid t v) ->
    (* additions only if the SEQUENCE is extensible *)
    (e = false -> forall v, ~ In (Some v) va) ->
    valid (TSeq e root adds) (VSeq vr va)
| v_choice_root e root more i t v : nth_error root i = Some t -> valid t v -> valid (TChoice e root more) (VChoice i v)
| v_choice_more root more i t v : nth_error more i = Some t -> valid t v ->
    valid (TChoice true root more) (VChoice (length root + i) v).

(* no SEQUENCE of the type has more than 64 extension additions *)
Fixpoint few_adds (t : ty) : bool :=
  match t with
  | TSeq _ root adds =>
      forallb (fun m => few_adds (snd m)) root && forallb (fun m => few_adds (snd m)) adds &&
      (N.of_nat (length adds) <=? 64)%N
  | TSeqOf _ t => few_adds t
  | TChoice _ root more => forallb few_adds root && forallb few_adds more
  | _ => true
  end.
