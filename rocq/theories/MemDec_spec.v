(* Vocabulary for what happens when memory runs out while a message is read. *)
From Verif Require Import Base Aper Container Container_spec Dispatch Dispatch_spec MemDec.
Local Open Scope list_scope.

(* there is memory for all of the first [n] calls of the decoder; one of them is denied *)
Definition granted (deny : nat -> bool) (n : nat) : Prop := forall k, k < n -> deny k = false.
Definition denied (deny : nat -> bool) (n : nat) : Prop := exists k, k < n /\ deny k = true.
Definition only (k : nat) : nat -> bool := Nat.eqb k.
Definition never : nat -> bool := fun _ => false.
(* the receive functions, with and without memory *)
Definition receivers : list ((list N -> rx) * ((nat -> bool) -> list N -> rx * nat)) :=
  [(rx_cn_co, rx_cn_co_m); (rx_cn_cl, rx_cn_cl_m); (rx_ran_co, rx_ran_co_m)].
