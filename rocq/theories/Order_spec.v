(* Vocabulary for messages that differ in the order of their IEs. *)
From Verif Require Import Base Aper Container Container_spec RanapTypes DispatchTab Dispatch Dispatch_spec Factory_spec IuClient.
From Coq Require Import Permutation.
Local Open Scope list_scope.

(* two bodies of a message: the same IEs, each once, in some order *)
Definition body_reordered (m : msgdef) (b b' : list N) : Prop :=
  exists l l', body m b = Some l /\ body m b' = Some l' /\ Permutation l l' /\ NoDup (ids_of l).
(* two RANAP messages of the same procedure, with the same IEs in some order *)
Definition reordered (P : path) (data data' : list N) : Prop :=
  exists d p cr b b' m, pdu_in T_RANAP_RANAP_PDU data = Some (d, p, cr, b) /\ pdu_in T_RANAP_RANAP_PDU data' = Some (d, p, cr, b') /\
    decoded_as P d p = Some m /\ body_reordered m b b'.
(* the same happens to the client, but for the order of IEs in a message it receives *)
Inductive same_op : op -> op -> Prop :=
| same_refl : forall o, same_op o o
| same_connect : forall conn calling l2 l2', reordered cn_co l2 l2' -> same_op (OConnectInd conn calling l2) (OConnectInd conn calling l2')
| same_disconnect : forall conn l2 l2', reordered cn_co l2 l2' -> same_op (ODisconnectInd conn l2) (ODisconnectInd conn l2')
| same_data : forall conn l2 l2', reordered cn_co l2 l2' -> same_op (ODataInd conn l2) (ODataInd conn l2')
| same_unitdata : forall calling l2 l2', reordered cn_cl l2 l2' -> same_op (OUnitdataInd calling l2) (OUnitdataInd calling l2').
(* the receive functions and the messages they decode *)
Definition receive_of : list (path * (list N -> rx)) := [(cn_co, rx_cn_co); (cn_cl, rx_cn_cl); (ran_co, rx_ran_co)].
