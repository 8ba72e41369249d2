(* Property C73: which messages each receive function delivers *)
From Coq Require Import String List.
From Verif Require Import Base Aper Container Container_proofs RanapTypes RanapTab AllMsgs DispatchTab Factory_spec Dispatch Dispatch_proofs RanapProc Deliver_spec Deliver_proofs.
Local Open Scope list_scope.

(* Relocation Detect and Relocation Complete, which the target RNC sends to the
   CN, are always refused; so is Relocation Cancel Acknowledge on the RAN side. *)
Theorem C73_all_messages_refuted :
  assigned 1 12 "RelocationDetectIEs" /\ assigned 1 13 "RelocationCompleteIEs" /\ assigned 2 4 "RelocationCancelAcknowledgeIEs" /\
  (forall data p cr b, pdu_in T_RANAP_RANAP_PDU data = Some (1%N, p, cr, b) -> p = 12%N \/ p = 13%N -> x_calls (rx_cn_co data) = [] /\ x_rc (rx_cn_co data) = (-1)%Z) /\
  (forall data cr b, pdu_in T_RANAP_RANAP_PDU data = Some (2%N, 4%N, cr, b) -> x_calls (rx_ran_co data) = [] /\ x_rc (rx_ran_co data) = (-1)%Z).
Proof.
  do 3 (split; [apply assigned_ok; vm_compute; reflexivity|]). split.
  - intros data p cr b Hp H. apply (proj2 (cn_co_exact data _ _ _ _ Hp)). intros k Hin.
    apply cn_co_list in Hin. destruct H as [-> | ->]; discriminate Hin.
  - intros data cr b Hp. apply (proj2 (ran_co_exact data _ _ _ _ Hp)). intros k Hin. apply ran_co_list in Hin. discriminate Hin.
Qed.
Print Assumptions C73_all_messages_refuted.
(* What is true: a PDU in the list is delivered, with all its parts, exactly if its
   IEs decode; any other is refused on a connection. *)
Theorem C73_cn_connection_partial : forall data d p cr b, pdu_in T_RANAP_RANAP_PDU data = Some (d, p, cr, b) ->
  (forall k m, In (d, p, k) cn_connection -> In m ranap_msgs -> m_key m = k ->
     x_calls (rx_cn_co data) = if d_ok (decode_msg m b) then [mkRmsg d p cr (Some (m, d_ies (decode_msg m b)))] else []) /\
  ((forall k, ~ In (d, p, k) cn_connection) -> x_calls (rx_cn_co data) = [] /\ x_rc (rx_cn_co data) = (-1)%Z).
Proof. exact cn_co_exact. Qed.
Print Assumptions C73_cn_connection_partial.
Theorem C73_ran_connection_partial : forall data d p cr b, pdu_in T_RANAP_RANAP_PDU data = Some (d, p, cr, b) ->
  (forall k m, In (d, p, k) ran_connection -> In m ranap_msgs -> m_key m = k ->
     x_calls (rx_ran_co data) = if d_ok (decode_msg m b) then [mkRmsg d p cr (Some (m, d_ies (decode_msg m b)))] else []) /\
  ((forall k, ~ In (d, p, k) ran_connection) -> x_calls (rx_ran_co data) = [] /\ x_rc (rx_ran_co data) = (-1)%Z).
Proof. exact ran_co_exact. Qed.
Print Assumptions C73_ran_connection_partial.
(* Without a connection, any other is delivered, too, but without IEs; the
   procedure code is lost in unsuccessful outcomes and outcomes. *)
Theorem C73_cn_connectionless_partial : forall data d p cr b, pdu_in T_RANAP_RANAP_PDU data = Some (d, p, cr, b) ->
  (forall k m, In (d, p, k) cn_connectionless -> In m ranap_msgs -> m_key m = k ->
     x_calls (rx_cn_cl data) = if d_ok (decode_msg m b) then [mkRmsg d p cr (Some (m, d_ies (decode_msg m b)))] else []) /\
  ((forall k, ~ In (d, p, k) cn_connectionless) ->
     x_calls (rx_cn_cl data) = [if (d <=? 2)%N then mkRmsg d p cr None else mkRmsg d 0 0 None] /\ x_rc (rx_cn_cl data) = 0%Z).
Proof. exact cn_cl_exact. Qed.
Print Assumptions C73_cn_connectionless_partial.
Example C73_ex : (* an Iu Release Request with a cause; a Relocation Detect *)
  In (1%N, 11%N, "Iu-ReleaseRequestIEs"%string) cn_connection /\ In M_RANAP_Iu_ReleaseRequestIEs ranap_msgs /\
  (exists b, pdu_in T_RANAP_RANAP_PDU [0x00; 0x0b; 0x40; 0x09; 0; 0; 1; 0; 4; 0x40; 2; 0x0b; 0x40]%N = Some (1, 11, 1%Z, b)%N /\ d_ok (decode_msg M_RANAP_Iu_ReleaseRequestIEs b) = true) /\
  pdu_in T_RANAP_RANAP_PDU [0x00; 0x0c; 0x40; 0x03; 0; 0; 0]%N = Some (1, 12, 1%Z, [0; 0; 0])%N /\
  pdu_in T_RANAP_RANAP_PDU [0x20; 0x04; 0x00; 0x03; 0; 0; 0]%N = Some (2, 4, 0%Z, [0; 0; 0])%N /\ (forall k, ~ In (1%N, 12%N, k) cn_connection).
Proof.
  split; [vm_compute; tauto|]. split; [eapply nth_error_In; exact (eq_refl : nth_error ranap_msgs 37 = Some M_RANAP_Iu_ReleaseRequestIEs)|].
  split; [eexists; split; vm_compute; reflexivity|]. split; [vm_compute; reflexivity|]. split; [vm_compute; reflexivity|].
  intros k H. apply cn_co_list in H. discriminate H.
Qed.
