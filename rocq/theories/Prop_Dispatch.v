(* Properties C22-C25: the RANAP receive paths *)
From Verif Require Import Base Aper Container Container_proofs RanapTypes RanapTab AllMsgs DispatchTab Factory_spec Dispatch Dispatch_proofs RanapProc Deliver_proofs.
From Coq Require Import String.
Local Open Scope list_scope.

(* the three paths: CN connection-oriented, CN connectionless, RAN connection-oriented *)
Example paths_ex : paths = [cn_co; cn_cl; ran_co]. Proof. reflexivity. Qed.

(* C22: for every direction and procedure code the free routine is that of the
   type decoded *)
Theorem C22_free_matches_decode :
  forall P d p, In P [cn_co; cn_cl; ran_co] -> decoded_as P d p = freed_as P d p.
Proof. exact same_type. Qed.
Print Assumptions C22_free_matches_decode.
(* whatever octets are decoded and whatever the result, freeing the message is
   well typed and releases everything that hangs off it *)
Theorem C22_free_releases_message_partial :
  forall P data, In P [cn_co; cn_cl; ran_co] ->
  free_msg P (e_msg (decode2 P data)) = Some (held (e_msg (decode2 P data))) /\
  (ids_once P data -> e_lost (decode2 P data) = []).
Proof. intros P data HP. split; [exact (frees_held P data HP)|exact (nothing_lost P data HP)]. Qed.
Print Assumptions C22_free_releases_message_partial.
(* and so nothing is left once the callback has been called *)
Theorem C22_released_after_delivery_partial : forall data,
  (x_rc (rx_cn_co data) = 0%Z -> ids_once cn_co data -> x_freed (rx_cn_co data) = Some (x_alloc (rx_cn_co data))) /\
  (ids_once cn_cl data -> x_freed (rx_cn_cl data) = Some (x_alloc (rx_cn_cl data))) /\
  (ids_once ran_co data -> x_freed (rx_ran_co data) = Some (x_alloc (rx_ran_co data))).
Proof. exact released. Qed.
Print Assumptions C22_released_after_delivery_partial.
(* but what the first of two IEs with the same id held is out of reach *)
Theorem C22_repeated_ie_leaks_refuted :
  exists data g, bytes_ok data = true /\ x_rc (rx_cn_co data) = 0%Z /\ x_calls (rx_cn_co data) = [g] /\
    x_alloc (rx_cn_co data) = [VOcts [0xdd]; VOcts [0xaa; 0xbb; 0xcc]]%N /\
    x_freed (rx_cn_co data) = Some [VOcts [0xdd]]%N.
Proof.
  exists [0x00; 0x14; 0x40; 0x11; 0; 0; 2; 0; 0x10; 0x40; 4; 3; 0xaa; 0xbb; 0xcc; 0; 0x10; 0x40; 2; 1; 0xdd]%N.
  eexists. split; [vm_compute; reflexivity|]. split; [vm_compute; reflexivity|]. split; [reflexivity|]. split; vm_compute; reflexivity.
Qed.
Print Assumptions C22_repeated_ie_leaks_refuted.
Example C22_ex : decoded_as cn_co 1 19 = Some M_RANAP_InitialUE_MessageIEs /\ decoded_as ran_co 3 2 = Some M_RANAP_RelocationPreparationFailureIEs /\
  List.length (flat_map (fun P => flat_map (table_of P) dirs) paths) = 53.
Proof. vm_compute. repeat split. Qed.

(* C23 *)
Theorem C23_cn_co_callback :
  forall data,
  (exists g, x_calls (rx_cn_co data) = [g] /\ x_rc (rx_cn_co data) = 0%Z /\ delivers cn_co data g) \/
  (x_calls (rx_cn_co data) = [] /\ x_rc (rx_cn_co data) <> 0%Z /\ forall g, ~ delivers cn_co data g).
Proof. exact co_calls. Qed.
Print Assumptions C23_cn_co_callback.
Theorem C23_ran_co_callback :
  forall data,
  (exists g, x_calls (rx_ran_co data) = [g] /\ x_rc (rx_ran_co data) = 0%Z /\ delivers ran_co data g) \/
  (x_calls (rx_ran_co data) = [] /\ x_rc (rx_ran_co data) <> 0%Z /\ forall g, ~ delivers ran_co data g).
Proof. exact ran_calls. Qed.
Print Assumptions C23_ran_co_callback.
(* what is delivered is the PDU's own direction, code and criticality *)
Theorem C23_delivered_header :
  forall P data g, delivers P data g -> exists b, pdu_in T_RANAP_RANAP_PDU data = Some (g_dir g, g_proc g, g_crit g, b) /\
    (g_dir g = 1 \/ g_dir g = 2 \/ g_dir g = 3 \/ g_dir g = 4)%N /\ (g_proc g <= 255)%N /\
    exists m s, g_body g = Some (m, s) /\ d_ok (decode_msg m b) = true /\ s = d_ies (decode_msg m b).
Proof.
  intros P data g (d&p&cr&b&m&H1&H2&H3&->). exists b. cbn [g_dir g_proc g_crit g_body]. split; [exact H1|].
  destruct (pdu_parts_range data d p cr b H1) as (Ha&Hb&_). split; [exact Ha|]. split; [exact Hb|]. exists m, (d_ies (decode_msg m b)). auto.
Qed.
Print Assumptions C23_delivered_header.
(* connectionless: every PDU without a case is delivered without its IEs *)
Theorem C23_cn_cl_callback_refuted :
  exists data g, x_calls (rx_cn_cl data) = [g] /\ x_rc (rx_cn_cl data) = 0%Z /\ g_body g = None /\
    (forall h, ~ delivers cn_cl data h) /\
    (* an unsuccessful outcome of procedure 31, shown as procedure 0 *)
    pdu_in T_RANAP_RANAP_PDU data = Some (3, 31, 0%Z, [0xff; 0xff])%N /\ g_dir g = 3%N /\ g_proc g = 0%N.
Proof.
  exists [0x40; 0x1f; 0x00; 0x02; 0xff; 0xff]%N, (mkRmsg 3 0 0 None).
  split; [vm_compute; reflexivity|]. split; [vm_compute; reflexivity|]. split; [reflexivity|]. split.
  - intros h (d&p&cr&b&m&H1&H2&_). replace (pdu_in _ _) with (Some (3, 31, 0%Z, [0xff; 0xff])%N) in H1 by (vm_compute; reflexivity).
    injection H1 as <- <- <- <-. discriminate.
  - split; [vm_compute; reflexivity|]. split; reflexivity.
Qed.
Print Assumptions C23_cn_cl_callback_refuted.
(* and that is the only exception *)
Theorem C23_cn_cl_callback_partial :
  forall data,
  (exists g, x_calls (rx_cn_cl data) = [g] /\ x_rc (rx_cn_cl data) = 0%Z /\ delivers cn_cl data g) \/
  (exists g d p cr b, x_calls (rx_cn_cl data) = [g] /\ x_rc (rx_cn_cl data) = 0%Z /\ g_body g = None /\
     pdu_in T_RANAP_RANAP_PDU data = Some (d, p, cr, b) /\ decoded_as cn_cl d p = None) \/
  (x_calls (rx_cn_cl data) = [] /\ x_rc (rx_cn_cl data) <> 0%Z /\ forall g, ~ delivers cn_cl data g).
Proof. exact cl_calls. Qed.
Print Assumptions C23_cn_cl_callback_partial.
Example C23_ex : (* the Reset of tests/test-ranap.ok *)
  exists g, delivers cn_cl [0x00; 0x09; 0x00; 0x0e; 0x00; 0x00; 0x02; 0x00; 0x04; 0x40; 0x02; 0x0b; 0x40; 0x00; 0x03; 0x00; 0x01; 0x00]%N g /\
    g_dir g = 1%N /\ g_proc g = 9%N /\ g_crit g = 0%Z /\
    g_body g = Some (M_RANAP_ResetIEs, mkIes 0 [Some (VChoice 0 (VInt 46)); Some (VEnum 0); None]).
Proof.
  eexists. split; [eexists _, _, _, _, _; split; [vm_compute; reflexivity|split; [reflexivity|split; [vm_compute; reflexivity|reflexivity]]]|].
  repeat split.
Qed.

(* C24: three entries do not follow the elementary procedures of the ASN.1 *)
Theorem C24_grammar_refuted :
  (* Information Transfer Confirmation is decoded as Reset Resource Acknowledge *)
  assigned 2 31 "InformationTransferConfirmationIEs" /\
  option_map m_key (decoded_as cn_cl 2 31) = Some "ResetResourceAcknowledgeIEs"%string /\
  (* Direct Information Transfer has no response *)
  (forall k, ~ assigned 2 34 k) /\ option_map m_key (decoded_as cn_cl 2 34) = Some "InformationTransferConfirmationIEs"%string /\
  (* RAB Assignment has an outcome, not a successful outcome *)
  (forall k, ~ assigned 2 0 k) /\ option_map m_key (decoded_as cn_co 2 0) = Some "RAB-AssignmentResponseIEs"%string.
Proof.
  assert (H : forall d p, existsb (fun e => match e with (d', p', _, _) => (d =? d') && (p =? p') end)%N ranap_procedures = false -> forall k, ~ assigned d p k).
  { intros d p H k [cr Hin]. assert (existsb (fun e => match e with (d', p', _, _) => (d =? d') && (p =? p') end)%N ranap_procedures = true); [|congruence].
    apply existsb_exists. exists (d, p, cr, k). split; [exact Hin|]. rewrite !N.eqb_refl. reflexivity. }
  split; [apply assigned_ok; vm_compute; reflexivity|]. split; [vm_compute; reflexivity|].
  split; [apply H; vm_compute; reflexivity|]. split; [vm_compute; reflexivity|].
  split; [apply H; vm_compute; reflexivity|vm_compute; reflexivity].
Qed.
Print Assumptions C24_grammar_refuted.
(* consequence: no Information Transfer Confirmation with its mandatory
   Information Transfer ID is ever delivered *)
Theorem C24_information_transfer_confirmation_rejected_refuted :
  forall data cr b l ie v, pdu_in T_RANAP_RANAP_PDU data = Some (2, 31, cr, b)%N ->
  body M_RANAP_InformationTransferConfirmationIEs b = Some l -> In ie l -> ie_parts ie = Some (104%N, v) ->
  x_calls (rx_cn_cl data) = [] /\
  exists r, In r (m_rows M_RANAP_InformationTransferConfirmationIEs) /\ r_id r = 104%N /\ r_pres r = Mandatory.
Proof.
  intros data cr b l ie v Hp Hb Hin Hie. split.
  - assert (Hd : decoded_as cn_cl 2 31 = Some M_RANAP_ResetResourceAcknowledgeIEs) by reflexivity.
    pose proof (decode2_shape cn_cl data) as H. change (pdu_in T_RANAP_RANAP_PDU data) with (pdu_parts data) in Hp. rewrite Hp, Hd in H. unfold rx_cn_cl, rx_free. cbn [x_calls]. rewrite H. cbn [e_rc].
    rewrite (unknown_fatal M_RANAP_ResetResourceAcknowledgeIEs b l ie 104%N v); [reflexivity| |exact Hb|exact Hin|exact Hie|].
    + exact (nth_error_In all_msgs 33 eq_refl).
    + intros r Hr He. vm_compute in Hr. repeat (destruct Hr as [<-|Hr]; [vm_compute in He; discriminate|]). destruct Hr.
  - eexists. split; [left; reflexivity|]. split; reflexivity.
Qed.
Print Assumptions C24_information_transfer_confirmation_rejected_refuted.
(* all other entries of the three paths are the assigned grammar, which is unique *)
Theorem C24_grammar_partial :
  forall i P d p m, nth_error [cn_co; cn_cl; ran_co] i = Some P -> decoded_as P d p = Some m ->
  ~ (i = 0 /\ d = 2%N /\ p = 0%N) -> ~ (i = 1 /\ d = 2%N /\ (p = 31%N \/ p = 34%N)) ->
  assigned d p (m_key m) /\ forall k, assigned d p k -> k = m_key m.
Proof.
  intros i P d p m Hi Hm H1 H2. assert (Ha : assigned d p (m_key m)).
  { apply (grammar i P d p m Hi Hm). destruct i as [|[|i]]; cbn [wrong_entry].
    - destruct (N.eqb_spec d 2); [|reflexivity]. destruct (N.eqb_spec p 0); [|reflexivity]. destruct H1. auto.
    - destruct (N.eqb_spec d 2); [|reflexivity]. destruct (N.eqb_spec p 31); [destruct H2; auto|]. destruct (N.eqb_spec p 34); [destruct H2; auto|reflexivity].
    - reflexivity. }
  split; [exact Ha|]. intros k Hk. exact (assigned_once d p _ _ Hk Ha).
Qed.
Print Assumptions C24_grammar_partial.
Example C24_ex : assigned 1 19 "InitialUE-MessageIEs" /\ List.length ranap_procedures = 81.
Proof. split; [apply assigned_ok; vm_compute; reflexivity|vm_compute; reflexivity]. Qed.

(* C25 *)
Theorem C25_failed_decode_leaks_refuted :
  (* CN connection-oriented: nothing at all is released after a failure *)
  (forall data, x_rc (rx_cn_co data) <> 0%Z -> x_freed (rx_cn_co data) = Some []) /\
  exists data, bytes_ok data = true /\ x_rc (rx_cn_co data) = (-1)%Z /\ x_alloc (rx_cn_co data) = [VOcts [0xaa; 0xbb; 0xcc]]%N.
Proof.
  split.
  - intros data. unfold rx_cn_co. destruct (e_rc (decode2 cn_co data) =? 0)%Z; [intros H; destruct H; reflexivity|reflexivity].
  - exists [0x00; 0x14; 0x40; 0x10; 0; 0; 2; 0; 0x10; 0x40; 4; 3; 0xaa; 0xbb; 0xcc; 0x03; 0xe7; 0x40; 1; 0]%N. vm_compute. repeat split.
Qed.
Print Assumptions C25_failed_decode_leaks_refuted.
(* the other two paths release everything, unless an IE came twice *)
Theorem C25_failed_decode_partial :
  forall data,
  (ids_once cn_cl data -> x_freed (rx_cn_cl data) = Some (x_alloc (rx_cn_cl data))) /\
  (ids_once ran_co data -> x_freed (rx_ran_co data) = Some (x_alloc (rx_ran_co data))).
Proof.
  intros data. unfold rx_cn_cl, rx_ran_co, rx_free. cbn [x_freed x_alloc]. split; intros H.
  - rewrite (nothing_lost cn_cl data ltac:(cbn; tauto) H), app_nil_r. apply frees_held. cbn; tauto.
  - rewrite (nothing_lost ran_co data ltac:(cbn; tauto) H), app_nil_r. apply frees_held. cbn; tauto.
Qed.
Print Assumptions C25_failed_decode_partial.
Example C25_ex : (* the same failing message on the RAN side *)
  let data := [0x00; 0x14; 0x40; 0x10; 0; 0; 2; 0; 0x10; 0x40; 4; 3; 0xaa; 0xbb; 0xcc; 0x03; 0xe7; 0x40; 1; 0]%N in
  x_rc (rx_ran_co data) = (-1)%Z /\ x_alloc (rx_ran_co data) = [VOcts [0xaa; 0xbb; 0xcc]]%N /\
  x_freed (rx_ran_co data) = Some [VOcts [0xaa; 0xbb; 0xcc]]%N.
Proof. vm_compute. repeat split. Qed.
(* an Information Transfer Confirmation with transfer id 5 *)
Example C24_ex2 : exists l ie v,
  pdu_in T_RANAP_RANAP_PDU [0x20; 0x1f; 0x00; 0x09; 0; 0; 1; 0; 0x68; 0x40; 2; 0; 5]%N = Some (2, 31, 0%Z, [0; 0; 1; 0; 0x68; 0x40; 2; 0; 5])%N /\
  body M_RANAP_InformationTransferConfirmationIEs [0; 0; 1; 0; 0x68; 0x40; 2; 0; 5]%N = Some l /\ In ie l /\ ie_parts ie = Some (104%N, v) /\
  decode T_RANAP_InformationTransferID v = Some (VInt 5).
Proof.
  do 3 eexists. split; [vm_compute; reflexivity|]. split; [vm_compute; reflexivity|]. split; [left; reflexivity|].
  split; [vm_compute; reflexivity|vm_compute; reflexivity].
Qed.
