(* Property C79: what one side builds with the message factory is what the other
   side's callback is shown. *)
From Verif Require Import Base Aper Aper_spec Aper_valid Container RanapTypes RanapTab Helpers Helpers_spec
  Dispatch Deliver_spec Factory Factory_spec Factory_len Factory_proofs Factory_msgs Factory_rab Factory_exact E2e_spec E2e_proofs.
From Coq Require Import String List.
Local Open Scope list_scope.
Local Open Scope string_scope.
Local Open Scope list_scope.

(* any message with the octets of [holds], factory or not *)
Theorem C79_arrival : forall b d p crit m l, holds T_RANAP_RANAP_PDU b d p crit m l -> In m ranap_msgs ->
  (forall n v, In (n, v) l -> exists r, In r (m_rows m) /\ r_ie r = n) ->
  (In (d, p, m_key m) cn_connection -> arrives (rx_cn_co b) d p crit m l) /\
  (In (d, p, m_key m) cn_connectionless -> arrives (rx_cn_cl b) d p crit m l) /\
  (In (d, p, m_key m) ran_connection -> arrives (rx_ran_co b) d p crit m l).
Proof.
  intros b d p crit m l H Hm Hn. assert (Hi : named_in m l = true).
  { apply forallb_forall. intros [n v] Hin. destruct (Hn n v Hin) as (r&Hr&<-). apply existsb_exists. exists r. split; [exact Hr|apply String.eqb_refl]. }
  split; [|split]; intros Hin; [apply arrives_cn_co|apply arrives_cn_cl|apply arrives_ran_co]; assumption.
Qed.
Print Assumptions C79_arrival.

(* from the core network to the radio network, on a connection *)
Theorem C79_iu_release_command : forall c, cause_ok c -> 
  exists b, r_msg (new_msg_iu_rel_cmd c) = Some b /\ 
    arrives (rx_ran_co b) 1 1 0 M_RANAP_Iu_ReleaseCommandIEs
      [("id-Cause", cause_val c)].
Proof.
  intros. destruct (iu_rel_cmd_msg c) as (b&Hb&Hh); [assumption|]. exists b. split; [exact Hb|].
  apply arrives_ran_co; [exact Hh|exact (nth_error_In ranap_msgs 0 eq_refl)|vm_compute; tauto|reflexivity].
Qed.
Print Assumptions C79_iu_release_command.
Theorem C79_security_mode_command : forall ik ck status ia ea, key_ok ik -> opt_ok key_ok ck -> dom_ok status -> (ia < 256)%N -> (ea < 256)%N -> sound_mask ia = true -> (ck <> None -> sound_mask ea = true) -> 
  exists b, r_msg (new_msg_sec_mod_cmd2 ik ck status ia ea) = Some b /\ 
    arrives (rx_ran_co b) 1 6 0 M_RANAP_SecurityModeCommandIEs
      ([("id-IntegrityProtectionInformation", protection (selected 0 1 ia) ik)] ++
       given "id-EncryptionInformation" (protection (selected 1 2 ea)) ck ++ [("id-KeyStatus", VEnum status)]).
Proof.
  intros. pose proof (sec_mod_cmd_msg ik ck status ia ea) as Hsec.
  assert (He : sound_mask ia && match ck with Some _ => sound_mask ea | None => true end = true) by (destruct ck; [apply andb_true_intro; split; [assumption|match goal with H : _ <> None -> _ |- _ => apply H; discriminate end]|rewrite Bool.andb_true_r; assumption]).
  rewrite He in Hsec. destruct Hsec as (b&Hb&Hh); try assumption. exists b. split; [exact Hb|].
  apply arrives_ran_co; [exact Hh|exact (nth_error_In ranap_msgs 22 eq_refl)|vm_compute; tauto|destruct ck; reflexivity].
Qed.
Print Assumptions C79_security_mode_command.
Theorem C79_common_id : forall imsi, forallb is_digit imsi = true -> 5 <= length imsi <= 16 -> 
  exists m b o, new_msg_common_id (Some imsi) = Ok m /\ r_msg m = Some b /\ packed_text o = imsi /\
    arrives (rx_ran_co b) 1 15 1 M_RANAP_CommonID_IEs
      [("id-PermanentNAS-UE-ID", VChoice 0 (VOcts o))].
Proof.
  intros. destruct (common_id_msg imsi) as (m&b&o&Hm&Hb&Ho&Hh); try assumption. exists m, b, o. do 3 (split; [assumption|]).
  apply arrives_ran_co; [exact Hh|exact (nth_error_In ranap_msgs 46 eq_refl)|vm_compute; tauto|reflexivity].
Qed.
Print Assumptions C79_common_id.
Theorem C79_direct_transfer_down : forall sapi nas, bytes_ok nas = true -> (N.of_nat (length nas) <= 1004)%N -> 
  exists b, r_msg (new_msg_dt sapi nas) = Some b /\ 
    arrives (rx_ran_co b) 1 20 1 M_RANAP_DirectTransferIEs
      [("id-NAS-PDU", VOcts nas); ("id-SAPI", VEnum (if (sapi =? 3)%N then 1 else 0))].
Proof.
  intros. destruct (dt_msg sapi nas) as (b&Hb&Hh); [assumption|]. rewrite (proj2 (N.leb_le _ _)) in Hh by assumption. exists b. split; [exact Hb|].
  apply arrives_ran_co; [exact Hh|exact (nth_error_In ranap_msgs 52 eq_refl)|vm_compute; tauto|reflexivity].
Qed.
Print Assumptions C79_direct_transfer_down.
Theorem C79_rab_assign_voice : forall rab_id ip port x213, 
  exists b o1 o2 addr, r_msg (new_msg_rab_assign_voice rab_id ip port x213) = Some b /\ tla addr x213 false (store32be ip) /\
    decode T_RANAP_RAB_SetupOrModifyItemFirst o1 =
      Some (rab_setup rab_id (Some [false; true; true; false]) amr_bearer (user_plane 1 version_1)
             (transport addr (binding_id (store16be port ++ [0; 0]%N)))) /\
    decode T_RANAP_RAB_SetupOrModifyItemSecond o2 = Some (comps [None; None; None; None; None; None; None]) /\
    arrives (rx_ran_co b) 1 0 0 M_RANAP_RAB_AssignmentRequestIEs
      [("id-RAB-SetupOrModifyList", one_pair 53 0 o1 1 o2)].
Proof.
  intros. destruct (voice_msg rab_id ip port x213) as (b&o1&o2&addr&Hb&Ht&H1&H2&Hh). exists b, o1, o2, addr. do 4 (split; [assumption|]).
  apply arrives_ran_co; [exact Hh|exact (nth_error_In ranap_msgs 58 eq_refl)|vm_compute; tauto|reflexivity].
Qed.
Print Assumptions C79_rab_assign_voice.
Theorem C79_rab_assign_data : forall rab_id ip tei x213, 
  exists b o1 o2 addr, r_msg (new_msg_rab_assign_data rab_id ip tei x213) = Some b /\ tla addr x213 false (store32be ip) /\
    decode T_RANAP_RAB_SetupOrModifyItemFirst o1 =
      Some (rab_setup rab_id None packet_bearer (user_plane 0 version_1) (transport addr (gtp_tei (store32be tei)))) /\
    decode T_RANAP_RAB_SetupOrModifyItemSecond o2 =
      Some (comps [Some (VList [VEnum 3]); Some (VEnum 1); Some (VInt 0); Some (VInt 0); None; None; None]) /\
    arrives (rx_ran_co b) 1 0 0 M_RANAP_RAB_AssignmentRequestIEs
      [("id-RAB-SetupOrModifyList", one_pair 53 0 o1 1 o2)].
Proof.
  intros. destruct (data_msg rab_id ip tei x213) as (b&o1&o2&addr&Hb&Ht&H1&H2&Hh). exists b, o1, o2, addr. do 4 (split; [assumption|]).
  apply arrives_ran_co; [exact Hh|exact (nth_error_In ranap_msgs 58 eq_refl)|vm_compute; tauto|reflexivity].
Qed.
Print Assumptions C79_rab_assign_data.

(* from the radio network to the core network, on a connection *)
Theorem C79_initial_ue : forall le id is_ps g nas, grnc_ok g -> bytes_ok nas = true -> (N.of_nat (length nas) <= 966)%N -> 
  exists b, r_msg (new_msg_initial_ue le id is_ps g nas) = Some b /\ 
    arrives (rx_cn_co b) 1 19 1 M_RANAP_InitialUE_MessageIEs
      [("id-CN-DomainIndicator", VEnum (if is_ps then 1 else 0));
       ("id-LAI", VSeq [Some (VOcts (g_plmn g)); Some (VOcts (area_octets le)); None] []);
       ("id-SAI", VSeq [Some (VOcts (g_plmn g)); Some (VOcts (area_octets le)); Some (VOcts (area_octets le)); None] []);
       ("id-NAS-PDU", VOcts nas); ("id-IuSigConId", VBits (to_bits 24 id)); ("id-GlobalRNC-ID", grnc_val g)].
Proof.
  intros. destruct (initial_ue_exact le id is_ps g nas) as (b&Hb&Hh); try assumption. rewrite (proj2 (N.leb_le _ _)) in Hh by assumption. exists b. split; [exact Hb|].
  apply arrives_cn_co; [exact Hh|exact (nth_error_In ranap_msgs 51 eq_refl)|vm_compute; tauto|reflexivity].
Qed.
Print Assumptions C79_initial_ue.
Theorem C79_direct_transfer_up : forall sapi nas, bytes_ok nas = true -> (N.of_nat (length nas) <= 1004)%N -> 
  exists b, r_msg (new_msg_dt sapi nas) = Some b /\ 
    arrives (rx_cn_co b) 1 20 1 M_RANAP_DirectTransferIEs
      [("id-NAS-PDU", VOcts nas); ("id-SAPI", VEnum (if (sapi =? 3)%N then 1 else 0))].
Proof.
  intros. destruct (dt_msg sapi nas) as (b&Hb&Hh); [assumption|]. rewrite (proj2 (N.leb_le _ _)) in Hh by assumption. exists b. split; [exact Hb|].
  apply arrives_cn_co; [exact Hh|exact (nth_error_In ranap_msgs 52 eq_refl)|vm_compute; tauto|reflexivity].
Qed.
Print Assumptions C79_direct_transfer_up.
Theorem C79_iu_release_request : forall c, cause_ok c -> 
  exists b, r_msg (new_msg_iu_rel_req c) = Some b /\ 
    arrives (rx_cn_co b) 1 11 1 M_RANAP_Iu_ReleaseRequestIEs
      [("id-Cause", cause_val c)].
Proof.
  intros. destruct (iu_rel_req_msg c) as (b&Hb&Hh); [assumption|]. exists b. split; [exact Hb|].
  apply arrives_cn_co; [exact Hh|exact (nth_error_In ranap_msgs 37 eq_refl)|vm_compute; tauto|reflexivity].
Qed.
Print Assumptions C79_iu_release_request.
Theorem C79_iu_release_complete : 
  exists b, r_msg new_msg_iu_rel_compl = Some b /\ 
    arrives (rx_cn_co b) 2 1 0 M_RANAP_Iu_ReleaseCompleteIEs
      [].
Proof.
  destruct iu_rel_compl_msg as (b&Hb&Hh). exists b. split; [exact Hb|].
  apply arrives_cn_co; [exact Hh|exact (nth_error_In ranap_msgs 1 eq_refl)|vm_compute; tauto|reflexivity].
Qed.
Print Assumptions C79_iu_release_complete.
Theorem C79_security_mode_complete : forall ialg ealg, (0 <= ialg <= 15)%Z -> (0 <= ealg <= 15)%Z -> 
  exists b, r_msg (new_msg_sec_mod_compl ialg ealg) = Some b /\ 
    arrives (rx_cn_co b) 2 6 0 M_RANAP_SecurityModeCompleteIEs
      [("id-ChosenIntegrityProtectionAlgorithm", VInt ialg); ("id-ChosenEncryptionAlgorithm", VInt ealg)].
Proof.
  intros. destruct (sec_mod_compl_msg ialg ealg) as (b&Hb&Hh); try assumption. exists b. split; [exact Hb|].
  apply arrives_cn_co; [exact Hh|exact (nth_error_In ranap_msgs 23 eq_refl)|vm_compute; tauto|reflexivity].
Qed.
Print Assumptions C79_security_mode_complete.
Theorem C79_rab_release_request : forall rab_id c, cause_ok c -> 
  exists b o, r_msg (new_msg_rab_rel_req rab_id c) = Some b /\ decode T_RANAP_RAB_ReleaseItem o = Some (VSeq [Some (VBits (octets_bits [rab_id])); Some (cause_val c); None] []) /\
    arrives (rx_cn_co b) 1 10 1 M_RANAP_RAB_ReleaseRequestIEs
      [("id-RAB-ReleaseList", one_item 40 1 o)].
Proof.
  intros. destruct (rab_rel_req_msg rab_id c) as (b&o&Hb&Ho&Hh); [assumption|]. exists b, o. do 2 (split; [assumption|]).
  apply arrives_cn_co; [exact Hh|exact (nth_error_In ranap_msgs 35 eq_refl)|vm_compute; tauto|reflexivity].
Qed.
Print Assumptions C79_rab_release_request.

(* without a connection, to the core network *)
Theorem C79_reset : forall domain c rnc, dom_ok domain -> cause_ok c -> opt_ok grnc_ok rnc -> 
  exists b, r_msg (new_msg_reset2 domain (Some c) rnc) = Some b /\ 
    arrives (rx_cn_cl b) 1 9 0 M_RANAP_ResetIEs
      ([("id-Cause", cause_val c); ("id-CN-DomainIndicator", VEnum domain)] ++ given "id-GlobalRNC-ID" grnc_val rnc).
Proof.
  intros. destruct (reset_msg domain c rnc) as (b&Hb&Hh); try assumption. exists b. split; [exact Hb|].
  apply arrives_cn_cl; [exact Hh|exact (nth_error_In ranap_msgs 29 eq_refl)|vm_compute; tauto|destruct rnc; reflexivity].
Qed.
Print Assumptions C79_reset.
Theorem C79_reset_ack : forall domain rnc, dom_ok domain -> opt_ok grnc_ok rnc -> 
  exists b, r_msg (new_msg_reset_ack domain rnc) = Some b /\ 
    arrives (rx_cn_cl b) 2 9 0 M_RANAP_ResetAcknowledgeIEs
      ([("id-CN-DomainIndicator", VEnum domain)] ++ given "id-GlobalRNC-ID" grnc_val rnc).
Proof.
  intros. destruct (reset_ack_msg domain rnc) as (b&Hb&Hh); try assumption. exists b. split; [exact Hb|].
  apply arrives_cn_cl; [exact Hh|exact (nth_error_In ranap_msgs 30 eq_refl)|vm_compute; tauto|destruct rnc; reflexivity].
Qed.
Print Assumptions C79_reset_ack.
Theorem C79_reset_resource : forall domain c id rnc, dom_ok domain -> cause_ok c -> opt_ok grnc_ok rnc -> 
  exists b o, r_msg (new_msg_reset_resource domain c [id] rnc) = Some b /\ decode T_RANAP_ResetResourceItem o = Some (VSeq [Some (VBits (to_bits 24 id)); None] []) /\
    arrives (rx_cn_cl b) 1 27 0 M_RANAP_ResetResourceIEs
      ([("id-CN-DomainIndicator", VEnum domain); ("id-Cause", cause_val c); ("id-IuSigConIdList", one_item 78 0 o)] ++
       given "id-GlobalRNC-ID" grnc_val rnc).
Proof.
  intros. destruct (reset_resource_msg domain c id rnc) as (b&o&Hb&Ho&Hh); try assumption. exists b, o. do 2 (split; [assumption|]).
  apply arrives_cn_cl; [exact Hh|exact (nth_error_In ranap_msgs 31 eq_refl)|vm_compute; tauto|destruct rnc; reflexivity].
Qed.
Print Assumptions C79_reset_resource.
Theorem C79_paging : forall imsi tmsi is_ps pcause, forallb is_digit imsi = true -> 5 <= length imsi <= 16 -> opt_ok (fun t => t < 2 ^ 32)%N tmsi -> (pcause <= 5)%N -> 
  exists m b o, new_msg_paging_cmd imsi tmsi is_ps pcause = Ok m /\ r_msg m = Some b /\ packed_text o = imsi /\
    arrives (rx_cn_cl b) 1 14 1 M_RANAP_PagingIEs
      (paging_ies is_ps o tmsi pcause).
Proof.
  intros. destruct (paging_msg imsi tmsi is_ps pcause) as (m&b&o&Hm&Hb&Ho&Hh); try assumption. exists m, b, o. do 3 (split; [assumption|]).
  apply arrives_cn_cl; [exact Hh|exact (nth_error_In ranap_msgs 45 eq_refl)|vm_compute; tauto|unfold paging_ies; destruct tmsi, (pcause =? 0)%N; reflexivity].
Qed.
Print Assumptions C79_paging.

(* an Error Indication without RNC-ID, either way and without a connection *)
Theorem C79_error_indication : forall c cd domain,
  let l := given "id-Cause" cause_val c ++ given "id-CriticalityDiagnostics" (fun v => v) cd ++ given "id-CN-DomainIndicator" VEnum domain in
  opt_ok cause_ok c -> opt_ok (valid T_RANAP_CriticalityDiagnostics) cd -> opt_ok dom_ok domain ->
  (pdu_octets M_RANAP_ErrorIndicationIEs l <= 1024)%N ->
  exists b, r_msg (new_msg_error_ind c cd domain None) = Some b /\
    arrives (rx_cn_co b) 1 22 1 M_RANAP_ErrorIndicationIEs l /\ arrives (rx_ran_co b) 1 22 1 M_RANAP_ErrorIndicationIEs l /\
    arrives (rx_cn_cl b) 1 22 1 M_RANAP_ErrorIndicationIEs l.
Proof.
  intros c cd domain l Hc Hd Hm Hl. destruct (error_ind_exact c cd domain Hc Hd Hm) as (b&Hb&H). fold l in H. rewrite (proj2 (N.leb_le _ _) Hl) in H.
  exists b. split; [exact Hb|]. assert (Hin : In M_RANAP_ErrorIndicationIEs ranap_msgs) by exact (nth_error_In ranap_msgs 55 eq_refl).
  assert (Hn : named_in M_RANAP_ErrorIndicationIEs l = true) by (unfold l; destruct c, cd, domain; reflexivity).
  split; [|split]; [apply arrives_cn_co|apply arrives_ran_co|apply arrives_cn_cl]; try assumption; vm_compute; tauto.
Qed.
Print Assumptions C79_error_indication.
(* the hypotheses are met: a cause, keys, masks, an RNC, an IMSI; and what is shown *)
Example C79_ex : cause_ok (mkCause 1 46) /\ key_ok (repeat 7%N 16) /\ sound_mask 6 = true /\ grnc_ok (mkGrnc [9; 241; 7]%N 2342) /\
  forallb is_digit [57; 48; 49; 55; 48; 48; 48; 48]%N = true /\
  exists b s, r_msg (new_msg_dt 3 [5; 8; 0]%N) = Some b /\
    x_calls (rx_ran_co b) = [mkRmsg 1 20 1 (Some (M_RANAP_DirectTransferIEs, s))] /\
    shown M_RANAP_DirectTransferIEs s = [("id-NAS-PDU", Some (VOcts [5; 8; 0]%N)); ("id-SAPI", Some (VEnum 1))].
Proof.
  split; [eapply (encode_valid T_RANAP_Cause); vm_compute; reflexivity|]. split; [split; reflexivity|]. split; [reflexivity|].
  split; [unfold grnc_ok; split; [reflexivity|]; split; [reflexivity|]; split; discriminate|]. split; [reflexivity|].
  eexists. eexists. split; [vm_compute; reflexivity|]. split; vm_compute; reflexivity.
Qed.
Example C79_holds_ex : exists b, holds T_RANAP_RANAP_PDU b 1 20 1 M_RANAP_DirectTransferIEs
    [("id-NAS-PDU", VOcts [5; 8; 0]%N); ("id-SAPI", VEnum 1)] /\ In M_RANAP_DirectTransferIEs ranap_msgs /\
  (dom_ok 0 /\ (0 <= 15 <= 15)%Z /\ valid T_RANAP_CriticalityDiagnostics cd_empty) /\
  (pdu_octets M_RANAP_ErrorIndicationIEs [("id-CriticalityDiagnostics", cd_empty); ("id-CN-DomainIndicator", VEnum 0)] <= 1024)%N.
Proof.
  destruct (dt_msg 3 [5; 8; 0]%N eq_refl) as (b&_&Hh). exists b. split; [exact Hh|]. split; [exact (nth_error_In ranap_msgs 52 eq_refl)|].
  split; [|vm_compute; discriminate]. split; [left; reflexivity|]. split; [lia|]. eapply encode_valid. vm_compute. reflexivity.
Qed.
