(* Message generators and the RANAP message factory: C14-C21, C65. *)
From Verif Require Import Base Aper Aper_spec Aper_valid Container RanapTypes RanapTab Helpers Helpers_spec
  Factory Factory_spec Factory_len Factory_proofs Factory_msgs Factory_rab Factory_mem Factory_exact.
From Coq Require Import String List.
Local Open Scope list_scope.
Local Open Scope string_scope.
Local Open Scope list_scope.

(* ---------------- C14 ---------------- *)
(* Each generator hands out an empty buffer for a body of 1100 octets, and the
   factory does so for a NAS PDU of 1005 octets. *)
Theorem C14_never_empty_refuted :
  (forall P, In P [ranap; rua; hnbap; sabp] -> exists d p crit td out, generate P d p crit td out = Some []) /\
  (exists nas, N.of_nat (length nas) = 1005%N /\ r_msg (new_msg_dt 0 nas) = Some []).
Proof.
  split.
  - intros P H. exists 1%N, 0%N, 0%Z, (TOcts None), (VOcts (repeat 0%N 1100)).
    destruct H as [<- | [<- | [<- | [<- | []]]]]; vm_compute; reflexivity.
  - exists (repeat 0%N (N.to_nat 1005)). split; [vm_compute; reflexivity|].
    destruct (dt_msg 0 (repeat 0%N (N.to_nat 1005)) eq_refl) as (b&Hb&H). rewrite repeat_length, N2Nat.id in H.
    change (b = []) in H. rewrite Hb, H. reflexivity.
Qed.
Print Assumptions C14_never_empty_refuted.
(* The strongest true form: NULL exactly if the body has no encoding; the complete
   PDU if it has one that fits 1024 octets (with 5 or 4 octets of header);
   otherwise an empty buffer. *)
Theorem C14_generated_partial : forall P d p crit td out,
  In P [ranap; rua; hnbap; sabp] -> (1 <= d <= alternatives (p_pdu P))%N -> (p <= 255)%N -> In crit [0; 1; 2]%Z ->
  match encode td out with
  | None => generate P d p crit td out = None
  | Some o =>
      if (ie_octets (N.of_nat (length o)) <=? 1024)%N
      then exists b, generate P d p crit td out = Some b /\ pdu_in (p_pdu P) b = Some (d, p, crit, o)
      else generate P d p crit td out = Some []
  end.
Proof.
  intros P d p crit td out HP Hd Hp Hc. unfold generate. destruct (encode td out) as [o|] eqn:E; [|reflexivity].
  assert (Hs : is_std (p_pdu P) /\ p_cap P = 1024%N)
    by (destruct HP as [<- | [<- | [<- | [<- | []]]]]; (split; [|reflexivity]);
        [apply ranap_std|apply rua_std|apply hnbap_std|apply sabp_std]).
  pose proof (gen_cases P d p crit o (proj1 Hs) (proj2 Hs) (conj Hd (conj Hp Hc)) (encode_bytes _ _ _ E)) as H.
  destruct (ie_octets _ <=? 1024)%N; [|rewrite H; reflexivity].
  destruct H as (b&->&_&Hb&_). exists b. split; [reflexivity|exact Hb].
Qed.
Print Assumptions C14_generated_partial.
Example C14_ex : exists b, generate ranap 4 255 2 (TOcts None) (VOcts [1; 2; 3]%N) = Some b /\ length b = 8.
Proof. eexists. split; [vm_compute; reflexivity|reflexivity]. Qed.

(* ---------------- C15 ---------------- *)
(* Whenever a Global RNC-ID is given, no Cause, no CN Domain Indicator and no
   Global RNC-ID is in the message, but always Criticality Diagnostics. *)
Theorem C15_error_ind_refuted : forall c cd domain g, opt_ok cd_ok cd ->
  exists b, r_msg (new_msg_error_ind c cd domain (Some g)) = Some b /\
    holds T_RANAP_RANAP_PDU b 1 22 1 M_RANAP_ErrorIndicationIEs
      [("id-CriticalityDiagnostics", match cd with Some v => v | None => cd_empty end)].
Proof. exact error_ind_rnc. Qed.
Print Assumptions C15_error_ind_refuted.
(* Without one: NULL exactly if an argument has no encoding; else all of the
   arguments and nothing else, if that fits 1024 octets; else an empty buffer *)
Theorem C15_error_ind_partial : forall c cd domain,
  let l := given "id-Cause" cause_val c ++ given "id-CriticalityDiagnostics" (fun v => v) cd ++
           given "id-CN-DomainIndicator" VEnum domain in
  (opt_ok cause_ok c -> opt_ok (valid T_RANAP_CriticalityDiagnostics) cd -> opt_ok dom_ok domain ->
   exists b, r_msg (new_msg_error_ind c cd domain None) = Some b /\
     if (pdu_octets M_RANAP_ErrorIndicationIEs l <=? 1024)%N
     then holds T_RANAP_RANAP_PDU b 1 22 1 M_RANAP_ErrorIndicationIEs l else b = []) /\
  (~ (opt_ok cause_ok c /\ opt_ok (valid T_RANAP_CriticalityDiagnostics) cd /\ opt_ok dom_ok domain) ->
   r_msg (new_msg_error_ind c cd domain None) = None).
Proof. intros c cd domain l. split; [apply error_ind_exact|apply error_ind_bad]. Qed.
Print Assumptions C15_error_ind_partial.
Example C15_ex : cause_ok (mkCause 5 113) /\ valid T_RANAP_CriticalityDiagnostics cd_empty /\ dom_ok 1 /\
  pdu_octets M_RANAP_ErrorIndicationIEs [("id-Cause", cause_val (mkCause 5 113)); ("id-CriticalityDiagnostics", cd_empty);
    ("id-CN-DomainIndicator", VEnum 1)] = 22%N /\ cd_ok cd_empty /\ ~ dom_ok 7.
Proof.
  split; [eapply (encode_valid T_RANAP_Cause); vm_compute; reflexivity|].
  split; [eapply encode_valid; vm_compute; reflexivity|]. split; [right; reflexivity|]. split; [vm_compute; reflexivity|].
  split; [eexists; split; [vm_compute; reflexivity|vm_compute; discriminate]|intros [H|H]; discriminate].
Qed.

(* ---------------- C16 ---------------- *)
Theorem C16_security_mode : forall ik ck status ia ea,
  key_ok ik -> opt_ok key_ok ck -> dom_ok status -> (ia < 256)%N -> (ea < 256)%N ->
  if sound_mask ia && match ck with Some _ => sound_mask ea | None => true end
  then exists b, r_msg (new_msg_sec_mod_cmd2 ik ck status ia ea) = Some b /\
    holds T_RANAP_RANAP_PDU b 1 6 0 M_RANAP_SecurityModeCommandIEs
      ([("id-IntegrityProtectionInformation", protection (selected 0 1 ia) ik)] ++
       given "id-EncryptionInformation" (protection (selected 1 2 ea)) ck ++ [("id-KeyStatus", VEnum status)])
  else r_msg (new_msg_sec_mod_cmd2 ik ck status ia ea) = None.
Proof. exact sec_mod_cmd_msg. Qed.
Print Assumptions C16_security_mode.
(* the masks that are accepted are those with no bit but 1 and 2, except 0 *)
Theorem C16_masks : forall m, (m < 256)%N ->
  (sound_mask m = true <-> m <> 0%N /\ forall i, N.testbit m i = true -> (i = 1 \/ i = 2)%N).
Proof. exact mask_bits. Qed.
Print Assumptions C16_masks.
(* the function without masks offers both algorithms of each kind *)
Theorem C16_defaults : forall ik ck status, key_ok ik -> opt_ok key_ok ck -> dom_ok status ->
  exists b, r_msg (new_msg_sec_mod_cmd ik ck status) = Some b /\
    holds T_RANAP_RANAP_PDU b 1 6 0 M_RANAP_SecurityModeCommandIEs
      ([("id-IntegrityProtectionInformation", protection [0; 1]%Z ik)] ++
       given "id-EncryptionInformation" (protection [1; 2]%Z) ck ++ [("id-KeyStatus", VEnum status)]).
Proof.
  intros ik ck status Hi Hc Hs. pose proof (sec_mod_cmd_msg ik ck status 6 6 Hi Hc Hs eq_refl eq_refl) as H.
  replace (sound_mask 6) with true in H by reflexivity. replace (match ck with Some _ => true | None => true end) with true in H by (destruct ck; reflexivity).
  exact H.
Qed.
Print Assumptions C16_defaults.
(* any other key status gives NULL *)
Theorem C16_key_status : forall ik ck status ia ea, ~ dom_ok status -> r_msg (new_msg_sec_mod_cmd2 ik ck status ia ea) = None.
Proof. exact sec_mod_cmd_bad. Qed.
Print Assumptions C16_key_status.
Example C16_ex : key_ok (repeat 7%N 16) /\ sound_mask 6 && sound_mask 4 = true /\
  selected 0 1 6 = [0; 1]%Z /\ selected 1 2 4 = [2]%Z.
Proof. repeat split. Qed.

(* ---------------- C17 ---------------- *)
Theorem C17_paging : forall imsi tmsi is_ps pcause,
  forallb is_digit imsi = true -> 5 <= length imsi <= 16 -> opt_ok (fun t => t < 2 ^ 32)%N tmsi -> (pcause <= 5)%N ->
  exists m b o, new_msg_paging_cmd imsi tmsi is_ps pcause = Ok m /\ r_msg m = Some b /\ packed_text o = imsi /\
    holds T_RANAP_RANAP_PDU b 1 14 1 M_RANAP_PagingIEs (paging_ies is_ps o tmsi pcause).
Proof. exact paging_msg. Qed.
Print Assumptions C17_paging.
(* other lengths up to 32 characters, and unknown paging causes, give NULL *)
Theorem C17_paging_null : forall imsi tmsi is_ps pcause,
  length imsi <= 32 -> (length imsi < 5 \/ 16 < length imsi \/ (5 < pcause)%N) ->
  exists m, new_msg_paging_cmd imsi tmsi is_ps pcause = Ok m /\ r_msg m = None.
Proof.
  intros imsi tmsi is_ps pcause Hl [H|[H|H]]; [apply paging_bad; auto|apply paging_bad; auto|apply paging_bad_cause; auto].
Qed.
Print Assumptions C17_paging_null.
(* a longer string overruns the 16-octet buffer; no IMSI is that long *)
Theorem C17_paging_long : forall imsi tmsi is_ps pcause,
  32 < length imsi -> new_msg_paging_cmd imsi tmsi is_ps pcause = Fault OobWrite.
Proof. exact paging_fault. Qed.
Print Assumptions C17_paging_long.
Example C17_ex : let imsi := [57; 48; 49; 55; 48; 48; 48; 48; 48; 48; 48; 50; 51; 50; 54]%N in
  forallb is_digit imsi = true /\ 5 <= length imsi <= 16 /\
  paging_ies true [0; 1]%N (Some 305419896%N) 0 =
    [("id-CN-DomainIndicator", VEnum 1); ("id-PermanentNAS-UE-ID", VChoice 0 (VOcts [0; 1]%N));
     ("id-TemporaryUE-ID", VChoice 1 (VOcts [18; 52; 86; 120]%N))].
Proof. split; [reflexivity|]. split; [cbn; split; repeat constructor|reflexivity]. Qed.

(* ---------------- C18 ---------------- *)
Theorem C18_direct_transfer_refuted : exists sapi nas,
  bytes_ok nas = true /\ r_msg (new_msg_dt sapi nas) = Some [].
Proof.
  exists 0%N, (repeat 0%N (N.to_nat 1005)). split; [reflexivity|].
  destruct (dt_msg 0 (repeat 0%N (N.to_nat 1005)) eq_refl) as (b&Hb&H). rewrite repeat_length, N2Nat.id in H.
  change (b = []) in H. rewrite Hb, H. reflexivity.
Qed.
Print Assumptions C18_direct_transfer_refuted.
(* up to 1004 octets it is complete, from 1005 on always empty *)
Theorem C18_direct_transfer_partial : forall sapi nas, bytes_ok nas = true ->
  exists b, r_msg (new_msg_dt sapi nas) = Some b /\
    if (N.of_nat (length nas) <=? 1004)%N
    then holds T_RANAP_RANAP_PDU b 1 20 1 M_RANAP_DirectTransferIEs
           [("id-NAS-PDU", VOcts nas); ("id-SAPI", VEnum (if (sapi =? 3)%N then 1 else 0))]
    else b = [].
Proof. exact dt_msg. Qed.
Print Assumptions C18_direct_transfer_partial.
Example C18_ex : bytes_ok [5; 8; 0]%N = true /\ (N.of_nat (length [5; 8; 0]%N) <=? 1004)%N = true.
Proof. split; reflexivity. Qed.

(* ---------------- C19 ---------------- *)
Theorem C19_reset : forall domain c rnc,
  (dom_ok domain -> cause_ok c -> opt_ok grnc_ok rnc ->
   exists b, r_msg (new_msg_reset2 domain (Some c) rnc) = Some b /\
     holds T_RANAP_RANAP_PDU b 1 9 0 M_RANAP_ResetIEs
       ([("id-Cause", cause_val c); ("id-CN-DomainIndicator", VEnum domain)] ++ given "id-GlobalRNC-ID" grnc_val rnc)) /\
  (~ (dom_ok domain /\ cause_ok c /\ opt_ok grnc_ok rnc) -> r_msg (new_msg_reset2 domain (Some c) rnc) = None) /\
  r_msg (new_msg_reset2 domain None rnc) = None.
Proof. intros domain c rnc. split; [apply reset_msg|]. split; [apply reset_bad|apply reset_no_cause]. Qed.
Print Assumptions C19_reset.
Theorem C19_reset_ack : forall domain rnc,
  (dom_ok domain -> opt_ok grnc_ok rnc ->
   exists b, r_msg (new_msg_reset_ack domain rnc) = Some b /\
     holds T_RANAP_RANAP_PDU b 2 9 0 M_RANAP_ResetAcknowledgeIEs
       ([("id-CN-DomainIndicator", VEnum domain)] ++ given "id-GlobalRNC-ID" grnc_val rnc)) /\
  (~ (dom_ok domain /\ opt_ok grnc_ok rnc) -> r_msg (new_msg_reset_ack domain rnc) = None).
Proof. intros domain rnc. split; [apply reset_ack_msg|apply reset_ack_bad]. Qed.
Print Assumptions C19_reset_ack.
(* the connection identifier is in 24 bits; what a larger number loses, see below *)
Theorem C19_reset_resource : forall domain c id rnc,
  (dom_ok domain -> cause_ok c -> opt_ok grnc_ok rnc ->
   exists b o, r_msg (new_msg_reset_resource domain c [id] rnc) = Some b /\
     decode T_RANAP_ResetResourceItem o = Some (VSeq [Some (VBits (to_bits 24 id)); None] []) /\
     holds T_RANAP_RANAP_PDU b 1 27 0 M_RANAP_ResetResourceIEs
       ([("id-CN-DomainIndicator", VEnum domain); ("id-Cause", cause_val c); ("id-IuSigConIdList", one_item 78 0 o)] ++
        given "id-GlobalRNC-ID" grnc_val rnc)) /\
  (~ (dom_ok domain /\ cause_ok c /\ opt_ok grnc_ok rnc) -> r_msg (new_msg_reset_resource domain c [id] rnc) = None).
Proof. intros domain c id rnc. split; [apply reset_resource_msg|apply reset_resource_bad]. Qed.
Print Assumptions C19_reset_resource.
Theorem C19_reset_resource_one : forall domain c ids rnc, length ids <> 1 -> r_msg (new_msg_reset_resource domain c ids rnc) = None.
Proof. exact reset_resource_many. Qed.
Print Assumptions C19_reset_resource_one.
Theorem C19_reset_resource_refuted : exists domain c id id', id <> id' /\ (id < 2 ^ 32)%N /\ (id' < 2 ^ 32)%N /\
  r_msg (new_msg_reset_resource domain c [id] None) = r_msg (new_msg_reset_resource domain c [id'] None) /\
  r_msg (new_msg_reset_resource domain c [id] None) <> None.
Proof.
  exists 0%Z, (mkCause 5 113), 1%N, 16777217%N. split; [discriminate|]. split; [reflexivity|]. split; [reflexivity|].
  split; [vm_compute; reflexivity|vm_compute; discriminate].
Qed.
Print Assumptions C19_reset_resource_refuted.
(* identifiers below 2^24 are told apart *)
Theorem C19_reset_resource_ids : forall id id', (id < 2 ^ 24)%N -> (id' < 2 ^ 24)%N -> to_bits 24 id = to_bits 24 id' -> id = id'.
Proof. exact to_bits_inj24. Qed.
Print Assumptions C19_reset_resource_ids.
Example C19_ex : (dom_ok 0 /\ ~ dom_ok 2 /\ ~ cause_ok (mkCause 7 0)) /\ cause_ok (mkCause 5 113) /\ grnc_ok (mkGrnc [9; 241; 7]%N 2342).
Proof.
  split; [split; [left; reflexivity|]; split; [intros [H|H]; discriminate|]|].
  { intros H. destruct (encode_total T_RANAP_Cause _ eq_refl H) as (o&E&_). vm_compute in E. discriminate. } split; [eapply (encode_valid T_RANAP_Cause); vm_compute; reflexivity|].
  unfold grnc_ok. split; [reflexivity|]. split; [reflexivity|]. split; discriminate.
Qed.

(* ---------------- C20 ---------------- *)
(* The address sent is the number's big-endian representation: right for an
   argument in host byte order, and for one in network byte order (as documented)
   only on a big-endian host. *)
(* The address and port as they are in the arguments, and always the same bearer:
   conversational class, AMR 12.2, mode "support for predefined SDU sizes" version
   1, NAS synchronisation 6 (60 ms). *)
Theorem C20_voice_partial : forall rab_id ip port x213,
  exists b o1 o2 addr, r_msg (new_msg_rab_assign_voice rab_id ip port x213) = Some b /\ tla addr x213 false (store32be ip) /\
    decode T_RANAP_RAB_SetupOrModifyItemFirst o1 =
      Some (rab_setup rab_id (Some [false; true; true; false]) amr_bearer (user_plane 1 version_1)
             (transport addr (binding_id (store16be port ++ [0; 0]%N)))) /\
    decode T_RANAP_RAB_SetupOrModifyItemSecond o2 = Some (comps [None; None; None; None; None; None; None]) /\
    holds T_RANAP_RANAP_PDU b 1 0 0 M_RANAP_RAB_AssignmentRequestIEs [("id-RAB-SetupOrModifyList", one_pair 53 0 o1 1 o2)].
Proof. exact voice_msg. Qed.
Print Assumptions C20_voice_partial.
(* Second item: one PDP type, IPv4 (3), no data volume reporting (1), GTP sequence
   numbers 0 in both directions *)
Theorem C20_data_partial : forall rab_id ip tei x213,
  exists b o1 o2 addr, r_msg (new_msg_rab_assign_data rab_id ip tei x213) = Some b /\ tla addr x213 false (store32be ip) /\
    decode T_RANAP_RAB_SetupOrModifyItemFirst o1 =
      Some (rab_setup rab_id None packet_bearer (user_plane 0 version_1) (transport addr (gtp_tei (store32be tei)))) /\
    decode T_RANAP_RAB_SetupOrModifyItemSecond o2 =
      Some (comps [Some (VList [VEnum 3]); Some (VEnum 1); Some (VInt 0); Some (VInt 0); None; None; None]) /\
    holds T_RANAP_RANAP_PDU b 1 0 0 M_RANAP_RAB_AssignmentRequestIEs [("id-RAB-SetupOrModifyList", one_pair 53 0 o1 1 o2)].
Proof. exact data_msg. Qed.
Print Assumptions C20_data_partial.
(* 1.2.3.4 in network byte order on a little-endian host is sent as 4.3.2.1 *)
Theorem C20_byte_order_refuted : exists ip, in_memory true ip = [1; 2; 3; 4]%N /\
  forall addr x213, tla addr x213 false (store32be ip) -> ~ tla addr x213 false (in_memory true ip).
Proof. exact byte_order. Qed.
Print Assumptions C20_byte_order_refuted.
(* on a big-endian host the two are the same octets *)
Remark C20_big_endian : forall ip, in_memory false ip = store32be ip.
Proof. reflexivity. Qed.
Example C20_ex : tla [192; 168; 0; 1]%N false false (store32be 3232235521).
Proof. apply tla_raw4. reflexivity. Qed.

(* ---------------- C21 ---------------- *)
(* With whatever arguments: nothing is released that is not allocated; and if a
   message is returned, it is all that is left. *)
Theorem C21_release_partial : forall k m, do_call k = Ok m ->
  exists live, live_after (r_ev m) [] = Some live /\ (r_msg m <> None -> live = [msg_lab]).
Proof. exact call_clean. Qed.
Print Assumptions C21_release_partial.
(* Iu Release Request leaves nothing behind if it fails, either *)
Theorem C21_iu_rel_req : forall c, r_msg (new_msg_iu_rel_req c) = None ->
  live_after (r_ev (new_msg_iu_rel_req c)) [] = Some [].
Proof. exact rel_req_clean. Qed.
Print Assumptions C21_iu_rel_req.
(* but others do: NULL is returned and an IE, two algorithm entries or a RAB id
   stay allocated *)
Theorem C21_release_refuted : forall k, In k
    [CallReset 7 (Some (mkCause 5 113)) None;
     CallSecModCmd (repeat 0%N 16) None 0 14 0;
     CallRabRelReq 1 (mkCause 0 0)] ->
  exists m live, do_call k = Ok m /\ r_msg m = None /\ live_after (r_ev m) [] = Some live /\ live <> [].
Proof.
  intros k [<- | [<- | [<- | []]]]; (eexists; eexists; split; [reflexivity|]);
    (split; [vm_compute; reflexivity|]); (split; [vm_compute; reflexivity|discriminate]).
Qed.
Print Assumptions C21_release_refuted.
Example C21_ex : exists m, do_call (CallReset 1 (Some (mkCause 5 113)) (Some (mkGrnc [9; 241; 7]%N 2342))) = Ok m /\
  r_msg m <> None /\ length (r_ev m) = 9.
Proof. eexists. split; [reflexivity|]. split; [vm_compute; discriminate|vm_compute; reflexivity]. Qed.

(* ---------------- C65 ---------------- *)
Theorem C65_iu_release_command : forall c,
  (cause_ok c -> exists b, r_msg (new_msg_iu_rel_cmd c) = Some b /\
     holds T_RANAP_RANAP_PDU b 1 1 0 M_RANAP_Iu_ReleaseCommandIEs [("id-Cause", cause_val c)]) /\
  (~ cause_ok c -> r_msg (new_msg_iu_rel_cmd c) = None).
Proof. intros c. split; [apply iu_rel_cmd_msg|apply iu_rel_cmd_bad]. Qed.
Print Assumptions C65_iu_release_command.
Theorem C65_iu_release_request : forall c,
  (cause_ok c -> exists b, r_msg (new_msg_iu_rel_req c) = Some b /\
     holds T_RANAP_RANAP_PDU b 1 11 1 M_RANAP_Iu_ReleaseRequestIEs [("id-Cause", cause_val c)]) /\
  (~ cause_ok c -> r_msg (new_msg_iu_rel_req c) = None).
Proof. intros c. split; [apply iu_rel_req_msg|apply iu_rel_req_bad]. Qed.
Print Assumptions C65_iu_release_request.
Theorem C65_iu_release_complete : exists b, r_msg new_msg_iu_rel_compl = Some b /\
  holds T_RANAP_RANAP_PDU b 2 1 0 M_RANAP_Iu_ReleaseCompleteIEs [].
Proof. exact iu_rel_compl_msg. Qed.
Print Assumptions C65_iu_release_complete.
Theorem C65_security_mode_complete : forall ialg ealg,
  ((0 <= ialg <= 15)%Z -> (0 <= ealg <= 15)%Z ->
   exists b, r_msg (new_msg_sec_mod_compl ialg ealg) = Some b /\
     holds T_RANAP_RANAP_PDU b 2 6 0 M_RANAP_SecurityModeCompleteIEs
       [("id-ChosenIntegrityProtectionAlgorithm", VInt ialg); ("id-ChosenEncryptionAlgorithm", VInt ealg)]) /\
  (~ ((0 <= ialg <= 15)%Z /\ (0 <= ealg <= 15)%Z) -> r_msg (new_msg_sec_mod_compl ialg ealg) = None).
Proof. intros i e. split; [apply sec_mod_compl_msg|apply sec_mod_compl_bad]. Qed.
Print Assumptions C65_security_mode_complete.
Theorem C65_common_id : forall imsi, forallb is_digit imsi = true -> 5 <= length imsi <= 16 ->
  exists m b o, new_msg_common_id (Some imsi) = Ok m /\ r_msg m = Some b /\ packed_text o = imsi /\
    holds T_RANAP_RANAP_PDU b 1 15 1 M_RANAP_CommonID_IEs [("id-PermanentNAS-UE-ID", VChoice 0 (VOcts o))].
Proof. exact common_id_msg. Qed.
Print Assumptions C65_common_id.
(* no IMSI, and other lengths up to 32 characters, give NULL; a longer string
   overruns the 16-octet buffer *)
Theorem C65_common_id_null :
  (exists m, new_msg_common_id None = Ok m /\ r_msg m = None) /\
  (forall imsi, length imsi < 5 \/ 16 < length imsi ->
   if (length imsi <=? 32)%nat then exists m, new_msg_common_id (Some imsi) = Ok m /\ r_msg m = None
   else new_msg_common_id (Some imsi) = Fault OobWrite).
Proof.
  split; [exact common_id_null|]. intros imsi H. destruct (Nat.leb_spec (length imsi) 32); [apply common_id_bad; assumption|apply common_id_fault; assumption].
Qed.
Print Assumptions C65_common_id_null.
Theorem C65_rab_release_request : forall rab_id c,
  (cause_ok c ->
   exists b o, r_msg (new_msg_rab_rel_req rab_id c) = Some b /\
     decode T_RANAP_RAB_ReleaseItem o = Some (VSeq [Some (VBits (octets_bits [rab_id])); Some (cause_val c); None] []) /\
     holds T_RANAP_RANAP_PDU b 1 10 1 M_RANAP_RAB_ReleaseRequestIEs [("id-RAB-ReleaseList", one_item 40 1 o)]) /\
  (~ cause_ok c -> r_msg (new_msg_rab_rel_req rab_id c) = None).
Proof. intros rab_id c. split; [apply rab_rel_req_msg|apply rab_rel_req_bad]. Qed.
Print Assumptions C65_rab_release_request.
(* up to 966 octets of NAS it is complete, from 967 on the buffer is empty *)
Theorem C65_initial_ue : forall le id is_ps g nas,
  (grnc_ok g -> bytes_ok nas = true ->
   exists b, r_msg (new_msg_initial_ue le id is_ps g nas) = Some b /\
     if (N.of_nat (length nas) <=? 966)%N
     then holds T_RANAP_RANAP_PDU b 1 19 1 M_RANAP_InitialUE_MessageIEs
       [("id-CN-DomainIndicator", VEnum (if is_ps then 1 else 0));
        ("id-LAI", VSeq [Some (VOcts (g_plmn g)); Some (VOcts (area_octets le)); None] []);
        ("id-SAI", VSeq [Some (VOcts (g_plmn g)); Some (VOcts (area_octets le)); Some (VOcts (area_octets le)); None] []);
        ("id-NAS-PDU", VOcts nas); ("id-IuSigConId", VBits (to_bits 24 id)); ("id-GlobalRNC-ID", grnc_val g)]
     else b = []) /\
  (~ grnc_ok g -> r_msg (new_msg_initial_ue le id is_ps g nas) = None).
Proof. intros le id is_ps g nas. split; [apply initial_ue_exact|apply initial_ue_bad]. Qed.
Print Assumptions C65_initial_ue.
Example C65_ex : cause_ok (mkCause 1 46) /\ ~ cause_ok (mkCause 0 0) /\ ~ cause_ok (mkCause 1 65) /\
  grnc_ok (mkGrnc [9; 241; 7]%N 2342) /\ ~ grnc_ok (mkGrnc [9; 241]%N 2342) /\ ~ grnc_ok (mkGrnc [9; 241; 7]%N 4096) /\
  forallb is_digit [57; 48; 49; 55; 48]%N = true.
Proof.
  split; [eapply (encode_valid T_RANAP_Cause); vm_compute; reflexivity|]. split; [intros H; inversion H|]. split.
  - intros H. destruct (encode_total T_RANAP_Cause _ eq_refl H) as (o&E&_). vm_compute in E. discriminate.
  - unfold grnc_ok. cbn. repeat split; try discriminate; intros H; lia.
Qed.
