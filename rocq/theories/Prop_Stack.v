(* C80-C82: the client on top of the codec, the receive functions and the
   message factory: octets in, octets out.  [stack E] is the client with these;
   SCCP and the application are those of [E], which is arbitrary. *)
From Verif Require Import Base Lai Aper Aper_spec Aper_valid Container RanapTypes RanapTab Dispatch Helpers Helpers_spec
  Factory_spec Factory E2e_spec IuClient IuClient_spec IuClient_call_spec IuClient_ex Stack Stack_spec Stack_safe Stack_proofs Stack_msgs Stack_crash.
From Coq Require Import String List.
Local Open Scope list_scope.
Local Open Scope string_scope.
Local Open Scope list_scope.

(* a client of its own: SCCP accepts everything, the application calls nothing;
   a UE whose Initial UE Message came in on connection 5 *)
Definition Eq := ex_env [] 0 no_app.
Definition initial_octets : list N :=
  [0;19;64;54;0;0;6;0;3;64;1;0;0;15;64;6;0;9;241;7;66;35;0;58;64;8;0;9;241;7;66;35;66;35;0;16;64;4;3;5;8;0;0;79;64;3;18;52;86;0;86;64;5;9;241;7;9;38]%N.
Definition h5 : list op := [OConnectInd 5 (mk_addr 1) initial_octets].
Definition w5 : world := reach (stack Eq) h5.

(* ---------------- C80 ---------------- *)
(* NAS PDUs of more than 1004 octets: empty data is sent *)
Theorem C80_long_nas_refuted :
  exists E w p u nas, live (w_st w) p = Some u /\ bytes_ok nas = true /\
    sent_down E w (ATx 0 (Some p) nas 0) u [].
Proof.
  exists Eq, w5, 1%N. eexists. exists (repeat 7%N 1005). split; [vm_compute; reflexivity|]. split; [vm_compute; reflexivity|].
  destruct (down_dt Eq w5 0%N 1%N (mkUe 1 0 5 (mkRaId 901 70 false 16931 255) true false None)%N (repeat 7%N 1005) 0%N) as (b&H1&H2); [vm_compute; reflexivity|vm_compute; reflexivity|].
  replace (N.of_nat (Datatypes.length (repeat 7%N 1005)) <=? 1004)%N with false in H2 by (vm_compute; reflexivity). subst b. exact H1.
Qed.
Print Assumptions C80_long_nas_refuted.
(* Missing: longer NAS PDUs, for which the exact outcome is given *)
Theorem C80_nas_partial : forall E w buf p u nas sapi, live (w_st w) p = Some u -> bytes_ok nas = true ->
  exists b, sent_down E w (ATx buf (Some p) nas sapi) u b /\
    if (N.of_nat (List.length nas) <=? 1004)%N
    then arrives (rx_ran_co b) 1 20 1 M_RANAP_DirectTransferIEs
           [("id-NAS-PDU", VOcts nas); ("id-SAPI", VEnum (if (sapi =? 3)%N then 1 else 0))]
    else b = [].
Proof. exact down_dt. Qed.
Print Assumptions C80_nas_partial.
Theorem C80_security_mode : forall E w p u ik ck send_ck new_key, live (w_st w) p = Some u -> key_ok ik -> (send_ck = true -> key_ok ck) ->
  exists b, sent_down E w (ATxSecModeCmd p ik ck send_ck new_key) u b /\
    arrives (rx_ran_co b) 1 6 0 M_RANAP_SecurityModeCommandIEs
      ([("id-IntegrityProtectionInformation", protection [0; 1]%Z ik)] ++
       given "id-EncryptionInformation" (protection [1; 2]%Z) (if send_ck then Some ck else None) ++
       [("id-KeyStatus", VEnum (if new_key then 1 else 0))]).
Proof. exact down_sec. Qed.
Print Assumptions C80_security_mode.
Theorem C80_common_id : forall E w p u imsi, live (w_st w) p = Some u -> forallb is_digit imsi = true -> 5 <= List.length imsi <= 16 ->
  exists b o, sent_down E w (ATxCommonId p imsi) u b /\ packed_text o = imsi /\
    arrives (rx_ran_co b) 1 15 1 M_RANAP_CommonID_IEs [("id-PermanentNAS-UE-ID", VChoice 0 (VOcts o))].
Proof. exact down_common_id. Qed.
Print Assumptions C80_common_id.
Theorem C80_release : forall E w p u c a, live (w_st w) p = Some u -> cause_ok (release_cause c) ->
  (a = ATxRelease p c \/ exists timeout, a = ATxReleaseFree p c timeout) ->
  exists b, sent_down E w a u b /\ arrives (rx_ran_co b) 1 1 0 M_RANAP_Iu_ReleaseCommandIEs [("id-Cause", cause_val (release_cause c))].
Proof. exact down_release. Qed.
Print Assumptions C80_release.
Theorem C80_rab_activation : forall E w p u b, live (w_st w) p = Some u -> sent_down E w (ARabAct p b) u b.
Proof. exact down_raw. Qed.
Print Assumptions C80_rab_activation.
(* which addresses are paged is C34, C35 and C70 *)
Theorem C80_paging : forall E l a imsi tmsi ps, paging_call a = Some (imsi, tmsi, ps) ->
  forallb is_digit imsi = true -> 5 <= List.length imsi <= 16 -> opt_ok (fun t => (t < 2 ^ 32)%N) tmsi ->
  let w := reach (stack E) l in
  exists b o addrs rc, packed_text o = imsi /\ holds T_RANAP_RANAP_PDU b 1 14 1 M_RANAP_PagingIEs (paging_ies ps o tmsi 0) /\
    let t := [EApi a] ++ map (fun x => ESccp (NUnitdataReq x (DL_Paging imsi tmsi ps 0))) addrs ++ [ERet rc] in
    exec (stack E) (OApi a) w = (mkW (w_st w) (rev t ++ w_tr w), Some tt) /\
    unit_octets t = map (fun x => (x, b)) addrs /\ data_octets t = [].
Proof. exact down_paging. Qed.
Print Assumptions C80_paging.
(* an IMSI of less than 5 or more than 16 characters sends nothing; it is fatal, for
   paging unless nobody is to be paged *)
Theorem C80_bad_imsi_partial : forall E w imsi, List.length imsi < 5 \/ 16 < List.length imsi ->
  (forall p u, live (w_st w) p = Some u -> snd (exec (stack E) (OApi (ATxCommonId p imsi)) w) = None) /\
  (forall a tmsi ps, paging_call a = Some (imsi, tmsi, ps) ->
   let res := exec (stack E) (OApi a) w in
   snd res = None /\ added (w_tr w) (w_tr (fst res)) [EApi a; EFault NullDeref] \/
   snd res = Some tt /\ added (w_tr w) (w_tr (fst res)) [EApi a; ERet 0]).
Proof. intros E w imsi H. split; [intros; eapply bad_common_id; eassumption|intros; eapply bad_paging; eassumption]. Qed.
Print Assumptions C80_bad_imsi_partial.
Example C80_bad_imsi_ex : (* both happen: somebody is paged, nobody is paged *)
  (exists u, live (w_st w5) 1%N = Some u) /\
  snd (exec (stack Eq) (OApi (APagePs2 [57; 48]%N None (mkRai (mkLai (mkPlmn 901 70 false) 16931) 255))) (mkW (w_st w5) [])) = None /\
  snd (exec (stack Eq) (OApi (APagePs2 [57; 48]%N None (mkRai (mkLai (mkPlmn 1 1 false) 1) 255))) (mkW (w_st w5) [])) = Some tt.
Proof. split; [eexists; vm_compute; reflexivity|]. split; vm_compute; reflexivity. Qed.
Example C80_ex : (* the hypotheses are met, and what the octets are *)
  (exists u, live (w_st w5) 1%N = Some u /\ u_conn u = 5%N) /\ key_ok (repeat 7%N 16) /\ cause_ok (release_cause None) /\
  data_octets (w_tr (fst (run_api (stack Eq) (ATx 0 (Some 1%N) [5; 8; 0]%N 3) (mkW (w_st w5) [])))) =
    [(5, [0; 20; 64; 16; 0; 0; 2; 0; 16; 64; 4; 3; 5; 8; 0; 0; 59; 64; 1; 64])]%N /\
  List.length (unit_octets (w_tr (fst (exec (stack Eq) (OApi (APagePs2 [57; 48; 49; 55; 48; 49]%N None (mkRai (mkLai (mkPlmn 901 70 false) 16931) 255))) (mkW (w_st w5) []))))) = 1.
Proof.
  split; [eexists; vm_compute; split; reflexivity|]. split; [split; reflexivity|].
  split; [eapply (encode_valid T_RANAP_Cause); vm_compute; reflexivity|]. split; vm_compute; reflexivity.
Qed.

(* ---------------- C81 ---------------- *)
Theorem C81_initial_ue : forall E l o c a data d l0 l1 rac s0 s1 nas g id,
  let w := reach (stack E) l in
  let res := exec (stack E) o w in
  first_on (w_st w) o c a data -> good_initial (rx_cn_co data) d l0 l1 rac s0 s1 nas g id ->
  registers (stack E) (w_st w) o = [mkReg (rnc_told g id) (area_of (area_told d l0 l1 rac)) a] /\
  (snd res = Some tt ->
   exists t p, added (w_tr w) (w_tr (fst res)) t /\
     recvs t = [(p, nas, Some (area_told d l0 l1 rac), Some (be16 s0 s1))] /\
     (In (EApi (AFreeUe (Some p))) t \/
      exists u, In u (s_ues (w_st (fst res))) /\ u_ptr u = p /\ u_conn u = c /\ u_ra u = area_told d l0 l1 rac)).
Proof. exact up_initial. Qed.
Print Assumptions C81_initial_ue.
(* with more than 256 octets of NAS PDU: see C82 *)
Theorem C81_direct_transfer_partial : forall E l c data u nas ra sai, let w := reach (stack E) l in
  ue_on (w_st w) c = Some u -> good_transfer (rx_cn_co data) nas ra sai ->
  exists t, added (w_tr w) (w_tr (fst (exec (stack E) (ODataInd c data) w))) t /\
    if (List.length nas <=? 256)%nat then recvs t = [(u_ptr u, nas, ra, sai)] else t = [EBufAlloc; EFault Assertion].
Proof. exact up_transfer. Qed.
Print Assumptions C81_direct_transfer_partial.
Theorem C81_release_request : forall E l c data u s i z, let m := M_RANAP_Iu_ReleaseRequestIEs in let w := reach (stack E) l in
  ue_on (w_st w) c = Some u -> carries (rx_cn_co data) 1 11 m s -> assoc "id-Cause" (shown m s) = Some (Some (VChoice i (VInt z))) ->
  exists b t, added (w_tr w) (w_tr (fst (exec (stack E) (ODataInd c data) w))) t /\ snd (exec (stack E) (ODataInd c data) w) = Some tt /\
    w_st (fst (exec (stack E) (ODataInd c data) w)) = w_st w /\
    data_octets t = [(c, b)] /\ unit_octets t = [] /\ recvs t = [] /\ events t = [] /\
    arrives (rx_ran_co b) 1 1 0 M_RANAP_Iu_ReleaseCommandIEs [("id-Cause", VChoice i (VInt z))].
Proof. exact up_release. Qed.
Print Assumptions C81_release_request.
Theorem C81_rab_assignment : forall E l c data u s x o r ext, let m := M_RANAP_RAB_AssignmentResponseIEs in let w := reach (stack E) l in
  ue_on (w_st w) c = Some u -> carries (rx_cn_co data) 4 0 m s ->
  assoc "id-RAB-SetupOrModifiedList" (shown m s) = Some (Some (VSeq [Some (VList (VSeq [Some (fst x); Some (snd x); Some (VOcts o)] ext :: r))] [])) ->
  exists t, added (w_tr w) (w_tr (fst (exec (stack E) (ODataInd c data) w))) t /\
    events t = match decode T_RANAP_RAB_SetupOrModifiedItem o with
               | Some _ => if has_event_cb E && u_notif u then [(Some (u_ptr u), EvRabAssign (item_code o))] else []
               | None => []
               end.
Proof. exact up_rab. Qed.
Print Assumptions C81_rab_assignment.
(* the number in the event stands for the octets of the item and no others *)
Theorem C81_item_number : forall a b, (forall x, In x a -> (x < 256)%N) -> (forall x, In x b -> (x < 256)%N) -> item_code a = item_code b -> a = b.
Proof. exact item_code_inj. Qed.
Print Assumptions C81_item_number.
(* Security Mode Complete (6) and Iu Release Complete (1) *)
Theorem C81_completions : forall E l c data u m s p, let w := reach (stack E) l in
  ue_on (w_st w) c = Some u -> carries (rx_cn_co data) 2 p m s -> (p = 6 \/ p = 1)%N ->
  exists t, added (w_tr w) (w_tr (fst (exec (stack E) (ODataInd c data) w))) t /\
    events t = if has_event_cb E && u_notif u then [(Some (u_ptr u), if (p =? 6)%N then EvSecurityModeComplete else EvIuRelease)] else [].
Proof. exact up_complete. Qed.
Print Assumptions C81_completions.
Theorem C81_reset : forall E w a data s z, let m := M_RANAP_ResetIEs in
  carries (rx_cn_cl data) 1 9 m s -> assoc "id-CN-DomainIndicator" (shown m s) = Some (Some (VEnum z)) ->
  exists b t rnc, added (w_tr w) (w_tr (fst (exec (stack E) (OUnitdataInd a data) w))) t /\ snd (exec (stack E) (OUnitdataInd a data) w) = Some tt /\
    w_st (fst (exec (stack E) (OUnitdataInd a data) w)) = w_st w /\
    unit_octets t = [(a, b)] /\ data_octets t = [] /\
    assoc "id-GlobalRNC-ID" (shown m s) = option_map Some (option_map grnc_val rnc) /\
    holds T_RANAP_RANAP_PDU b 2 9 0 M_RANAP_ResetAcknowledgeIEs ([("id-CN-DomainIndicator", VEnum z)] ++ given "id-GlobalRNC-ID" grnc_val rnc).
Proof. exact up_reset. Qed.
Print Assumptions C81_reset.

(* Nothing else has any effect: octets that the receive functions refuse, and
   messages other than the above, are dropped *)
Theorem C81_other_data : forall E w c data u, ue_on (w_st w) c = Some u ->
  only_other (rx_cn_co data) [(1, 20); (1, 11); (2, 6); (2, 1); (4, 0)]%N ->
  exec (stack E) (ODataInd c data) w = (mkW (w_st w) (EPrimFree :: w_tr w), Some tt).
Proof. exact other_data. Qed.
Print Assumptions C81_other_data.
Theorem C81_other_first : forall E w o c a data, first_on (w_st w) o c a data -> only_other (rx_cn_co data) [(1, 19)]%N ->
  exists t, added (w_tr w) (w_tr (fst (exec (stack E) o w))) t /\ snd (exec (stack E) o w) = Some tt /\
    s_ues (w_st (fst (exec (stack E) o w))) = s_ues (w_st w) /\ s_rncs (w_st (fst (exec (stack E) o w))) = s_rncs (w_st w) /\
    t = match o with OConnectInd _ _ _ => [ESccp (NConnectResp c); EPrimFree] | _ => [EPrimFree] end.
Proof. exact other_first. Qed.
Print Assumptions C81_other_first.
Theorem C81_other_unitdata : forall E w a data, only_other (rx_cn_cl data) [(1, 9)]%N ->
  exec (stack E) (OUnitdataInd a data) w = (mkW (w_st w) (EPrimFree :: w_tr w), Some tt).
Proof. exact other_unitdata. Qed.
Print Assumptions C81_other_unitdata.
(* no message at all, and an Initial UE Message on an existing connection *)
Example C81_other_ex :
  x_calls (rx_cn_co [255%N]) = [] /\
  only_other (rx_cn_co initial_octets) [(1, 20); (1, 11); (2, 6); (2, 1); (4, 0)]%N /\ x_calls (rx_cn_co initial_octets) <> [].
Proof.
  split; [vm_compute; reflexivity|]. split.
  - assert (H : map (fun g => (g_dir g, g_proc g)) (x_calls (rx_cn_co initial_octets)) = [(1, 19)]%N) by (vm_compute; reflexivity).
    intros g Hg. apply (in_map (fun g => (g_dir g, g_proc g))) in Hg. rewrite H in Hg. destruct Hg as [<-|[]].
    cbn [In]. intuition discriminate.
  - vm_compute. discriminate.
Qed.

(* what a radio network built with the same message factory sends *)
Theorem C81_factory_initial_ue : forall le cid is_ps g id nas, nib_ok g -> (id <= 4095)%N -> bytes_ok nas = true -> (List.length nas <= 256)%nat ->
  exists b, r_msg (new_msg_initial_ue le cid is_ps (Factory_spec.mkGrnc (plmn_octs g) (Z.of_N id)) nas) = Some b /\
    forall E l c a, let w := reach (stack E) l in let res := exec (stack E) (OConnectInd c a b) w in
      let area := if le then 0x4223%N else 0x2342%N in
      let ra := area_told g (area / 256) (area mod 256) 255 in
      registers (stack E) (w_st w) (OConnectInd c a b) = [mkReg (rnc_told g id) (area_of ra) a] /\
      (snd res = Some tt -> exists t p, added (w_tr w) (w_tr (fst res)) t /\ recvs t = [(p, nas, Some ra, Some area)]).
Proof.
  intros le cid is_ps g id nas Hg Hid Hb Hl. destruct (made_initial le cid is_ps g id nas Hg Hid Hb Hl) as (b&Hm&Hne&Hgi).
  exists b. split; [exact Hm|]. intros E l c a. cbv zeta.
  destruct (up_initial E l (OConnectInd c a b) c a b _ _ _ _ _ _ _ _ _ (or_introl (conj eq_refl Hne)) Hgi) as [H1 H2].
  destruct le; cbn [fst snd] in H1, H2; (split; [exact H1|]); intros Hr; destruct (H2 Hr) as (t&p&Ht&Hrec&_); exists t, p; split; assumption.
Qed.
Print Assumptions C81_factory_initial_ue.
Theorem C81_factory_direct_transfer : forall sapi nas, bytes_ok nas = true -> (List.length nas <= 256)%nat ->
  exists b, r_msg (new_msg_dt sapi nas) = Some b /\
    forall E l c u, let w := reach (stack E) l in ue_on (w_st w) c = Some u ->
      exists t, added (w_tr w) (w_tr (fst (exec (stack E) (ODataInd c b) w))) t /\ recvs t = [(u_ptr u, nas, None, None)].
Proof.
  intros sapi nas Hb Hl. destruct (made_transfer sapi nas Hb) as (b&Hm&Hg).
  - transitivity (N.of_nat 256); [apply N.leb_le; rewrite N.leb_compare, <- Nat2N.inj_compare; apply Nat.compare_le_iff in Hl; destruct (Nat.compare _ _); congruence|vm_compute; discriminate].
  - exists b. split; [exact Hm|]. intros E l c u. cbv zeta. intros Hu. destruct (up_transfer E l c b u nas None None Hu Hg) as (t&Ht&Hr). exists t. split; [exact Ht|].
    rewrite (proj2 (Nat.leb_le _ _) Hl) in Hr. exact Hr.
Qed.
Print Assumptions C81_factory_direct_transfer.
Example C81_ex :
  (* the Initial UE Message of [h5]: PLMN 901-70, LAC and SAC 0x4223, RNC 2342 *)
  good_initial (rx_cn_co initial_octets) (mkNib 9 0 1 15 7 0) 66 35 255 66 35 [5; 8; 0]%N (mkNib 9 0 1 15 7 0) 2342 /\
  recvs (rev (w_tr w5)) = [(1, [5; 8; 0], Some (mkRaId 901 70 false 16931 255), Some 16931)]%N /\
  option_map u_ptr (ue_on (w_st w5) 5) = Some 1%N /\
  (* a Direct Transfer, an Iu Release Request, a Reset *)
  good_transfer (rx_cn_co [0; 20; 64; 16; 0; 0; 2; 0; 16; 64; 4; 3; 5; 8; 0; 0; 59; 64; 1; 64]%N) [5; 8; 0]%N None None /\
  (exists b s, r_msg (new_msg_iu_rel_req (Factory_spec.mkCause 1 46)) = Some b /\ carries (rx_cn_co b) 1 11 M_RANAP_Iu_ReleaseRequestIEs s /\
     assoc "id-Cause" (shown M_RANAP_Iu_ReleaseRequestIEs s) = Some (Some (VChoice 0 (VInt 46)))) /\
  (exists b s, r_msg (new_msg_reset2 1 (Some (Factory_spec.mkCause 1 46)) None) = Some b /\ carries (rx_cn_cl b) 1 9 M_RANAP_ResetIEs s /\
     assoc "id-CN-DomainIndicator" (shown M_RANAP_ResetIEs s) = Some (Some (VEnum 1))).
Proof.
  split; [|split; [vm_compute; reflexivity|split; [vm_compute; reflexivity|split; [|split]]]].
  - eapply good_initial_intro; [eexists; vm_compute; reflexivity|vm_compute; reflexivity|vm_compute; repeat split; reflexivity|vm_compute; split; discriminate
      |left; split; vm_compute; reflexivity|vm_compute; reflexivity|vm_compute; reflexivity|vm_compute; repeat constructor|vm_compute; reflexivity
      |vm_compute; repeat split; reflexivity|vm_compute; reflexivity].
  - eapply transfer_plain; [eexists; vm_compute; reflexivity|vm_compute; reflexivity|vm_compute; reflexivity].
  - eexists. eexists. split; [vm_compute; reflexivity|]. split; [eexists; vm_compute; reflexivity|vm_compute; reflexivity].
  - eexists. eexists. split; [vm_compute; reflexivity|]. split; [eexists; vm_compute; reflexivity|vm_compute; reflexivity].
Qed.

(* a RAB Assignment Response for RAB 1, a Security Mode Complete, an Iu Release
   Complete; the digits of a network *)
Example C81_answers_ex :
  (exists s, carries (rx_cn_co [96; 0; 0; 16; 0; 0; 1; 0; 52; 64; 9; 0; 0; 1; 0; 51; 64; 2; 0; 8]%N) 4 0 M_RANAP_RAB_AssignmentResponseIEs s /\
     assoc "id-RAB-SetupOrModifiedList" (shown M_RANAP_RAB_AssignmentResponseIEs s) =
       Some (Some (VSeq [Some (VList [VSeq [Some (VInt 51); Some (VEnum 1); Some (VOcts [0; 8]%N)] []])] [])) /\
     Aper.decode T_RANAP_RAB_SetupOrModifiedItem [0; 8]%N <> None) /\
  (exists b s, r_msg (new_msg_sec_mod_compl 0 0) = Some b /\ carries (rx_cn_co b) 2 6 M_RANAP_SecurityModeCompleteIEs s) /\
  (exists b s, r_msg new_msg_iu_rel_compl = Some b /\ carries (rx_cn_co b) 2 1 M_RANAP_Iu_ReleaseCompleteIEs s) /\
  nib_ok (mkNib 9 0 1 15 7 0) /\ has_event_cb Eq = true.
Proof.
  split; [eexists; split; [eexists; vm_compute; reflexivity|split; [vm_compute; reflexivity|vm_compute; discriminate]]|].
  split; [do 2 eexists; split; [vm_compute; reflexivity|eexists; vm_compute; reflexivity]|].
  split; [do 2 eexists; split; [vm_compute; reflexivity|eexists; vm_compute; reflexivity]|]. vm_compute. repeat split; reflexivity.
Qed.

(* ---------------- C82 ---------------- *)
(* Octets from the radio network that kill the process: an Initial UE Message
   without a SAI; and on an existing connection a Direct Transfer with a NAS PDU
   of 257 octets, an Iu Release Request without a cause, a RAB Assignment Response
   with an empty list *)
Theorem C82_octets_crash_refuted :
  let crash o w f := snd (exec (stack Eq) o w) = None /\ hd EPrimFree (w_tr (fst (exec (stack Eq) o w))) = EFault f in
  (exists data, crash (OConnectInd 5 (mk_addr 1) data) w0 Assertion) /\
  (exists data, crash (ODataInd 5 data) w5 Assertion) /\
  (exists data, List.length data = 7 /\ crash (ODataInd 5 data) w5 NullDeref) /\
  (exists data, List.length data = 14 /\ crash (ODataInd 5 data) w5 NullDeref).
Proof.
  cbv zeta. split; [|split; [|split]].
  - exists [0;19;64;22;0;0;2;0;15;64;6;0;9;241;7;66;35;0;86;64;5;9;241;7;9;38]%N. vm_compute. auto.
  - exists ([0;20;64;129;11;0;0;1;0;16;64;129;3;129;1] ++ repeat 0 257)%N. vm_compute. auto.
  - exists [0;11;64;3;0;0;0]%N. vm_compute. auto.
  - exists [96;0;0;10;0;0;1;0;52;64;3;0;0;0]%N. vm_compute. auto.
Qed.
Print Assumptions C82_octets_crash_refuted.
(* For an application that calls nothing from its callbacks these are all, in any
   state: everything else is survived.  Missing: that nothing crashes. *)
Theorem C82_connect_partial : forall E c a data w, quiet E ->
  (snd (exec (stack E) (OConnectInd c a data) w) = None <-> data <> [] /\ fatal_first (rx_cn_co data)).
Proof. exact connect_crash. Qed.
Print Assumptions C82_connect_partial.
Theorem C82_data_partial : forall E c data w, quiet E ->
  (snd (exec (stack E) (ODataInd c data) w) = None <->
   match ue_on (w_st w) c with
   | Some _ => fatal_later (rx_cn_co data)
   | None => pending (w_st w) c <> None /\ fatal_first (rx_cn_co data)
   end).
Proof. exact data_crash. Qed.
Print Assumptions C82_data_partial.
Theorem C82_disconnect_partial : forall E c data w, quiet E ->
  (snd (exec (stack E) (ODisconnectInd c data) w) = None <->
   ue_on (w_st w) c <> None /\ data <> [] /\ fatal_later (rx_cn_co data)).
Proof. exact disconnect_crash. Qed.
Print Assumptions C82_disconnect_partial.
(* the same octets crash it whatever the application does in its callbacks *)
Theorem C82_any_application : forall E c a data w,
  (data <> [] -> fatal_first (rx_cn_co data) -> snd (exec (stack E) (OConnectInd c a data) w) = None) /\
  (match ue_on (w_st w) c with Some _ => fatal_later (rx_cn_co data) | None => pending (w_st w) c <> None /\ fatal_first (rx_cn_co data) end ->
   snd (exec (stack E) (ODataInd c data) w) = None) /\
  (ue_on (w_st w) c <> None -> data <> [] -> fatal_later (rx_cn_co data) -> snd (exec (stack E) (ODisconnectInd c data) w) = None).
Proof. intros E c a data w. split; [apply any_connect|split; [apply any_data|apply any_disconnect]]. Qed.
Print Assumptions C82_any_application.
(* And for every application that frees no context older than the one it is told
   about when a link is lost, and connection numbers that are not reused while in use:
   the process dies in a history exactly if the application makes a call that is
   out of order (a context that is gone, arguments that cannot be sent), or if one
   of these messages arrives.  Without the two conditions: C48. *)
Theorem C82_history_partial : forall E l, frees_none_older E -> fresh_conns (stack E) l ->
  (snd (run (stack E) l w0) = None <->
   misused (reach (stack E) l) \/
   exists l1 o l2, l = l1 ++ o :: l2 /\ snd (run (stack E) l1 w0) = Some tt /\ kills (w_st (reach (stack E) l1)) o).
Proof. exact crash_iff. Qed.
Print Assumptions C82_history_partial.
(* an application that answers every NAS PDU, and frees contexts whose link is lost:
   one history goes well, one ends with a fatal message, and one with a bad call *)
Definition answering (t : list eff) : list api :=
  match t with
  | ERecv p _ _ _ :: _ => [ATx 0 (Some p) [5; 8]%N 0; ATxCommonId p [48; 49; 50; 51; 52; 53]%N]
  | EEvent (Some p) EvLinkInvalidated :: _ => [AFreeUe (Some p)]
  | _ => []
  end.
Definition Ea := ex_env [] 0 answering.
Example C82_history_ex :
  let h := h5 ++ [ODataInd 5 [0; 20; 64; 16; 0; 0; 2; 0; 16; 64; 4; 3; 5; 8; 0; 0; 59; 64; 1; 64]%N; ODisconnectInd 5 []] in
  frees_none_older Ea /\ fresh_conns (stack Ea) h /\ snd (run (stack Ea) h w0) = Some tt /\
  recvs (w_tr (reach (stack Ea) h)) <> [] /\
  (let h := h5 ++ [ODataInd 5 [0; 11; 64; 3; 0; 0; 0]%N] in fresh_conns (stack Ea) h /\ snd (run (stack Ea) h w0) = None) /\
  (let h := h ++ [OApi (ATxRelease 1%N None)] in fresh_conns (stack Ea) h /\ misused (reach (stack Ea) h)).
Proof.
  cbv zeta. split.
  { intros p t q. destruct t; cbn; intros [H|[]]; injection H as <-; lia. }
  split; [apply fresh_ex; vm_compute; reflexivity|]. split; [vm_compute; reflexivity|]. split; [vm_compute; discriminate|]. split.
  - split; [apply fresh_ex; vm_compute; reflexivity|vm_compute; reflexivity].
  - split; [apply fresh_ex; vm_compute; reflexivity|]. exists UseAfterFree, (ATxRelease 1%N None), []. eexists.
    split; [vm_compute; reflexivity|]. split; [left; reflexivity|]. left. exists 1%N. split; reflexivity.
Qed.
(* connectionless data never crashes, whatever the application does *)
Theorem C82_unitdata : forall E a data w, snd (exec (stack E) (OUnitdataInd a data) w) <> None.
Proof. exact unitdata_runs. Qed.
Print Assumptions C82_unitdata.
Example C82_ex : quiet Eq /\ fatal_later (rx_cn_co [0;11;64;3;0;0;0]%N) /\ ue_on (w_st w5) 5 <> None /\
  snd (exec (stack Eq) (ODataInd 5 [0; 20; 64; 16; 0; 0; 2; 0; 16; 64; 4; 3; 5; 8; 0; 0; 59; 64; 1; 64]%N) w5) <> None.
Proof.
  split; [intros t; reflexivity|]. split; [|split; vm_compute; discriminate].
  eapply fatal_release; [eexists; vm_compute; reflexivity|vm_compute; reflexivity].
Qed.
