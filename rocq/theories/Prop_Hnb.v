(* The home NodeB emulator: C83, C85, C86, C87. *)
From Verif Require Import Base Helpers Helpers_spec Aper Aper_spec Aper_valid Container RanapTypes RuaTypes HnbapTypes RanapTab RuaTab HnbapTab
  Dispatch Dispatch_proofs Deliver_spec Factory_spec Factory Factory_msgs RuaFactory_spec RuaFactory E2e_spec Stack_spec Hnb Hnb_spec Hnb_proofs.
From Coq Require Import String List Permutation.
Local Open Scope list_scope.
Local Open Scope string_scope.
Local Open Scope list_scope.

(* ---------------- C83 ---------------- *)
(* NAS messages in a RANAP Direct Transfer in a RUA Direct Transfer, while the
   emulator has a circuit switched channel: they are reported, and answered on that
   channel.  Identity Request, *)
Theorem C83_identity : forall E h c b ranap nas, chan_ok h -> h_cs h = Some c -> on_connection b ranap -> nas_in ranap nas -> mm nas 0x18 ->
  exists m, rua_gives E h b [HNas nas; HSend rua_ppid m] /\ nas_reply c m [5; 0x19; 9; 3; 0x31; 0x91; 6; 0; 0x28; 0x47; 0x11; 0xf2]%N.
Proof. exact identity_l. Qed.
Print Assumptions C83_identity.
(* Authentication Request: the answer has the SRES the library computes for the
   RAND of this request, *)
Theorem C83_authentication : forall E h c b ranap x y z rand r, sres_ok E -> chan_ok h -> h_cs h = Some c -> on_connection b ranap ->
  List.length rand = 16 -> nas_in ranap (x :: y :: z :: rand ++ r) -> mm (x :: y :: z :: rand ++ r) 0x12 ->
  exists m, rua_gives E h b [HNas (x :: y :: z :: rand ++ r); HSend rua_ppid m] /\ nas_reply c m ([5; 0x94]%N ++ he_sres E rand).
Proof. exact auth_l. Qed.
Print Assumptions C83_authentication.
Theorem C83_short_authentication : forall E h c b ranap nas, chan_ok h -> h_cs h = Some c -> on_connection b ranap -> nas_in ranap nas -> mm nas 0x12 ->
  (List.length nas < 19)%nat -> rua_gives E h b [HNas nas].
Proof. exact short_auth_l. Qed.
Print Assumptions C83_short_authentication.
(* Location Updating Reject, *)
Theorem C83_reject : forall E h c b ranap nas, chan_ok h -> h_cs h = Some c -> on_connection b ranap -> nas_in ranap nas -> mm nas 0x04 ->
  rua_gives E h b [HNas nas; HLuReject].
Proof. exact reject_l. Qed.
Print Assumptions C83_reject.
(* MM Information, which ends the call, *)
Theorem C83_information : forall E h c b ranap nas, chan_ok h -> h_cs h = Some c -> on_connection b ranap -> nas_in ranap nas -> mm nas 0x32 ->
  (forall tp, he_tlv E (skipn 2 nas) = Some tp -> tp 0x45%N <> Some [] /\ tp 0x43%N <> Some []) ->
  exists m, rua_gives E h b [HNas nas; HSend rua_ppid m] /\ reply c m 1 11 1 M_RANAP_Iu_ReleaseRequestIEs [("id-Cause", VChoice 0 (VInt 40))].
Proof. exact info_l. Qed.
Print Assumptions C83_information.
(* and any other NAS message, which is only reported *)
Theorem C83_other_mm : forall E h b ranap nas mt, chan_ok h -> on_connection b ranap -> nas_in ranap nas -> mm nas mt ->
  ~ In mt [0x18; 0x02; 0x04; 0x32; 0x12]%N -> rua_gives E h b [HNas nas].
Proof. exact other_mm_l. Qed.
Print Assumptions C83_other_mm.
Theorem C83_not_mm : forall E h b ranap nas, on_connection b ranap -> nas_in ranap nas ->
  ((List.length nas < 2)%nat \/ (nth 0 nas 0 mod 16 <> 5)%N) -> rua_gives E h b [HNas nas].
Proof. exact not_mm_l. Qed.
Print Assumptions C83_not_mm.
(* Location Updating Accept: claimed is that a new TMSI is acknowledged and that
   nothing else is.  False: whether the mobile identity is a TMSI is read from the
   network name, and without a mobile identity from an uninitialised variable.
   Witness: a parser that finds a mobile identity of type IMSI (1) and a network
   name that begins with 0x84. *)
Definition tlv_of (i n : option (list N)) : N -> option (list N) :=
  fun t => if (t =? 0x17)%N then i else if (t =? 0x45)%N then n else None.
Definition lu_accept : list N := [0x05; 0x02; 0x62; 0xf2; 0x30; 0x12; 0x34]%N.
Definition accept_ranap : list N := [0; 20; 64; 20; 0; 0; 2; 0; 16; 64; 8; 7; 5; 2; 98; 242; 48; 18; 52; 0; 59; 64; 1; 0]%N.
Definition accept_octets : list N := [0; 2; 0; 44; 0; 0; 3; 0; 7; 0; 1; 0; 0; 3; 0; 3; 0; 0; 42; 0; 4; 0; 25; 24]%N ++ accept_ranap.
Definition cs_hnb : hnb := mkHnb 0 0 (Some (mkChan false 42)) 43.
Lemma accept_in : on_connection accept_octets accept_ranap /\ nas_in accept_ranap lu_accept.
Proof.
  destruct (made_nas 0 lu_accept false 42) as (r&b&e&Hr&Hb&Ho&Hn); [vm_compute; reflexivity|vm_compute; discriminate|].
  assert (r = accept_ranap) by (vm_compute in Hr; injection Hr as <-; reflexivity). subst r.
  assert (b = accept_octets) by (vm_compute in Hb; injection Hb as <- _; reflexivity). subst b. split; assumption.
Qed.
Theorem C83_accept_refuted :
  let E i n t := mkHenv true (fun _ => Some (tlv_of i n)) (fun _ => [0; 0; 0; 0]%N) t in
  (* an IMSI is acknowledged *)
  (exists m, rua_gives (E (Some [0x09]%N) (Some [0x84]%N) false) cs_hnb accept_octets [HNas lu_accept; HLuAccept; HSend rua_ppid m]) /\
  (* a TMSI is not *)
  rua_gives (E (Some [0xf4; 1; 2; 3; 4]%N) (Some [0x83]%N) false) cs_hnb accept_octets [HNas lu_accept; HLuAccept] /\
  (* nothing is acknowledged, or not, depending on the uninitialised variable *)
  (exists m, rua_gives (E None None true) cs_hnb accept_octets [HNas lu_accept; HLuAccept; HSend rua_ppid m]) /\
  rua_gives (E None None false) cs_hnb accept_octets [HNas lu_accept; HLuAccept].
Proof.
  cbv zeta. assert (Hm : mm lu_accept 0x02) by (do 3 eexists; split; [reflexivity|split; reflexivity]).
  assert (Hk : chan_ok cs_hnb) by (intros c H; injection H as <-; reflexivity).
  destruct accept_in as [Ho Hn]. split; [|split; [|split]].
  - destruct (proj2 (accept_l (mkHenv true (fun _ => Some (tlv_of (Some [0x09]%N) (Some [0x84]%N))) (fun _ => [0; 0; 0; 0]%N) false) cs_hnb _ _ _ _ Hk eq_refl Ho Hn Hm (le_n 7)) _ eq_refl true) as (m&H&_);
      [right; split; [discriminate|do 2 eexists; split; reflexivity]|exists m; exact H].
  - destruct (proj2 (accept_l (mkHenv true (fun _ => Some (tlv_of (Some [0xf4; 1; 2; 3; 4]%N) (Some [0x83]%N))) (fun _ => [0; 0; 0; 0]%N) false) cs_hnb _ _ _ _ Hk eq_refl Ho Hn Hm (le_n 7)) _ eq_refl false) as (m&H&_);
      [right; split; [discriminate|do 2 eexists; split; reflexivity]|exact H].
  - destruct (proj2 (accept_l (mkHenv true (fun _ => Some (tlv_of None None)) (fun _ => [0; 0; 0; 0]%N) true) cs_hnb _ _ _ _ Hk eq_refl Ho Hn Hm (le_n 7)) _ eq_refl true) as (m&H&_);
      [left; split; reflexivity|exists m; exact H].
  - destruct (proj2 (accept_l (mkHenv true (fun _ => Some (tlv_of None None)) (fun _ => [0; 0; 0; 0]%N) false) cs_hnb _ _ _ _ Hk eq_refl Ho Hn Hm (le_n 7)) _ eq_refl false) as (m&H&_);
      [left; split; reflexivity|exact H].
Qed.
Print Assumptions C83_accept_refuted.
(* what happens instead.  Missing: that the mobile identity decides *)
Theorem C83_accept_partial : forall E h c b ranap nas, chan_ok h -> h_cs h = Some c -> on_connection b ranap -> nas_in ranap nas -> mm nas 0x02 -> (7 <= List.length nas)%nat ->
  (he_tlv E (skipn 2 nas) = None -> rua_gives E h b [HNas nas; HLuAccept]) /\
  forall tp, he_tlv E (skipn 2 nas) = Some tp -> forall answered : bool,
    (tp 0x17%N = None /\ answered = he_tmsi E \/
     tp 0x17%N <> None /\ exists t r, tp 0x45%N = Some (t :: r) /\ answered = (t mod 16 =? 4)%N) ->
    exists m, rua_gives E h b ([HNas nas; HLuAccept] ++ (if answered then [HSend rua_ppid m] else [])) /\ nas_reply c m [5; 0x1b]%N.
Proof. exact accept_l. Qed.
Print Assumptions C83_accept_partial.
(* RANAP messages: Security Mode Command is answered with the first algorithm it
   permits and no encryption, Iu Release Command with Iu Release Complete *)
Theorem C83_security_mode : forall E h c b ranap s a r x y, let m := M_RANAP_SecurityModeCommandIEs in
  h_cs h = Some c -> on_connection b ranap -> carries (rx_cn_co ranap) 1 6 m s ->
  has_ie m s "id-IntegrityProtectionInformation" (VSeq (Some (VList (VInt a :: r)) :: x) y) ->
  exists o, rua_gives E h b [HSend rua_ppid o] /\
    reply c o 2 6 0 M_RANAP_SecurityModeCompleteIEs [("id-ChosenIntegrityProtectionAlgorithm", VInt a); ("id-ChosenEncryptionAlgorithm", VInt 0)].
Proof. exact secmode_l. Qed.
Print Assumptions C83_security_mode.
Theorem C83_security_mode_without_integrity : forall E h b ranap s, let m := M_RANAP_SecurityModeCommandIEs in
  on_connection b ranap -> carries (rx_cn_co ranap) 1 6 m s -> assoc "id-IntegrityProtectionInformation" (shown m s) = None -> rua_gives E h b [].
Proof. exact secmode_none_l. Qed.
Print Assumptions C83_security_mode_without_integrity.
Theorem C83_release : forall E h c b ranap s, h_cs h = Some c -> on_connection b ranap -> carries (rx_cn_co ranap) 1 1 M_RANAP_Iu_ReleaseCommandIEs s ->
  exists o, rua_gives E h b [HSend rua_ppid o] /\ reply c o 2 1 0 M_RANAP_Iu_ReleaseCompleteIEs [].
Proof. intros E h c b ranap s Hc Hb Ha. exact (release_l E h c b ranap 1 _ s Hc Hb Ha). Qed.
Print Assumptions C83_release.
(* claimed: messages a home NodeB does not expect are not answered.  False: an Iu
   Release Complete is answered with an Iu Release Complete *)
Theorem C83_unexpected_refuted : forall E, exists b ranap s o, on_connection b ranap /\ carries (rx_cn_co ranap) 2 1 M_RANAP_Iu_ReleaseCompleteIEs s /\
  rua_gives E cs_hnb b [HSend rua_ppid o].
Proof.
  intros E. destruct fine_rel_compl as (r&_&Hb&Hl&Hh). destruct (wrap_co false 42 r Hb Hl) as (b&e&_&Ho).
  destruct (E2e_proofs.arrives_cn_co r 2 1 0 M_RANAP_Iu_ReleaseCompleteIEs [] Hh (nth_error_In ranap_msgs 1 eq_refl) ltac:(vm_compute; tauto) eq_refl) as (_&_&s&Hc&_).
  destruct (release_l E cs_hnb _ b r 2 _ s eq_refl Ho (ex_intro _ _ Hc)) as (o&Hg&_). exists b, r, s, o. split; [exact Ho|]. split; [eexists; exact Hc|exact Hg].
Qed.
Print Assumptions C83_unexpected_refuted.
(* Missing: unexpected messages of the procedures Iu Release and Security Mode
   Control (C86) *)
Theorem C83_unexpected_partial : forall E h b ranap, on_connection b ranap ->
  (forall g, In g (x_calls (rx_cn_co ranap)) -> ~ In (g_proc g) [20; 6; 1]%N) -> rua_gives E h b [].
Proof. exact other_co_l. Qed.
Print Assumptions C83_unexpected_partial.
(* Paging, in a RUA Connectionless Transfer; the buffer takes 15 digits *)
Theorem C83_paging : forall E h b ranap s o, let m := M_RANAP_PagingIEs in
  unconnected b ranap -> carries (rx_cn_cl ranap) 1 14 m s -> has_ie m s "id-PermanentNAS-UE-ID" (VChoice 0 (VOcts o)) ->
  rua_gives E h b [HPaging (firstn 15 (packed_text o))].
Proof. exact paging_l. Qed.
Print Assumptions C83_paging.
Theorem C83_other_unconnected : forall E h b ranap, unconnected b ranap ->
  (forall g, In g (x_calls (rx_cn_cl ranap)) -> g_proc g <> 14%N) -> rua_gives E h b [].
Proof. exact other_cl_l. Qed.
Print Assumptions C83_other_unconnected.
(* whatever is received: at most one message is sent in return, and only as RUA
   Direct Transfer on the circuit switched channel *)
Theorem C83_only_on_channel : forall E h r y, sres_ok E -> chan_ok h -> read_cb E h r = Ok y ->
  (List.length (sent (y_eff y)) <= 1)%nat /\
  forall p b, In (p, b) (sent (y_eff y)) -> p = rua_ppid /\
    exists c ranap, h_cs h = Some c /\ holds T_RUA_RUA_PDU b 1 2 0 M_RUA_DirectTransferIEs (transfer_ies false (ch_conn c) ranap).
Proof. exact rx_calm. Qed.
Print Assumptions C83_only_on_channel.
(* what the emulator has no use for has no effect at all *)
Theorem C83_useless : forall E h r, useless r -> exists rc a f, read_cb E h r = Ok (mkHres rc h [] a f).
Proof. exact useless_l. Qed.
Print Assumptions C83_useless.
(* a RUA Disconnect *)
Example C83_useless_ex : useless (RData rua_ppid [0; 3; 0; 18; 0; 0; 3; 0; 7; 64; 1; 0; 0; 3; 64; 3; 0; 0; 42; 0; 1; 64; 1; 32]%N).
Proof. eapply useless_rua_procedure; [vm_compute; reflexivity | discriminate | discriminate]. Qed.
(* the connection is closed when the peer has closed it or reading fails, and only then *)
Theorem C83_closed : forall E h r y, read_cb E h r = Ok y -> (In HClose (y_eff y) <-> r = REof \/ exists rc, r = RError rc).
Proof. exact closed_l. Qed.
Print Assumptions C83_closed.
(* what a core network built with the message factories of this project sends
   arrives in this way; nothing that is longer fits the buffers *)
Theorem C83_factory_nas : forall sapi nas ps id, bytes_ok nas = true -> (N.of_nat (List.length nas) <= 977)%N ->
  exists ranap b e, r_msg (new_msg_dt sapi nas) = Some ranap /\ rua_new_dt ps id (Some ranap) = Ok (mkWrapped (Some (b, rua_ppid)) e) /\
    on_connection b ranap /\ nas_in ranap nas.
Proof. exact made_nas. Qed.
Print Assumptions C83_factory_nas.
Theorem C83_factory_security_mode : forall E h c ik ck st ia ea ps id, key_ok ik -> opt_ok key_ok ck -> dom_ok st -> (ia < 256)%N -> (ea < 256)%N ->
  sound_mask ia = true -> (ck <> None -> sound_mask ea = true) -> h_cs h = Some c ->
  exists ranap b e o, r_msg (new_msg_sec_mod_cmd2 ik ck st ia ea) = Some ranap /\ rua_new_dt ps id (Some ranap) = Ok (mkWrapped (Some (b, rua_ppid)) e) /\
    rua_gives E h b [HSend rua_ppid o] /\
    reply c o 2 6 0 M_RANAP_SecurityModeCompleteIEs
      [("id-ChosenIntegrityProtectionAlgorithm", VInt (if N.testbit ia 1 then 0 else 1)); ("id-ChosenEncryptionAlgorithm", VInt 0)].
Proof. exact made_security. Qed.
Print Assumptions C83_factory_security_mode.
Theorem C83_factory_release : forall E h c ca ps id, cause_ok ca -> h_cs h = Some c ->
  exists ranap b e o, r_msg (new_msg_iu_rel_cmd ca) = Some ranap /\ rua_new_dt ps id (Some ranap) = Ok (mkWrapped (Some (b, rua_ppid)) e) /\
    rua_gives E h b [HSend rua_ppid o] /\ reply c o 2 1 0 M_RANAP_Iu_ReleaseCompleteIEs [].
Proof. exact made_release. Qed.
Print Assumptions C83_factory_release.
Theorem C83_factory_paging : forall E h imsi tmsi is_ps pc, forallb is_digit imsi = true -> 5 <= List.length imsi <= 16 ->
  opt_ok (fun t => (t < 2 ^ 32)%N) tmsi -> (pc <= 5)%N ->
  exists m ranap b e, new_msg_paging_cmd imsi tmsi is_ps pc = Ok m /\ r_msg m = Some ranap /\ rua_new_udt (Some ranap) = Ok (mkWrapped (Some (b, rua_ppid)) e) /\
    rua_gives E h b [HPaging (firstn 15 imsi)].
Proof. exact made_paging. Qed.
Print Assumptions C83_factory_paging.
Definition Es : henv := mkHenv true (fun _ => None) (fun r => firstn 4 r) false.
Definition Es4 : henv := mkHenv true (fun _ => None) (fun _ => [1; 2; 3; 4]%N) false.
Example C83_ex :
  sres_ok (mkHenv true (fun _ => None) (fun _ => [1; 2; 3; 4]%N) false) /\ chan_ok cs_hnb /\
  mm [0x05; 0x18; 1]%N 0x18 /\ mm [0x05; 0xd2; 0]%N 0x12 /\ on_connection accept_octets accept_ranap /\ nas_in accept_ranap lu_accept /\
  (* an Identity Request and the answer, in octets *)
  (exists b, option_map (fun y => y_eff y) (match r_msg (new_msg_dt 0 [0x05; 0x18; 1]%N) with
     | Some r => match rua_new_dt false 7 (Some r) with Ok w => match w_msg w with Some (m, _) => match read_cb Es cs_hnb (RData 19 m) with Ok y => Some y | _ => None end | None => None end | _ => None end
     | None => None end) = Some [HNas [0x05; 0x18; 1]%N; HSend 19 b] /\
     b = [0; 2; 0; 49; 0; 0; 3; 0; 7; 0; 1; 0; 0; 3; 0; 3; 0; 0; 42; 0; 4; 0; 30; 29; 0; 20; 64; 25; 0; 0; 2; 0; 16; 64; 13; 12; 5; 25; 9; 3; 49; 145; 6; 0; 40; 71; 17; 242; 0; 59; 64; 1; 0]%N).
Proof.
  split; [intros r; split; reflexivity|]. split; [intros c H; injection H as <-; reflexivity|].
  split; [do 3 eexists; split; [reflexivity|split; reflexivity]|]. split; [do 3 eexists; split; [reflexivity|split; reflexivity]|].
  split; [apply accept_in|]. split; [apply accept_in|]. eexists. split; [vm_compute; reflexivity|vm_compute; reflexivity].
Qed.
(* NAS messages of each kind, as they can arrive: Identity Request, Authentication
   Request, a short one, Location Updating Reject, MM Information, IMSI Detach, a call
   control message *)
Example C83_nas_ex : Forall (fun x => let '(nas, mt) := x in
    (exists b ranap, on_connection b ranap /\ nas_in ranap nas) /\ (if (mt =? 0)%N then (nth 0 nas 0 mod 16 <> 5)%N else mm nas mt))
  [([0x05; 0x18; 1]%N, 0x18%N); ([0x05; 0x12; 0]%N ++ repeat 7%N 16 ++ [0x20]%N, 0x12%N); ([0x05; 0x12; 0]%N, 0x12%N); ([0x05; 0x04; 0x0b]%N, 0x04%N);
   ([0x05; 0x32; 0x45; 1; 0x81]%N, 0x32%N); ([0x05; 0x01; 0]%N, 0x01%N); ([0x03; 0x45]%N, 0%N)].
Proof.
  repeat constructor;
    try (match goal with |- exists b ranap, on_connection _ _ /\ nas_in _ ?nas =>
      destruct (made_nas 0 nas false 42) as (r&b&e&_&_&Ho&Hn); [vm_compute; reflexivity|vm_compute; discriminate|exists b, r; split; assumption] end);
    cbn [N.eqb Pos.eqb]; try (vm_compute; discriminate); do 3 eexists; (split; [reflexivity|split; reflexivity]).
Qed.
(* a Security Mode Command, an Iu Release Command and a Common ID on a connection, a
   Paging and a Reset without *)
Ltac on_co := edestruct (wrap_co false 42) as (?&?&_&?); [| |eexists; split; [eassumption|]]; [vm_compute; reflexivity|vm_compute; discriminate|].
Ltac on_cl := edestruct wrap_cl as (?&?&_&?); [| |eexists; split; [eassumption|]]; [vm_compute; reflexivity|vm_compute; discriminate|].
Example C83_ranap_ex :
  (exists ranap, (exists b, on_connection b ranap /\ exists s x y, carries (rx_cn_co ranap) 1 6 M_RANAP_SecurityModeCommandIEs s /\
     has_ie M_RANAP_SecurityModeCommandIEs s "id-IntegrityProtectionInformation" (VSeq (Some (VList [VInt 0; VInt 1]) :: x) y))) /\
  (exists ranap, (exists b, on_connection b ranap /\ exists s, carries (rx_cn_co ranap) 1 6 M_RANAP_SecurityModeCommandIEs s /\
     assoc "id-IntegrityProtectionInformation" (shown M_RANAP_SecurityModeCommandIEs s) = None)) /\
  (exists ranap, (exists b, on_connection b ranap /\ exists s, carries (rx_cn_co ranap) 1 1 M_RANAP_Iu_ReleaseCommandIEs s)) /\
  (exists ranap, (exists b, on_connection b ranap /\ (List.length (x_calls (rx_cn_co ranap)) = 1)%nat /\
     forall g, In g (x_calls (rx_cn_co ranap)) -> ~ In (g_proc g) [20; 6; 1]%N)) /\
  (exists ranap, (exists b, unconnected b ranap /\ exists s o, carries (rx_cn_cl ranap) 1 14 M_RANAP_PagingIEs s /\
     has_ie M_RANAP_PagingIEs s "id-PermanentNAS-UE-ID" (VChoice 0 (VOcts o)))) /\
  (exists ranap, (exists b, unconnected b ranap /\ (List.length (x_calls (rx_cn_cl ranap)) = 1)%nat /\
     forall g, In g (x_calls (rx_cn_cl ranap)) -> g_proc g <> 14%N)).
Proof.
  split; [|split; [|split; [|split; [|split]]]].
  - let x := eval vm_compute in (r_msg (new_msg_sec_mod_cmd2 (repeat 7%N 16) None 0 6 0)) in match x with Some ?o => exists o end.
    on_co. do 3 eexists. split; [eexists; vm_compute; reflexivity|vm_compute; reflexivity].
  - exists [0; 6; 0; 8; 0; 0; 1; 0; 75; 0; 1; 0]%N. on_co. eexists. split; [eexists; vm_compute; reflexivity|vm_compute; reflexivity].
  - let x := eval vm_compute in (r_msg (new_msg_iu_rel_cmd (Factory_spec.mkCause 1 46))) in match x with Some ?o => exists o end.
    on_co. eexists. eexists. vm_compute. reflexivity.
  - let x := eval vm_compute in (r_msg (new_msg_rab_rel_req 1 (Factory_spec.mkCause 1 46))) in match x with Some ?o => exists o end.
    on_co. split; [vm_compute; reflexivity|]. vm_compute. intros g [<-|[]] K. intuition discriminate.
  - let x := eval vm_compute in (match new_msg_paging_cmd [57; 48; 49; 55; 48; 49]%N None false 0 with Ok m => r_msg m | _ => None end) in match x with Some ?o => exists o end.
    on_cl. do 2 eexists. split; [eexists; vm_compute; reflexivity|vm_compute; reflexivity].
  - let x := eval vm_compute in (r_msg (new_msg_reset2 0 (Some (Factory_spec.mkCause 5 113)) None)) in match x with Some ?o => exists o end.
    on_cl. split; [vm_compute; reflexivity|]. vm_compute. intros g [<-|[]] K. discriminate.
Qed.

(* ---------------- C85 ---------------- *)
Theorem C85_registered : forall E h b s z, let m := M_HNBAP_HNBRegisterAcceptIEs in hnbap_in b 1 m s -> has_ie m s "id-RNC-ID" (VInt z) ->
  exists a f, read_cb E h (RData hnbap_ppid b) =
    Ok (mkHres 0 (mkHnb (Z.to_N z) (h_ctx h) (h_cs h) (h_next h)) [HRegistered (Z.to_N z)] a f).
Proof. exact registered_l. Qed.
Print Assumptions C85_registered.
Theorem C85_ue_registered : forall E h b s imsi bits, let m := M_HNBAP_UERegisterAcceptIEs in hnbap_in b 3 m s ->
  has_ie m s "id-UE-Identity" (VChoice 0 (VOcts imsi)) -> has_ie m s "id-Context-ID" (VBits bits) ->
  exists a f, read_cb E h (RData hnbap_ppid b) =
    Ok (mkHres 0 (mkHnb (h_rnc h) (from_bits 0 bits) (h_cs h) (h_next h)) [HUe (firstn 15 (packed_text imsi)) (from_bits 0 bits)] a f).
Proof. exact ue_accepted_l. Qed.
Print Assumptions C85_ue_registered.
Theorem C85_other : forall E h b d p cr o, pdu_in T_HNBAP_HNBAP_PDU b = Some (d, p, cr, o) -> p <> 1%N -> p <> 3%N ->
  exists a f, read_cb E h (RData hnbap_ppid b) = Ok (mkHres (-28) h [] a f).
Proof. exact hnbap_other_l. Qed.
Print Assumptions C85_other.
(* claimed: an HNB Register Reject is not reported as registration.  False: any
   outcome of the procedure is, with the RNC identity of the zeroed structure *)
Theorem C85_reject_refuted : forall E h, exists b a f, register_reject b /\
  read_cb E h (RData hnbap_ppid b) = Ok (mkHres 0 (mkHnb 0 (h_ctx h) (h_cs h) (h_next h)) [HRegistered 0] a f).
Proof.
  intros E h. exists [64; 1; 0; 8; 0; 0; 1; 0; 1; 64; 1; 0]%N. do 2 eexists. split.
  - exists 0%Z, [0; 0; 1; 0; 1; 64; 1; 0]%N. split; vm_compute; reflexivity.
  - vm_compute. reflexivity.
Qed.
Print Assumptions C85_reject_refuted.
(* Missing: rejects *)
Theorem C85_any_outcome_partial : forall E h b d cr o, pdu_in T_HNBAP_HNBAP_PDU b = Some (d, 1%N, cr, o) ->
  exists rnc a f, read_cb E h (RData hnbap_ppid b) = Ok (mkHres 0 (mkHnb rnc (h_ctx h) (h_cs h) (h_next h)) [HRegistered rnc] a f).
Proof. exact any_register_l. Qed.
Print Assumptions C85_any_outcome_partial.
(* the requests *)
Theorem C85_register_request : exists b, send_register_req = Ok [HSend hnbap_ppid b] /\
  holds T_HNBAP_HNBAP_PDU b 1 1 0 M_HNBAP_HNBRegisterRequestIEs register_ies.
Proof. exact register_req_l. Qed.
Print Assumptions C85_register_request.
Theorem C85_deregister : exists b, send_deregister_req = Ok [HSend hnbap_ppid b] /\
  holds T_HNBAP_HNBAP_PDU b 1 2 0 M_HNBAP_HNBDe_RegisterIEs [("id-Cause", VChoice 3 (VEnum 2))].
Proof. exact deregister_req_l. Qed.
Print Assumptions C85_deregister.
Theorem C85_ue_register_request : forall imsi, forallb is_digit imsi = true -> 5 <= List.length imsi <= 16 ->
  exists b o, send_ue_register imsi = Ok [HSend hnbap_ppid b] /\ packed_text o = imsi /\
    holds T_HNBAP_HNBAP_PDU b 1 3 0 M_HNBAP_UERegisterRequestIEs (ue_register_ies o).
Proof. exact ue_register_l. Qed.
Print Assumptions C85_ue_register_request.
Theorem C85_reset : forall is_ps, exists b ranap, send_reset is_ps = Ok [HSend rua_ppid b] /\ unconnected b ranap /\
  holds T_RANAP_RANAP_PDU ranap 1 9 0 M_RANAP_ResetIEs [("id-Cause", VChoice 1 (VInt 65)); ("id-CN-DomainIndicator", VEnum (if is_ps then 1 else 0))].
Proof. exact reset_l. Qed.
Print Assumptions C85_reset.
(* claimed: what is allocated for a received message is released.  False for every
   one of them: the value of the PDU stays *)
Theorem C85_released_refuted : forall E h b ranap y,
  (on_connection b ranap /\ x_rc (rx_cn_co ranap) = 0%Z /\ ids_once cn_co ranap \/ unconnected b ranap /\ ids_once cn_cl ranap) ->
  read_cb E h (RData rua_ppid b) = Ok y -> ~ Permutation (y_alloc y) (y_freed y).
Proof.
  intros E h b ranap y H Hy Hp.
  assert (Hk : keeps_value T_RUA_RUA_PDU b y) by (destruct H as [(H1&H2&H3)|(H1&H2)]; [exact (leak_connection E h b ranap y H1 H2 H3 Hy)|exact (leak_unconnected E h b ranap y H1 H2 Hy)]).
  destruct Hk as (d&p&cr&o&_&Hq). apply Permutation_length in Hp, Hq. cbn [List.length] in Hq. rewrite Hp in Hq. exact (n_Sn _ Hq).
Qed.
Print Assumptions C85_released_refuted.
(* nothing else does *)
Theorem C85_released_partial : forall E h b ranap y,
  (on_connection b ranap /\ x_rc (rx_cn_co ranap) = 0%Z /\ ids_once cn_co ranap \/ unconnected b ranap /\ ids_once cn_cl ranap) ->
  read_cb E h (RData rua_ppid b) = Ok y -> keeps_value T_RUA_RUA_PDU b y.
Proof.
  intros E h b ranap y [(H1&H2&H3)|(H1&H2)] Hy; [exact (leak_connection E h b ranap y H1 H2 H3 Hy)|exact (leak_unconnected E h b ranap y H1 H2 Hy)].
Qed.
Print Assumptions C85_released_partial.
Theorem C85_released_hnbap_partial : forall E h b p m s d cr o y,
  (p = 1%N /\ m = M_HNBAP_HNBRegisterAcceptIEs \/
   p = 3%N /\ m = M_HNBAP_UERegisterAcceptIEs /\ exists i, has_ie m s "id-UE-Identity" (VChoice 0 (VOcts i))) ->
  pdu_in T_HNBAP_HNBAP_PDU b = Some (d, p, cr, o) -> decode_msg m o = mkDres true s [] ->
  read_cb E h (RData hnbap_ppid b) = Ok y -> keeps_value T_HNBAP_HNBAP_PDU b y.
Proof. exact leak_hnbap. Qed.
Print Assumptions C85_released_hnbap_partial.
Example C85_ex : (* an HNB Register Accept with RNC-ID 23, a UE Register Accept for 90170 with context 42 *)
  option_map (fun y => (y_hnb y, y_eff y)) (match read_cb Es hnb_start (RData 20 [32; 1; 0; 9; 0; 0; 1; 0; 14; 0; 2; 0; 23]%N) with Ok y => Some y | _ => None end) =
    Some (mkHnb 23 0 None 42, [HRegistered 23]) /\
  option_map (fun y => (y_hnb y, y_eff y)) (match read_cb Es hnb_start (RData 20 [32; 3; 0; 18; 0; 0; 2; 0; 5; 0; 4; 0; 0x09; 0x71; 0xf0; 0; 4; 0; 3; 0; 0; 42]%N) with Ok y => Some y | _ => None end) =
    Some (mkHnb 0 42 None 42, [HUe [57; 48; 49; 55; 48]%N 42]) /\
  (exists b, send_ue_register [57; 48; 49; 55; 48; 49]%N = Ok [HSend 20 b]).
Proof. split; [vm_compute; reflexivity|]. split; [vm_compute; reflexivity|]. eexists. vm_compute. reflexivity. Qed.
(* the same messages as hypotheses, and one on a connection for the last claims *)
Example C85_hypotheses_ex :
  (exists s, hnbap_in [32; 1; 0; 9; 0; 0; 1; 0; 14; 0; 2; 0; 23]%N 1 M_HNBAP_HNBRegisterAcceptIEs s /\ has_ie M_HNBAP_HNBRegisterAcceptIEs s "id-RNC-ID" (VInt 23)) /\
  (exists s o bits, hnbap_in [32; 3; 0; 18; 0; 0; 2; 0; 5; 0; 4; 0; 0x09; 0x71; 0xf0; 0; 4; 0; 3; 0; 0; 42]%N 3 M_HNBAP_UERegisterAcceptIEs s /\
    has_ie M_HNBAP_UERegisterAcceptIEs s "id-UE-Identity" (VChoice 0 (VOcts o)) /\ has_ie M_HNBAP_UERegisterAcceptIEs s "id-Context-ID" (VBits bits) /\ from_bits 0 bits = 42%N) /\
  (exists o, pdu_in T_HNBAP_HNBAP_PDU [0; 2; 0; 8; 0; 0; 1; 0; 1; 64; 1; 0]%N = Some (1%N, 2%N, 0%Z, o)) /\
  (on_connection accept_octets accept_ranap /\ x_rc (rx_cn_co accept_ranap) = 0%Z /\ ids_once cn_co accept_ranap) /\
  (exists y, read_cb Es4 cs_hnb (RData rua_ppid accept_octets) = Ok y /\ (List.length (y_alloc y) = 6)%nat).
Proof.
  split; [|split; [|split; [|split]]].
  - eexists. split; [do 4 eexists; split; vm_compute; reflexivity|vm_compute; reflexivity].
  - do 3 eexists. split; [do 4 eexists; split; vm_compute; reflexivity|]. split; [vm_compute; reflexivity|]. split; vm_compute; reflexivity.
  - eexists. vm_compute. reflexivity.
  - split; [apply accept_in|]. split; [vm_compute; reflexivity|]. intros d p cr b m l H1 H2 H3.
    vm_compute in H1. injection H1 as <- <- <- <-. vm_compute in H2. injection H2 as <-. vm_compute in H3. injection H3 as <-.
    vm_compute. repeat constructor; cbn [In]; intuition discriminate.
  - eexists. split; vm_compute; reflexivity.
Qed.

(* a Direct Transfer on context 42 with the NAS message 05 02 *)
Definition bad_accept : list N :=
  [0; 2; 0; 39; 0; 0; 3; 0; 7; 0; 1; 0; 0; 3; 0; 3; 0; 0; 42; 0; 4; 0; 20; 19; 0; 20; 64; 15; 0; 0; 2; 0; 16; 64; 3; 2; 5; 2; 0; 59; 64; 1; 0]%N.
(* ---------------- C86 ---------------- *)
(* claimed: nothing that is received ends the process.  False in every environment
   after `channel': a Location Updating Accept without a location area *)
Theorem C86_no_crash_refuted : forall E, sres_ok E -> exists l h e b, hrun E hnb_start l = Ok (h, e) /\ faults (read_cb E h (RData rua_ppid b)).
Proof.
  intros E Hs. exists [HChannel false]. destruct (channel_l E hnb_start false) as (c&_&Hc); [reflexivity|].
  do 2 eexists. exists bad_accept. split; [cbn [hrun hstep]; rewrite Hc; reflexivity|]. eexists. vm_compute. reflexivity.
Qed.
Print Assumptions C86_no_crash_refuted.
(* exactly these end it, whatever happened before: for octets received, *)
Theorem C86_received_partial : forall E l h e ppid data, sres_ok E -> hrun E hnb_start l = Ok (h, e) ->
  (faults (read_cb E h (RData ppid data)) <-> fatal E h ppid data).
Proof.
  intros E l h e ppid data Hs Hr. apply rx_fatal; [exact Hs|]. exact (proj1 (proj1 (run_l E Hs l _ _ _ start_inv Hr))).
Qed.
Print Assumptions C86_received_partial.
(* and for any event *)
Theorem C86_event_partial : forall E l h e o, sres_ok E -> hrun E hnb_start l = Ok (h, e) ->
  (faults (hstep E h o) <->
   (exists i, o = HUeRegister i /\ exists f, send_ue_register i = Fault f) \/ (exists p d, o = HRecv (RData p d) /\ fatal E h p d)).
Proof.
  intros E l h e o Hs Hr. apply step_fatal; [exact Hs|]. exact (proj1 (run_l E Hs l _ _ _ start_inv Hr)).
Qed.
Print Assumptions C86_event_partial.
Theorem C86_ue_register_refuted : forall imsi, List.length imsi < 5 \/ 16 < List.length imsi ->
  send_ue_register imsi = Fault (if (32 <? List.length imsi)%nat then OobWrite else Assertion).
Proof.
  intros imsi H. destruct (Nat.ltb_spec 32 (List.length imsi)) as [Hl|Hl]; [exact (ue_register_long_l imsi Hl)|exact (ue_register_bad_l imsi H Hl)].
Qed.
Print Assumptions C86_ue_register_refuted.
(* two instances: on a little-endian host a Security Mode Complete that chooses
   encryption; on any host a UE Register Accept without a Context-ID *)
Theorem C86_security_mode_refuted : forall E h, he_le E = true ->
  exists b ranap, on_connection b ranap /\
    holds T_RANAP_RANAP_PDU ranap 2 6 0 M_RANAP_SecurityModeCompleteIEs
      [("id-ChosenIntegrityProtectionAlgorithm", VInt 0); ("id-ChosenEncryptionAlgorithm", VInt 1)] /\
    faults (read_cb E h (RData rua_ppid b)).
Proof.
  intros E h Hle. destruct (sec_mod_compl_msg 0 1) as (r&Hr&Hh); [split; vm_compute; discriminate|split; vm_compute; discriminate|].
  vm_compute in Hr. injection Hr as <-. edestruct (wrap_co false 42) as (b&e&He&Hc); [| |exists b; eexists; split; [exact Hc|split; [exact Hh|]]];
    [reflexivity|vm_compute; discriminate|]. clear Hc Hh. vm_compute in He. injection He as <- _.
  destruct E as [le tlv sres tm]. cbn [he_le] in Hle. subst le. eexists. vm_compute. reflexivity.
Qed.
Print Assumptions C86_security_mode_refuted.
Theorem C86_ue_accept_refuted : forall E h, exists b, faults (read_cb E h (RData hnbap_ppid b)).
Proof. intros E h. exists [32; 3; 0; 11; 0; 0; 1; 0; 5; 0; 4; 0; 0x09; 0x71; 0xf0]%N. eexists. vm_compute. reflexivity. Qed.
Print Assumptions C86_ue_accept_refuted.
Example C86_ex : sres_ok Es4 /\ fatal Es4 cs_hnb rua_ppid bad_accept /\ ~ fatal Es4 cs_hnb rua_ppid accept_octets.
Proof.
  assert (Hs : sres_ok Es4) by (intros r; split; reflexivity). assert (Hc : chan_ok cs_hnb) by (intros c H; injection H as <-; reflexivity).
  split; [exact Hs|]. split.
  - apply (rx_fatal Es4 cs_hnb rua_ppid bad_accept Hs Hc). eexists. vm_compute. reflexivity.
  - intros H. apply (rx_fatal Es4 cs_hnb rua_ppid accept_octets Hs Hc) in H. destruct H as (f&H). vm_compute in H. discriminate.
Qed.

(* ---------------- C87 ---------------- *)
(* Whatever is received in between, every `channel' command sends one Connect, in
   order, with consecutive context identifiers from 42 on; the circuit switched
   channel used for answers is the last one opened *)
Theorem C87_channels : forall E l h e, sres_ok E -> hrun E hnb_start l = Ok (h, e) ->
  Forall2 (fun x b => connect_req (he_le E) (fst x) (snd x) b) (numbered 42 (channels l)) (connects e) /\
  option_map ch_conn (h_cs h) = last_cs (numbered 42 (channels l)) None.
Proof. intros E l h e Hs Hr. exact (proj2 (run_l E Hs l _ _ _ start_inv Hr)). Qed.
Print Assumptions C87_channels.
(* claimed: no two channels have the same identifier.  False after 65536 *)
Theorem C87_unique_refuted : forall E, sres_ok E -> exists l h e i j b c, hrun E hnb_start l = Ok (h, e) /\ i <> j /\
  nth_error (connects e) i = Some b /\ nth_error (connects e) j = Some c /\ connect_req (he_le E) true 42 b /\ connect_req (he_le E) true 42 c.
Proof. exact same_id_l. Qed.
Print Assumptions C87_unique_refuted.
(* Missing: more than 65536 channels *)
Theorem C87_unique_partial : forall E l h e, sres_ok E -> hrun E hnb_start l = Ok (h, e) ->
  (N.of_nat (List.length (channels l)) <= 65536)%N ->
  exists ids, Forall2 (fun x b => connect_req (he_le E) (fst x) (snd x) b) ids (connects e) /\ NoDup (map snd ids) /\
    map fst ids = channels l.
Proof.
  intros E l h e Hs Hr Hn. exists (numbered 42 (channels l)). split; [exact (proj1 (proj2 (run_l E Hs l _ _ _ start_inv Hr)))|].
  split; [exact (numbered_nodup (channels l) 42 Hn)|]. exact (numbered_domains (channels l) 42).
Qed.
Print Assumptions C87_unique_partial.
Example C87_ex : match hrun Es4 hnb_start [HChannel true; HRecv (RData rua_ppid bad_accept); HChannel false; HRecv (RData rua_ppid accept_octets); HChannel true] with
  | Ok (h, e) => h = mkHnb 0 0 (Some (mkChan false 43)) 45 /\ List.length (connects e) = 3 | _ => False end.
Proof. vm_compute. split; reflexivity. Qed.
