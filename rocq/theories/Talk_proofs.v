(* Conversations between the client and the home NodeB emulator. *)
From Coq Require Import ZifyBool ZifyNat ZifyN.
From Verif Require Import Base Aper Aper_spec Lai Container RanapTypes RuaTypes RanapTab RuaTab DispatchTab Dispatch Dispatch_proofs Deliver_spec
  Helpers Helpers_spec Factory_spec Factory Factory_msgs RuaFactory_spec RuaFactory RuaFactory_proofs E2e_spec E2e_proofs
  IuClient IuClient_spec IuClient_call_spec IuClient_call IuClient_conn IuClient_life2 IuClient_area IuClient_rel
  Stack Stack_spec Stack_safe Stack_proofs Stack_msgs Hnb Hnb_spec Hnb_proofs Talk_spec.
From Coq Require Import String List.
Local Open Scope list_scope.
Local Open Scope string_scope.
Local Open Scope list_scope.

Lemma reply_on c o d p crit m l : reply c o d p crit m l -> exists up, on_connection o up /\ holds T_RANAP_RANAP_PDU up d p crit m l.
Proof. intros (r&Hh&Ho). exists r. split; [do 2 eexists; exact Ho|exact Hh]. Qed.
Lemma given_up CN c nas up : (List.length nas <= 256)%nat ->
  holds T_RANAP_RANAP_PDU up 1 20 1 M_RANAP_DirectTransferIEs [("id-NAS-PDU", VOcts nas); ("id-SAPI", VEnum 0)] -> whenever CN c up (nas_given nas).
Proof.
  intros Hl Hh l u w Hu.
  destruct (arrives_carries _ _ _ _ _ _ (arrives_cn_co _ _ _ _ _ _ Hh (nth_error_In ranap_msgs 52 eq_refl) ltac:(vm_compute; tauto) eq_refl)) as (s&Hc&Hs).
  destruct (up_transfer CN l c up u nas None None Hu) as (t&Ht&Hr).
  - apply (transfer_plain _ _ s); [exact Hc|rewrite Hs; reflexivity|rewrite Hs; reflexivity].
  - exists t. split; [exact Ht|]. rewrite (proj2 (Nat.leb_le _ _) Hl) in Hr. exact Hr.
Qed.
Lemma completed_up CN c up m k p ev l : (p = 6 /\ ev = EvSecurityModeComplete \/ p = 1 /\ ev = EvIuRelease)%N ->
  holds T_RANAP_RANAP_PDU up 2 p 0 m l -> nth_error ranap_msgs k = Some m -> In (2, p, m_key m)%N cn_connection -> named_in m l = true ->
  whenever CN c up (event_given CN ev).
Proof.
  intros Hp Hh Hm Hi Hn l' u w Hu.
  destruct (arrives_carries _ _ _ _ _ _ (arrives_cn_co _ _ _ _ _ _ Hh (nth_error_In ranap_msgs k Hm) Hi Hn)) as (s&Hc&_).
  destruct (up_complete CN l' c up u m s p Hu Hc ltac:(tauto)) as (t&Ht&He). exists t. split; [exact Ht|]. unfold event_given. rewrite He.
  destruct Hp as [(->&->)|(->&->)]; reflexivity.
Qed.
Lemma down_nas CN w buf p u sapi nas ps id : live (w_st w) p = Some u -> bytes_ok nas = true -> (N.of_nat (List.length nas) <= 977)%N ->
  exists down b, sent_down CN w (ATx buf (Some p) nas sapi) u down /\ to_phone ps id down b /\ on_connection b down /\ nas_in down nas.
Proof.
  intros Hu Hb Hl. destruct (made_nas sapi nas ps id Hb Hl) as (r&b&e&Hr&He&Ho&Hn). exists r, b. split; [|split; [exists e; exact He|split; assumption]].
  apply (sent_l CN w _ p (DL_DirectTransfer sapi nas)); [reflexivity|exact Hu|cbn [octets_of]; congruence].
Qed.
Lemma talk_identity CN w buf p u sapi nas E h c ps id :
  live (w_st w) p = Some u -> chan_ok h -> h_cs h = Some c -> bytes_ok nas = true -> (N.of_nat (List.length nas) <= 977)%N -> mm nas 0x18 ->
  exists up, exchange CN w (ATx buf (Some p) nas sapi) u E h ps id [HNas nas] up /\
    whenever CN (u_conn u) up (nas_given [5; 0x19; 9; 3; 0x31; 0x91; 6; 0; 0x28; 0x47; 0x11; 0xf2]%N).
Proof.
  intros Hu Hk Hc Hb Hl Hm. destruct (down_nas CN w buf p u sapi nas ps id Hu Hb Hl) as (d&b&Hd&Ht&Ho&Hn).
  destruct (identity_l E h c b d nas Hk Hc Ho Hn Hm) as (o&Hg&Hr). destruct (reply_on _ _ _ _ _ _ _ Hr) as (up&Hup&Hh).
  exists up. split; [exists d; split; [exact Hd|]; exists b, o; auto|]. apply given_up; [cbn; lia|exact Hh].
Qed.
Lemma talk_auth CN w buf p u sapi x y z rand r E h c ps id : sres_ok E ->
  live (w_st w) p = Some u -> chan_ok h -> h_cs h = Some c -> let nas := x :: y :: z :: rand ++ r in
  bytes_ok nas = true -> (N.of_nat (List.length nas) <= 977)%N -> List.length rand = 16 -> mm nas 0x12 ->
  exists up, exchange CN w (ATx buf (Some p) nas sapi) u E h ps id [HNas nas] up /\
    whenever CN (u_conn u) up (nas_given ([5; 0x94]%N ++ he_sres E rand)).
Proof.
  intros Hs Hu Hk Hc nas Hb Hl Hr16 Hm. destruct (down_nas CN w buf p u sapi nas ps id Hu Hb Hl) as (d&b&Hd&Ht&Ho&Hn).
  destruct (auth_l E h c b d x y z rand r Hs Hk Hc Ho Hr16 Hn Hm) as (o&Hg&Hr). destruct (reply_on _ _ _ _ _ _ _ Hr) as (up&Hup&Hh).
  exists up. split; [exists d; split; [exact Hd|]; exists b, o; auto|]. apply given_up; [|exact Hh].
  rewrite app_length, (proj1 (Hs rand)). cbn. lia.
Qed.
Lemma talk_security CN w p u ik ck send_ck new_key E h c ps id :
  live (w_st w) p = Some u -> key_ok ik -> (send_ck = true -> key_ok ck) -> h_cs h = Some c ->
  exists up, exchange CN w (ATxSecModeCmd p ik ck send_ck new_key) u E h ps id [] up /\
    whenever CN (u_conn u) up (event_given CN EvSecurityModeComplete).
Proof.
  intros Hu Hik Hck Hc. set (o := if send_ck then Some ck else None). set (st := if new_key then 1%Z else 0%Z).
  assert (Ho : opt_ok key_ok o) by (unfold o; destruct send_ck; [exact (Hck eq_refl)|exact I]).
  destruct (made_security E h c ik o st 6 6 ps id Hik Ho ltac:(unfold st, dom_ok; destruct new_key; auto) ltac:(lia) ltac:(lia) eq_refl ltac:(reflexivity) Hc)
    as (d&b&e&out&Hd&He&Hg&Hr).
  destruct (reply_on _ _ _ _ _ _ _ Hr) as (up&Hup&Hh). exists up. split.
  - exists d. split; [|exists b, out; split; [exists e; exact He|split; [exact Hg|exact Hup]]].
    apply (sent_l CN w _ p (DL_SecModeCmd ik o new_key)); [reflexivity|exact Hu|]. cbn [octets_of]. unfold new_msg_sec_mod_cmd. fold st. rewrite Hd. reflexivity.
  - refine (completed_up CN _ up _ 23 6 _ _ (or_introl (conj eq_refl eq_refl)) Hh eq_refl ltac:(vm_compute; tauto) eq_refl).
Qed.
Lemma released CN ca E h c ps id k : cause_ok (f_cause ca) -> h_cs h = Some c ->
  exists down up, octets_of (DL_IuReleaseCmd ca) = Ok (Some down) /\ replied E h ps id down [] up /\ whenever CN k up (event_given CN EvIuRelease).
Proof.
  intros Hca Hc. destruct (made_release E h c (f_cause ca) ps id Hca Hc) as (d&b&e&out&Hd&He&Hg&Hr).
  destruct (reply_on _ _ _ _ _ _ _ Hr) as (up&Hup&Hh). exists d, up. split; [cbn [octets_of]; congruence|]. split.
  - exists b, out. split; [exists e; exact He|split; [exact Hg|exact Hup]].
  - refine (completed_up CN _ up _ 1 1 _ _ (or_intror (conj eq_refl eq_refl)) Hh eq_refl ltac:(vm_compute; tauto) eq_refl).
Qed.
Lemma talk_release CN w p u c a E h ch ps id : live (w_st w) p = Some u -> cause_ok (release_cause c) ->
  (a = ATxRelease p c \/ exists timeout, a = ATxReleaseFree p c timeout) -> h_cs h = Some ch ->
  exists up, exchange CN w a u E h ps id [] up /\ whenever CN (u_conn u) up (event_given CN EvIuRelease).
Proof.
  intros Hu Hc Ha Hh. set (ca := match c with Some c => c | None => IuClient.mkCause 3 83 end).
  assert (Hca : f_cause ca = release_cause c) by (unfold ca; destruct c; reflexivity).
  destruct (released CN ca E h ch ps id (u_conn u) ltac:(rewrite Hca; exact Hc) Hh) as (d&up&Hd&Hr&Hw). exists up. split; [|exact Hw].
  exists d. split; [|exact Hr]. apply (sent_l CN w _ p (DL_IuReleaseCmd ca)); [destruct Ha as [->|(n&->)]; reflexivity|exact Hu|exact Hd].
Qed.
Lemma talk_information CN w buf p u sapi nas E h c ps id :
  live (w_st w) p = Some u -> chan_ok h -> h_cs h = Some c -> bytes_ok nas = true -> (N.of_nat (List.length nas) <= 977)%N -> mm nas 0x32 ->
  (forall tp, he_tlv E (skipn 2 nas) = Some tp -> tp IE_NAME_SHORT <> Some [] /\ tp IE_NAME_LONG <> Some []) ->
  exists up, exchange CN w (ATx buf (Some p) nas sapi) u E h ps id [HNas nas] up /\
    forall ps' id', whenever CN (u_conn u) up (fun _ t => unit_octets t = [] /\ recvs t = [] /\ events t = [] /\
      exists down up', data_octets t = [(u_conn u, down)] /\ replied E h ps' id' down [] up' /\
        whenever CN (u_conn u) up' (event_given CN EvIuRelease)).
Proof.
  intros Hu Hk Hc Hb Hl Hm Htlv. destruct (down_nas CN w buf p u sapi nas ps id Hu Hb Hl) as (d&b&Hd&Ht&Ho&Hn).
  destruct (info_l E h c b d nas Hk Hc Ho Hn Hm Htlv) as (o&Hg&Hr). destruct (reply_on _ _ _ _ _ _ _ Hr) as (up&Hup&Hh).
  exists up. split; [exists d; split; [exact Hd|]; exists b, o; auto|].
  intros ps' id' l u' w' Hu'.
  destruct (arrives_carries _ _ _ _ _ _ (arrives_cn_co _ _ _ _ _ _ Hh (nth_error_In ranap_msgs 37 eq_refl) ltac:(vm_compute; tauto) eq_refl)) as (s&Hcs&Hs).
  destruct (release_told CN up s 0 40 Hcs ltac:(rewrite Hs; reflexivity)) as (ca&Hdc&Hok&_).
  destruct (released CN ca E h c ps' id' (u_conn u) Hok Hc) as (d'&up'&Hd'&Hr'&Hw').
  pose proof (release_request_l (stack CN) l (u_conn u) up ca u' Hu' Hdc) as H. cbv zeta in H. fold w' in H.
  rewrite H by (cbn [stack enc_ok]; unfold has_octets; rewrite Hd'; reflexivity).
  exists [ESccp (NDataReq (u_conn u) (DL_IuReleaseCmd ca)); EPrimFree]. cbn [fst w_tr]. split; [reflexivity|]. do 3 (split; [reflexivity|]).
  exists d', up'. split; [|split; [exact Hr'|exact Hw']]. unfold data_octets. cbn [flat_map List.app]. rewrite Hd'. reflexivity.
Qed.
Lemma good_not_fatal r d l0 l1 rac s0 s1 nas g id : good_initial r d l0 l1 rac s0 s1 nas g id -> ~ fatal_first r.
Proof.
  intros [s ext p1 p2 ext' m (c1&H1) _ _ _ _ Hs Hn Hl _ _ _] [s' plmn l0' l1' e m' (c2&H2) _ _ _ _ Hx].
  rewrite H1 in H2. injection H2 as -> ->. change m' with m in Hx. rewrite Hs, Hn in Hx. destruct Hx as [Hx|(n&Hx&Hlt)]; [discriminate|]. injection Hx as <-. lia.
Qed.
Lemma talk_open E h is_ps : (h_next h < 65536)%N ->
  exists b ranap, hstep E h (HChannel is_ps) = Ok (mkHnb (h_rnc h) (h_ctx h) (if is_ps then h_cs h else Some (mkChan false (h_next h))) ((h_next h + 1) mod 65536)%N, [HSend PPI_RUA b]) /\
    holds T_RUA_RUA_PDU b 1 1 0 M_RUA_ConnectIEs (connect_ies is_ps (h_next h) ranap) /\
    forall CN l c a, let w := reach (stack CN) l in let res := exec (stack CN) (OConnectInd c a ranap) w in
      let area := if he_le E then 0x4223%N else 0x2342%N in let ra := area_told emu_plmn (area / 256) (area mod 256) 255 in
      registers (stack CN) (w_st w) (OConnectInd c a ranap) = [mkReg (rnc_told emu_plmn 23) (gprs_rai_to_osmo ra) a] /\
      (quiet CN -> snd res = Some tt) /\
      (snd res = Some tt -> exists t p, added (w_tr w) (w_tr (fst res)) t /\ recvs t = [(p, lu_octets, Some ra, Some area)]).
Proof.
  intros Hn. destruct (channel_l E h is_ps Hn) as (b&(r&Hb&Hh)&Ho). exists b, r. split; [exact Ho|]. split; [exact Hb|].
  intros CN l c a. cbv zeta. cbv zeta in Hh.
  destruct (arrives_carries (rx_cn_co r) 1 19 1 M_RANAP_InitialUE_MessageIEs _
    (arrives_cn_co _ _ _ _ _ _ Hh (nth_error_In ranap_msgs 51 eq_refl) ltac:(vm_compute; tauto) eq_refl)) as (s&Hc&Hs).
  assert (Hne : r <> []) by (intros ->; destruct Hc as (cr&Hc); vm_compute in Hc; discriminate).
  assert (Hg : good_initial (rx_cn_co r) emu_plmn (if he_le E then 0x42 else 0x23) (if he_le E then 0x23 else 0x42) 255
    (if he_le E then 0x42 else 0x23) (if he_le E then 0x23 else 0x42) lu_octets emu_plmn 23).
  { apply (good_initial_intro _ _ _ _ _ _ _ _ _ _ s None (plmn_octs emu_plmn) (if he_le E then [0x42; 0x23] else [0x23; 0x42])%N None); rewrite ?Hs;
      try (destruct (he_le E); reflexivity); try reflexivity; try exact Hc; try (repeat split; reflexivity).
    - destruct (he_le E); vm_compute; split; discriminate.
    - left. split; reflexivity.
    - vm_compute. lia. }
  pose proof (up_initial CN l (OConnectInd c a r) c a r _ _ _ _ _ _ _ _ _ (or_introl (conj eq_refl Hne)) Hg) as Hup. cbv zeta in Hup. destruct Hup as [H1 H2].
  split; [|split].
  - rewrite H1. destruct (he_le E); reflexivity.
  - intros Hq. destruct (snd (exec _ _ _)) as [[]|] eqn:Ex; [reflexivity|]. apply (connect_crash CN c a r _ Hq) in Ex. destruct (good_not_fatal _ _ _ _ _ _ _ _ _ _ Hg (proj2 Ex)).
  - intros Hr. destruct (H2 Hr) as (t&p&Ht&Hre&_). exists t, p. split; [exact Ht|]. rewrite Hre. destruct (he_le E); reflexivity.
Qed.
Lemma talk_paging CN l a imsi tmsi ps E h : paging_call a = Some (imsi, tmsi, ps) -> forallb is_digit imsi = true -> 5 <= List.length imsi <= 16 ->
  opt_ok (fun t => (t < 2 ^ 32)%N) tmsi ->
  let w := reach (stack CN) l in
  exists t, added (w_tr w) (w_tr (fst (exec (stack CN) (OApi a) w))) t /\ data_octets t = [] /\
    forall x b, In (x, b) (unit_octets t) -> unconnected_gives E h b [HPaging (firstn 15 imsi)].
Proof.
  intros Ha Hd Hl Ht w. destruct (down_paging CN l a imsi tmsi ps Ha Hd Hl Ht) as (b0&o&addrs&rc&_&_&Hx). cbv zeta in Hx. destruct Hx as (He&_&Hdat).
  destruct (made_paging E h imsi tmsi ps 0 Hd Hl Ht ltac:(lia)) as (m&r&b&e&Hm&Hr&Hu&Hg).
  assert (Hoct : octets_of (DL_Paging imsi tmsi ps 0) = Ok (Some r)) by (cbn [octets_of]; rewrite Hm; cbn [made_msg]; congruence).
  eexists. fold w in He. rewrite He. cbn [fst w_tr]. split; [reflexivity|]. split; [exact Hdat|].
  intros x y Hin. unfold unit_octets in Hin. cbn [List.app flat_map] in Hin. rewrite flat_map_app in Hin. cbn [flat_map] in Hin. rewrite app_nil_r in Hin.
  fold (unit_octets (map (fun x => ESccp (NUnitdataReq x (DL_Paging imsi tmsi ps 0))) addrs)) in Hin. rewrite (units_of _ r addrs Hoct) in Hin.
  apply in_map_iff in Hin. destruct Hin as (z&Hz&_). injection Hz as _ <-. exists b, e. auto.
Qed.
Lemma talk_reset E h is_ps : exists b ranap, send_reset is_ps = Ok [HSend PPI_RUA b] /\ unconnected b ranap /\
  forall CN w a, exists t ack, added (w_tr w) (w_tr (fst (exec (stack CN) (OUnitdataInd a ranap) w))) t /\ snd (exec (stack CN) (OUnitdataInd a ranap) w) = Some tt /\
    unit_octets t = [(a, ack)] /\ data_octets t = [] /\
    holds T_RANAP_RANAP_PDU ack 2 9 0 M_RANAP_ResetAcknowledgeIEs [("id-CN-DomainIndicator", VEnum (if is_ps then 1 else 0))] /\
    unconnected_gives E h ack [].
Proof.
  destruct (Hnb_proofs.reset_l is_ps) as (b&r&Hs&Hu&Hh). exists b, r. split; [exact Hs|]. split; [exact Hu|]. intros CN w a.
  destruct (arrives_carries _ _ _ _ _ _ (arrives_cn_cl _ _ _ _ _ _ Hh (nth_error_In ranap_msgs 29 eq_refl) ltac:(vm_compute; tauto) eq_refl)) as (s&Hc&Hn).
  destruct (reset_told CN r s (if is_ps then 1 else 0) Hc ltac:(rewrite Hn; reflexivity)) as (d&g&Hd&Hdz&Hdom&_&Hsh).
  rewrite Hn in Hsh. assert (g = None) as -> by (destruct g; [discriminate|reflexivity]).
  destruct (reset_ack_msg (Z.of_N d) None ltac:(rewrite Hdz; exact Hdom) I) as (ack&Hack&Hha). cbn [given] in Hha. rewrite app_nil_r, Hdz in Hha.
  assert (Ho : octets_of (DL_ResetAck d None) = Ok (Some ack)) by (cbn [octets_of option_map]; congruence).
  rewrite (IuClient_rel.reset_l (stack CN) w a r), Hd. cbv iota beta delta [PR_initiatingMessage id_Reset].
  replace (enc_ok (stack CN) (DL_ResetAck d None)) with true by (cbn [stack enc_ok]; unfold has_octets; rewrite Ho; reflexivity).
  exists [ESccp (NUnitdataReq a (DL_ResetAck d None)); EPrimFree], ack. cbn [fst snd w_tr w_st]. split; [reflexivity|]. split; [reflexivity|].
  split; [unfold unit_octets; cbn [flat_map List.app]; rewrite Ho; reflexivity|]. split; [reflexivity|]. split; [exact Hha|].
  assert (Hb : bytes_ok ack = true) by (unfold new_msg_reset_ack in Hack; exact (finish_bytes _ _ _ _ _ _ _ _ _ Hack)).
  assert (Hl : (N.of_nat (List.length ack) <= 1009)%N) by (rewrite (holds_len _ _ _ _ _ _ _ Hha); destruct is_ps; vm_compute; discriminate).
  destruct (wrap_cl ack Hb Hl) as (bb&e&He&Hub). exists bb, e. split; [exact He|]. apply (other_cl_l E h bb ack Hub).
  destruct (arrives_cn_cl _ _ _ _ _ _ Hha (nth_error_In ranap_msgs 30 eq_refl) ltac:(vm_compute; tauto) eq_refl) as (_&_&s'&Hcalls&_).
  rewrite Hcalls. intros q [<-|[]]. cbn. discriminate.
Qed.
