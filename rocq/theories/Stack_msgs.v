(* What the client sends and reports, in octets. *)
From Coq Require Import ZifyBool ZifyNat ZifyN.
From Verif Require Import Base Aper Aper_spec Lai Lai_proofs Container RanapTypes RanapTab DispatchTab Dispatch Dispatch_proofs Deliver_spec Deliver_proofs
  Helpers Helpers_spec Factory_spec Factory Factory_msgs E2e_spec E2e_proofs IuClient IuClient_spec IuClient_call_spec IuClient_call
  IuClient_conn IuClient_life2 IuClient_area IuClient_rel IuClient_rel2 IuClient_frame Stack Stack_spec Stack_safe Stack_proofs.
From Coq Require Import String List.
Local Open Scope list_scope.
Local Open Scope string_scope.
Local Open Scope list_scope.

(* ---------------- downlink ---------------- *)
Lemma api_target_msg a p m : api_msg a = Some (p, m) -> api_target a = Some p.
Proof. destruct a as [b [q|] nas sapi|q ik ck sck nk|q imsi|q c|q c d|[q|]|q x|q r|i t l|i t l r|i t l|i t r]; cbn; intros H; try discriminate; injection H as -> _; reflexivity. Qed.
Lemma call_req u a p m : api_msg a = Some (p, m) -> exists k, call_of u a = Some k /\ k_req k = NDataReq (u_conn u) m /\ sends (k_before k) = [].
Proof.
  destruct a as [b [q|] nas sapi|q ik ck sck nk|q imsi|q c|q c d|[q|]|q x|q r|i t l|i t l r|i t l|i t r]; cbn [api_msg]; intros H; try discriminate;
    injection H as <- <-; eexists; split; try reflexivity; split; reflexivity.
Qed.
Lemma data_of_sends t : data_octets t = flat_map (fun r => match r with NDataReq c m => match octets_of m with Ok (Some b) => [(c, b)] | _ => [] end | _ => [] end) (sends t).
Proof. induction t as [|e t IH]; [reflexivity|]. unfold data_octets, sends in *. destruct e; cbn [flat_map List.app]; try exact IH. destruct r; cbn [flat_map List.app]; rewrite ?IH; reflexivity. Qed.
Lemma unit_of_sends t : unit_octets t = flat_map (fun r => match r with NUnitdataReq c m => match octets_of m with Ok (Some b) => [(c, b)] | _ => [] end | _ => [] end) (sends t).
Proof. induction t as [|e t IH]; [reflexivity|]. unfold unit_octets, sends in *. destruct e; cbn [flat_map List.app]; try exact IH. destruct r; cbn [flat_map List.app]; rewrite ?IH; reflexivity. Qed.
Lemma sends_app a b : sends (a ++ b) = sends a ++ sends b.
Proof. apply flat_map_app. Qed.

Lemma sent_octets E w a p m u b : api_msg a = Some (p, m) -> live (w_st w) p = Some u -> octets_of m = Ok (Some b) ->
  exists t, added (w_tr w) (w_tr (fst (run_api (stack E) a w))) t /\ snd (run_api (stack E) a w) = Some tt /\
    sends t = [NDataReq (u_conn u) m] /\ data_octets t = [(u_conn u, b)].
Proof.
  intros Hm Hu Hb. destruct (call_req u a p m Hm) as (k&Hk&Hreq&Hbef).
  pose proof (call_l (stack E) w a p u k (api_target_msg a p m Hm) Hu Hk) as H. rewrite H.
  2:{ intros m' Hm'. rewrite Hm in Hm'. injection Hm' as <-. cbn [stack enc_ok]. unfold has_octets. rewrite Hb. reflexivity. }
  cbn [fst snd w_tr]. exists (EApi a :: k_before k ++ [ESccp (k_req k); ERet (k_ret k (send (stack E) (rev (k_before k) ++ EApi a :: w_tr w) (k_req k)))]).
  assert (Hs : sends (EApi a :: k_before k ++ [ESccp (k_req k); ERet (k_ret k (send (stack E) (rev (k_before k) ++ EApi a :: w_tr w) (k_req k)))]) = [NDataReq (u_conn u) m]).
  { change (sends (k_before k ++ [ESccp (k_req k); ERet (k_ret k (send (stack E) (rev (k_before k) ++ EApi a :: w_tr w) (k_req k)))]) = [NDataReq (u_conn u) m]).
    rewrite sends_app, Hbef, Hreq. reflexivity. }
  split.
  - unfold added. cbn [rev]. rewrite rev_app_distr. cbn [rev List.app]. rewrite <- !app_assoc. reflexivity.
  - split; [reflexivity|]. split; [exact Hs|]. rewrite data_of_sends, Hs. cbn [flat_map]. rewrite Hb. reflexivity.
Qed.

(* ---------------- uplink: what the decoder hands over ---------------- *)
Lemma carried_sound data d p m s : carries (rx_cn_co data) d p m s -> sound m s /\ ies_once (m_rows m) = true /\ decoded_as cn_co d p = Some m.
Proof.
  intros (cr&Hc). destruct (call_co data) as [Hc'|(d'&p'&cr'&m'&s'&Hc'&Hm&Hin&Hs)]; rewrite Hc in Hc'; [discriminate|].
  injection Hc' as <- <- _ <- <-. split; [exact Hs|]. split; [exact (once_ranap m Hin)|exact Hm].
Qed.
Lemma carried_view E data d p m s : carries (rx_cn_co data) d p m s -> exists cr, dec_co (stack E) data = Some (view (mkRmsg d p cr (Some (m, s)))).
Proof. intros (cr&Hc). exists cr. cbn [stack dec_co]. unfold shown_to_handler. rewrite Hc. reflexivity. Qed.

Lemma in_some {A} (o : option A) x : option_map Some o = Some (Some x) -> o = Some x.
Proof. destruct o; cbn; congruence. Qed.
Lemma in_none {A} (o : option A) : option_map Some o = None -> o = None.
Proof. destruct o; cbn; congruence. Qed.
Lemma told_area d l0 l1 : nib_ok d -> usable_lac l0 l1 -> parse_lai (mkRLai (plmn_octs d) [l0; l1]) = Ok (0%Z, area_told d l0 l1 0).
Proof. intros (?&?&?&?&?&?) [? ?]. apply parse_lai_value_l; assumption. Qed.
Lemma told_rnc d id : nib_ok d -> (id < 65536)%N -> grnc_id_parse (Lai.mkGrnc (plmn_octs d) id) = Ok (Some (rnc_told d id)).
Proof. intros (?&?&?&?&?&?) ?. apply grnc_value_l; assumption. Qed.

(* Initial UE Message *)
Lemma initial_acceptable E data d l0 l1 rac s0 s1 nas g id : good_initial (rx_cn_co data) d l0 l1 rac s0 s1 nas g id ->
  exists msg, dec_co (stack E) data = Some msg /\
    acceptable msg = Some (mkAcc (rnc_told g id) (area_told d l0 l1 rac) (be16 s0 s1) nas).
Proof.
  intros [s e p1 p2 e' m Hc Hlai Hd Hu Hrac Hsai Hnas Hlen Hg Hgn Hid]. destruct (carried_sound data 1 19 m s Hc) as (Hs&Ho&_).
  destruct (carried_view E data 1 19 m s Hc) as (cr&Hdec). rewrite (shown_field m s Ho Hs) in Hlai, Hrac, Hsai, Hnas, Hg.
  apply in_some in Hlai, Hsai, Hnas, Hg.
  eexists. split; [exact Hdec|].
  unfold acceptable. change (m_ies (view _)) with (I_InitialUE (initial_of s)). cbv beta iota. cbn [view m_dir m_proc g_dir g_proc].
  cbn [N.eqb Pos.eqb PR_initiatingMessage id_InitialUE_Message andb].
  assert (Hr : iu_rac (initial_of s) = if (rac =? 255)%N then None else Some [rac]).
  { rewrite (initial_rac s Hs). fold m. destruct Hrac as [[Hr ->]|[Hr Hne]].
    - apply in_none in Hr. rewrite Hr. reflexivity.
    - rewrite ?(shown_field m s Ho Hs) in Hr. apply in_some in Hr. rewrite Hr. apply N.eqb_neq in Hne. rewrite Hne. reflexivity. }
  rewrite Hr. unfold initial_of. cbn [iu_nas iu_lai iu_grnc iu_sac]. fold m. rewrite Hnas, Hlai, Hg, Hsai.
  unfold c_lai, c_grnc, c_sac. cbn [c_octs comp lai_v nth_error rnc_v c_int sai_v]. rewrite N2Z.id.
  destruct (Nat.leb_spec (List.length nas) 256); [|lia]. rewrite (told_area d l0 l1 Hd Hu), (told_rnc g id Hgn Hid).
  destruct (N.eqb_spec rac 255) as [->|Hne]; cbn [rac_of]; [reflexivity|]. apply N.eqb_neq in Hne. rewrite Hne. reflexivity.
Qed.
Lemma initial_opens E s o c a data d l0 l1 rac s0 s1 nas g id : first_on s o c a data ->
  good_initial (rx_cn_co data) d l0 l1 rac s0 s1 nas g id ->
  opens (stack E) s o = Some (mkOpen c a (mkAcc (rnc_told g id) (area_told d l0 l1 rac) (be16 s0 s1) nas)).
Proof.
  intros Hf Hg. destruct (initial_acceptable E data d l0 l1 rac s0 s1 nas g id Hg) as (msg&Hd&Ha).
  destruct Hf as [[-> Hne]|(->&Hu&Hp)]; cbn [opens].
  - destruct data as [|x data]; [destruct (Hne eq_refl)|]. rewrite Hd, Ha. reflexivity.
  - rewrite Hu, Hp, Hd, Ha. reflexivity.
Qed.

(* Direct Transfer *)
Lemma transfer_told E data nas ra sai : good_transfer (rx_cn_co data) nas ra sai ->
  exists d, dec_co (stack E) data = Some (IuClient_conn.dt_msg d) /\ dt_info d = Some (ra, sai) /\ dt_nas d = nas.
Proof.
  intros H. assert (Hx : exists s, let m := M_RANAP_DirectTransferIEs in carries (rx_cn_co data) 1 20 m s /\ assoc "id-NAS-PDU" (shown m s) = Some (Some (VOcts nas)))
    by (destruct H; eauto).
  cbv zeta in Hx.
  assert (Hw : forall s, carries (rx_cn_co data) 1 20 M_RANAP_DirectTransferIEs s -> dec_co (stack E) data = Some (IuClient_conn.dt_msg (transfer_of s))).
  { intros s Hc. destruct (carried_view E data _ _ _ _ Hc) as (cr&->). reflexivity. }
  clear Hx. destruct H as [s m Hc Hn Hl|s d l0 l1 ext rac sai m Hc Hn Hl Hd Hu Hr Hsa];
    destruct (carried_sound data 1 20 m s Hc) as (Hs&Ho&_); exists (transfer_of s); (split; [exact (Hw s Hc)|]).
  - rewrite (shown_field m s Ho Hs) in Hn, Hl. apply in_some in Hn. apply in_none in Hl. split.
    + unfold dt_info. rewrite (transfer_lai s Hs). fold m. rewrite Hl. reflexivity.
    + unfold transfer_of. cbn [dt_nas]. fold m. rewrite Hn. reflexivity.
  - rewrite (shown_field m s Ho Hs) in Hn, Hl. apply in_some in Hn, Hl. split.
    + unfold dt_info. rewrite (transfer_lai s Hs), (transfer_rac s Hs), (transfer_sac s Hs). fold m. rewrite Hl.
      unfold c_lai. cbn [c_octs comp lai_v nth_error]. rewrite (told_area d l0 l1 Hd Hu). rewrite !(shown_field m s Ho Hs) in Hr.
      destruct Hsa as [[Hsa ->]|(p1&p2&s0&s1&e'&Hsa&->)]; rewrite (shown_field m s Ho Hs) in Hsa;
        [apply in_none in Hsa|apply in_some in Hsa]; rewrite Hsa;
        (destruct Hr as [[Hr ->]|Hr]; [apply in_none in Hr|apply in_some in Hr]; rewrite Hr; reflexivity).
    + unfold transfer_of. cbn [dt_nas]. fold m. rewrite Hn. reflexivity.
Qed.

(* Iu Release Request *)
Lemma release_told E data s i z : let m := M_RANAP_Iu_ReleaseRequestIEs in
  carries (rx_cn_co data) 1 11 m s -> assoc "id-Cause" (shown m s) = Some (Some (VChoice i (VInt z))) ->
  exists c, dec_co (stack E) data = Some (IuClient.mkMsg PR_initiatingMessage id_Iu_ReleaseRequest (I_IuReleaseRequest c)) /\
    cause_ok (f_cause c) /\ cause_val (f_cause c) = VChoice i (VInt z).
Proof.
  intros m Hc Hv. destruct (carried_sound data 1 11 m s Hc) as (Hs&Ho&_). destruct (carried_view E data _ _ _ _ Hc) as (cr&->).
  rewrite (shown_field m s Ho Hs) in Hv. apply in_some in Hv. pose proof (field_valid m s 0 _ Hs Ho eq_refl _ Hv) as Hval.
  cbn [r_ty] in Hval. destruct (cause_inv _ Hval) as (i'&z'&E1&Hz). injection E1 as <- <-. pose proof (cause_back i z Hz) as Hb.
  exists (c_cause (Some (VChoice i (VInt z)))). split; [|split; [|exact Hb]].
  - rewrite <- Hv. reflexivity.
  - unfold cause_ok. rewrite Hb. exact Hval.
Qed.

(* RAB Assignment Response, Security Mode Complete, Iu Release Complete *)
Lemma rab_told E data s x o l ext : let m := M_RANAP_RAB_AssignmentResponseIEs in
  carries (rx_cn_co data) 4 0 m s ->
  assoc "id-RAB-SetupOrModifiedList" (shown m s) = Some (Some (VSeq [Some (VList (VSeq [Some (fst x); Some (snd x); Some (VOcts o)] ext :: l))] [])) ->
  exists msg, dec_co (stack E) data = Some msg /\
    told (stack E) msg = match decode T_RANAP_RAB_SetupOrModifiedItem o with Some _ => Some (EvRabAssign (item_code o)) | None => None end.
Proof.
  intros m Hc Hv. destruct (carried_sound data 4 0 m s Hc) as (Hs&Ho&_). destruct (carried_view E data _ _ _ _ Hc) as (cr&->).
  rewrite (shown_field m s Ho Hs) in Hv. apply in_some in Hv. eexists. split; [reflexivity|].
  unfold told. cbn [view m_dir m_proc g_dir g_proc]. cbn [N.eqb Pos.eqb andb].
  change (m_ies (view (mkRmsg 4 0 cr (Some (m, s))))) with (I_RabAssignmentResponse (if_present m s "id-RAB-SetupOrModifiedList" c_items)).
  cbv beta iota.
  rewrite (if_field m s "id-RAB-SetupOrModifiedList" c_items 0 _ Hs Ho eq_refl eq_refl eq_refl eq_refl), Hv.
  unfold c_items. cbn [comp nth_error map c_octs]. cbn [stack dec_item]. unfold decode_item. destruct (decode _ o); reflexivity.
Qed.
Lemma plain_told E data d p m s : carries (rx_cn_co data) d p m s -> 
  exists msg, dec_co (stack E) data = Some msg /\ m_dir msg = d /\ m_proc msg = p.
Proof. intros Hc. destruct (carried_view E data _ _ _ _ Hc) as (cr&->). eexists. split; [reflexivity|]. split; reflexivity. Qed.
Lemma item_code_inj a b : (forall x, In x a -> (x < 256)%N) -> (forall x, In x b -> (x < 256)%N) -> item_code a = item_code b -> a = b.
Proof.
  unfold item_code. 
  assert (Hge : forall l n, (1 <= n)%N -> (256 ^ N.of_nat (List.length l) <= fold_left (fun a b => a * 256 + b) l n)%N).
  { induction l as [|x l IH]; intros n Hn; cbn [fold_left List.length]; [cbn; lia|].
    assert (Hg : forall l n k, (1 <= k)%N -> (k * 256 ^ N.of_nat (List.length l) <= fold_left (fun a b => a * 256 + b) l (k + n))%N).
    { clear. induction l as [|y l IH]; intros n k Hk; cbn [fold_left List.length]; [cbn; nia|].
      rewrite Nat2N.inj_succ, N.pow_succ_r'. specialize (IH (n * 256 + y)%N (k * 256)%N ltac:(lia)).
      replace ((k + n) * 256 + y)%N with (k * 256 + (n * 256 + y))%N by lia. nia. }
    specialize (Hg l ((n - 1) * 256 + x)%N 256%N ltac:(lia)). rewrite Nat2N.inj_succ, N.pow_succ_r'.
    replace (n * 256 + x)%N with (256 + ((n - 1) * 256 + x))%N by lia. exact Hg. }
  revert b. induction a as [|x a IH] using rev_ind; intros b Ha Hb H.
  - destruct b as [|y b] using rev_ind; [reflexivity|]. rewrite fold_left_app in H. cbn [fold_left] in H.
    specialize (Hge b 1%N ltac:(lia)). assert (1 <= 256 ^ N.of_nat (List.length b))%N by (apply N.neq_0_lt_0 || idtac; pose proof (N.pow_nonzero 256 (N.of_nat (List.length b)) ltac:(lia)); lia). cbn in H. lia.
  - destruct b as [|y b _] using rev_ind.
    + rewrite fold_left_app in H. cbn [fold_left] in H. specialize (Hge a 1%N ltac:(lia)).
      assert (1 <= 256 ^ N.of_nat (List.length a))%N by (pose proof (N.pow_nonzero 256 (N.of_nat (List.length a)) ltac:(lia)); lia). lia.
    + rewrite !fold_left_app in H. cbn [fold_left] in H.
      assert (x < 256)%N by (apply Ha; rewrite in_app_iff; right; left; reflexivity). assert (y < 256)%N by (apply Hb; rewrite in_app_iff; right; left; reflexivity).
      assert (Hq : fold_left (fun a b => (a * 256 + b)%N) a 1%N = fold_left (fun a b => (a * 256 + b)%N) b 1%N /\ x = y) by lia.
      destruct Hq as [Hq ->]. f_equal. apply IH; [intros z Hz; apply Ha; rewrite in_app_iff; auto|intros z Hz; apply Hb; rewrite in_app_iff; auto|exact Hq].
Qed.

(* Reset *)
Lemma reset_told E data s z : let m := M_RANAP_ResetIEs in
  carries (rx_cn_cl data) 1 9 m s -> assoc "id-CN-DomainIndicator" (shown m s) = Some (Some (VEnum z)) ->
  exists d g, dec_cl (stack E) data = Some (IuClient.mkMsg PR_initiatingMessage id_Reset (I_Reset d g)) /\ Z.of_N d = z /\ dom_ok z /\
    opt_ok grnc_ok (option_map f_grnc g) /\
    assoc "id-GlobalRNC-ID" (shown m s) = option_map Some (option_map grnc_val (option_map f_grnc g)).
Proof.
  intros m (cr&Hc) Hz.
  assert (Hs : sound m s).
  { destruct (call_cl data) as [Hc'|[(d'&p'&cr'&m'&s'&Hc'&Hm&Hin&Hs)|(d'&p'&cr'&Hc'&_)]]; rewrite Hc in Hc'; try discriminate.
    injection Hc' as <- <- _ <- <-. exact Hs. }
  pose proof (once_ranap m in_reset) as Ho. cbn [stack dec_cl]. unfold shown_to_handler. rewrite Hc.
  rewrite (shown_field m s Ho Hs) in Hz. apply in_some in Hz. pose proof (field_valid m s 1 _ Hs Ho eq_refl _ Hz) as Hv. cbn [r_ty] in Hv.
  assert (Hd : dom_ok z) by (inversion Hv; subst; unfold dom_ok; cbn in *; lia).
  exists (Z.to_N z), (if_present m s "id-GlobalRNC-ID" c_grnc). split.
  - unfold view. cbn [g_body g_dir g_proc]. change (String.eqb (m_key m) "ResetIEs") with true. rewrite Hz. reflexivity.
  - split; [destruct Hd; subst; reflexivity|]. split; [exact Hd|].
    rewrite (shown_field m s Ho Hs). rewrite (if_field m s "id-GlobalRNC-ID" c_grnc 2 _ Hs Ho eq_refl eq_refl eq_refl eq_refl).
    destruct (field m s "id-GlobalRNC-ID") as [v|] eqn:Ef; [|split; [exact I|reflexivity]].
    destruct (rnc_inv v (field_valid m s 2 _ Hs Ho eq_refl v Ef)) as (a&b&c&id&->&Hid&Hb).
    cbn [option_map opt_ok]. unfold c_grnc, f_grnc, grnc_val, grnc_ok. cbn [comp rnc_v nth_error c_octs c_int Lai.g_plmn Lai.g_rnc Factory_spec.g_plmn Factory_spec.g_rnc].
    rewrite N2Z.id. split; [|reflexivity]. split; [reflexivity|]. split; [|lia].
    apply forallb_forall. intros x Hx. apply N.ltb_lt. exact (Hb x Hx).
Qed.

(* ---------------- downlink, message by message ---------------- *)
Lemma sent_l E w a p m u b : api_msg a = Some (p, m) -> live (w_st w) p = Some u -> octets_of m = Ok (Some b) -> sent_down E w a u b.
Proof.
  intros Hm Hu Hb. destruct (sent_octets E w a p m u b Hm Hu Hb) as (t&Ht&Hr&Hs&Hd). exists t. split; [exact Ht|]. split; [exact Hr|]. split; [exact Hd|].
  rewrite unit_of_sends, Hs. reflexivity.
Qed.
Lemma down_dt E w buf p u nas sapi : live (w_st w) p = Some u -> bytes_ok nas = true ->
  exists b, sent_down E w (ATx buf (Some p) nas sapi) u b /\
    if (N.of_nat (List.length nas) <=? 1004)%N
    then arrives (rx_ran_co b) 1 20 1 M_RANAP_DirectTransferIEs
           [("id-NAS-PDU", VOcts nas); ("id-SAPI", VEnum (if (sapi =? 3)%N then 1 else 0))]
    else b = [].
Proof.
  intros Hu Hb. destruct (Factory_msgs.dt_msg sapi nas Hb) as (b&Hr&Hh). exists b. split.
  - apply (sent_l E w _ p (DL_DirectTransfer sapi nas)); [reflexivity|exact Hu|cbn [octets_of]; congruence].
  - destruct (N.of_nat (List.length nas) <=? 1004)%N; [|exact Hh].
    apply arrives_ran_co; [exact Hh|exact (nth_error_In ranap_msgs 52 eq_refl)|vm_compute; tauto|reflexivity].
Qed.
Lemma down_sec E w p u ik ck send_ck new_key : live (w_st w) p = Some u -> key_ok ik -> (send_ck = true -> key_ok ck) ->
  exists b, sent_down E w (ATxSecModeCmd p ik ck send_ck new_key) u b /\
    arrives (rx_ran_co b) 1 6 0 M_RANAP_SecurityModeCommandIEs
      ([("id-IntegrityProtectionInformation", protection [0; 1]%Z ik)] ++
       given "id-EncryptionInformation" (protection [1; 2]%Z) (if send_ck then Some ck else None) ++
       [("id-KeyStatus", VEnum (if new_key then 1 else 0))]).
Proof.
  intros Hu Hik Hck. set (o := if send_ck then Some ck else None). set (st := if new_key then 1%Z else 0%Z).
  assert (Ho : opt_ok key_ok o) by (unfold o; destruct send_ck; [exact (Hck eq_refl)|exact I]).
  pose proof (sec_mod_cmd_msg ik o st 6 6 Hik Ho ltac:(unfold st, dom_ok; destruct new_key; auto) ltac:(lia) ltac:(lia)) as Hs.
  replace (sound_mask 6 && match o with Some _ => sound_mask 6 | None => true end) with true in Hs by (destruct o; reflexivity).
  destruct Hs as (b&Hb&Hh). exists b. split.
  - apply (sent_l E w _ p (DL_SecModeCmd ik o new_key)); [reflexivity|exact Hu|]. cbn [octets_of]. unfold new_msg_sec_mod_cmd. fold st. rewrite Hb. reflexivity.
  - apply arrives_ran_co; [exact Hh|exact (nth_error_In ranap_msgs 22 eq_refl)|vm_compute; tauto|destruct o; reflexivity].
Qed.
Lemma down_common_id E w p u imsi : live (w_st w) p = Some u -> forallb is_digit imsi = true -> 5 <= List.length imsi <= 16 ->
  exists b o, sent_down E w (ATxCommonId p imsi) u b /\ packed_text o = imsi /\
    arrives (rx_ran_co b) 1 15 1 M_RANAP_CommonID_IEs [("id-PermanentNAS-UE-ID", VChoice 0 (VOcts o))].
Proof.
  intros Hu Hd Hl. destruct (common_id_msg imsi Hd Hl) as (m&b&o&Hm&Hb&Ho&Hh). exists b, o. split; [|split; [exact Ho|]].
  - apply (sent_l E w _ p (DL_CommonId imsi)); [reflexivity|exact Hu|]. cbn [octets_of]. rewrite Hm. cbn [made_msg]. rewrite Hb. reflexivity.
  - apply arrives_ran_co; [exact Hh|exact (nth_error_In ranap_msgs 46 eq_refl)|vm_compute; tauto|reflexivity].
Qed.
Lemma down_release E w p u c a : live (w_st w) p = Some u -> cause_ok (release_cause c) ->
  (a = ATxRelease p c \/ exists timeout, a = ATxReleaseFree p c timeout) ->
  exists b, sent_down E w a u b /\ arrives (rx_ran_co b) 1 1 0 M_RANAP_Iu_ReleaseCommandIEs [("id-Cause", cause_val (release_cause c))].
Proof.
  intros Hu Hc Ha. destruct (iu_rel_cmd_msg _ Hc) as (b&Hb&Hh). exists b. split.
  - apply (sent_l E w _ p (DL_IuReleaseCmd (match c with Some c => c | None => IuClient.mkCause 3 83 end))); [destruct Ha as [->|(n&->)]; reflexivity|exact Hu|].
    cbn [octets_of]. rewrite <- Hb. destruct c; reflexivity.
  - apply arrives_ran_co; [exact Hh|exact (nth_error_In ranap_msgs 0 eq_refl)|vm_compute; tauto|reflexivity].
Qed.
Lemma down_raw E w p u b : live (w_st w) p = Some u -> sent_down E w (ARabAct p b) u b.
Proof.
  intros Hu. pose proof (call_l (stack E) w (ARabAct p b) p u _ eq_refl Hu eq_refl) as H.
  unfold sent_down. rewrite H by discriminate. cbn [fst snd w_tr k_before k_req k_ret k_ctx rev List.app].
  exists [EApi (ARabAct p b); ESccp (NDataReq (u_conn u) (DL_Raw b)); ERet (send (stack E) (EApi (ARabAct p b) :: w_tr w) (NDataReq (u_conn u) (DL_Raw b)))].
  repeat split.
Qed.

(* paging *)
Lemma units_of m b (l : list sccp_addr) : octets_of m = Ok (Some b) -> unit_octets (map (fun a => ESccp (NUnitdataReq a m)) l) = map (fun a => (a, b)) l.
Proof. intros H. induction l as [|a l IH]; [reflexivity|]. cbn [map]. unfold unit_octets in *. cbn [flat_map]. rewrite H, IH. reflexivity. Qed.
Lemma down_paging E l a imsi tmsi ps : paging_call a = Some (imsi, tmsi, ps) -> forallb is_digit imsi = true -> 5 <= List.length imsi <= 16 ->
  opt_ok (fun t => (t < 2 ^ 32)%N) tmsi ->
  let w := reach (stack E) l in
  exists b o addrs rc, packed_text o = imsi /\ holds T_RANAP_RANAP_PDU b 1 14 1 M_RANAP_PagingIEs (paging_ies ps o tmsi 0) /\
    let t := [EApi a] ++ map (fun x => ESccp (NUnitdataReq x (DL_Paging imsi tmsi ps 0))) addrs ++ [ERet rc] in
    exec (stack E) (OApi a) w = (mkW (w_st w) (rev t ++ w_tr w), Some tt) /\
    unit_octets t = map (fun x => (x, b)) addrs /\ data_octets t = [].
Proof.
  intros Ha Hd Hl Ht w. destruct (Factory_msgs.paging_msg imsi tmsi ps 0 Hd Hl Ht ltac:(lia)) as (m&b&o&Hm&Hb&Ho&Hh).
  assert (Hoct : octets_of (DL_Paging imsi tmsi ps 0) = Ok (Some b)) by (cbn [octets_of]; rewrite Hm; cbn [made_msg]; congruence).
  assert (He : enc_ok (stack E) (DL_Paging imsi tmsi ps 0) = true) by (cbn [stack enc_ok]; unfold has_octets; rewrite Hoct; reflexivity).
  enough (Hx : exists addrs rc, exec (stack E) (OApi a) w = (mkW (w_st w) (rev ([EApi a] ++ map (fun x => ESccp (NUnitdataReq x (DL_Paging imsi tmsi ps 0))) addrs ++ [ERet rc]) ++ w_tr w), Some tt)).
  { destruct Hx as (addrs&rc&Hx). exists b, o, addrs, rc. split; [exact Ho|]. split; [exact Hh|]. cbv zeta. split; [exact Hx|]. split.
    - change (unit_octets (map (fun x => ESccp (NUnitdataReq x (DL_Paging imsi tmsi ps 0))) addrs ++ [ERet rc]) = map (fun x => (x, b)) addrs).
      unfold unit_octets. rewrite flat_map_app. fold (unit_octets (map (fun x => ESccp (NUnitdataReq x (DL_Paging imsi tmsi ps 0))) addrs)). rewrite (units_of _ b addrs Hoct). cbn. apply app_nil_r.
    - clear. unfold data_octets. cbn [List.app flat_map]. rewrite flat_map_app. cbn [flat_map]. rewrite app_nil_r. induction addrs; [reflexivity|]. exact IHaddrs. }
  assert (Hleg : forall lac rac a', (a' = APageCs imsi tmsi lac /\ rac = 0%N /\ ps = false \/ a' = APagePs imsi tmsi lac rac /\ ps = true) ->
    exists addrs rc, exec (stack E) (OApi a') w = (mkW (w_st w) (rev ([EApi a'] ++ map (fun x => ESccp (NUnitdataReq x (DL_Paging imsi tmsi ps 0))) addrs ++ [ERet rc]) ++ w_tr w), Some tt)).
  { intros lac rac a' Hc. destruct (legacy_l (stack E) l imsi tmsi lac rac a' ps Hc He) as [(x&_&H)|(_&H)].
    - eexists [x], _. exact H.
    - exists [], 0%Z. exact H. }
  destruct a as [x1 x2 x3 x4|x1 x2 x3 x4 x5|x1 x2|x1 x2|x1 x2 x3|x1|x1 x2|x1 x2|i t lac|i t lac rac|i t la|i t r]; try discriminate Ha; cbn [paging_call] in Ha; injection Ha as -> -> <-.
  - apply (Hleg lac 0%N). left. auto.
  - apply (Hleg lac rac). right. auto.
  - destruct (page_cs2_l (stack E) l imsi tmsi la He) as (ns&H&_). exists (map n_addr ns), (Z.of_nat (List.length ns)). rewrite map_map. exact H.
  - destruct (page_ps2_l (stack E) l imsi tmsi r He) as (t&H&Hr). destruct (last_of_area (registrations (stack E) l) r) as [g|].
    + destruct Hr as (x&g'&->&_). exists [x], 1%Z. exact H.
    + rewrite Hr in H. exists [], 0%Z. exact H.
Qed.

(* identities that are too short or too long *)
Lemma no_octets_page imsi tmsi ps : (List.length imsi < 5 \/ 16 < List.length imsi) -> has_octets (DL_Paging imsi tmsi ps 0) = false.
Proof.
  intros H. unfold has_octets. cbn [octets_of]. destruct (Nat.leb_spec (List.length imsi) 32) as [H1|H1].
  - destruct (Factory_msgs.paging_bad imsi tmsi ps 0 H H1) as (m&Hm&Hb). rewrite Hm. cbn [made_msg]. rewrite Hb. reflexivity.
  - rewrite (Factory_msgs.paging_fault imsi tmsi ps 0 H1). reflexivity.
Qed.
Lemma no_octets_id imsi : (List.length imsi < 5 \/ 16 < List.length imsi) -> has_octets (DL_CommonId imsi) = false.
Proof.
  intros H. unfold has_octets. cbn [octets_of]. destruct (Nat.leb_spec (List.length imsi) 32) as [H1|H1].
  - destruct (Factory_msgs.common_id_bad imsi H H1) as (m&Hm&Hb). rewrite Hm. cbn [made_msg]. rewrite Hb. reflexivity.
  - rewrite (Factory_msgs.common_id_fault imsi H1). reflexivity.
Qed.
Lemma bad_common_id E w p u imsi : live (w_st w) p = Some u -> (List.length imsi < 5 \/ 16 < List.length imsi) ->
  snd (exec (stack E) (OApi (ATxCommonId p imsi)) w) = None.
Proof.
  intros Hu H. cbn [exec]. pose proof (IuClient_rel2.encoder_failure_l (stack E) (ATxCommonId p imsi) p (DL_CommonId imsi) u w eq_refl Hu) as X.
  change (enc_ok (stack E) (DL_CommonId imsi)) with (has_octets (DL_CommonId imsi)) in X. rewrite (no_octets_id imsi H) in X. exact (proj1 X).
Qed.
Lemma bad_paging E w a imsi tmsi ps : paging_call a = Some (imsi, tmsi, ps) -> (List.length imsi < 5 \/ 16 < List.length imsi) ->
  let res := exec (stack E) (OApi a) w in
  snd res = None /\ added (w_tr w) (w_tr (fst res)) [EApi a; EFault NullDeref] \/
  snd res = Some tt /\ added (w_tr w) (w_tr (fst res)) [EApi a; ERet 0].
Proof.
  intros Ha H. pose proof (no_octets_page imsi tmsi ps H) as He. cbv zeta. cbn [exec]. unfold run_api. rewrite bind_emit.
  assert (Hp : forall x v, tx_paging_cmd (stack E) x imsi tmsi ps 0 v = (mkW (w_st v) (EFault NullDeref :: w_tr v), None)).
  { intros. unfold tx_paging_cmd, IuClient.encode, bind. change (enc_ok (stack E) (DL_Paging imsi tmsi ps 0)) with (has_octets (DL_Paging imsi tmsi ps 0)). rewrite He. reflexivity. }
  assert (Hpl : forall f l v, page_loop (stack E) l f imsi tmsi ps 0 v = (mkW (w_st v) (EFault NullDeref :: w_tr v), None) \/
    page_loop (stack E) l f imsi tmsi ps 0 v = (v, Some 0%Z)).
  { intros f l v. induction l as [|x l IH]; cbn [page_loop]; [right; reflexivity|]. destruct (existsb _ _); [|exact IH].
    left. unfold bind. rewrite Hp. reflexivity. }
  assert (Hpg : forall l r v, iu_page (stack E) imsi tmsi l r ps v = (mkW (w_st v) (EFault NullDeref :: w_tr v), None) \/
    iu_page (stack E) imsi tmsi l r ps v = (v, Some 0%Z)).
  { intros l r v. unfold iu_page. rewrite bind_get. destruct (lac_rac_find_legacy _ _ _) as [n|]; [|right; reflexivity].
    left. unfold bind. rewrite Hp. reflexivity. }
  set (v := mkW (w_st w) _).
  destruct a as [x1 x2 x3 x4|x1 x2 x3 x4 x5|x1 x2|x1 x2|x1 x2 x3|x1|x1 x2|x1 x2|i t lac|i t lac rac|i t la|i t r]; try discriminate Ha; cbn [paging_call] in Ha; injection Ha as -> -> <-.
  - unfold bind. destruct (Hpg lac 0%N v) as [X|X]; rewrite X; [left|right]; split; reflexivity.
  - unfold bind. destruct (Hpg lac rac v) as [X|X]; rewrite X; [left|right]; split; reflexivity.
  - unfold page_cs2. rewrite bind_assoc, bind_get. unfold bind. destruct (Hpl (fun e => lai_eqb (r_lai e) la) (s_rncs (w_st v)) v) as [X|X]; rewrite X; [left|right]; split; reflexivity.
  - unfold page_ps2. rewrite bind_assoc, bind_get. unfold bind. destruct (Hpl (fun e => rai_eqb e r) (s_rncs (w_st v)) v) as [X|X]; rewrite X; [left|right]; split; reflexivity.
Qed.

(* ---------------- uplink, at the client ---------------- *)
Lemma up_initial E l o c a data d l0 l1 rac s0 s1 nas g id :
  let w := reach (stack E) l in
  let res := exec (stack E) o w in
  first_on (w_st w) o c a data -> good_initial (rx_cn_co data) d l0 l1 rac s0 s1 nas g id ->
  registers (stack E) (w_st w) o = [mkReg (rnc_told g id) (gprs_rai_to_osmo (area_told d l0 l1 rac)) a] /\
  (snd res = Some tt ->
   exists t p, added (w_tr w) (w_tr (fst res)) t /\
     recvs t = [(p, nas, Some (area_told d l0 l1 rac), Some (be16 s0 s1))] /\
     (In (EApi (AFreeUe (Some p))) t \/
      exists u, In u (s_ues (w_st (fst res))) /\ u_ptr u = p /\ u_conn u = c /\ u_ra u = area_told d l0 l1 rac)).
Proof.
  intros w res Hf Hg. pose proof (initial_opens E (w_st w) o c a data d l0 l1 rac s0 s1 nas g id Hf Hg) as Ho. split.
  - unfold registers. rewrite Ho. reflexivity.
  - intros Hr. destruct (created_l (stack E) l o _ Ho Hr) as (t&p&Ht&Hrec&_&Hu). cbn [op_acc acc_nas acc_ra acc_sai op_conn] in Hrec, Hu.
    exists t, p. split; [exact Ht|]. split; [exact Hrec|]. destruct Hu as [Hu|(u&n&H1&H2&H3&H4&_)]; [left; exact Hu|right; eauto 8].
Qed.
Lemma up_transfer E l c data u nas ra sai : let w := reach (stack E) l in
  ue_on (w_st w) c = Some u -> good_transfer (rx_cn_co data) nas ra sai ->
  exists t, added (w_tr w) (w_tr (fst (exec (stack E) (ODataInd c data) w))) t /\
    if (List.length nas <=? 256)%nat then recvs t = [(u_ptr u, nas, ra, sai)] else t = [EBufAlloc; EFault Assertion].
Proof.
  intros w Hu Hg. destruct (transfer_told E data nas ra sai Hg) as (d&Hd&Hi&Hn).
  destruct (dt_delivery_l (stack E) l c d data u ra sai Hu Hd Hi) as (t&Ht&Hr). exists t. split; [exact Ht|]. rewrite Hn in Hr. exact Hr.
Qed.
Lemma up_release E l c data u s i z : let m := M_RANAP_Iu_ReleaseRequestIEs in let w := reach (stack E) l in
  ue_on (w_st w) c = Some u -> carries (rx_cn_co data) 1 11 m s -> assoc "id-Cause" (shown m s) = Some (Some (VChoice i (VInt z))) ->
  exists b t, added (w_tr w) (w_tr (fst (exec (stack E) (ODataInd c data) w))) t /\ snd (exec (stack E) (ODataInd c data) w) = Some tt /\
    w_st (fst (exec (stack E) (ODataInd c data) w)) = w_st w /\
    data_octets t = [(c, b)] /\ unit_octets t = [] /\ recvs t = [] /\ events t = [] /\
    arrives (rx_ran_co b) 1 1 0 M_RANAP_Iu_ReleaseCommandIEs [("id-Cause", VChoice i (VInt z))].
Proof.
  intros m w Hu Hc Hv. destruct (release_told E data s i z Hc Hv) as (ca&Hd&Hok&Hval). destruct (iu_rel_cmd_msg _ Hok) as (b&Hb&Hh).
  assert (Ho : octets_of (DL_IuReleaseCmd ca) = Ok (Some b)) by (cbn [octets_of]; congruence).
  pose proof (release_request_l (stack E) l c data ca u Hu Hd) as H. cbv zeta in H. fold w in H. rewrite H by (cbn [stack enc_ok]; unfold has_octets; rewrite Ho; reflexivity).
  exists b, [ESccp (NDataReq c (DL_IuReleaseCmd ca)); EPrimFree]. cbn [fst snd w_tr w_st]. split; [reflexivity|]. split; [reflexivity|]. split; [reflexivity|].
  split; [unfold data_octets; cbn [flat_map List.app]; rewrite Ho; reflexivity|]. do 3 (split; [reflexivity|]).
  rewrite Hval in Hh. apply arrives_ran_co; [exact Hh|exact (nth_error_In ranap_msgs 0 eq_refl)|vm_compute; tauto|reflexivity].
Qed.
Lemma up_event E l c data u msg : let w := reach (stack E) l in
  ue_on (w_st w) c = Some u -> dec_co (stack E) data = Some msg ->
  exists t, added (w_tr w) (w_tr (fst (exec (stack E) (ODataInd c data) w))) t /\
    events t = match told (stack E) msg with
               | Some ev => if has_event_cb E && u_notif u then [(Some (u_ptr u), ev)] else []
               | None => []
               end.
Proof. intros w Hu Hd. exact (uplink_event_l (stack E) l c data msg u Hu Hd). Qed.
Lemma up_rab E l c data u s x o r ext : let m := M_RANAP_RAB_AssignmentResponseIEs in let w := reach (stack E) l in
  ue_on (w_st w) c = Some u -> carries (rx_cn_co data) 4 0 m s ->
  assoc "id-RAB-SetupOrModifiedList" (shown m s) = Some (Some (VSeq [Some (VList (VSeq [Some (fst x); Some (snd x); Some (VOcts o)] ext :: r))] [])) ->
  exists t, added (w_tr w) (w_tr (fst (exec (stack E) (ODataInd c data) w))) t /\
    events t = match decode T_RANAP_RAB_SetupOrModifiedItem o with
               | Some _ => if has_event_cb E && u_notif u then [(Some (u_ptr u), EvRabAssign (item_code o))] else []
               | None => []
               end.
Proof.
  intros m w Hu Hc Hv. destruct (rab_told E data s x o r ext Hc Hv) as (msg&Hd&Ht). destruct (up_event E l c data u msg Hu Hd) as (t&Ha&He).
  exists t. split; [exact Ha|]. rewrite He, Ht. destruct (decode _ o); reflexivity.
Qed.
Lemma up_complete E l c data u m s p : let w := reach (stack E) l in
  ue_on (w_st w) c = Some u -> carries (rx_cn_co data) 2 p m s -> (p = 6 \/ p = 1)%N ->
  exists t, added (w_tr w) (w_tr (fst (exec (stack E) (ODataInd c data) w))) t /\
    events t = if has_event_cb E && u_notif u then [(Some (u_ptr u), if (p =? 6)%N then EvSecurityModeComplete else EvIuRelease)] else [].
Proof.
  intros w Hu Hc Hp. destruct (plain_told E data _ _ _ _ Hc) as (msg&Hd&H1&H2). destruct (up_event E l c data u msg Hu Hd) as (t&Ha&He).
  exists t. split; [exact Ha|]. rewrite He. unfold told. rewrite H1, H2. destruct Hp as [-> | ->]; reflexivity.
Qed.
Lemma up_reset E w a data s z : let m := M_RANAP_ResetIEs in
  carries (rx_cn_cl data) 1 9 m s -> assoc "id-CN-DomainIndicator" (shown m s) = Some (Some (VEnum z)) ->
  exists b t rnc, added (w_tr w) (w_tr (fst (exec (stack E) (OUnitdataInd a data) w))) t /\ snd (exec (stack E) (OUnitdataInd a data) w) = Some tt /\
    w_st (fst (exec (stack E) (OUnitdataInd a data) w)) = w_st w /\
    unit_octets t = [(a, b)] /\ data_octets t = [] /\
    assoc "id-GlobalRNC-ID" (shown m s) = option_map Some (option_map grnc_val rnc) /\
    holds T_RANAP_RANAP_PDU b 2 9 0 M_RANAP_ResetAcknowledgeIEs ([("id-CN-DomainIndicator", VEnum z)] ++ given "id-GlobalRNC-ID" grnc_val rnc).
Proof.
  intros m Hc Hz. destruct (reset_told E data s z Hc Hz) as (d&g&Hd&Hdz&Hdom&Hg&Hsh).
  destruct (reset_ack_msg z (option_map f_grnc g) Hdom Hg) as (b&Hb&Hh).
  assert (Ho : octets_of (DL_ResetAck d g) = Ok (Some b)) by (cbn [octets_of]; rewrite Hdz; congruence).
  rewrite (reset_l (stack E) w a data), Hd. cbv iota beta delta [PR_initiatingMessage id_Reset].
  replace (enc_ok (stack E) (DL_ResetAck d g)) with true by (cbn [stack enc_ok]; unfold has_octets; rewrite Ho; reflexivity).
  exists b, [ESccp (NUnitdataReq a (DL_ResetAck d g)); EPrimFree], (option_map f_grnc g). cbn [fst snd w_tr w_st]. split; [reflexivity|]. split; [reflexivity|]. split; [reflexivity|].
  split; [unfold unit_octets; cbn [flat_map List.app]; rewrite Ho; reflexivity|]. split; [reflexivity|]. split; [exact Hsh|exact Hh].
Qed.

(* ---------------- messages the client has no use for ---------------- *)
Lemma other_shown r l m : only_other r l -> shown_to_handler r = Some m -> ~ In (m_dir m, m_proc m) l.
Proof. unfold shown_to_handler. intros H He. destruct (x_calls r) as [|g t] eqn:E; [discriminate|]. injection He as <-. apply (H g). rewrite E. left. reflexivity. Qed.

Lemma other_data E w c data u : ue_on (w_st w) c = Some u ->
  only_other (rx_cn_co data) [(1, 20); (1, 11); (2, 6); (2, 1); (4, 0)]%N ->
  exec (stack E) (ODataInd c data) w = (mkW (w_st w) (EPrimFree :: w_tr w), Some tt).
Proof.
  intros Hu Ho. cbn [exec]. unfold sccp_sap_up, bind, IuClient.get. 
  replace (ue_conn_ctx_find (w_st w) c) with (Some u) by (symmetry; exact Hu). unfold rx_co. cbn [stack dec_co].
  destruct (shown_to_handler (rx_cn_co data)) as [m|] eqn:Em; [|reflexivity].
  pose proof (other_shown _ _ _ Ho Em) as Hn. unfold handle_co, bind. 
  unfold PR_initiatingMessage, PR_successfulOutcome, PR_outcome, id_InitialUE_Message, id_DirectTransfer, id_ErrorIndication, id_Iu_ReleaseRequest, id_SecurityModeControl, id_Iu_Release, id_RAB_Assignment.
  repeat match goal with |- context [(?a =? ?b)%N] => destruct (N.eqb_spec a b) as [?|?]; [try (exfalso; apply Hn; rewrite ?e, ?e0; cbn [In]; tauto)|] end; try reflexivity.
Qed.

Lemma other_unitdata E w a data : only_other (rx_cn_cl data) [(1, 9)]%N ->
  exec (stack E) (OUnitdataInd a data) w = (mkW (w_st w) (EPrimFree :: w_tr w), Some tt).
Proof.
  intros Ho. cbn [exec]. unfold sccp_sap_up, bind, rx_cl. cbn [stack dec_cl].
  destruct (shown_to_handler (rx_cn_cl data)) as [m|] eqn:Em; [|reflexivity].
  pose proof (other_shown _ _ _ Ho Em) as Hn. unfold handle_cl, bind, PR_initiatingMessage, id_Reset, id_ErrorIndication.
  repeat match goal with |- context [(?a =? ?b)%N] => destruct (N.eqb_spec a b) as [?|?]; [try (exfalso; apply Hn; rewrite ?e, ?e0; cbn [In]; tauto)|] end; try reflexivity.
Qed.
Lemma other_first E w o c a data : first_on (w_st w) o c a data -> only_other (rx_cn_co data) [(1, 19)]%N ->
  exists t, added (w_tr w) (w_tr (fst (exec (stack E) o w))) t /\ snd (exec (stack E) o w) = Some tt /\
    s_ues (w_st (fst (exec (stack E) o w))) = s_ues (w_st w) /\ s_rncs (w_st (fst (exec (stack E) o w))) = s_rncs (w_st w) /\
    t = match o with OConnectInd _ _ _ => [ESccp (NConnectResp c); EPrimFree] | _ => [EPrimFree] end.
Proof.
  intros Hf Ho.
  assert (Hi : forall w', rx_co (stack E) data (handle_co_initial (stack E) c a) w' = (w', Some tt)).
  { intros w'. unfold rx_co. cbn [stack dec_co]. destruct (shown_to_handler (rx_cn_co data)) as [m|] eqn:Em; [|reflexivity].
    pose proof (other_shown _ _ _ Ho Em) as Hn. unfold handle_co_initial, PR_initiatingMessage, id_InitialUE_Message.
    destruct (N.eqb_spec (m_dir m) 1) as [?|?]; [|reflexivity]. destruct (N.eqb_spec (m_proc m) 19) as [?|?]; [|reflexivity].
    exfalso. apply Hn. rewrite e, e0. left. reflexivity. }
  destruct Hf as [[-> Hd]|(->&Hu&Hp)].
  - eexists. split; [|split; [|split; [|split; [|reflexivity]]]]; cbn [exec]; unfold sccp_sap_up, bind; (destruct data as [|x r]; [congruence|]); cbv beta; unfold sccp_send, bind, trace, emit, ret; rewrite ?Hi; reflexivity.
  - eexists. split; [|split; [|split; [|split; [|reflexivity]]]]; cbn [exec]; unfold sccp_sap_up, bind, IuClient.get;
    replace (ue_conn_ctx_find (w_st w) c) with (@None ue) by (symmetry; exact Hu);
    replace (sccp_addr_find (w_st w) c) with (Some a) by (symmetry; exact Hp); unfold sccp_addr_del, bind, IuClient.get, put_st; rewrite Hi; reflexivity.
Qed.

(* ---------------- from the radio network's factory to the application ---------------- *)
Lemma arrives_carries r d p cr m l : arrives r d p cr m l -> exists s, carries r d p m s /\ forall n, assoc n (shown m s) = option_map Some (assoc n l).
Proof. intros (_&_&s&Hc&_&H). exists s. split; [exists cr; exact Hc|exact H]. Qed.
Lemma made_transfer sapi nas : bytes_ok nas = true -> (N.of_nat (List.length nas) <= 1004)%N ->
  exists b, r_msg (new_msg_dt sapi nas) = Some b /\ good_transfer (rx_cn_co b) nas None None.
Proof.
  intros Hb Hl. destruct (Factory_msgs.dt_msg sapi nas Hb) as (b&Hr&Hh). exists b. split; [exact Hr|].
  rewrite (proj2 (N.leb_le _ _) Hl) in Hh.
  destruct (arrives_carries (rx_cn_co b) 1 20 1 M_RANAP_DirectTransferIEs (Factory_msgs.dt_ies sapi nas)) as (s&Hc&Hs).
  - apply arrives_cn_co; [exact Hh|exact (nth_error_In ranap_msgs 52 eq_refl)|vm_compute; tauto|reflexivity].
  - apply (transfer_plain _ _ s); [exact Hc|rewrite Hs; reflexivity|rewrite Hs; reflexivity].
Qed.
Lemma nib_grnc g id : nib_ok g -> (id <= 4095)%N -> grnc_ok (Factory_spec.mkGrnc (plmn_octs g) (Z.of_N id)).
Proof.
  intros (?&?&?&?&?&?) Hid. unfold grnc_ok. cbn [Factory_spec.g_plmn Factory_spec.g_rnc]. split; [reflexivity|]. split; [|lia].
  unfold plmn_octs, bytes_ok, is_byte. cbn [forallb]. lia.
Qed.
Lemma made_initial le cid is_ps g id nas : nib_ok g -> (id <= 4095)%N -> bytes_ok nas = true -> (List.length nas <= 256)%nat ->
  exists b, r_msg (new_msg_initial_ue le cid is_ps (Factory_spec.mkGrnc (plmn_octs g) (Z.of_N id)) nas) = Some b /\ b <> [] /\
    let lac := if le then (0x42, 0x23)%N else (0x23, 0x42)%N in
    good_initial (rx_cn_co b) g (fst lac) (snd lac) 255 (fst lac) (snd lac) nas g id.
Proof.
  intros Hg Hid Hb Hl. destruct (initial_ue_msg le cid is_ps _ nas (nib_grnc g id Hg Hid) Hb ltac:(lia)) as (b&Hr&Hh). exists b. split; [exact Hr|].
  destruct (arrives_carries (rx_cn_co b) 1 19 1 M_RANAP_InitialUE_MessageIEs _
    (arrives_cn_co _ _ _ _ _ _ Hh (nth_error_In ranap_msgs 51 eq_refl) ltac:(vm_compute; tauto) eq_refl)) as (s&Hc&Hs).
  split.
  - intros ->. destruct Hc as (cr&Hc). vm_compute in Hc. discriminate.
  - cbv zeta. apply (good_initial_intro _ _ _ _ _ _ _ _ _ _ s None (plmn_octs g) (area_octets le) None); try assumption; try lia;
      rewrite ?Hs; try (destruct le; reflexivity); try reflexivity.
    + destruct le; vm_compute; split; discriminate.
    + left. split; reflexivity.
Qed.
