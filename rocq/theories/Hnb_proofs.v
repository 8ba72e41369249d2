(* The home NodeB emulator. *)
From Coq Require Import ZifyBool ZifyNat ZifyN.
From Verif Require Import Base Helpers Helpers_spec Helpers_proofs Aper Aper_spec Aper_proofs Aper_decode Aper_valid Aper_len Container Container_proofs Container_exact
  RanapTypes RuaTypes HnbapTypes RanapTab RuaTab HnbapTab AllTypes AllMsgs
  DispatchTab Dispatch Dispatch_proofs Deliver_spec Deliver_proofs Wire_spec Factory_spec Factory Factory_len Factory_proofs Factory_msgs
  RuaFactory_spec RuaFactory RuaFactory_proofs E2e_spec E2e_proofs Stack Stack_spec Stack_proofs Hnb Hnb_spec.
From Coq Require Import String List Permutation.
Ltac Zify.zify_post_hook ::= Z.div_mod_to_equations.
Local Open Scope list_scope.
Local Open Scope string_scope.
Local Open Scope list_scope.

(* ---------------- the octets of a message ---------------- *)
Lemma generate_bytes P d p c m v b : generate P d p c m v = Some b -> bytes_ok b = true.
Proof.
  unfold generate. destruct (encode m v) as [o|]; [|discriminate]. intros H. injection H as <-. unfold gen_msg.
  destruct (encode (p_pdu P) _) as [b|] eqn:E; [|reflexivity]. destruct (N.leb _ _); [exact (encode_bytes _ _ _ E)|reflexivity].
Qed.
Lemma finish_bytes P d p c m s mid ko b : r_msg (finish P d p c m s mid ko) = Some b -> bytes_ok b = true.
Proof.
  unfold finish. destruct (add_ies m s) as [t [l|]]; [|discriminate]. destruct (generate _ _ _ _ _ _) as [o|] eqn:E; [|discriminate].
  intros H. injection H as <-. exact (generate_bytes _ _ _ _ _ _ _ E).
Qed.
Lemma wire_len_octets n : N.of_nat (List.length (wire_len n)) = len_octets n.
Proof. unfold wire_len, len_octets. destruct (N.ltb n 128); reflexivity. Qed.
Lemma ies_len rows l : N.of_nat (List.length (flat_map wire_ie (flat_map (fun r =>
    match assoc (r_ie r) l with
    | Some v => match encode (r_ty r) v with Some o => [(r_id r, Z.to_N (r_crit r), o)] | None => [] end
    | None => []
    end) rows))) = fsize rows (assigned l rows).
Proof.
  induction rows as [|r rows IH]; [reflexivity|]. cbn [flat_map assigned map fsize]. fold (assigned l rows).
  rewrite flat_map_app, app_length, Nat2N.inj_add. etransitivity; [apply (f_equal2 N.add eq_refl IH)|]. f_equal. unfold osize.
  destruct (assoc (r_ie r) l) as [v|]; [|reflexivity]. destruct (encode (r_ty r) v) as [o|]; [|reflexivity].
  cbn [flat_map]. unfold wire_ie. rewrite !app_length, !Nat2N.inj_add, wire_len_octets. cbn [List.length]. unfold ie_octets. lia.
Qed.
Lemma holds_len t b d p c m l : holds t b d p c m l -> N.of_nat (List.length b) = total (m_rows m) (assigned l (m_rows m)).
Proof.
  intros (o&s&_&_&_&_&->). unfold wire_pdu, wire_body. cbv zeta. rewrite !app_length, !Nat2N.inj_add, wire_len_octets.
  pose proof (ies_len (m_rows m) l) as H. fold (message_ies m l) in H. rewrite H. unfold total, ie_octets. cbn [List.length]. change (N.of_nat 3) with 3%N. lia.
Qed.

(* ---------------- what the emulator sends ---------------- *)
(* a message it makes and that fits *)
Definition fine (m : option (list N)) (d p : N) (crit : Z) (M : msgdef) (l : list (string * val)) : Prop :=
  exists b, m = Some b /\ bytes_ok b = true /\ (N.of_nat (List.length b) <= 997)%N /\ holds T_RANAP_RANAP_PDU b d p crit M l.
Lemma fine_nas nas : bytes_ok nas = true -> (N.of_nat (List.length nas) <= 900)%N ->
  fine (r_msg (new_msg_dt 0 nas)) 1 20 1 M_RANAP_DirectTransferIEs [("id-NAS-PDU", VOcts nas); ("id-SAPI", VEnum 0)].
Proof.
  intros Hb Hl. destruct (Factory_msgs.dt_msg 0 nas Hb) as (b&Hr&Hq). rewrite (proj2 (N.leb_le _ 1004)) in Hq by lia.
  exists b. split; [exact Hr|]. unfold new_msg_dt in Hr. split; [exact (finish_bytes _ _ _ _ _ _ _ _ _ Hr)|].
  split; [|exact Hq]. rewrite (holds_len _ _ _ _ _ _ _ Hq). unfold M_RANAP_DirectTransferIEs, total, dt_ies. rows. cbn [assigned map assoc r_ie fsize r_ty String.eqb Ascii.eqb Bool.eqb].
  change T_RANAP_NAS_PDU with (TOcts None). rewrite (octs_none_size nas ltac:(lia) Hb). change (osize T_RANAP_SAPI (VEnum (if (0 =? 3)%N then 1 else 0))) with 5%N.
  unfold ie_octets, len_octets. repeat match goal with |- context [(?a <? 128)%N] => destruct (a <? 128)%N eqn:? end; lia.
Qed.
Lemma fine_const m d p c M l : (exists b, m = Some b /\ holds T_RANAP_RANAP_PDU b d p c M l) ->
  (match m with Some b => bytes_ok b && (N.of_nat (List.length b) <=? 997)%N | None => true end) = true -> fine m d p c M l.
Proof. intros (b&->&Hh) H. apply andb_true_iff in H. exists b. split; [reflexivity|]. split; [apply H|]. split; [|exact Hh]. apply N.leb_le, H. Qed.
Lemma fine_rel_compl : fine (r_msg new_msg_iu_rel_compl) 2 1 0 M_RANAP_Iu_ReleaseCompleteIEs [].
Proof. apply fine_const; [exact iu_rel_compl_msg|vm_compute; reflexivity]. Qed.
Lemma fine_rel_req : fine (r_msg (new_msg_iu_rel_req (Factory_spec.mkCause 1 40))) 1 11 1 M_RANAP_Iu_ReleaseRequestIEs [("id-Cause", VChoice 0 (VInt 40))].
Proof.
  apply fine_const; [|vm_compute; reflexivity]. apply (iu_rel_req_msg (Factory_spec.mkCause 1 40)). unfold cause_ok.
  eapply (encode_valid T_RANAP_Cause). vm_compute. reflexivity.
Qed.
Lemma sec_compl_bytes : forallb (fun a => match r_msg (new_msg_sec_mod_compl (Z.of_nat a) 0) with Some b => bytes_ok b && (N.of_nat (List.length b) <=? 997)%N | None => true end) (List.seq 0 16) = true.
Proof. vm_compute. reflexivity. Qed.
Lemma fine_sec_compl a : (0 <= a <= 15)%Z -> fine (r_msg (new_msg_sec_mod_compl a 0)) 2 6 0 M_RANAP_SecurityModeCompleteIEs
    [("id-ChosenIntegrityProtectionAlgorithm", VInt a); ("id-ChosenEncryptionAlgorithm", VInt 0)].
Proof.
  intros Ha. apply fine_const; [apply sec_mod_compl_msg; lia|].
  pose proof (proj1 (forallb_forall _ _) sec_compl_bytes (Z.to_nat a)) as H. cbv beta in H. rewrite Z2Nat.id in H by lia. apply H. apply in_seq. lia.
Qed.

Lemma tx_fine h c m d p crit M l : h_cs h = Some c -> fine m d p crit M l -> exists b, tx_dt h m = Ok (0%Z, [HSend PPI_RUA b]) /\ reply c b d p crit M l.
Proof.
  intros Hc (r&->&Hb&Hl&Hh). destruct (RuaFactory_proofs.dt_msg (ch_ps c) (ch_conn c) r Hb) as (b&e&He&Hq).
  rewrite (proj2 (N.leb_le _ _) Hl) in Hq. exists b. unfold tx_dt. rewrite Hc, He. split; [reflexivity|]. exists r. split; [exact Hh|apply Hq].
Qed.

(* ---------------- transport ---------------- *)
Lemma no_uaf_co data : exists f, x_freed (rx_cn_co data) = Some f.
Proof.
  unfold rx_cn_co. pose proof (frees_held cn_co data ltac:(cbn; tauto)) as H. destruct (_ =? _)%Z; cbn [x_freed]; [rewrite H|]; eauto.
Qed.
Lemma no_uaf_cl data : exists f, x_freed (rx_cn_cl data) = Some f.
Proof. unfold rx_cn_cl, rx_free. pose proof (frees_held cn_cl data ltac:(cbn; tauto)) as H. cbn [x_freed]. rewrite H. eauto. Qed.
Lemma rx_connection E h b ranap e : on_connection b ranap -> each (dt_handle_ranap E h) (x_calls (rx_cn_co ranap)) = Ok e -> rua_gives E h b e.
Proof.
  intros (ps&id&o&s&Hp&Hd&Hlen&Hf&_) He. unfold rua_gives, read_cb. change (PPI_RUA =? PPI_HNBAP)%N with false. change (PPI_RUA =? PPI_RUA)%N with true. cbv iota.
  unfold rua_rx. rewrite Hp. change (2 =? 4)%N with false. change (2 =? 2)%N with true. cbv iota. unfold rua_handle. rewrite Hd. cbn [d_ok d_ies d_lost].
  rewrite (field_nth M_RUA_DirectTransferIEs s "id-RANAP-Message" 2 _ _ eq_refl eq_refl (Hf 2%nat _ eq_refl) eq_refl).
  change (assoc _ (transfer_ies ps id ranap)) with (Some (VOcts ranap)). cbn [c_octs]. destruct (no_uaf_co ranap) as (f&Hu). rewrite He, Hu. do 2 eexists. reflexivity.
Qed.
Lemma rx_unconnected E h b ranap e : unconnected b ranap -> each cl_handle_ranap (x_calls (rx_cn_cl ranap)) = Ok e -> rua_gives E h b e.
Proof.
  intros (o&s&Hp&Hd&Hlen&Hf&_) He. unfold rua_gives, read_cb. change (PPI_RUA =? PPI_HNBAP)%N with false. change (PPI_RUA =? PPI_RUA)%N with true. cbv iota.
  unfold rua_rx. rewrite Hp. change (4 =? 4)%N with true. cbv iota. unfold rua_handle. rewrite Hd. cbn [d_ok d_ies d_lost].
  rewrite (field_nth M_RUA_ConnectionlessTransferIEs s "id-RANAP-Message" 0 _ _ eq_refl eq_refl (Hf 0%nat _ eq_refl) eq_refl).
  change (assoc _ [message_ie ranap]) with (Some (VOcts ranap)). cbn [c_octs]. destruct (no_uaf_cl ranap) as (f&Hu). rewrite He, Hu. do 2 eexists. reflexivity.
Qed.
Lemma each_one {A} (f : A -> outcome (list heff)) g : each f [g] = f g.
Proof. cbn [each]. destruct (f g) as [e|]; [|reflexivity]. cbn [obind]. rewrite app_nil_r. reflexivity. Qed.

(* ---------------- messages on a connection ---------------- *)
Lemma carries_co ranap d p m s : carries (rx_cn_co ranap) d p m s -> In m ranap_msgs /\ sound m s.
Proof.
  intros (cr&H). destruct (call_co ranap) as [Hn|(d'&p'&cr'&m'&s'&Hc&_&Hm&Hs)]; [congruence|]. rewrite Hc in H. injection H as -> -> -> -> ->. auto.
Qed.
Lemma carried_field ranap d p m s n : carries (rx_cn_co ranap) d p m s -> assoc n (shown m s) = option_map Some (field m s n).
Proof. intros H. destruct (carries_co _ _ _ _ _ H) as [Hm Hs]. apply shown_field; [exact (once_ranap m Hm)|exact Hs]. Qed.
Lemma nas_effects E h b ranap nas e : on_connection b ranap -> nas_in ranap nas -> rx_dtap E h nas = Ok e -> rua_gives E h b e.
Proof.
  intros Hb (s&Hc&Hn) He. apply (rx_connection E h b ranap e Hb). pose proof (carried_field _ _ _ _ _ "id-NAS-PDU" Hc) as Hf. rewrite Hn in Hf.
  destruct Hc as (cr&->). rewrite each_one. unfold dt_handle_ranap. cbn [g_body g_proc]. change (20 =? 20)%N with true. cbv iota.
  destruct (field _ s "id-NAS-PDU") as [v|]; [|discriminate]. cbn [option_map] in Hf. injection Hf as <-. exact He.
Qed.
Lemma land_mod x k : N.land x (N.ones k) = (x mod 2 ^ k)%N.
Proof. apply N.land_ones. Qed.
Lemma mm_dtap E h c nas mt : chan_ok h -> h_cs h = Some c -> mm nas mt ->
  rx_dtap E h nas = (do p <- (if (mt =? MT_MM_ID_REQ)%N then tx_dt h (r_msg (new_msg_dt 0 id_resp))
        else if (mt =? MT_MM_LOC_UPD_ACCEPT)%N then
          told [HLuAccept]
            (do r <- rx_lu_accept E nas ;;
             match r with
             | None => Ok ((-1)%Z, [])
             | Some true => tx_dt h (r_msg (new_msg_dt 0 tmsi_realloc_compl))
             | Some false => Ok (0%Z, [])
             end)
        else if (mt =? MT_MM_LOC_UPD_REJECT)%N then Ok (0%Z, [HLuReject])
        else if (mt =? MT_MM_INFO)%N then
          do _ <- rx_mm_info E nas ;; do p <- tx_iu_release_req h ;; Ok (0%Z, snd p)
        else if (mt =? MT_MM_AUTH_REQ)%N then rx_auth_req E h nas
        else Ok (0%Z, [])) ;; Ok (HNas nas :: snd p)).
Proof.
  intros Hok Hc (x&y&r&->&Hx&Hy). unfold rx_dtap. cbn [List.length Nat.ltb Nat.leb nth].
  change 15%N with (N.ones 4). rewrite land_mod. change (2 ^ 4)%N with 16%N. rewrite Hx. change (5 =? PDISC_MM)%N with true. cbv iota.
  unfold rx_mm. rewrite Hc, (Hok c Hc). cbn [nth]. change 0x3f%N with (N.ones 6). rewrite land_mod. change (2 ^ 6)%N with 64%N. rewrite Hy. reflexivity.
Qed.
Lemma identity_l E h c b ranap nas : chan_ok h -> h_cs h = Some c -> on_connection b ranap -> nas_in ranap nas -> mm nas 0x18 ->
  exists m, rua_gives E h b [HNas nas; HSend PPI_RUA m] /\ nas_reply c m [5; 0x19; 9; 3; 0x31; 0x91; 6; 0; 0x28; 0x47; 0x11; 0xf2]%N.
Proof.
  intros Hok Hc Hb Hn Hm. destruct (tx_fine h c _ _ _ _ _ _ Hc (fine_nas id_resp eq_refl ltac:(vm_compute; discriminate))) as (m&Ht&Hr).
  exists m. split; [|exact Hr]. apply (nas_effects E h b ranap nas _ Hb Hn). rewrite (mm_dtap E h c nas 0x18 Hok Hc Hm).
  change (_ =? MT_MM_ID_REQ)%N with true. cbv iota. rewrite Ht. reflexivity.
Qed.
Lemma auth_l E h c b ranap x y z rand r : sres_ok E -> chan_ok h -> h_cs h = Some c -> on_connection b ranap -> List.length rand = 16 ->
  nas_in ranap (x :: y :: z :: rand ++ r) -> mm (x :: y :: z :: rand ++ r) 0x12 ->
  exists m, rua_gives E h b [HNas (x :: y :: z :: rand ++ r); HSend PPI_RUA m] /\ nas_reply c m ([5; 0x94]%N ++ he_sres E rand).
Proof.
  intros Hs Hok Hc Hb Hl Hn Hm. destruct (Hs rand) as [Hs1 Hs2]. 
  assert (Ha : auth_resp (he_sres E rand) = [5; 0x94]%N ++ he_sres E rand).
  { unfold auth_resp. rewrite firstn_all2 by lia. reflexivity. }
  destruct (tx_fine h c _ _ _ _ _ _ Hc (fine_nas (auth_resp (he_sres E rand)) ltac:(rewrite Ha; unfold bytes_ok in *; cbn [List.app forallb]; rewrite Hs2; reflexivity) ltac:(rewrite Ha, app_length, Hs1; vm_compute; discriminate))) as (m&Ht&Hr).
  exists m. rewrite Ha in Hr. split; [|exact Hr]. apply (nas_effects E h b ranap _ _ Hb Hn). rewrite (mm_dtap E h c _ 0x12 Hok Hc Hm).
  repeat (match goal with |- context [(?a =? ?b)%N] => let v := eval vm_compute in (a =? b)%N in change (a =? b)%N with v end; cbv iota).
  unfold rx_auth_req. replace (_ <? 17)%nat with false by (symmetry; cbn [List.length]; rewrite app_length; apply Nat.ltb_ge; lia).
  cbn [skipn]. rewrite firstn_app, Hl. change (16 - 16)%nat with 0%nat. rewrite firstn_O, app_nil_r, firstn_all2 by lia. rewrite Ht. reflexivity.
Qed.
Lemma short_auth_l E h c b ranap nas : chan_ok h -> h_cs h = Some c -> on_connection b ranap -> nas_in ranap nas -> mm nas 0x12 -> (List.length nas < 19)%nat ->
  rua_gives E h b [HNas nas].
Proof.
  intros Hok Hc Hb Hn Hm Hl. apply (nas_effects E h b ranap _ _ Hb Hn). rewrite (mm_dtap E h c _ 0x12 Hok Hc Hm).
  repeat (match goal with |- context [(?a =? ?b)%N] => let v := eval vm_compute in (a =? b)%N in change (a =? b)%N with v end; cbv iota).
  unfold rx_auth_req. replace (_ <? 17)%nat with true by (symmetry; apply Nat.ltb_lt; lia). reflexivity.
Qed.
Ltac types := repeat (match goal with |- context [(?a =? ?b)%N] => let v := eval vm_compute in (a =? b)%N in change (a =? b)%N with v end; cbv iota).
Lemma reject_l E h c b ranap nas : chan_ok h -> h_cs h = Some c -> on_connection b ranap -> nas_in ranap nas -> mm nas 0x04 ->
  rua_gives E h b [HNas nas; HLuReject].
Proof. intros Hok Hc Hb Hn Hm. apply (nas_effects E h b ranap _ _ Hb Hn). rewrite (mm_dtap E h c _ 0x04 Hok Hc Hm). types. reflexivity. Qed.
(* Location Updating Accept: what the library's parser finds decides *)
Lemma accept_l E h c b ranap nas : chan_ok h -> h_cs h = Some c -> on_connection b ranap -> nas_in ranap nas -> mm nas 0x02 -> (7 <= List.length nas)%nat ->
  (he_tlv E (skipn 2 nas) = None -> rua_gives E h b [HNas nas; HLuAccept]) /\
  forall tp, he_tlv E (skipn 2 nas) = Some tp -> forall answered : bool,
    (tp IE_MOBILE_ID = None /\ answered = he_tmsi E \/
     tp IE_MOBILE_ID <> None /\ exists t r, tp IE_NAME_SHORT = Some (t :: r) /\ answered = (t mod 16 =? 4)%N) ->
    exists m, rua_gives E h b ([HNas nas; HLuAccept] ++ (if answered then [HSend PPI_RUA m] else [])) /\ nas_reply c m [5; 0x1b]%N.
Proof.
  intros Hok Hc Hb Hn Hm Hl. pose proof (mm_dtap E h c nas 0x02 Hok Hc Hm) as Hd. revert Hd. types. unfold rx_lu_accept.
  replace (_ <? 7)%nat with false by (symmetry; apply Nat.ltb_ge; lia). intros Hd. split.
  - intros Ht. rewrite Ht in Hd. apply (nas_effects E h b ranap _ _ Hb Hn). rewrite Hd. reflexivity.
  - intros tp Ht ans Ha. rewrite Ht in Hd. destruct (tx_fine h c _ _ _ _ _ _ Hc (fine_nas tmsi_realloc_compl eq_refl ltac:(vm_compute; discriminate))) as (m&Hx&Hr).
    exists m. split; [|exact Hr]. apply (nas_effects E h b ranap _ _ Hb Hn). rewrite Hd. destruct Ha as [[H1 ->]|(H1&t&r&H2&->)].
    + rewrite H1. cbn [obind]. destruct (he_tmsi E); cbn [told obind]; [rewrite Hx|]; reflexivity.
    + destruct (tp IE_MOBILE_ID); [|congruence]. rewrite H2. change 15%N with (N.ones 4). rewrite land_mod. change (2 ^ 4)%N with 16%N. change MI_TYPE_TMSI with 4%N.
      cbn [obind]. destruct (t mod 16 =? 4)%N; unfold told; [rewrite Hx|]; reflexivity.
Qed.
Lemma info_l E h c b ranap nas : chan_ok h -> h_cs h = Some c -> on_connection b ranap -> nas_in ranap nas -> mm nas 0x32 ->
  (forall tp, he_tlv E (skipn 2 nas) = Some tp -> tp IE_NAME_SHORT <> Some [] /\ tp IE_NAME_LONG <> Some []) ->
  exists m, rua_gives E h b [HNas nas; HSend PPI_RUA m] /\ reply c m 1 11 1 M_RANAP_Iu_ReleaseRequestIEs [("id-Cause", VChoice 0 (VInt 40))].
Proof.
  intros Hok Hc Hb Hn Hm Ht. destruct (tx_fine h c _ _ _ _ _ _ Hc fine_rel_req) as (m&Hx&Hr). exists m. split; [|exact Hr].
  apply (nas_effects E h b ranap _ _ Hb Hn). rewrite (mm_dtap E h c _ 0x32 Hok Hc Hm). types.
  assert (Hi : rx_mm_info E nas = Ok tt).
  { unfold rx_mm_info. destruct (he_tlv E (skipn 2 nas)) as [tp|]; [|reflexivity]. destruct (Ht tp eq_refl) as [H1 H2].
    destruct (tp IE_NAME_SHORT) as [[|? ?]|]; [congruence| |]; (destruct (tp IE_NAME_LONG) as [[|? ?]|]; [congruence| |]; reflexivity). }
  rewrite Hi. cbn [obind]. unfold tx_iu_release_req. rewrite Hx. reflexivity.
Qed.
Lemma other_mm_l E h b ranap nas mt : chan_ok h -> on_connection b ranap -> nas_in ranap nas -> mm nas mt -> ~ In mt [0x18; 0x02; 0x04; 0x32; 0x12]%N ->
  rua_gives E h b [HNas nas].
Proof.
  intros Hok Hb Hn Hm Ht. apply (nas_effects E h b ranap _ _ Hb Hn). destruct (h_cs h) as [c|] eqn:Hc.
  - rewrite (mm_dtap E h c _ mt Hok Hc Hm). cbn [In] in Ht.
    repeat match goal with |- context [(mt =? ?k)%N] => destruct (N.eqb_spec mt k) as [->|?]; [exfalso; apply Ht; vm_compute; tauto|] end. reflexivity.
  - unfold rx_dtap, rx_mm. rewrite Hc. destruct (_ <? _)%nat; [reflexivity|]. destruct (_ =? _)%N; reflexivity.
Qed.
Lemma not_mm_l E h b ranap nas : on_connection b ranap -> nas_in ranap nas -> ((List.length nas < 2)%nat \/ (nth 0 nas 0 mod 16 <> 5)%N) ->
  rua_gives E h b [HNas nas].
Proof.
  intros Hb Hn Hx. apply (nas_effects E h b ranap _ _ Hb Hn). unfold rx_dtap. destruct (Nat.ltb_spec (List.length nas) 2) as [|Hl]; [reflexivity|].
  change 15%N with (N.ones 4). rewrite land_mod. change (2 ^ 4)%N with 16%N. change PDISC_MM with 5%N. destruct (N.eqb_spec (nth 0 nas 0%N mod 16)%N 5) as [e|]; [|reflexivity]. destruct Hx; [lia|congruence].
Qed.
(* Security Mode Command, Iu Release Command *)
Lemma secmode_l E h c b ranap s a r x y : let m := M_RANAP_SecurityModeCommandIEs in
  h_cs h = Some c -> on_connection b ranap -> carries (rx_cn_co ranap) 1 6 m s ->
  assoc "id-IntegrityProtectionInformation" (shown m s) = Some (Some (VSeq (Some (VList (VInt a :: r)) :: x) y)) ->
  exists o, rua_gives E h b [HSend PPI_RUA o] /\
    reply c o 2 6 0 M_RANAP_SecurityModeCompleteIEs [("id-ChosenIntegrityProtectionAlgorithm", VInt a); ("id-ChosenEncryptionAlgorithm", VInt 0)].
Proof.
  intros m Hc Hb Hca Hi. pose proof (carried_field _ _ _ _ _ "id-IntegrityProtectionInformation" Hca) as Hf. rewrite Hi in Hf.
  destruct (field m s "id-IntegrityProtectionInformation") as [v|] eqn:Ef; [|discriminate]. cbn [option_map] in Hf. injection Hf as <-.
  destruct (carries_co _ _ _ _ _ Hca) as [Hm Hs].
  pose proof (field_valid m s 0 (mkRow "id-IntegrityProtectionInformation" 12 0 "IntegrityProtectionInformation" T_RANAP_IntegrityProtectionInformation Mandatory) Hs (once_ranap m Hm) eq_refl _ Ef) as Hv.
  assert (Ha : (0 <= a <= 15)%Z).
  { inversion Hv as [| | | | | | | |e root adds vr va Hl1 Hl2 Hmm Hvv _ _| |]; subst. pose proof (Hvv 0%nat _ _ _ eq_refl eq_refl) as H1.
    inversion H1 as [| | | | | | |c0 t l Hl Hin| | | ]; subst. pose proof (Hin (VInt a) (or_introl eq_refl)) as H2. inversion H2 as [| |c0 z Hal| | | | | | | |]; subst.
    unfold allowed in Hal. cbn in Hal. lia. }
  destruct (tx_fine h c _ _ _ _ _ _ Hc (fine_sec_compl a Ha)) as (o&Hx&Hr). exists o. split; [|exact Hr].
  apply (rx_connection E h b ranap _ Hb). destruct Hca as (cr&->). rewrite each_one. unfold dt_handle_ranap. cbn [g_body g_proc]. types.
  unfold first_alg. change (String.eqb (m_key m) "SecurityModeCommandIEs") with true. cbv iota. rewrite Ef. cbn [comp nth_error obind]. rewrite Hx. reflexivity.
Qed.
Lemma secmode_none_l E h b ranap s : let m := M_RANAP_SecurityModeCommandIEs in
  on_connection b ranap -> carries (rx_cn_co ranap) 1 6 m s ->
  assoc "id-IntegrityProtectionInformation" (shown m s) = None -> rua_gives E h b [].
Proof.
  intros m Hb Hca Hi. pose proof (carried_field _ _ _ _ _ "id-IntegrityProtectionInformation" Hca) as Hf. rewrite Hi in Hf.
  destruct (field m s "id-IntegrityProtectionInformation") as [v|] eqn:Ef; [discriminate|].
  apply (rx_connection E h b ranap _ Hb). destruct Hca as (cr&->). rewrite each_one. unfold dt_handle_ranap. cbn [g_body g_proc]. types.
  unfold first_alg. change (String.eqb (m_key m) "SecurityModeCommandIEs") with true. cbv iota. rewrite Ef. reflexivity.
Qed.
Lemma release_l E h c b ranap d m s : h_cs h = Some c -> on_connection b ranap -> carries (rx_cn_co ranap) d 1 m s ->
  exists o, rua_gives E h b [HSend PPI_RUA o] /\ reply c o 2 1 0 M_RANAP_Iu_ReleaseCompleteIEs [].
Proof.
  intros Hc Hb (cr&Hca). destruct (tx_fine h c _ _ _ _ _ _ Hc fine_rel_compl) as (o&Hx&Hr). exists o. split; [|exact Hr].
  apply (rx_connection E h b ranap _ Hb). rewrite Hca, each_one. unfold dt_handle_ranap. cbn [g_body g_proc]. types. unfold tx_iu_release_compl. rewrite Hx. reflexivity.
Qed.
Lemma other_co_l E h b ranap : on_connection b ranap -> (forall g, In g (x_calls (rx_cn_co ranap)) -> ~ In (g_proc g) [20; 6; 1]%N) -> rua_gives E h b [].
Proof.
  intros Hb Ho. apply (rx_connection E h b ranap _ Hb). destruct (call_co ranap) as [->|(d&p&cr&m&s&Hc&_)]; [reflexivity|].
  rewrite Hc in *. rewrite each_one. unfold dt_handle_ranap. cbn [g_body g_proc]. specialize (Ho _ (or_introl eq_refl)). cbn [g_proc In] in Ho.
  destruct (N.eqb_spec p 20) as [->|]; [tauto|]. destruct (N.eqb_spec p 6) as [->|]; [tauto|]. destruct (N.eqb_spec p 1) as [->|]; [tauto|]. reflexivity.
Qed.

(* ---------------- Paging ---------------- *)
Lemma carried_field_cl ranap d p m s n : carries (rx_cn_cl ranap) d p m s -> assoc n (shown m s) = option_map Some (field m s n).
Proof.
  intros (cr&H). destruct (call_cl ranap) as [Hn|[(d'&p'&cr'&m'&s'&Hc&_&Hm&Hs)|(d'&p'&cr'&Hc&_)]]; [congruence| |congruence].
  rewrite Hc in H. injection H as -> -> -> -> ->. apply shown_field; [exact (once_ranap m Hm)|exact Hs].
Qed.
Lemma carries_cl ranap d p m s : carries (rx_cn_cl ranap) d p m s -> In m ranap_msgs /\ sound m s.
Proof.
  intros (cr&H). destruct (call_cl ranap) as [Hn|[(d'&p'&cr'&m'&s'&Hc&_&Hm&Hs)|(d'&p'&cr'&Hc&_)]]; [congruence| |congruence].
  rewrite Hc in H. injection H as -> -> -> -> ->. auto.
Qed.
Lemma bcd_text_l o : bytes_ok o = true -> bcd_text o = Ok (firstn 15 (packed_text o)).
Proof.
  intros Hb. unfold bcd_text. destruct (bcd_decode_even_safe_l 8 o Hb ltac:(lia)) as (out&r&He&_). change (2 * 8)%nat with 16%nat in He. rewrite He.
  destruct (bcd_decode_shape_l 16 o out r Hb He) as (t&->&_&_&_&->). cbn [obind fst]. rewrite removelast_last. reflexivity.
Qed.
Lemma bytes_of o : (forall x, In x o -> (x < 256)%N) -> bytes_ok o = true.
Proof. intros H. unfold bytes_ok. apply forallb_forall. intros x Hx. apply N.ltb_lt, H, Hx. Qed.
Lemma perm_octs o : valid T_RANAP_PermanentNAS_UE_ID (VChoice 0 (VOcts o)) -> bytes_ok o = true.
Proof.
  intros H. apply bytes_of. inversion H as [| | | | | | | | |e root more i t w Hn Hw|root more i t w Hn Hw]; subst.
  - injection Hn as <-. apply octs_inv in Hw. destruct Hw as (o'&E&_&Hx). injection E as <-. exact Hx.
Qed.
Lemma paging_l E h b ranap s o : let m := M_RANAP_PagingIEs in
  unconnected b ranap -> carries (rx_cn_cl ranap) 1 14 m s -> assoc "id-PermanentNAS-UE-ID" (shown m s) = Some (Some (VChoice 0 (VOcts o))) ->
  rua_gives E h b [HPaging (firstn 15 (packed_text o))].
Proof.
  intros m Hb Hca Hi. pose proof (carried_field_cl _ _ _ _ _ "id-PermanentNAS-UE-ID" Hca) as Hf. rewrite Hi in Hf.
  destruct (field m s "id-PermanentNAS-UE-ID") as [v|] eqn:Ef; [|discriminate]. cbn [option_map] in Hf. injection Hf as <-.
  destruct (carries_cl _ _ _ _ _ Hca) as [Hm Hs].
  pose proof (field_valid m s 1 (mkRow "id-PermanentNAS-UE-ID" 23 1 "PermanentNAS-UE-ID" T_RANAP_PermanentNAS_UE_ID Mandatory) Hs (once_ranap m Hm) eq_refl _ Ef) as Hv.
  apply (rx_unconnected E h b ranap _ Hb). destruct Hca as (cr&->). rewrite each_one. unfold cl_handle_ranap. cbn [g_body g_proc]. types.
  rewrite Ef, (bcd_text_l o (perm_octs o Hv)). reflexivity.
Qed.
Lemma other_cl_l E h b ranap : unconnected b ranap -> (forall g, In g (x_calls (rx_cn_cl ranap)) -> g_proc g <> 14%N) -> rua_gives E h b [].
Proof.
  intros Hb Ho. apply (rx_unconnected E h b ranap _ Hb).
  assert (Hk : forall g, x_calls (rx_cn_cl ranap) = [g] -> each cl_handle_ranap (x_calls (rx_cn_cl ranap)) = Ok []).
  { intros g Hg. rewrite Hg in *. rewrite each_one. unfold cl_handle_ranap. specialize (Ho g (or_introl eq_refl)). destruct (N.eqb_spec (g_proc g) 14); [congruence|reflexivity]. }
  destruct (call_cl ranap) as [Hn|[(d&p&cr&m&s&Hc&_)|(d&p&cr&Hc&_)]]; [rewrite Hn; reflexivity| |]; exact (Hk _ Hc).
Qed.

(* ---------------- whatever arrives ---------------- *)
Lemma sound_of m o : tab_ok m = true -> forallb (fun r => sizes_ok (r_ty r)) (m_rows m) = true -> d_ok (decode_msg m o) = true -> sound m (d_ies (decode_msg m o)).
Proof.
  intros Hok Hall Hd i r Hi. destruct (body m o) as [bl|] eqn:Eb.
  2:{ rewrite decode_msg_body, Eb in Hd. discriminate. }
  assert (Hsz : sizes_ok (r_ty r) = true) by exact (proj1 (forallb_forall _ _) Hall r (nth_error_In _ _ Hi)).
  destruct (decode_msg_exact m o bl Hok Hd Eb i r Hi) as [(l1&ie&l2&oct&v&_&_&Hv&_&Hn&Hfl)|(_&Hn&Hfl)].
  - exists (Some v). split; [exact Hn|]. split; [|exact Hfl]. intros x E. injection E as <-. exact (decode_valid _ _ _ Hsz Hv).
  - exists None. split; [exact Hn|]. split; [discriminate|exact Hfl].
Qed.
Definition calm (h : hnb) (r : outcome (list heff)) : Prop :=
  match r with
  | Ok e => (List.length (sent e) <= 1)%nat /\ forall p b, In (p, b) (sent e) -> p = PPI_RUA /\
      exists c ranap, h_cs h = Some c /\ holds T_RUA_RUA_PDU b 1 2 0 M_RUA_DirectTransferIEs (transfer_ies false (ch_conn c) ranap)
  | Fault _ => True
  end.
Lemma calm_none h : calm h (Ok []). Proof. split; [auto|intros p b []]. Qed.
Lemma calm_tx h c b d p cr M l e : chan_ok h -> h_cs h = Some c -> reply c b d p cr M l -> sent e = [(PPI_RUA, b)] -> calm h (Ok e).
Proof.
  intros Hok Hc (r&_&Hh) He. unfold calm. rewrite He. split; [auto|]. intros q b' [E|[]]. injection E as <- <-. split; [reflexivity|].
  exists c, r. rewrite (Hok c Hc) in Hh. auto.
Qed.
Lemma calm_quiet h e : sent e = [] -> calm h (Ok e).
Proof. intros H. unfold calm. rewrite H. split; [auto|intros p b []]. Qed.

Lemma mm_dec nas : (2 <= List.length nas)%nat -> (N.land (nth 0 nas 0) 15 =? PDISC_MM)%N = true -> exists mt, mm nas mt.
Proof.
  intros Hl H. destruct nas as [|x [|y r]]; cbn [List.length] in Hl; try lia. exists (y mod 64)%N, x, y, r. split; [reflexivity|]. split; [|reflexivity].
  cbn [nth] in H. change 15%N with (N.ones 4) in H. rewrite land_mod in H. apply N.eqb_eq in H. exact H.
Qed.
Lemma mm_once nas a b : mm nas a -> mm nas b -> a = b.
Proof. intros (x&y&r&->&_&<-) (x'&y'&r'&E&_&<-). congruence. Qed.

(* NAS: the outcome, and when there is none *)
Lemma dtap_calm E h nas : sres_ok E -> chan_ok h -> calm h (rx_dtap E h nas).
Proof.
  intros Hs Hok. destruct (h_cs h) as [c|] eqn:Hc.
  2:{ unfold rx_dtap, rx_mm. rewrite Hc. destruct (_ <? _)%nat; [|destruct (_ =? _)%N]; apply calm_quiet; reflexivity. }
  unfold rx_dtap. destruct (Nat.ltb_spec (List.length nas) 2) as [|Hl]; [apply calm_quiet; reflexivity|].
  destruct (N.land (nth 0 nas 0) 15 =? PDISC_MM)%N eqn:Ep; [|apply calm_quiet; reflexivity].
  destruct (mm_dec nas Hl Ep) as (mt&Hm). pose proof (mm_dtap E h c nas mt Hok Hc Hm) as Hd. unfold rx_dtap in Hd. rewrite Ep in Hd.
  replace (_ <? 2)%nat with false in Hd by (symmetry; apply Nat.ltb_ge; exact Hl). rewrite Hd. clear Hd.
  assert (Hn : forall x, bytes_ok x = true -> (N.of_nat (List.length x) <= 900)%N -> exists b, tx_dt h (r_msg (new_msg_dt 0 x)) = Ok (0%Z, [HSend PPI_RUA b]) /\ nas_reply c b x).
  { intros x H1 H2. exact (tx_fine h c _ _ _ _ _ _ Hc (fine_nas x H1 H2)). }
  destruct (mt =? MT_MM_ID_REQ)%N.
  { destruct (Hn id_resp eq_refl ltac:(vm_compute; discriminate)) as (b&->&Hr). eapply calm_tx; [exact Hok|exact Hc|exact Hr|reflexivity]. }
  destruct (mt =? MT_MM_LOC_UPD_ACCEPT)%N.
  { destruct (rx_lu_accept E nas) as [[[|]|]|f]; cbn [obind told]; try exact I; try (apply calm_quiet; reflexivity).
    destruct (Hn tmsi_realloc_compl eq_refl ltac:(vm_compute; discriminate)) as (b&->&Hr). eapply calm_tx; [exact Hok|exact Hc|exact Hr|reflexivity]. }
  destruct (mt =? MT_MM_LOC_UPD_REJECT)%N; [apply calm_quiet; reflexivity|].
  destruct (mt =? MT_MM_INFO)%N.
  { destruct (rx_mm_info E nas); cbn [obind]; [|exact I]. destruct (tx_fine h c _ _ _ _ _ _ Hc fine_rel_req) as (b&Hx&Hr). unfold tx_iu_release_req. rewrite Hx.
    eapply calm_tx; [exact Hok|exact Hc|exact Hr|reflexivity]. }
  destruct (mt =? MT_MM_AUTH_REQ)%N; [|apply calm_quiet; reflexivity].
  unfold rx_auth_req. destruct (_ <? _)%nat; [apply calm_quiet; reflexivity|].
  destruct (Hs (firstn 16 (skipn 3 nas))) as [S1 S2].
  destruct (Hn (auth_resp (he_sres E (firstn 16 (skipn 3 nas))))) as (b&->&Hr).
  - unfold auth_resp. rewrite firstn_all2 by lia. unfold bytes_ok in *. cbn [List.app forallb]. rewrite S2. reflexivity.
  - unfold auth_resp. rewrite firstn_all2 by lia. rewrite app_length, S1. vm_compute. discriminate.
  - eapply calm_tx; [exact Hok|exact Hc|exact Hr|reflexivity].
Qed.
Lemma dtap_fatal E h nas : sres_ok E -> chan_ok h -> faults (rx_dtap E h nas) <-> h_cs h <> None /\ fatal_nas E nas.
Proof.
  intros Hs Hok. destruct (h_cs h) as [c|] eqn:Hc.
  2:{ split; [|intros [H _]; congruence]. unfold rx_dtap, rx_mm. rewrite Hc. destruct (_ <? _)%nat; [|destruct (_ =? _)%N]; intros (f&H); discriminate. }
  destruct (Nat.ltb_spec (List.length nas) 2) as [Hl|Hl].
  { split; [unfold rx_dtap; replace (_ <? 2)%nat with true by (symmetry; apply Nat.ltb_lt; exact Hl); intros (f&H); discriminate|].
    intros [_ [(x&y&r&->&_)|tp (x&y&r&->&_)|tp (x&y&r&->&_)]]; cbn in Hl; lia. }
  destruct (N.land (nth 0 nas 0) 15 =? PDISC_MM)%N eqn:Ep.
  2:{ split; [unfold rx_dtap; rewrite Ep; replace (_ <? 2)%nat with false by (symmetry; apply Nat.ltb_ge; exact Hl); intros (f&H); discriminate|].
      assert (Hno : forall mt, ~ mm nas mt).
      { intros mt (x&y&r&->&Hx&_). cbn [nth] in Ep. change 15%N with (N.ones 4) in Ep. rewrite land_mod in Ep. change (2 ^ 4)%N with 16%N in Ep. rewrite Hx in Ep. discriminate. }
      intros [_ [H|tp H|tp H]]; destruct (Hno _ H). }
  destruct (mm_dec nas Hl Ep) as (mt&Hm). rewrite (mm_dtap E h c nas mt Hok Hc Hm).
  assert (Hn : forall x, bytes_ok x = true -> (N.of_nat (List.length x) <= 900)%N -> exists b, tx_dt h (r_msg (new_msg_dt 0 x)) = Ok (0%Z, [HSend PPI_RUA b]) /\ nas_reply c b x).
  { intros x H1 H2. exact (tx_fine h c _ _ _ _ _ _ Hc (fine_nas x H1 H2)). }
  assert (Hoff : forall k, (mt =? k)%N = false -> mm nas k -> False).
  { intros k Hk H. apply N.eqb_neq in Hk. apply Hk. exact (mm_once _ _ _ Hm H). }
  destruct (N.eqb_spec mt MT_MM_LOC_UPD_ACCEPT) as [->|N1].
  { types. unfold rx_lu_accept, told, IE_MOBILE_ID, IE_NAME_SHORT. split.
    - intros (f&H). split; [discriminate|]. destruct (Nat.ltb_spec (List.length nas) 7) as [H7|H7]; [exact (fatal_short _ _ Hm H7)|].
      destruct (he_tlv E (skipn 2 nas)) as [tp|] eqn:Et; [|discriminate]. destruct (tp 0x17%N) as [i|] eqn:Ei.
      + apply (fatal_accept _ _ tp Hm H7 Et); [congruence|]. destruct (tp 0x45%N) as [[|t r]|]; auto. exfalso.
        cbn [obind] in H. destruct (N.land t 15 =? MI_TYPE_TMSI)%N; [|discriminate]. destruct (Hn tmsi_realloc_compl eq_refl ltac:(vm_compute; discriminate)) as (b&Hb&_). rewrite Hb in H. discriminate.
      + exfalso. cbn [obind] in H. destruct (he_tmsi E); [|discriminate]. destruct (Hn tmsi_realloc_compl eq_refl ltac:(vm_compute; discriminate)) as (b&Hb&_). rewrite Hb in H. discriminate.
    - intros [_ [_ H7|tp _ H7 Et Hi Hx|tp H _ _]].
      + replace (_ <? 7)%nat with true by (symmetry; apply Nat.ltb_lt; exact H7). eexists. reflexivity.
      + replace (_ <? 7)%nat with false by (symmetry; apply Nat.ltb_ge; exact H7). rewrite Et. destruct (tp 0x17%N); [|congruence].
        destruct Hx as [-> | ->]; eexists; reflexivity.
      + destruct (Hoff 0x32%N eq_refl H). }
  destruct (N.eqb_spec mt MT_MM_INFO) as [->|N2].
  { types. unfold rx_mm_info, IE_NAME_SHORT, IE_NAME_LONG. split.
    - intros (f&H). split; [discriminate|]. destruct (he_tlv E (skipn 2 nas)) as [tp|] eqn:Et.
      + apply (fatal_info _ _ tp Hm Et). destruct (tp 0x45%N) as [[|? ?]|], (tp 0x43%N) as [[|? ?]|]; auto; exfalso;
          cbn [obind] in H; destruct (tx_fine h c _ _ _ _ _ _ Hc fine_rel_req) as (b&Hx&Hr); unfold tx_iu_release_req in H; rewrite Hx in H; discriminate.
      + exfalso. cbn [obind] in H; destruct (tx_fine h c _ _ _ _ _ _ Hc fine_rel_req) as (b&Hx&Hr); unfold tx_iu_release_req in H; rewrite Hx in H; discriminate.
    - intros [_ [H _|tp H _ _ _ _|tp _ Et Hx]]; try (destruct (Hoff 0x02%N eq_refl H)). rewrite Et.
      destruct Hx as [-> | ->]; [eexists; reflexivity|]. destruct (tp 0x45%N) as [[|? ?]|]; eexists; reflexivity. }
  assert (Hnf : ~ fatal_nas E nas).
  { intros [H _|tp H _ _ _ _|tp H _ _]; [exact (N1 (mm_once _ _ _ Hm H))|exact (N1 (mm_once _ _ _ Hm H))|exact (N2 (mm_once _ _ _ Hm H))]. }
  split; [|tauto]. intros (f&H). exfalso. revert H.
  destruct (mt =? MT_MM_ID_REQ)%N.
  { destruct (Hn id_resp eq_refl ltac:(vm_compute; discriminate)) as (b&->&Hr). discriminate. }
  destruct (mt =? MT_MM_LOC_UPD_REJECT)%N; [discriminate|].
  destruct (mt =? MT_MM_AUTH_REQ)%N; [|discriminate].
  unfold rx_auth_req. destruct (_ <? _)%nat; [discriminate|].
  destruct (Hs (firstn 16 (skipn 3 nas))) as [S1 S2].
  destruct (Hn (auth_resp (he_sres E (firstn 16 (skipn 3 nas))))) as (b&->&Hr); [| |discriminate].
  - unfold auth_resp. rewrite firstn_all2 by lia. unfold bytes_ok in *. cbn [List.app forallb]. rewrite S2. reflexivity.
  - unfold auth_resp. rewrite firstn_all2 by lia. rewrite app_length, S1. vm_compute. discriminate.
Qed.
(* the messages of the procedures the emulator looks at *)
Lemma decoded_dt d m : decoded_as cn_co d 20 = Some m -> d = 1%N /\ m = M_RANAP_DirectTransferIEs.
Proof.
  unfold decoded_as, cn_co. cbn [dec_tab]. unfold PR_initiatingMessage, PR_successfulOutcome, PR_unsuccessfulOutcome, PR_outcome.
  destruct (N.eqb_spec d 1) as [->|]; [intros H; injection H as <-; auto|]. destruct (d =? 2)%N; [discriminate|]. destruct (d =? 3)%N; [discriminate|]. destruct (d =? 4)%N; discriminate.
Qed.
Lemma decoded_sec d m : decoded_as cn_co d 6 = Some m ->
  d = 1%N /\ m = M_RANAP_SecurityModeCommandIEs \/ d = 2%N /\ m = M_RANAP_SecurityModeCompleteIEs \/ d = 3%N /\ m = M_RANAP_SecurityModeRejectIEs.
Proof.
  unfold decoded_as, cn_co. cbn [dec_tab]. unfold PR_initiatingMessage, PR_successfulOutcome, PR_unsuccessfulOutcome, PR_outcome.
  destruct (N.eqb_spec d 1) as [->|]; [intros H; injection H as <-; auto|].
  destruct (N.eqb_spec d 2) as [->|]; [intros H; injection H as <-; auto|].
  destruct (N.eqb_spec d 3) as [->|]; [intros H; injection H as <-; auto|]. destruct (d =? 4)%N; discriminate.
Qed.
Lemma alg_range m s l : m = M_RANAP_SecurityModeCommandIEs -> In m ranap_msgs -> sound m s ->
  comp 0 (field m s "id-IntegrityProtectionInformation") = Some (VList l) -> forall a r, l = VInt a :: r -> (0 <= a <= 15)%Z.
Proof.
  intros Hm Hin Hs Hf a r ->. destruct (field m s "id-IntegrityProtectionInformation") as [v|] eqn:Ef; [|discriminate]. subst m.
  pose proof (field_valid _ s 0 (mkRow "id-IntegrityProtectionInformation" 12 0 "IntegrityProtectionInformation" T_RANAP_IntegrityProtectionInformation Mandatory) Hs (once_ranap _ Hin) eq_refl _ Ef) as Hv.
  inversion Hv as [| | | | | | | |e root adds vr va Hl1 Hl2 Hmm Hvv _ _| |]; subst. destruct vr as [|f vr]; [discriminate|]. cbn [comp nth_error] in Hf. subst f.
  pose proof (Hvv 0%nat _ _ _ eq_refl eq_refl) as H1.
  inversion H1 as [| | | | | | |c0 t l Hl Hi| | | ]; subst. pose proof (Hi (VInt a) (or_introl eq_refl)) as H2. inversion H2 as [| |c0 z Hal| | | | | | | |]; subst.
  unfold allowed in Hal. cbn in Hal. lia.
Qed.
Lemma ranap_calm E h ranap : sres_ok E -> chan_ok h -> calm h (each (dt_handle_ranap E h) (x_calls (rx_cn_co ranap))).
Proof.
  intros Hs Hok. destruct (call_co ranap) as [->|(d&p&cr&m&s&Hc&Hd&Hm&Hso)]; [apply calm_none|]. rewrite Hc, each_one. unfold dt_handle_ranap. cbn [g_body g_proc].
  assert (Htx : forall x d p cr M l, fine x d p cr M l -> calm h (do p <- tx_dt h x ;; Ok (snd p))).
  { intros x d' p' cr' M l Hf. destruct (h_cs h) as [c|] eqn:Hcs.
    - destruct (tx_fine h c _ _ _ _ _ _ Hcs Hf) as (b&->&Hr). eapply calm_tx; [exact Hok|exact Hcs|exact Hr|reflexivity].
    - unfold tx_dt. rewrite Hcs. apply calm_none. }
  destruct (N.eqb_spec p 20) as [->|]; [exact (dtap_calm E h _ Hs Hok)|].
  destruct (N.eqb_spec p 6) as [->|].
  { unfold first_alg. destruct (decoded_sec d m Hd) as [[-> ->]|[[-> ->]|[-> ->]]].
    - change (String.eqb (m_key M_RANAP_SecurityModeCommandIEs) "SecurityModeCommandIEs") with true. cbv iota.
      destruct (comp 0 _) as [v|] eqn:Ec; [|apply calm_none]. destruct v as [| | | | | | |[|[| |a| | | | | |] r]|]; try apply calm_none. cbn [obind].
      eapply Htx. apply fine_sec_compl. exact (alg_range _ s _ eq_refl Hm Hso Ec a r eq_refl).
    - change (String.eqb (m_key M_RANAP_SecurityModeCompleteIEs) "SecurityModeCommandIEs") with false. cbv iota. destruct (_ && _)%bool; [exact I|apply calm_none].
    - change (String.eqb (m_key M_RANAP_SecurityModeRejectIEs) "SecurityModeCommandIEs") with false. cbv iota. destruct (_ && _)%bool; [exact I|apply calm_none]. }
  destruct (N.eqb_spec p 1) as [->|]; [|apply calm_none]. eapply Htx. exact fine_rel_compl.
Qed.
Lemma nas_field ranap nas d cr m s : x_calls (rx_cn_co ranap) = [mkRmsg d 20 cr (Some (m, s))] -> decoded_as cn_co d 20 = Some m ->
  nas_in ranap nas <-> field m s "id-NAS-PDU" = Some (VOcts nas).
Proof.
  intros Hc Hd. destruct (decoded_dt d m Hd) as [-> ->].
  assert (Hca : carries (rx_cn_co ranap) 1 20 M_RANAP_DirectTransferIEs s) by (exists cr; exact Hc).
  pose proof (carried_field _ _ _ _ _ "id-NAS-PDU" Hca) as Hf. split.
  - intros (s'&(cr'&Hc')&Hn). rewrite Hc in Hc'. injection Hc' as <- <-. rewrite Hn in Hf. destruct (field _ s _); [|discriminate]. cbn [option_map] in Hf. congruence.
  - intros H. exists s. split; [exact Hca|]. rewrite Hf, H. reflexivity.
Qed.
Lemma carries_proc ranap d p m s d' p' cr b : x_calls (rx_cn_co ranap) = [mkRmsg d' p' cr b] -> carries (rx_cn_co ranap) d p m s -> d = d' /\ p = p' /\ b = Some (m, s).
Proof. intros H (cr'&H'). rewrite H in H'. injection H' as <- <- _ <-. auto. Qed.
Lemma dtap_nil E h : faults (rx_dtap E h []) -> False.
Proof. intros (f&H). discriminate. Qed.
Lemma ranap_fatal E h ranap : sres_ok E -> chan_ok h -> faults (each (dt_handle_ranap E h) (x_calls (rx_cn_co ranap))) <-> fatal_ranap E h ranap.
Proof.
  intros Hs Hok. destruct (call_co ranap) as [Hn|(d&p&cr&m&s&Hc&Hd&Hm&Hso)].
  { split; [rewrite Hn; intros (f&H); discriminate|]. intros [nas _ (s&(cr&H)&_) _|s z m _ (cr&H) _ _|s i z m _ (cr&H) _ _]; congruence. }
  rewrite Hc, each_one. unfold dt_handle_ranap. cbn [g_body g_proc].
  assert (Htx : forall x d p cr M l, fine x d p cr M l -> faults (do p <- tx_dt h x ;; Ok (snd p)) -> False).
  { intros x d' p' cr' M l Hf (f&H). destruct (h_cs h) as [c|] eqn:Hcs.
    - destruct (tx_fine h c _ _ _ _ _ _ Hcs Hf) as (b&Hb&_). rewrite Hb in H. discriminate.
    - unfold tx_dt in H. rewrite Hcs in H. discriminate. }
  destruct (N.eqb_spec p 20) as [->|N20].
  { destruct (decoded_dt d m Hd) as [-> ->]. split.
    - intros Hf. destruct (field M_RANAP_DirectTransferIEs s "id-NAS-PDU") as [v|] eqn:Ef; [|destruct (dtap_nil E h Hf)].
      pose proof (field_valid _ s 0 (mkRow "id-NAS-PDU" 16 1 "NAS-PDU" T_RANAP_NAS_PDU Mandatory) Hso (once_ranap _ Hm) eq_refl _ Ef) as Hv.
      apply octs_inv in Hv. destruct Hv as (nas&->&_). cbn [c_octs] in Hf. apply (dtap_fatal E h nas Hs Hok) in Hf. destruct Hf as [H1 H2].
      apply (fatal_by_nas E h ranap nas H1); [|exact H2]. apply (nas_field ranap nas _ _ _ _ Hc Hd). exact Ef.
    - intros [nas H1 Hn H2|s' z m' _ Hca _ _|s' i z m' _ Hca _ _].
      + apply (nas_field ranap nas _ _ _ _ Hc Hd) in Hn. rewrite Hn. cbn [c_octs]. apply (dtap_fatal E h nas Hs Hok). auto.
      + destruct (carries_proc _ _ _ _ _ _ _ _ _ Hc Hca) as (_&E0&_). discriminate.
      + destruct (carries_proc _ _ _ _ _ _ _ _ _ Hc Hca) as (_&E0&_). discriminate. }
  assert (Nn : forall nas, ~ nas_in ranap nas).
  { intros nas (s'&Hca&_). destruct (carries_proc _ _ _ _ _ _ _ _ _ Hc Hca) as (_&E0&_). congruence. }
  destruct (N.eqb_spec p 6) as [->|N6].
  { unfold first_alg. destruct (decoded_sec d m Hd) as [[-> ->]|[[-> ->]|[-> ->]]].
    - change (String.eqb (m_key M_RANAP_SecurityModeCommandIEs) "SecurityModeCommandIEs") with true. cbv iota. split.
      + intros Hf. exfalso. destruct (comp 0 _) as [v|] eqn:Ec; [|destruct Hf; discriminate]. destruct v as [| | | | | | |[|[| |a| | | | | |] r]|]; try (destruct Hf; discriminate). cbn [obind] in Hf.
        eapply Htx; [|exact Hf]. apply fine_sec_compl. exact (alg_range _ s _ eq_refl Hm Hso Ec a r eq_refl).
      + intros [nas H1 Hn H2|s' z m' _ Hca _ _|s' i z m' _ Hca _ _]; [destruct (Nn _ Hn)| |]; destruct (carries_proc _ _ _ _ _ _ _ _ _ Hc Hca) as (E0&_&_); discriminate.
    - change (String.eqb (m_key M_RANAP_SecurityModeCompleteIEs) "SecurityModeCommandIEs") with false. change (String.eqb (m_key M_RANAP_SecurityModeCompleteIEs) "SecurityModeCompleteIEs") with true. cbv iota.
      assert (Hca : carries (rx_cn_co ranap) 2 6 M_RANAP_SecurityModeCompleteIEs s) by (exists cr; exact Hc).
      pose proof (carried_field _ _ _ _ _ "id-ChosenEncryptionAlgorithm" Hca) as Hf. split.
      + intros (f&H). destruct (he_le E) eqn:Ele; [|discriminate]. cbn [andb] in H. destruct (field _ s "id-ChosenEncryptionAlgorithm") as [v|] eqn:Ef; [|discriminate].
        pose proof (field_valid _ s 1 (mkRow "id-ChosenEncryptionAlgorithm" 5 1 "ChosenEncryptionAlgorithm" T_RANAP_ChosenEncryptionAlgorithm Optional) Hso (once_ranap _ Hm) eq_refl _ Ef) as Hv.
        inversion Hv as [| |c0 z Hal| | | | | | | |]; subst. cbn [c_int] in H. apply (fatal_complete E h ranap s z Ele Hca); [exact Hf|].
        destruct (N.leb_spec 1 (Z.to_N z)); [lia|discriminate].
      + intros [nas H1 Hn H2|s' z m' Ele Hca' Hz Hge|s' i z m' _ Hca' _ _]; [destruct (Nn _ Hn)| |].
        * destruct (carries_proc _ _ _ _ _ _ _ _ _ Hc Hca') as (_&_&E0). injection E0 as <-. subst m'. rewrite Hz in Hf. destruct (field _ s _) as [v|]; [|discriminate].
          cbn [option_map] in Hf. injection Hf as <-. rewrite Ele. cbn [c_int andb]. destruct (N.leb_spec 1 (Z.to_N z)); [eexists; reflexivity|lia].
        * destruct (carries_proc _ _ _ _ _ _ _ _ _ Hc Hca') as (E0&_&_); discriminate.
    - change (String.eqb (m_key M_RANAP_SecurityModeRejectIEs) "SecurityModeCommandIEs") with false. change (String.eqb (m_key M_RANAP_SecurityModeRejectIEs) "SecurityModeCompleteIEs") with false. cbv iota.
      assert (Hca : carries (rx_cn_co ranap) 3 6 M_RANAP_SecurityModeRejectIEs s) by (exists cr; exact Hc).
      pose proof (carried_field _ _ _ _ _ "id-Cause" Hca) as Hf. split.
      + intros (f&H). destruct (he_le E) eqn:Ele; [|discriminate]. cbn [andb] in H. destruct (field _ s "id-Cause") as [v|] eqn:Ef; [|discriminate].
        pose proof (field_valid _ s 0 (mkRow "id-Cause" 4 1 "Cause" T_RANAP_Cause Mandatory) Hso (once_ranap _ Hm) eq_refl _ Ef) as Hv.
        destruct (cause_inv v Hv) as (i&z&->&Hz). cbn [c_cause c_int IuClient.c_value] in H. apply (fatal_reject E h ranap s i z Ele Hca); [exact Hf|].
        destruct (N.leb_spec 1 (Z.to_N z)); [lia|discriminate].
      + intros [nas H1 Hn H2|s' z m' _ Hca' _ _|s' i z m' Ele Hca' Hz Hge]; [destruct (Nn _ Hn)| |].
        * destruct (carries_proc _ _ _ _ _ _ _ _ _ Hc Hca') as (E0&_&_); discriminate.
        * destruct (carries_proc _ _ _ _ _ _ _ _ _ Hc Hca') as (_&_&E0). injection E0 as <-. subst m'. rewrite Hz in Hf. destruct (field _ s _) as [v|]; [|discriminate].
          cbn [option_map] in Hf. injection Hf as <-. rewrite Ele. cbn [c_int c_cause IuClient.c_value andb]. destruct (N.leb_spec 1 (Z.to_N z)); [eexists; reflexivity|lia]. }
  assert (Nf : ~ fatal_ranap E h ranap).
  { intros [nas H1 Hn H2|s' z m' _ Hca _ _|s' i z m' _ Hca _ _]; [destruct (Nn _ Hn)| |]; destruct (carries_proc _ _ _ _ _ _ _ _ _ Hc Hca) as (_&E0&_); congruence. }
  split; [|tauto]. intros Hf. exfalso. destruct (p =? 1)%N; [|destruct Hf; discriminate]. eapply Htx; [exact fine_rel_compl|exact Hf].
Qed.

(* paging never faults *)
Lemma cl_total ranap : exists e, each cl_handle_ranap (x_calls (rx_cn_cl ranap)) = Ok e /\ sent e = [].
Proof.
  destruct (call_cl ranap) as [->|[(d&p&cr&m&s&->&Hd&Hm&Hso)|(d&p&cr&->&_)]]; [eexists; split; reflexivity| |].
  - rewrite each_one. unfold cl_handle_ranap. cbn [g_body g_proc]. destruct (N.eqb_spec p 14) as [->|]; [|eexists; split; reflexivity].
    assert (Hmm : m = M_RANAP_PagingIEs).
    { unfold decoded_as, cn_cl in Hd. cbn [dec_tab] in Hd. unfold PR_initiatingMessage, PR_successfulOutcome in Hd. destruct (d =? 1)%N; [injection Hd as <-; reflexivity|]. destruct (d =? 2)%N; discriminate. }
    subst m. destruct (field M_RANAP_PagingIEs s "id-PermanentNAS-UE-ID") as [v|] eqn:Ef; [|eexists; split; reflexivity].
    pose proof (field_valid _ s 1 (mkRow "id-PermanentNAS-UE-ID" 23 1 "PermanentNAS-UE-ID" T_RANAP_PermanentNAS_UE_ID Mandatory) Hso (once_ranap _ Hm) eq_refl _ Ef) as Hv.
    destruct v as [| | | | | | | |i v]; try (eexists; split; reflexivity). destruct i; [|eexists; split; reflexivity]. destruct v; try (eexists; split; reflexivity).
    rewrite (bcd_text_l l (perm_octs l Hv)). eexists. split; reflexivity.
  - rewrite each_one. unfold cl_handle_ranap. cbn [g_body g_proc]. destruct (p =? 14)%N; eexists; split; reflexivity.
Qed.
Lemma rua_ok_tab : tab_ok M_RUA_DirectTransferIEs = true /\ tab_ok M_RUA_ConnectionlessTransferIEs = true.
Proof. split; vm_compute; reflexivity. Qed.
Lemma rua_payload o : d_ok (decode_msg M_RUA_DirectTransferIEs o) = true ->
  assoc "id-RANAP-Message" (shown M_RUA_DirectTransferIEs (d_ies (decode_msg M_RUA_DirectTransferIEs o))) =
    option_map Some (field M_RUA_DirectTransferIEs (d_ies (decode_msg M_RUA_DirectTransferIEs o)) "id-RANAP-Message").
Proof. intros H. apply shown_field; [reflexivity|]. apply sound_of; [apply rua_ok_tab|reflexivity|exact H]. Qed.
Lemma no_ranap E h : each (dt_handle_ranap E h) (x_calls (rx_cn_co [])) = Ok [].
Proof. reflexivity. Qed.
Lemma fatal_empty E h : ~ fatal_ranap E h [].
Proof. intros [nas _ (s&(cr&H)&_) _|s z m _ (cr&H) _ _|s i z m _ (cr&H) _ _]; vm_compute in H; discriminate. Qed.
Lemma rx_fatal E h ppid data : sres_ok E -> chan_ok h -> faults (read_cb E h (RData ppid data)) <-> fatal E h ppid data.
Proof.
  intros Hs Hok. unfold read_cb. destruct (N.eqb_spec ppid PPI_HNBAP) as [->|N1]; [|destruct (N.eqb_spec ppid PPI_RUA) as [->|N2]].
  - unfold hnbap_rx. split.
    + intros (f&H). destruct (pdu_in T_HNBAP_HNBAP_PDU data) as [[[[d p] cr] o]|] eqn:Ep; [|discriminate].
      destruct (N.eqb_spec p 1) as [->|]; [discriminate|]. destruct (N.eqb_spec p 3) as [->|]; [|discriminate]. unfold rx_ue_register_acc in H. revert H.
      set (m := M_HNBAP_UERegisterAcceptIEs). destruct (d_ok (decode_msg m o)) eqn:Ed; [|discriminate].
      assert (Hso : sound m (d_ies (decode_msg m o))) by (apply sound_of; [vm_compute; reflexivity|vm_compute; reflexivity|exact Ed]).
      destruct (field m _ "id-UE-Identity") as [v|] eqn:Ei; [|discriminate]. destruct v as [| | | | | | | |[|i] v]; try discriminate. destruct v as [| | | | |imsi| | |]; try discriminate.
      assert (Hb : bytes_ok imsi = true).
      { pose proof (field_valid m _ 0 (mkRow "id-UE-Identity" 5 0 "UE-Identity" T_HNBAP_UE_Identity Mandatory) Hso eq_refl eq_refl _ Ei) as Hv.
        apply bytes_of. inversion Hv as [| | | | | | | | |e root more i t w Hn Hw|root more i t w Hn Hw]; subst.
        injection Hn as <-. apply octs_inv in Hw. destruct Hw as (o'&E0&_&Hx). injection E0 as <-. exact Hx. }
      destruct (field m _ "id-Context-ID") as [v|] eqn:Ec.
      * pose proof (field_valid m _ 1 (mkRow "id-Context-ID" 4 0 "Context-ID" T_HNBAP_Context_ID Mandatory) Hso eq_refl eq_refl _ Ec) as Hv.
        inversion Hv as [| | | | |c0 l Ha| | | | | ]; subst. unfold allowed in Ha. cbn in Ha. replace (List.length l =? 24)%nat with true by (symmetry; apply Nat.eqb_eq; lia).
        rewrite (bcd_text_l imsi Hb). discriminate.
      * intros _. eapply (fatal_hnbap E h data d cr o imsi Ep Ed); rewrite (shown_field m _ eq_refl Hso); [rewrite Ei|rewrite Ec]; reflexivity.
    + intros H. inversion H as [|data' d cr o imsi Ep r Hd Hi Hc]; subst. rewrite Ep. change (3 =? 1)%N with false. change (3 =? 3)%N with true. cbv iota.
      unfold rx_ue_register_acc. subst r. set (m := M_HNBAP_UERegisterAcceptIEs) in *. rewrite Hd.
      assert (Hso : sound m (d_ies (decode_msg m o))) by (apply sound_of; [vm_compute; reflexivity|vm_compute; reflexivity|exact Hd]).
      rewrite (shown_field m _ eq_refl Hso) in Hi, Hc. destruct (field m _ "id-UE-Identity"); [|discriminate]. cbn [option_map] in Hi. injection Hi as ->.
      destruct (field m _ "id-Context-ID"); [discriminate|]. eexists. reflexivity.
  - unfold rua_rx. split.
    + intros (f&H). destruct (pdu_in T_RUA_RUA_PDU data) as [[[[d p] cr] o]|] eqn:Ep; [|discriminate]. unfold rua_handle in H.
      destruct (N.eqb_spec p 4) as [->|].
      { destruct (d_ok _); [|discriminate]. destruct (cl_total (c_octs (field M_RUA_ConnectionlessTransferIEs (d_ies (decode_msg M_RUA_ConnectionlessTransferIEs o)) "id-RANAP-Message"))) as (e&He&_).
        rewrite He in H. cbn [obind] in H. destruct (no_uaf_cl (c_octs (field M_RUA_ConnectionlessTransferIEs (d_ies (decode_msg M_RUA_ConnectionlessTransferIEs o)) "id-RANAP-Message"))) as (fr&Hf). rewrite Hf in H. discriminate. }
      destruct (N.eqb_spec p 2) as [->|]; [|discriminate]. destruct (d_ok _) eqn:Ed; [|discriminate]. pose proof (rua_payload o Ed) as Hp.
      destruct (field M_RUA_DirectTransferIEs _ "id-RANAP-Message") as [v|] eqn:Ef.
      * pose proof (field_valid M_RUA_DirectTransferIEs _ 2 (mkRow "id-RANAP-Message" 4 0 "RANAP-Message" T_RUA_RANAP_Message Mandatory) (sound_of _ o (proj1 rua_ok_tab) eq_refl Ed) eq_refl eq_refl _ Ef) as Hv.
        apply octs_inv in Hv. destruct Hv as (ranap&->&_). cbn [c_octs] in H.
        destruct (no_uaf_co ranap) as (fr&Hf). rewrite Hf in H.
        assert (Hx : faults (each (dt_handle_ranap E h) (x_calls (rx_cn_co ranap)))) by (destruct (each _ _) as [e|f']; [discriminate|exists f'; reflexivity]).
        apply (ranap_fatal E h ranap Hs Hok) in Hx. exact (fatal_rua E h data d cr o ranap Ep Ed Hp Hx).
      * cbn [c_octs] in H. rewrite no_ranap in H. cbn [obind] in H. destruct (no_uaf_co []) as (fr&Hf). rewrite Hf in H. discriminate.
    + intros H. inversion H as [data' d cr o ranap Ep r Hd Hi Hr|]; subst. rewrite Ep. change (2 =? 4)%N with false. change (2 =? 2)%N with true. cbv iota.
      unfold rua_handle. subst r. rewrite Hd. rewrite (rua_payload o Hd) in Hi. destruct (field M_RUA_DirectTransferIEs _ "id-RANAP-Message"); [|discriminate].
      cbn [option_map] in Hi. injection Hi as ->. cbn [c_octs]. apply (ranap_fatal E h ranap Hs Hok) in Hr. destruct Hr as (f&->). eexists. reflexivity.
  - split; [intros (f&H); discriminate|]. intros H. change PPI_RUA with 19%N in N2. change PPI_HNBAP with 20%N in N1. inversion H; subst; congruence.
Qed.

(* at most one message is sent in return, on the channel *)
Lemma rx_calm E h r y : sres_ok E -> chan_ok h -> read_cb E h r = Ok y -> calm h (Ok (y_eff y)).
Proof.
  intros Hs Hok. destruct r as [rc| | |ppid data]; cbn [read_cb]; try (intros H; injection H as <-; apply calm_quiet; reflexivity).
  destruct (ppid =? PPI_HNBAP)%N; [|destruct (ppid =? PPI_RUA)%N].
  - unfold hnbap_rx. destruct (pdu_in _ _) as [[[[d p] cr] o]|]; [|intros H; injection H as <-; apply calm_none].
    destruct (p =? 1)%N; [intros H; injection H as <-; apply calm_quiet; reflexivity|]. destruct (p =? 3)%N; [|intros H; injection H as <-; apply calm_none].
    unfold rx_ue_register_acc. destruct (d_ok _); [|intros H; injection H as <-; apply calm_none].
    destruct (field _ _ "id-UE-Identity") as [[| | | | | | | |[|i] [| | | | |imsi| | |]]|]; try (intros H; injection H as <-; apply calm_none).
    destruct (field _ _ "id-Context-ID") as [[| | | |b| | | |]|]; try discriminate. destruct (_ =? _)%nat; [|discriminate].
    destruct (bcd_text imsi); [|discriminate]. intros H; injection H as <-; apply calm_quiet; reflexivity.
  - unfold rua_rx. destruct (pdu_in _ _) as [[[[d p] cr] o]|]; [|intros H; injection H as <-; apply calm_none]. unfold rua_handle.
    destruct (p =? 4)%N.
    { destruct (d_ok _); [|intros H; injection H as <-; apply calm_none]. match goal with |- context [rx_cn_cl ?x] => destruct (cl_total x) as (e&He&Hn); rewrite He; destruct (x_freed (rx_cn_cl x)) end; [|discriminate].
      intros H; injection H as <-. apply calm_quiet. exact Hn. }
    destruct (p =? 2)%N; [|intros H; injection H as <-; apply calm_none]. destruct (d_ok _); [|intros H; injection H as <-; apply calm_none].
    match goal with |- context [rx_cn_co ?x] => pose proof (ranap_calm E h x Hs Hok) as Hc; destruct (each _ (x_calls (rx_cn_co x))); [|discriminate]; destruct (x_freed (rx_cn_co x)) end; [|discriminate].
    intros H; injection H as <-. exact Hc.
  - intros H; injection H as <-. apply calm_none.
Qed.

(* ---------------- HNBAP ---------------- *)
Lemma msgs_sizes_b : forallb (fun m => forallb (fun r => sizes_ok (r_ty r)) (m_rows m)) all_msgs = true.
Proof. vm_compute. reflexivity. Qed.
Lemma msgs_sizes m : In m all_msgs -> forallb (fun r => sizes_ok (r_ty r)) (m_rows m) = true.
Proof. exact (proj1 (forallb_forall _ _) msgs_sizes_b m). Qed.
Lemma hnbap_sound b p m s : In m all_msgs -> hnbap_in b p m s -> sound m s.
Proof.
  intros Hm (d&cr&o&lost&_&Hd). pose proof (sound_of m o) as H. rewrite Hd in H. apply H; [exact (all_ok m Hm)| |reflexivity].
  exact (msgs_sizes m Hm).
Qed.
Lemma registered_l E h b s z : let m := M_HNBAP_HNBRegisterAcceptIEs in hnbap_in b 1 m s -> has_ie m s "id-RNC-ID" (VInt z) ->
  exists a f, read_cb E h (RData PPI_HNBAP b) =
    Ok (mkHres 0 (mkHnb (Z.to_N z) (h_ctx h) (h_cs h) (h_next h)) [HRegistered (Z.to_N z)] a f).
Proof.
  intros m Hin Hi. assert (Hso : sound m s) by (apply (hnbap_sound b 1); [member 111|exact Hin]). unfold has_ie in Hi. rewrite (shown_field m s eq_refl Hso) in Hi.
  destruct (field m s "id-RNC-ID") as [v|] eqn:Ev; [|discriminate]. cbn [option_map] in Hi. injection Hi as ->.
  pose proof (field_valid m s 0 (mkRow "id-RNC-ID" 14 0 "RNC-ID" T_HNBAP_RNC_ID Mandatory) Hso eq_refl eq_refl _ Ev) as Hv.
  inversion Hv as [| |c' z' Ha| | | | | | | |]; subst. unfold allowed in Ha. cbn in Ha.
  destruct Hin as (d&cr&o&lost&Hp&Hd). unfold read_cb. change (PPI_HNBAP =? PPI_HNBAP)%N with true. cbv iota. unfold hnbap_rx. rewrite Hp.
  change (1 =? 1)%N with true. cbv iota. unfold rx_hnb_register_acc. fold m. rewrite Hd. cbn [d_ies obind y_rc y_hnb y_eff y_alloc y_freed]. rewrite Ev. cbn [c_int].
  replace ((Z.to_N z mod 65536)%N) with (Z.to_N z) by (symmetry; apply N.mod_small; lia). do 2 eexists. reflexivity.
Qed.
Lemma any_register_l E h b d cr o : pdu_in T_HNBAP_HNBAP_PDU b = Some (d, 1%N, cr, o) ->
  exists rnc a f, read_cb E h (RData PPI_HNBAP b) = Ok (mkHres 0 (mkHnb rnc (h_ctx h) (h_cs h) (h_next h)) [HRegistered rnc] a f).
Proof. intros Hp. unfold read_cb, hnbap_rx. change (PPI_HNBAP =? PPI_HNBAP)%N with true. cbv iota. rewrite Hp. do 3 eexists. reflexivity. Qed.
Lemma ue_accepted_l E h b s imsi bits : let m := M_HNBAP_UERegisterAcceptIEs in hnbap_in b 3 m s ->
  has_ie m s "id-UE-Identity" (VChoice 0 (VOcts imsi)) -> has_ie m s "id-Context-ID" (VBits bits) ->
  exists a f, read_cb E h (RData PPI_HNBAP b) =
    Ok (mkHres 0 (mkHnb (h_rnc h) (from_bits 0 bits) (h_cs h) (h_next h)) [HUe (firstn 15 (packed_text imsi)) (from_bits 0 bits)] a f).
Proof.
  intros m Hin Hi Hc. assert (Hso : sound m s) by (apply (hnbap_sound b 3); [member 115|exact Hin]). unfold has_ie in Hi, Hc. rewrite (shown_field m s eq_refl Hso) in Hi, Hc.
  destruct (field m s "id-UE-Identity") as [v|] eqn:Ev; [|discriminate]. cbn [option_map] in Hi. injection Hi as ->.
  destruct (field m s "id-Context-ID") as [v|] eqn:Ec; [|discriminate]. cbn [option_map] in Hc. injection Hc as ->.
  assert (Hb : bytes_ok imsi = true).
  { pose proof (field_valid m _ 0 (mkRow "id-UE-Identity" 5 0 "UE-Identity" T_HNBAP_UE_Identity Mandatory) Hso eq_refl eq_refl _ Ev) as Hv.
    apply bytes_of. inversion Hv as [| | | | | | | | |e root more i t w Hn Hw|root more i t w Hn Hw]; subst.
    injection Hn as <-. apply octs_inv in Hw. destruct Hw as (o'&E0&_&Hx). injection E0 as <-. exact Hx. }
  pose proof (field_valid m _ 1 (mkRow "id-Context-ID" 4 0 "Context-ID" T_HNBAP_Context_ID Mandatory) Hso eq_refl eq_refl _ Ec) as Hv.
  inversion Hv as [| | | | |c0 l Ha| | | | | ]; subst. unfold allowed in Ha. cbn in Ha.
  destruct Hin as (d&cr&o&lost&Hp&Hd). unfold read_cb. change (PPI_HNBAP =? PPI_HNBAP)%N with true. cbv iota. unfold hnbap_rx. rewrite Hp.
  change (3 =? 1)%N with false. change (3 =? 3)%N with true. cbv iota. unfold rx_ue_register_acc. fold m. rewrite Hd. cbn [d_ok d_ies d_lost]. rewrite Ev, Ec.
  replace (List.length bits =? 24)%nat with true by (symmetry; apply Nat.eqb_eq; lia). rewrite (bcd_text_l imsi Hb). do 2 eexists. reflexivity.
Qed.
Lemma hnbap_other_l E h b d p cr o : pdu_in T_HNBAP_HNBAP_PDU b = Some (d, p, cr, o) -> p <> 1%N -> p <> 3%N ->
  exists a f, read_cb E h (RData PPI_HNBAP b) = Ok (mkHres (-28) h [] a f).
Proof.
  intros Hp H1 H3. unfold read_cb, hnbap_rx. change (PPI_HNBAP =? PPI_HNBAP)%N with true. cbv iota. rewrite Hp.
  rewrite (proj2 (N.eqb_neq _ _) H1), (proj2 (N.eqb_neq _ _) H3). do 2 eexists. reflexivity.
Qed.

(* requests *)
Lemma hnbap_hdr p : (p <= 255)%N -> good_hdr hnbap 1 p 0.
Proof. intros H. unfold good_hdr. change (alternatives (p_pdu hnbap)) with 3%N. split; [lia|]. split; [lia|]. left. reflexivity. Qed.
Lemma hnbap_ok p m s bs fs l : (p <= 255)%N -> In m all_msgs ->
  map (wanted m s) (m_rows m) = bs -> i_fields s = fs -> fills bs (m_rows m) fs -> pick bs fs = assigned l (m_rows m) ->
  (fsize (m_rows m) (pick bs fs) <= 1016)%N ->
  exists b, send_hnbap p m s = Ok [HSend PPI_HNBAP b] /\ holds T_HNBAP_HNBAP_PDU b 1 p 0 m l.
Proof.
  intros Hh Hm Hb Hf. subst bs fs. intros Hv Hp Hs.
  destruct (finish_full hnbap 1 p 0 m s [] true hnbap_std eq_refl (hnbap_hdr p Hh) Hm l Hv Hp) as (b&Hr&Hc). rewrite <- Hp in Hc.
  replace (total (m_rows m) (pick (map (wanted m s) (m_rows m)) (i_fields s)) <=? 1024)%N with true in Hc by (unfold total, ie_octets, len_octets; destruct (_ <? 128)%N eqn:?; lia).
  exists b. unfold send_hnbap. rewrite Hr. split; [reflexivity|apply Hc].
Qed.
Lemma encoded_valid t v : (if encode t v then true else false) = true -> valid t v.
Proof. destruct (encode t v) eqn:E; [|discriminate]. intros _. exact (encode_valid t v _ E). Qed.
Lemma register_req_l : exists b, send_register_req = Ok [HSend PPI_HNBAP b] /\ holds T_HNBAP_HNBAP_PDU b 1 1 0 M_HNBAP_HNBRegisterRequestIEs register_ies.
Proof.
  unfold send_register_req. eapply hnbap_ok; [lia|member 110|vm_compute; reflexivity|vm_compute; reflexivity| |vm_compute; reflexivity|vm_compute; discriminate].
  unfold M_HNBAP_HNBRegisterRequestIEs. rows. repeat split; apply encoded_valid; vm_compute; reflexivity.
Qed.
Lemma deregister_req_l : exists b, send_deregister_req = Ok [HSend PPI_HNBAP b] /\ holds T_HNBAP_HNBAP_PDU b 1 2 0 M_HNBAP_HNBDe_RegisterIEs [("id-Cause", VChoice 3 (VEnum 2))].
Proof.
  unfold send_deregister_req. eapply hnbap_ok; [lia|member 113|vm_compute; reflexivity|vm_compute; reflexivity| |vm_compute; reflexivity|vm_compute; discriminate].
  unfold M_HNBAP_HNBDe_RegisterIEs. rows. repeat split; apply encoded_valid; vm_compute; reflexivity.
Qed.
Lemma ue_identity_size o : 3 <= List.length o <= 8 -> (osize T_HNBAP_UE_Identity (VChoice 0 (VOcts o)) <= 30)%N.
Proof.
  intros Hl. apply osize_le' with (n := 150); [|reflexivity].
  assert (He : blen T_HNBAP_UE_Identity (VChoice 0 (VOcts o)) = 1 + (whole_max 8 + sized_max (Some (mkCon false 3 8)) (List.length o) (8 * List.length o))) by reflexivity.
  rewrite He. unfold sized_max. replace (in_con _ _) with true by (unfold in_con; cbn [c_lb c_ub]; lia).
  replace (whole_max 8) with 3 by reflexivity. change (c_ub (mkCon false 3 8) <? 65536)%Z with true. cbn [andb].
  replace (whole_max (con_range (mkCon false 3 8))) with 3 by reflexivity. lia.
Qed.
Lemma ue_identity_valid o : bytes_ok o = true -> (valid T_HNBAP_UE_Identity (VChoice 0 (VOcts o)) <-> 3 <= List.length o <= 8).
Proof.
  intros Hb. split.
  - intros H. inversion H as [| | | | | | | | |e root more i t w Hn Hw|]; subst. injection Hn as <-.
    inversion Hw as [| | | | | |c l Ha _| | | | ]; subst. destruct Ha as [Ha|Ha]; [discriminate|cbn in Ha; lia].
  - intros Hl. eapply v_choice_root; [reflexivity|]. constructor; [right; cbn; lia|apply octs_in, Hb].
Qed.

Lemma ue_register_l imsi : forallb is_digit imsi = true -> 5 <= List.length imsi <= 16 ->
  exists b o, send_ue_register imsi = Ok [HSend PPI_HNBAP b] /\ packed_text o = imsi /\ holds T_HNBAP_HNBAP_PDU b 1 3 0 M_HNBAP_UERegisterRequestIEs (ue_register_ies o).
Proof.
  intros Hd Hl. unfold send_ue_register. rewrite imsi_encode_exact. destruct (Nat.leb_spec ((List.length imsi + 1) / 2) 16); [|lia].
  cbn [obind]. destruct (packed_text_imsi imsi Hd) as [Hp Hb]. pose proof (imsi_octets_length imsi) as Ho.
  assert (H38 : 3 <= List.length (imsi_octets imsi) <= 8) by lia. pose proof (ue_identity_size _ H38) as Hs. pose proof (proj2 (ue_identity_valid _ Hb) H38) as Hv.
  generalize dependent (imsi_octets imsi). intros o Hp Hb Ho H38 Hs Hv. unfold ue_register_ies.
  match goal with |- exists b o, ?a = _ /\ _ => enough (Hx : exists b, a = Ok [HSend PPI_HNBAP b] /\ holds T_HNBAP_HNBAP_PDU b 1 3 0 M_HNBAP_UERegisterRequestIEs
     [("id-UE-Identity", VChoice 0 (VOcts o)); ("id-Registration-Cause", VEnum 1); ("id-UE-Capabilities", VSeq [Some (VEnum 3); Some (VEnum 1); None] [])])
     by (destruct Hx as (b&H1&H2); exists b, o; auto) end.
  generalize dependent (VChoice 0 (VOcts o)). intros v Hs Hv. cbv zeta. set (M := M_HNBAP_UERegisterRequestIEs). set (s := put_ie M "id-UE-Capabilities" _ _).
  assert (Hx : exists b, send_hnbap 3 M s = Ok [HSend PPI_HNBAP b] /\ holds T_HNBAP_HNBAP_PDU b 1 3 0 M
     [("id-UE-Identity", v); ("id-Registration-Cause", VEnum 1); ("id-UE-Capabilities", VSeq [Some (VEnum 3); Some (VEnum 1); None] [])]).
  { subst s. eapply hnbap_ok; [lia|member 114|vm_compute; reflexivity|vm_compute; reflexivity| |vm_compute; reflexivity|].
    - subst M. unfold M_HNBAP_UERegisterRequestIEs. rows. repeat split; [exact Hv|apply encoded_valid; vm_compute; reflexivity|apply encoded_valid; vm_compute; reflexivity].
    - subst M. unfold M_HNBAP_UERegisterRequestIEs. rows. change (osize T_HNBAP_Registration_Cause (VEnum 1)) with 5%N.
      match goal with |- context [osize T_HNBAP_UE_Capabilities ?x] => let y := eval vm_compute in (osize T_HNBAP_UE_Capabilities x) in change (osize T_HNBAP_UE_Capabilities x) with y end. lia. }
  destruct Hx as (b&Hb1&Hb2). exists b. split; [|exact Hb2]. unfold send_hnbap, finish in Hb1 |- *. destruct (snd (add_ies M s)) eqn:Ea; [exact Hb1|].
  exfalso. destruct (add_ies M s) as [t [l|]]; [discriminate|]. discriminate.
Qed.
Lemma ue_register_bad_l imsi : (List.length imsi < 5 \/ 16 < List.length imsi) -> List.length imsi <= 32 -> send_ue_register imsi = Fault Assertion.
Proof.
  intros Hl Hm. unfold send_ue_register. rewrite imsi_encode_exact. destruct (Nat.leb_spec ((List.length imsi + 1) / 2) 16); [|lia].
  cbn [obind]. pose proof (imsi_octets_length imsi) as Ho.
  assert (Hv : ~ valid T_HNBAP_UE_Identity (VChoice 0 (VOcts (imsi_octets imsi)))).
  { intros Hv. inversion Hv as [| | | | | | | | |e root more i t w Hn Hw|]; subst. injection Hn as <-.
    inversion Hw as [| | | | | |c l Ha _| | | | ]; subst. destruct Ha as [Ha|Ha]; [discriminate|cbn in Ha; lia]. }
  generalize dependent (VChoice 0 (VOcts (imsi_octets imsi))). intros v Hv. cbv zeta. set (M := M_HNBAP_UERegisterRequestIEs). set (s := put_ie M "id-UE-Capabilities" _ _).
  destruct (snd (add_ies M s)) as [l|] eqn:Ea; [|reflexivity]. exfalso. apply Hv. unfold add_ies in Ea. rewrite add_rows_snd in Ea.
  pose proof (rows_fills M s (m_rows M) (i_fields s) l eq_refl Ea) as Hf. replace (map (wanted M s) (m_rows M)) with [true; true; true] in Hf by reflexivity.
  exact (proj1 Hf).
Qed.
Lemma ue_register_long_l imsi : 32 < List.length imsi -> send_ue_register imsi = Fault OobWrite.
Proof. intros H. unfold send_ue_register. rewrite imsi_encode_exact. destruct (Nat.leb_spec ((List.length imsi + 1) / 2) 16); [lia|reflexivity]. Qed.

(* RESET *)
Lemma reset_l is_ps : exists b ranap, send_reset is_ps = Ok [HSend PPI_RUA b] /\ unconnected b ranap /\
  holds T_RANAP_RANAP_PDU ranap 1 9 0 M_RANAP_ResetIEs [("id-Cause", VChoice 1 (VInt 65)); ("id-CN-DomainIndicator", VEnum (if is_ps then 1 else 0))].
Proof.
  destruct (reset_msg (if is_ps then 1 else 0) (Factory_spec.mkCause 2 65) None) as (r&Hr&Hh); [destruct is_ps; [right|left]; reflexivity|apply encoded_valid; vm_compute; reflexivity|exact I|].
  assert (Hb : bytes_ok r = true) by (unfold new_msg_reset2 in Hr; exact (finish_bytes _ _ _ _ _ _ _ _ _ Hr)).
  destruct (udt_msg r Hb) as (b&e&He&Hc). assert (Hl : (N.of_nat (List.length r) <= 1009)%N).
  { rewrite (holds_len _ _ _ _ _ _ _ Hh). destruct is_ps; vm_compute; discriminate. }
  rewrite (proj2 (N.leb_le _ _) Hl) in Hc. exists b, r. unfold send_reset, new_msg_reset. rewrite Hr, He. split; [reflexivity|]. split; [apply Hc|exact Hh].
Qed.

(* channels *)
Lemma channel_l E h is_ps : (h_next h < 65536)%N -> exists b, connect_req (he_le E) is_ps (h_next h) b /\
  open_chan E h is_ps = Ok (mkHnb (h_rnc h) (h_ctx h) (if is_ps then h_cs h else Some (mkChan false (h_next h))) ((h_next h + 1) mod 65536)%N, [HSend PPI_RUA b]).
Proof.
  intros Hn. unfold open_chan, gen_initue_lu. generalize (h_next h). intros id.
  destruct (initial_ue_msg (he_le E) id is_ps (Factory_spec.mkGrnc [0x09; 0x01; 0x99]%N 23) lu_request) as (r&Hr&Hh);
    [split; [reflexivity|split; [reflexivity|cbn; lia]]|reflexivity|vm_compute; discriminate|].
  assert (Hb : bytes_ok r = true) by (unfold new_msg_initial_ue in Hr; exact (finish_bytes _ _ _ _ _ _ _ _ _ Hr)).
  destruct (conn_msg is_ps id r Hb) as (b&e&He&Hc). assert (Hl : (N.of_nat (List.length r) <= 992)%N).
  { rewrite (holds_len _ _ _ _ _ _ _ Hh). destruct is_ps, (he_le E); vm_compute; discriminate. }
  rewrite (proj2 (N.leb_le _ _) Hl) in Hc. exists b. cbv zeta. rewrite Hr, He. split; [|reflexivity]. exists r. split; [apply Hc|exact Hh].
Qed.

(* ---------------- runs ---------------- *)
Lemma numbered_mod l : forall id, numbered (id mod 65536) l = numbered id l.
Proof.
  induction l as [|p l IH]; intros id; [reflexivity|]. cbn [numbered]. rewrite N.mod_mod by lia. f_equal.
  rewrite <- (IH (id mod 65536 + 1)%N), <- (IH (id + 1)%N). f_equal. rewrite N.add_mod_idemp_l by lia. reflexivity.
Qed.
Lemma numbered_app l : forall id r, numbered id (l ++ r) = numbered id l ++ numbered (id + N.of_nat (List.length l)) r.
Proof.
  induction l as [|p l IH]; intros id r; cbn [List.app numbered List.length]; [f_equal; lia|]. rewrite IH. do 2 f_equal. f_equal. lia.
Qed.
Lemma numbered_in l : forall id x, In x (numbered id l) -> exists k, (k < N.of_nat (List.length l))%N /\ snd x = ((id + k) mod 65536)%N.
Proof.
  induction l as [|p l IH]; intros id x; [intros []|]. cbn [numbered List.length]. intros [<-|H].
  - exists 0%N. split; [lia|]. cbn [snd]. f_equal. lia.
  - destruct (IH _ _ H) as (k&Hk&->). exists (k + 1)%N. split; [lia|]. f_equal. lia.
Qed.
Lemma numbered_nodup l : forall id, (N.of_nat (List.length l) <= 65536)%N -> NoDup (map snd (numbered id l)).
Proof.
  induction l as [|p l IH]; intros id Hl; cbn [numbered map]; [constructor|]. cbn [List.length] in Hl. constructor; [|apply IH; lia].
  intros H. apply in_map_iff in H. destruct H as (x&Hx&Hi). destruct (numbered_in _ _ _ Hi) as (k&Hk&E). rewrite E in Hx. cbn [snd] in Hx. lia.
Qed.
Lemma numbered_first l : forall id a p q, l = a ++ p :: q -> nth_error (numbered id l) (List.length a) = Some (p, (id + N.of_nat (List.length a)) mod 65536)%N.
Proof.
  induction l as [|x l IH]; intros id a p q H; [destruct a; discriminate|]. destruct a as [|y a]; injection H as -> H.
  - cbn. rewrite N.add_0_r. reflexivity.
  - cbn [numbered List.length nth_error]. rewrite (IH (id + 1)%N a p q H). do 3 f_equal. lia.
Qed.
Lemma connects_app e f : connects (e ++ f) = connects e ++ connects f.
Proof. unfold connects, sent. rewrite flat_map_app, filter_app, map_app. reflexivity. Qed.
Lemma connects_calm h e : calm h (Ok e) -> connects e = [].
Proof.
  intros [_ H]. unfold connects. replace (filter _ (sent e)) with (@nil (N * list N)); [reflexivity|]. symmetry.
  induction (sent e) as [|[p b] l IH]; [reflexivity|]. cbn [filter fst snd].
  destruct (H p b (or_introl eq_refl)) as (->&c&r&_&o&s&Hp&_). rewrite Hp. cbn [andb]. replace (PPI_RUA =? PPI_RUA)%N with true by reflexivity. cbn [andb]. apply IH. intros. apply H. right. assumption.
Qed.
Lemma connects_hnbap b : connects [HSend PPI_HNBAP b] = [].
Proof. reflexivity. Qed.
Lemma connects_rua b p m l : holds T_RUA_RUA_PDU b 1 p 0 m l -> connects [HSend PPI_RUA b] = if (p =? 1)%N then [b] else [].
Proof.
  intros (o&s&Hp&_). unfold connects. cbn [sent flat_map List.app filter fst snd]. change (PPI_RUA =? PPI_RUA)%N with true. cbn [andb]. rewrite Hp. destruct p as [|[| |]]; reflexivity.
Qed.
Lemma read_keeps E h r y : read_cb E h r = Ok y -> h_cs (y_hnb y) = h_cs h /\ h_next (y_hnb y) = h_next h.
Proof.
  destruct r as [rc| | |ppid data]; cbn [read_cb]; try (intros H; injection H as <-; auto).
  destruct (ppid =? PPI_HNBAP)%N; [|destruct (ppid =? PPI_RUA)%N]; [| |intros H; injection H as <-; auto].
  - unfold hnbap_rx. destruct (pdu_in _ _) as [[[[d p] cr] o]|]; [|intros H; injection H as <-; auto].
    destruct (p =? 1)%N; [intros H; injection H as <-; auto|]. destruct (p =? 3)%N; [|intros H; injection H as <-; auto].
    unfold rx_ue_register_acc. destruct (d_ok _); [|intros H; injection H as <-; auto].
    destruct (field _ _ "id-UE-Identity") as [[| | | | | | | |[|i] [| | | | |imsi| | |]]|]; try (intros H; injection H as <-; auto).
    destruct (field _ _ "id-Context-ID") as [[| | | |b| | | |]|]; try discriminate. destruct (_ =? _)%nat; [|discriminate].
    destruct (bcd_text imsi); [|discriminate]. intros H; injection H as <-; auto.
  - unfold rua_rx. destruct (pdu_in _ _) as [[[[d p] cr] o]|]; [|intros H; injection H as <-; auto].
    assert (Hr : forall M rx cb z, rua_handle M rx cb h o = Ok z -> y_hnb z = h).
    { intros M rx cb z. unfold rua_handle. destruct (d_ok _); [|intros H; injection H as <-; reflexivity].
      destruct (each _ _); [|discriminate]. cbn [obind]. destruct (x_freed _); [|discriminate]. intros H; injection H as <-; reflexivity. }
    destruct (p =? 4)%N; [|destruct (p =? 2)%N]; [| |intros H; injection H as <-; auto];
      (destruct (rua_handle _ _ _ h o) as [z|] eqn:Ez; [|discriminate]; cbn [obind]; intros H; injection H as <-; cbn [y_hnb]; rewrite (Hr _ _ _ _ Ez); auto).
Qed.
Definition inv (h : hnb) : Prop := chan_ok h /\ (h_next h < 65536)%N.
Lemma step_l E h o h' e : sres_ok E -> inv h -> hstep E h o = Ok (h', e) -> inv h' /\
  h_next h' = (match o with HChannel _ => (h_next h + 1) mod 65536 | _ => h_next h end)%N /\
  match o with
  | HChannel p => (exists b, connects e = [b] /\ connect_req (he_le E) p (h_next h) b) /\ h_cs h' = if p then h_cs h else Some (mkChan false (h_next h))
  | _ => connects e = [] /\ h_cs h' = h_cs h
  end.
Proof.
  intros Hs [Hok Hn]. destruct o as [| |i|p|p|r]; cbn [hstep].
  - destruct register_req_l as (b&->&_). intros H. injection H as <- <-. repeat split; auto.
  - destruct deregister_req_l as (b&->&_). intros H. injection H as <- <-. repeat split; auto.
  - destruct (send_ue_register i) as [e'|] eqn:Ei; [|discriminate]. intros H. injection H as <- <-.
    assert (He : connects e' = []).
    { revert Ei. unfold send_ue_register. destruct (imsi_encode _ _ _); [|discriminate]. cbn [obind]. cbv zeta. destruct (snd _); [|discriminate]. unfold send_hnbap. destruct (r_msg _); [|discriminate]. intros H; injection H as <-; reflexivity. }
    repeat split; auto.
  - destruct (reset_l p) as (b&ranap&->&Hu&_). intros H. injection H as <- <-. rewrite (connects_rua b 4 _ _ Hu). repeat split; auto.
  - destruct (channel_l E h p Hn) as (b&Hc&->). intros H. injection H as <- <-. cbn [h_next h_cs]. split; [|split; [reflexivity|split; [|reflexivity]]].
    + split; [|cbn [h_next]; lia]. intros c. cbn [h_cs]. destruct p; [apply Hok|]. intros H. injection H as <-. reflexivity.
    + exists b. split; [|exact Hc]. destruct Hc as (r&Hr&_). rewrite (connects_rua b 1 _ _ Hr). reflexivity.
  - destruct (read_cb E h r) as [y|] eqn:Ey; [|discriminate]. cbn [obind]. intros H. injection H as <- <-. destruct (read_keeps _ _ _ _ Ey) as [K1 K2].
    unfold inv, chan_ok. rewrite K1, K2. repeat split; auto. exact (connects_calm h _ (rx_calm E h r y Hs Hok Ey)).
Qed.
Lemma run_l E : sres_ok E -> forall l h h' e, inv h -> hrun E h l = Ok (h', e) -> inv h' /\
  Forall2 (fun x b => connect_req (he_le E) (fst x) (snd x) b) (numbered (h_next h) (channels l)) (connects e) /\
  option_map ch_conn (h_cs h') = last_cs (numbered (h_next h) (channels l)) (option_map ch_conn (h_cs h)).
Proof.
  intros Hs. induction l as [|o l IH]; intros h h' e Hi; cbn [hrun].
  - intros H. injection H as <- <-. split; [exact Hi|]. split; [constructor|reflexivity].
  - destruct (hstep E h o) as [[h1 e1]|] eqn:Eo; [|discriminate]. cbn [obind fst snd]. destruct (hrun E h1 l) as [[h2 e2]|] eqn:El; [|discriminate].
    cbn [obind fst snd]. intros H. injection H as <- <-. destruct (step_l E h o h1 e1 Hs Hi Eo) as (I1&Hn&Ho). destruct (IH h1 h2 e2 I1 El) as (I2&F2&C2).
    split; [exact I2|]. rewrite connects_app. destruct o as [| |i|p|p|r]; cbn [channels flat_map List.app]; fold (channels l);
      try (destruct Ho as [-> K]; rewrite Hn in *; rewrite K in C2; split; assumption).
    destruct Ho as [(b&->&Hb) K]. rewrite Hn, numbered_mod in *. cbn [numbered List.app last_cs]. rewrite (N.mod_small (h_next h)) by apply Hi. split.
    + constructor; [exact Hb|exact F2].
    + rewrite C2, K. destruct p; reflexivity.
Qed.
Lemma start_inv : inv hnb_start.
Proof. split; [intros c H; discriminate|reflexivity]. Qed.
Lemma channels_run E l : sres_ok E -> Forall (fun o => exists p, o = HChannel p) l -> forall h, inv h -> exists h' e, hrun E h l = Ok (h', e).
Proof.
  intros Hs H. induction H as [|o l (p&->) Hl IH]; intros h Hi; [do 2 eexists; reflexivity|]. cbn [hrun].
  destruct (channel_l E h p (proj2 Hi)) as (b&_&Hb). destruct (hstep E h (HChannel p)) as [[h1 e1]|] eqn:Es; cbn [hstep] in Es; [|rewrite Hb in Es; discriminate].
  destruct (step_l E h (HChannel p) h1 e1 Hs Hi Es) as (Hi1&_). cbn [obind fst]. destruct (IH h1 Hi1) as (h2&e2&->). do 2 eexists. reflexivity.
Qed.
Lemma Forall2_at {A B} (R : A -> B -> Prop) l m : Forall2 R l m -> forall k x, nth_error l k = Some x -> exists y, nth_error m k = Some y /\ R x y.
Proof.
  induction 1 as [|a b l m Hr _ IH]; intros [|k] x; cbn [nth_error]; try discriminate; [|apply IH].
  intros H. injection H as <-. exists b. split; [reflexivity|exact Hr].
Qed.
Lemma same_id_l E : sres_ok E -> exists l h e i j b c, hrun E hnb_start l = Ok (h, e) /\ i <> j /\
  nth_error (connects e) i = Some b /\ nth_error (connects e) j = Some c /\ connect_req (he_le E) true 42 b /\ connect_req (he_le E) true 42 c.
Proof.
  intros Hs. remember (N.to_nat 65536) as n eqn:En. assert (Hn : N.of_nat n = 65536%N) by lia. clear En.
  set (l := repeat (HChannel true) n ++ [HChannel true]).
  assert (Hf : Forall (fun o => exists p, o = HChannel p) l).
  { apply Forall_app. split; [apply Forall_forall; intros o Ho; apply repeat_spec in Ho; exists true; exact Ho|repeat constructor; exists true; reflexivity]. }
  destruct (channels_run E l Hs Hf _ start_inv) as (h&e&Hr). destruct (run_l E Hs l _ _ _ start_inv Hr) as (_&Hc&_).
  assert (Hl : channels l = repeat true n ++ [true]).
  { unfold l, channels. rewrite flat_map_app. f_equal. clear. induction n as [|m IHm]; [reflexivity|cbn [repeat flat_map app]; f_equal; exact IHm]. }
  rewrite Hl in Hc. change (h_next hnb_start) with 42%N in Hc.
  assert (H1 : nth_error (numbered 42 (repeat true n ++ [true])) n = Some (true, 42%N)).
  { pose proof (numbered_first _ 42 (repeat true n) true [] eq_refl) as H1. rewrite repeat_length, Hn in H1. exact H1. }
  assert (H0 : nth_error (numbered 42 (repeat true n ++ [true])) 0 = Some (true, 42%N)) by (destruct n as [|m]; reflexivity).
  destruct (Forall2_at _ _ _ Hc _ _ H0) as (b&Hb&Rb). destruct (Forall2_at _ _ _ Hc _ _ H1) as (c&Hd&Rc). cbn [fst snd] in Rb, Rc.
  exists l, h, e, 0, n, b, c. repeat split; try assumption. lia.
Qed.
Lemma step_fatal E h o : sres_ok E -> inv h -> faults (hstep E h o) <->
  (exists i, o = HUeRegister i /\ exists f, send_ue_register i = Fault f) \/ (exists p d, o = HRecv (RData p d) /\ fatal E h p d).
Proof.
  intros Hs [Hok Hn]. destruct o as [| |i|p|p|r]; cbn [hstep].
  - destruct register_req_l as (b&->&_). split; [intros (f&H); discriminate|intros [(i&H&_)|(q&d&H&_)]; discriminate].
  - destruct deregister_req_l as (b&->&_). split; [intros (f&H); discriminate|intros [(i&H&_)|(q&d&H&_)]; discriminate].
  - split.
    + intros (f&H). left. exists i. split; [reflexivity|]. destruct (send_ue_register i); [discriminate|eauto].
    + intros [(j&H&f&Hf)|(q&d&H&_)]; [|discriminate]. injection H as ->. rewrite Hf. eexists. reflexivity.
  - destruct (reset_l p) as (b&ranap&->&_). split; [intros (f&H); discriminate|intros [(i&H&_)|(q&d&H&_)]; discriminate].
  - destruct (channel_l E h p Hn) as (b&_&->). split; [intros (f&H); discriminate|intros [(i&H&_)|(q&d&H&_)]; discriminate].
  - assert (Hx : faults (do y <- read_cb E h r ;; Ok (y_hnb y, y_eff y)) <-> faults (read_cb E h r)).
    { destruct (read_cb E h r); split; intros (f'&H); try discriminate; eexists; reflexivity. }
    rewrite Hx. destruct r as [rc| | |q d]; try (split; [intros (f&H); discriminate|intros [(i&H&_)|(q&d&H&_)]; discriminate]).
    rewrite (rx_fatal E h q d Hs Hok). split.
    + intros H. right. eauto.
    + intros [(i&H&_)|(q'&d'&H&Hf)]; [discriminate|]. injection H as -> ->. exact Hf.
Qed.

(* ---------------- memory ---------------- *)
Lemma leak_connection E h b ranap y : on_connection b ranap -> x_rc (rx_cn_co ranap) = 0%Z -> ids_once cn_co ranap ->
  read_cb E h (RData PPI_RUA b) = Ok y -> keeps_value T_RUA_RUA_PDU b y.
Proof.
  intros (ps&id&o&s&Hp&Hd&Hlen&Hf&_) Hrc Hi. unfold read_cb. change (PPI_RUA =? PPI_HNBAP)%N with false. change (PPI_RUA =? PPI_RUA)%N with true. cbv iota.
  unfold rua_rx. rewrite Hp. change (2 =? 4)%N with false. change (2 =? 2)%N with true. cbv iota. unfold rua_handle. 
  pose proof (free_exact M_RUA_DirectTransferIEs o (proj1 rua_ok_tab)) as Hfr. rewrite Hd in *. cbn [d_ok d_ies d_lost] in *.
  rewrite (field_nth M_RUA_DirectTransferIEs s "id-RANAP-Message" 2 _ _ eq_refl eq_refl (Hf 2%nat _ eq_refl) eq_refl).
  change (assoc _ (transfer_ies ps id ranap)) with (Some (VOcts ranap)). cbn [c_octs]. destruct (each _ _); [|discriminate]. cbn [obind].
  rewrite (cn_co_released ranap Hrc Hi). cbn [obind y_hnb y_eff y_alloc y_freed]. intros H. injection H as <-. do 4 eexists. split; [exact Hp|]. cbn [y_alloc y_freed].
  rewrite app_nil_r, Hfr. constructor. apply Permutation_app_comm.
Qed.
Lemma leak_unconnected E h b ranap y : unconnected b ranap -> ids_once cn_cl ranap ->
  read_cb E h (RData PPI_RUA b) = Ok y -> keeps_value T_RUA_RUA_PDU b y.
Proof.
  intros (o&s&Hp&Hd&Hlen&Hf&_) Hi. unfold read_cb. change (PPI_RUA =? PPI_HNBAP)%N with false. change (PPI_RUA =? PPI_RUA)%N with true. cbv iota.
  unfold rua_rx. rewrite Hp. change (4 =? 4)%N with true. cbv iota. unfold rua_handle.
  pose proof (free_exact M_RUA_ConnectionlessTransferIEs o (proj2 rua_ok_tab)) as Hfr. rewrite Hd in *. cbn [d_ok d_ies d_lost] in *.
  rewrite (field_nth M_RUA_ConnectionlessTransferIEs s "id-RANAP-Message" 0 _ _ eq_refl eq_refl (Hf 0%nat _ eq_refl) eq_refl).
  change (assoc _ [message_ie ranap]) with (Some (VOcts ranap)). cbn [c_octs]. destruct (each _ _); [|discriminate]. cbn [obind].
  destruct (released ranap) as (_&Hr&_). rewrite (Hr Hi). cbn [obind y_hnb y_eff y_alloc y_freed]. intros H. injection H as <-. do 4 eexists. split; [exact Hp|]. cbn [y_alloc y_freed].
  rewrite app_nil_r, Hfr. constructor. apply Permutation_app_comm.
Qed.
Lemma leak_hnbap E h b p m s d cr o y : (p = 1%N /\ m = M_HNBAP_HNBRegisterAcceptIEs) \/ (p = 3%N /\ m = M_HNBAP_UERegisterAcceptIEs /\ exists i, has_ie m s "id-UE-Identity" (VChoice 0 (VOcts i))) ->
  pdu_in T_HNBAP_HNBAP_PDU b = Some (d, p, cr, o) -> decode_msg m o = mkDres true s [] ->
  read_cb E h (RData PPI_HNBAP b) = Ok y -> keeps_value T_HNBAP_HNBAP_PDU b y.
Proof.
  intros Hm Hp Hd. unfold read_cb. change (PPI_HNBAP =? PPI_HNBAP)%N with true. cbv iota. unfold hnbap_rx. rewrite Hp.
  assert (Hin : hnbap_in b p m s) by (exists d, cr, o, []; auto). pose proof (free_exact m o) as Hfr. rewrite Hd in Hfr. cbn [d_ies] in Hfr.
  destruct Hm as [[-> ->]|(->&->&i&Hi)].
  - change (1 =? 1)%N with true. cbv iota. unfold rx_hnb_register_acc. rewrite Hd. cbn [d_ok d_ies d_lost obind y_rc y_hnb y_eff y_alloc y_freed]. intros H. injection H as <-.
    do 4 eexists. split; [exact Hp|]. cbn [y_alloc y_freed]. rewrite app_nil_r, Hfr by reflexivity. reflexivity.
  - change (3 =? 1)%N with false. change (3 =? 3)%N with true. cbv iota. unfold rx_ue_register_acc. rewrite Hd. cbn [d_ok d_ies d_lost].
    unfold has_ie in Hi. rewrite (shown_field M_HNBAP_UERegisterAcceptIEs s eq_refl (hnbap_sound b 3 _ s ltac:(member 115) Hin)) in Hi. destruct (field _ s "id-UE-Identity"); [|discriminate]. cbn [option_map] in Hi. injection Hi as ->.
    destruct (field _ s "id-Context-ID") as [[| | | |bits| | | |]|]; try discriminate. destruct (_ =? _)%nat; [|discriminate]. destruct (bcd_text i); [|discriminate]. cbn [obind y_rc y_hnb y_eff y_alloc y_freed].
    intros H. injection H as <-. do 4 eexists. split; [exact Hp|]. cbn [y_alloc y_freed]. rewrite app_nil_r, Hfr by reflexivity. reflexivity.
Qed.

(* ---------------- from the factories of the core network to the emulator ---------------- *)
Lemma wrap_co ps id ranap : bytes_ok ranap = true -> (N.of_nat (List.length ranap) <= 997)%N ->
  exists b e, rua_new_dt ps id (Some ranap) = Ok (mkWrapped (Some (b, PPI_RUA)) e) /\ on_connection b ranap.
Proof.
  intros Hb Hl. destruct (RuaFactory_proofs.dt_msg ps id ranap Hb) as (b&e&He&Hc). rewrite (proj2 (N.leb_le _ _) Hl) in Hc.
  exists b, e. split; [exact He|]. exists ps, id. apply Hc.
Qed.
Lemma wrap_cl ranap : bytes_ok ranap = true -> (N.of_nat (List.length ranap) <= 1009)%N ->
  exists b e, rua_new_udt (Some ranap) = Ok (mkWrapped (Some (b, PPI_RUA)) e) /\ unconnected b ranap.
Proof.
  intros Hb Hl. destruct (udt_msg ranap Hb) as (b&e&He&Hc). rewrite (proj2 (N.leb_le _ _) Hl) in Hc. exists b, e. split; [exact He|apply Hc].
Qed.
Lemma made_nas sapi nas ps id : bytes_ok nas = true -> (N.of_nat (List.length nas) <= 977)%N ->
  exists ranap b e, r_msg (new_msg_dt sapi nas) = Some ranap /\ rua_new_dt ps id (Some ranap) = Ok (mkWrapped (Some (b, PPI_RUA)) e) /\
    on_connection b ranap /\ nas_in ranap nas.
Proof.
  intros Hb Hl. destruct (Factory_msgs.dt_msg sapi nas Hb) as (r&Hr&Hq). rewrite (proj2 (N.leb_le _ 1004)) in Hq by lia.
  assert (Hrb : bytes_ok r = true) by (unfold new_msg_dt in Hr; exact (finish_bytes _ _ _ _ _ _ _ _ _ Hr)).
  assert (Hrl : (N.of_nat (List.length r) <= 997)%N).
  { rewrite (holds_len _ _ _ _ _ _ _ Hq). unfold M_RANAP_DirectTransferIEs, total, dt_ies. rows. cbn [assigned map assoc r_ie fsize r_ty String.eqb Ascii.eqb Bool.eqb].
    change T_RANAP_NAS_PDU with (TOcts None). rewrite (octs_none_size nas ltac:(lia) Hb). replace (osize T_RANAP_SAPI (VEnum (if (sapi =? 3)%N then 1 else 0))) with 5%N by (destruct (sapi =? 3)%N; reflexivity).
    unfold ie_octets, len_octets. repeat match goal with |- context [(?a <? 128)%N] => destruct (a <? 128)%N eqn:? end; lia. }
  destruct (wrap_co ps id r Hrb Hrl) as (b&e&He&Ho). exists r, b, e. repeat split; try assumption.
  destruct (arrives_cn_co r 1 20 1 M_RANAP_DirectTransferIEs (Factory_msgs.dt_ies sapi nas) Hq (nth_error_In ranap_msgs 52 eq_refl) ltac:(vm_compute; tauto) eq_refl) as (_&_&s&Hc&_&Hn).
  exists s. split; [eexists; exact Hc|]. rewrite Hn. reflexivity.
Qed.
Lemma made_security E h c ik ck st ia ea ps id : key_ok ik -> opt_ok key_ok ck -> dom_ok st -> (ia < 256)%N -> (ea < 256)%N ->
  sound_mask ia = true -> (ck <> None -> sound_mask ea = true) -> h_cs h = Some c ->
  exists ranap b e o, r_msg (new_msg_sec_mod_cmd2 ik ck st ia ea) = Some ranap /\ rua_new_dt ps id (Some ranap) = Ok (mkWrapped (Some (b, PPI_RUA)) e) /\
    rua_gives E h b [HSend PPI_RUA o] /\
    reply c o 2 6 0 M_RANAP_SecurityModeCompleteIEs
      [("id-ChosenIntegrityProtectionAlgorithm", VInt (if N.testbit ia 1 then 0 else 1)); ("id-ChosenEncryptionAlgorithm", VInt 0)].
Proof.
  intros Hik Hck Hst Hia Hea Si Se Hcs. pose proof (sec_mod_cmd_msg ik ck st ia ea Hik Hck Hst Hia Hea) as H. rewrite Si in H.
  replace (match ck with Some _ => sound_mask ea | None => true end) with true in H by (destruct ck; [symmetry; apply Se; discriminate|reflexivity]). cbn [andb] in H.
  destruct H as (r&Hr&Hh).
  assert (Hrb : bytes_ok r = true).
  { clear Hh. unfold new_msg_sec_mod_cmd2 in Hr. destruct (alg_loop uia ia bits8) as [la [|]]; cbn [negb] in Hr; [|discriminate].
    destruct ck as [ck|]; [destruct (alg_loop uea ea bits8) as [le [|]]; cbn [negb] in Hr; [|discriminate]|]; cbn [r_msg] in Hr; exact (finish_bytes _ _ _ _ _ _ _ _ _ Hr). }
  assert (Hrl : (N.of_nat (List.length r) <= 997)%N).
  { rewrite (holds_len _ _ _ _ _ _ _ Hh). destruct (sel_fine 0 1 ia ltac:(lia) ltac:(lia) Si) as (N1&N2&N3). destruct Hik as [Hik _].
    destruct (prot_size _ ik Hik N1 N2 N3) as [S1 _]. destruct (status_valid st Hst) as [_ Hss]. destruct ck as [ck|]; cbn [given List.app opt_ok] in *.
    - destruct (sel_fine 1 2 ea ltac:(lia) ltac:(lia) (Se ltac:(discriminate))) as (M1&M2&M3). destruct Hck as [Hck _]. destruct (prot_size _ ck Hck M1 M2 M3) as [_ S2].
      revert S1 S2. generalize (protection (selected 0 1 ia) ik). generalize (protection (selected 1 2 ea) ck). intros v1 v2 S1 S2.
      unfold M_RANAP_SecurityModeCommandIEs, total. rows. cbn [assigned map assoc r_ie fsize r_ty String.eqb Ascii.eqb Bool.eqb].
      unfold ie_octets, len_octets. repeat match goal with |- context [(?a <? 128)%N] => destruct (a <? 128)%N eqn:? end; lia.
    - revert S1. generalize (protection (selected 0 1 ia) ik). intros v2 S1.
      unfold M_RANAP_SecurityModeCommandIEs, total. rows. cbn [assigned map assoc r_ie fsize r_ty String.eqb Ascii.eqb Bool.eqb].
      unfold ie_octets, len_octets. repeat match goal with |- context [(?a <? 128)%N] => destruct (a <? 128)%N eqn:? end; lia. }
  destruct (wrap_co ps id r Hrb Hrl) as (b&e&He&Ho).
  destruct (arrives_cn_co r 1 6 0 M_RANAP_SecurityModeCommandIEs _ Hh (nth_error_In ranap_msgs 22 eq_refl) ltac:(vm_compute; tauto) ltac:(destruct ck; reflexivity)) as (_&_&s&Hc&_&Hn).
  specialize (Hn "id-IntegrityProtectionInformation"). cbn [List.app assoc String.eqb Ascii.eqb Bool.eqb option_map] in Hn.
  assert (Hsel : exists t, selected 0 1 ia = (if N.testbit ia 1 then 0 else 1)%Z :: t).
  { unfold sound_mask in Si. assert (ia = 2 \/ ia = 4 \/ ia = 6)%N as [-> | [-> | ->]] by lia; eexists; reflexivity. }
  destruct Hsel as (t&Ht). unfold protection in Hn. rewrite Ht in Hn. cbn [map] in Hn.
  destruct (secmode_l E h c b r s _ _ _ _ Hcs Ho (ex_intro _ _ Hc) Hn) as (o&G1&G2). exists r, b, e, o. auto.
Qed.
Lemma made_release E h c ca ps id : cause_ok ca -> h_cs h = Some c ->
  exists ranap b e o, r_msg (new_msg_iu_rel_cmd ca) = Some ranap /\ rua_new_dt ps id (Some ranap) = Ok (mkWrapped (Some (b, PPI_RUA)) e) /\
    rua_gives E h b [HSend PPI_RUA o] /\ reply c o 2 1 0 M_RANAP_Iu_ReleaseCompleteIEs [].
Proof.
  intros Hca Hcs. destruct (iu_rel_cmd_msg ca Hca) as (r&Hr&Hh).
  assert (Hrb : bytes_ok r = true) by (unfold new_msg_iu_rel_cmd in Hr; exact (finish_bytes _ _ _ _ _ _ _ _ _ Hr)).
  assert (Hrl : (N.of_nat (List.length r) <= 997)%N).
  { rewrite (holds_len _ _ _ _ _ _ _ Hh). pose proof (cause_size ca Hca) as Hs. revert Hs. generalize (cause_val ca). intros v Hs.
    unfold M_RANAP_Iu_ReleaseCommandIEs, total. rows. cbn [assigned map assoc r_ie fsize r_ty String.eqb Ascii.eqb Bool.eqb].
    unfold ie_octets, len_octets. repeat match goal with |- context [(?a <? 128)%N] => destruct (a <? 128)%N eqn:? end; lia. }
  destruct (wrap_co ps id r Hrb Hrl) as (b&e&He&Ho).
  destruct (arrives_cn_co r 1 1 0 M_RANAP_Iu_ReleaseCommandIEs _ Hh (nth_error_In ranap_msgs 0 eq_refl) ltac:(vm_compute; tauto) eq_refl) as (_&_&s&Hc&_&_).
  destruct (release_l E h c b r 1 _ s Hcs Ho (ex_intro _ _ Hc)) as (o&G1&G2). exists r, b, e, o. auto.
Qed.
Lemma made_paging E h imsi tmsi is_ps pc : forallb is_digit imsi = true -> 5 <= List.length imsi <= 16 -> opt_ok (fun t => (t < 2 ^ 32)%N) tmsi -> (pc <= 5)%N ->
  exists m ranap b e, new_msg_paging_cmd imsi tmsi is_ps pc = Ok m /\ r_msg m = Some ranap /\ rua_new_udt (Some ranap) = Ok (mkWrapped (Some (b, PPI_RUA)) e) /\
    rua_gives E h b [HPaging (firstn 15 imsi)].
Proof.
  intros Hd Hl Ht Hp. destruct (Factory_msgs.paging_msg imsi tmsi is_ps pc Hd Hl Ht Hp) as (m&r&o&Hm&Hr&Ho&Hh).
  assert (Hrb : bytes_ok r = true).
  { clear Hh. unfold new_msg_paging_cmd in Hm. destruct (imsi_encode _ _ _); [|discriminate]. cbn [obind] in Hm. cbv zeta in Hm. injection Hm as <-. cbn [r_msg] in Hr. exact (finish_bytes _ _ _ _ _ _ _ _ _ Hr). }
  assert (Hc : arrives (rx_cn_cl r) 1 14 1 M_RANAP_PagingIEs (paging_ies is_ps o tmsi pc)).
  { apply arrives_cn_cl; [exact Hh|exact (nth_error_In ranap_msgs 45 eq_refl)|vm_compute; tauto|]. unfold paging_ies. destruct tmsi, (pc =? 0)%N; reflexivity. }
  destruct Hc as (_&_&s&Hc&_&Hn). assert (Hi := Hn "id-PermanentNAS-UE-ID"). change (assoc _ (paging_ies _ _ _ _)) with (Some (VChoice 0 (VOcts o))) in Hi. cbn [option_map] in Hi.
  assert (Hrl : (N.of_nat (List.length r) <= 1009)%N).
  { assert (Hlen : 3 <= List.length o <= 8).
    { destruct (carries_cl r 1 14 _ s (ex_intro _ _ Hc)) as [Hmm Hs]. pose proof (carried_field_cl r _ _ _ _ "id-PermanentNAS-UE-ID" (ex_intro _ _ Hc)) as Hf. rewrite Hi in Hf.
      destruct (field M_RANAP_PagingIEs s "id-PermanentNAS-UE-ID") as [v|] eqn:Ef; [|discriminate]. cbn [option_map] in Hf. injection Hf as <-.
      pose proof (field_valid M_RANAP_PagingIEs s 1 (mkRow "id-PermanentNAS-UE-ID" 23 1 "PermanentNAS-UE-ID" T_RANAP_PermanentNAS_UE_ID Mandatory) Hs (once_ranap _ Hmm) eq_refl _ Ef) as Hv.
      destruct (Nat.le_gt_cases 3 (List.length o)); [destruct (Nat.le_gt_cases (List.length o) 8); [auto|]|]; exfalso; apply (imsi_bad o ltac:(lia) Hv). }
    rewrite (holds_len _ _ _ _ _ _ _ Hh). pose proof (imsi_size o Hlen) as Is. pose proof (is_ps_fine is_ps) as Hps. pose proof (dom_size _ Hps) as Ds. destruct (pcause_fine pc Hp) as [_ Ps].
    assert (Htm : forall t, tmsi = Some t -> (osize T_RANAP_TemporaryUE_ID (VChoice (if is_ps then 1 else 0) (VOcts (store32be t))) <= 20)%N) by (intros t _; apply tmsi_fine; [reflexivity|apply store32_bytes]).
    unfold paging_ies. revert Is Ds Ps. generalize (VChoice 0 (VOcts o)). intros iv Is. generalize (VEnum (if is_ps then 1 else 0)). intros dv Ds.
    destruct tmsi as [t|]; cbn [given List.app]; [specialize (Htm t eq_refl); revert Htm; generalize (VChoice (if is_ps then 1 else 0) (VOcts (store32be t))); intros tv Htm|clear Htm];
      destruct (pc =? 0)%N; cbn [given List.app]; generalize (VEnum (Z.of_N pc)); intros pv Ps;
      unfold M_RANAP_PagingIEs, total; rows; cbn [assigned map assoc r_ie fsize r_ty String.eqb Ascii.eqb Bool.eqb];
      unfold ie_octets, len_octets; repeat match goal with |- context [(?a <? 128)%N] => destruct (a <? 128)%N eqn:? end; lia. }
  destruct (wrap_cl r Hrb Hrl) as (b&e&He&Hu). exists m, r, b, e. repeat split; try assumption. rewrite <- Ho. exact (paging_l E h b r s o Hu (ex_intro _ _ Hc) Hi).
Qed.

(* ---------------- what is ignored, and when the connection is closed ---------------- *)
Lemma useless_l E h r : useless r -> exists rc a f, read_cb E h r = Ok (mkHres rc h [] a f).
Proof.
  intros [|ppid b H1 H2|b H|b H|b d p cr o H H1 H2|b d p cr o H H1 H2|b d cr o H H1|b d cr o H H1|b d cr o H H1]; cbn [read_cb]; change PPI_HNBAP with 20%N; change PPI_RUA with 19%N.
  - do 3 eexists; reflexivity.
  - apply N.eqb_neq in H1, H2. rewrite H1, H2. do 3 eexists; reflexivity.
  - change (19 =? 20)%N with false. cbv iota. rewrite N.eqb_refl. unfold rua_rx. rewrite H. do 3 eexists; reflexivity.
  - rewrite N.eqb_refl. unfold hnbap_rx. rewrite H. do 3 eexists; reflexivity.
  - change (19 =? 20)%N with false. cbv iota. rewrite N.eqb_refl. unfold rua_rx. rewrite H.
    apply N.eqb_neq in H1, H2. rewrite H1, H2. do 3 eexists; reflexivity.
  - rewrite N.eqb_refl. unfold hnbap_rx. rewrite H. apply N.eqb_neq in H1, H2. rewrite H1, H2. do 3 eexists; reflexivity.
  - change (19 =? 20)%N with false. cbv iota. rewrite N.eqb_refl. unfold rua_rx. rewrite H.
    change (2 =? 4)%N with false. change (2 =? 2)%N with true. cbv iota. unfold rua_handle. rewrite H1. do 3 eexists; reflexivity.
  - change (19 =? 20)%N with false. cbv iota. rewrite N.eqb_refl. unfold rua_rx. rewrite H.
    change (4 =? 4)%N with true. cbv iota. unfold rua_handle. rewrite H1. do 3 eexists; reflexivity.
  - rewrite N.eqb_refl. unfold hnbap_rx. rewrite H. change (3 =? 1)%N with false. change (3 =? 3)%N with true. cbv iota.
    unfold rx_ue_register_acc. rewrite H1. do 3 eexists; reflexivity.
Qed.

Definition open (e : list heff) : Prop := ~ In HClose e.
Lemma enqueue_open w e : enqueue w = Ok e -> open e.
Proof. destruct w as [w|]; cbn [enqueue]; [|discriminate]. destruct (w_msg w) as [[b p]|]; [|discriminate]. intros H. injection H as <-. intros [X|[]]. discriminate. Qed.
Lemma tx_open h m rc e : tx_dt h m = Ok (rc, e) -> open e.
Proof.
  unfold tx_dt. destruct (h_cs h); [|intros H; injection H as _ <-; intros []]. destruct (enqueue _) eqn:Q; [|discriminate].
  cbn [obind]. intros H. injection H as _ <-. exact (enqueue_open _ _ Q).
Qed.
Lemma mm_open E h d rc e : rx_mm E h d = Ok (rc, e) -> open e.
Proof.
  unfold rx_mm. destruct (h_cs h) as [c|]; [|intros H; injection H as _ <-; intros []]. destruct (ch_ps c); [discriminate|]. cbv zeta.
  destruct (_ =? MT_MM_ID_REQ)%N; [apply tx_open|]. destruct (_ =? MT_MM_LOC_UPD_ACCEPT)%N.
  { destruct (rx_lu_accept E d) as [[[|]|]|f]; cbn [obind told]; try discriminate.
    - destruct (tx_dt h _) as [[rc' e']|] eqn:T; [|discriminate]. cbn [obind]. intros H. injection H as _ <-. apply tx_open in T.
      intros [X|X]; [discriminate | exact (T X)].
    - intros H. injection H as _ <-. intros [X|[]]. discriminate.
    - intros H. injection H as _ <-. intros [X|[]]. discriminate. }
  destruct (_ =? MT_MM_LOC_UPD_REJECT)%N; [intros H; injection H as _ <-; intros [X|[]]; discriminate|].
  destruct (_ =? MT_MM_INFO)%N.
  { destruct (rx_mm_info E d); [|discriminate]. cbn [obind]. destruct (tx_iu_release_req h) as [[rc' e']|] eqn:T; [|discriminate].
    cbn [obind snd]. intros H. injection H as _ <-. exact (tx_open _ _ _ _ T). }
  destruct (_ =? MT_MM_AUTH_REQ)%N; [|intros H; injection H as _ <-; intros []].
  unfold rx_auth_req. destruct (_ <? _)%nat; [intros H; injection H as _ <-; intros [] | apply tx_open].
Qed.
Lemma dtap_open E h d e : rx_dtap E h d = Ok e -> open e.
Proof.
  unfold rx_dtap. destruct (_ <? _)%nat; [intros H; injection H as <-; intros [X|[]]; discriminate|].
  destruct (_ =? _)%N; [|intros H; injection H as <-; intros [X|[]]; discriminate].
  destruct (rx_mm E h d) as [[rc e']|] eqn:M; [|discriminate]. cbn [obind snd]. intros H. injection H as <-.
  apply mm_open in M. intros [X|X]; [discriminate | exact (M X)].
Qed.
Lemma each_open {A} (f : A -> outcome (list heff)) : (forall a e, f a = Ok e -> open e) -> forall l e, each f l = Ok e -> open e.
Proof.
  intros Hf. induction l as [|a l IH]; cbn [each]; intros e H.
  - injection H as <-. intros [].
  - destruct (f a) as [e1|] eqn:F; [|discriminate]. cbn [obind] in H. destruct (each f l) as [e2|]; [|discriminate].
    cbn [obind] in H. injection H as <-. intros X. apply in_app_iff in X. destruct X as [X|X]; [exact (Hf _ _ F X) | exact (IH _ eq_refl X)].
Qed.
Lemma dt_open E h g e : dt_handle_ranap E h g = Ok e -> open e.
Proof.
  unfold dt_handle_ranap. destruct (g_body g) as [[m s]|]; [|intros H; injection H as <-; intros []].
  destruct (g_proc g =? 20)%N; [apply dtap_open|]. destruct (g_proc g =? 6)%N.
  { destruct (first_alg E m s) as [[a|]|]; cbn [obind]; try discriminate; [|intros H; injection H as <-; intros []].
    destruct (tx_dt h _) as [[rc e']|] eqn:T; [|discriminate]. cbn [obind snd]. intros H. injection H as <-. exact (tx_open _ _ _ _ T). }
  destruct (g_proc g =? 1)%N; [|intros H; injection H as <-; intros []].
  destruct (tx_iu_release_compl h) as [[rc e']|] eqn:T; [|discriminate]. cbn [obind snd]. intros H. injection H as <-. exact (tx_open _ _ _ _ T).
Qed.
Lemma cl_open g e : cl_handle_ranap g = Ok e -> open e.
Proof.
  unfold cl_handle_ranap. destruct (_ =? _)%N; [|intros H; injection H as <-; intros []].
  assert (P : forall t, open [HPaging t]) by (intros t [X|[]]; discriminate).
  destruct (g_body g) as [[m s]|]; [|intros H; injection H as <-; apply P].
  destruct (field m s _) as [v|]; [|intros H; injection H as <-; apply P].
  destruct v as [| | | | | | | |[|i] [| | | | |o| | |]]; try (intros H; injection H as <-; apply P).
  destruct (bcd_text o); [|discriminate]. cbn [obind]. intros H; injection H as <-; apply P.
Qed.
Lemma handle_open M rx cb h o y : (forall g e, cb g = Ok e -> open e) -> rua_handle M rx cb h o = Ok y -> open (y_eff y).
Proof.
  intros Hc. unfold rua_handle. destruct (d_ok _); [|intros H; injection H as <-; intros []].
  destruct (each _ _) eqn:Ee; [|discriminate]. cbn [obind]. destruct (x_freed _); [|discriminate].
  intros H. injection H as <-. exact (each_open _ Hc _ _ Ee).
Qed.
Lemma closed_l E h r y : read_cb E h r = Ok y -> (In HClose (y_eff y) <-> r = REof \/ exists rc, r = RError rc).
Proof.
  destruct r as [rc| | |ppid data]; cbn [read_cb].
  - intros H. injection H as <-. split; [intros _; right; eauto | intros _; left; reflexivity].
  - intros H. injection H as <-. split; [intros _; left; reflexivity | intros _; left; reflexivity].
  - intros H. injection H as <-. split; [intros [] | intros [X|(rc&X)]; discriminate].
  - intros H. assert (O : open (y_eff y)).
    { destruct (ppid =? PPI_HNBAP)%N; [|destruct (ppid =? PPI_RUA)%N].
      - unfold hnbap_rx in H. destruct (pdu_in _ _) as [[[[d p] cr] o]|]; [|injection H as <-; intros []].
        destruct (p =? 1)%N; [injection H as <-; intros [X|[]]; discriminate|].
        destruct (p =? 3)%N; [|injection H as <-; intros []]. unfold rx_ue_register_acc in H. destruct (d_ok _); [|injection H as <-; intros []].
        destruct (field _ _ "id-UE-Identity") as [[| | | | | | | |[|i] [| | | | |imsi| | |]]|]; try (injection H as <-; intros []).
        destruct (field _ _ "id-Context-ID") as [[| | | |b| | | |]|]; try discriminate. destruct (_ =? _)%nat; [|discriminate].
        destruct (bcd_text imsi); [|discriminate]. injection H as <-. intros [X|[]]; discriminate.
      - unfold rua_rx in H. destruct (pdu_in _ _) as [[[[d p] cr] o]|]; [|injection H as <-; intros []].
        destruct (p =? 4)%N; [|destruct (p =? 2)%N; [|injection H as <-; intros []]].
        + destruct (rua_handle _ _ _ _ _) as [z|] eqn:Z; [|discriminate]. cbn [obind] in H. injection H as <-. exact (handle_open _ _ _ _ _ _ cl_open Z).
        + destruct (rua_handle _ _ _ _ _) as [z|] eqn:Z; [|discriminate]. cbn [obind] in H. injection H as <-. exact (handle_open _ _ _ _ _ _ (dt_open E h) Z).
      - injection H as <-. intros []. }
    split; [intros X; exfalso; exact (O X) | intros [X|(rc&X)]; discriminate].
Qed.
Lemma numbered_domains : forall l id, map fst (numbered id l) = l.
Proof. induction l as [|p l IH]; intros id; [reflexivity|]. cbn [numbered map fst]. f_equal. apply IH. Qed.
