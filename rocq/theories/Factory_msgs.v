(* The messages of the individual factory functions. *)
From Coq Require Import ZifyBool ZifyNat ZifyN String List.
From Verif Require Import Base Aper Aper_spec Aper_proofs Aper_valid Aper_len Container Container_proofs AllMsgs RanapTypes RanapTab Helpers Helpers_spec Helpers_proofs
  Factory Factory_spec Factory_len Factory_proofs.
Ltac Zify.zify_post_hook ::= Z.div_mod_to_equations.
Local Open Scope list_scope.
Local Open Scope string_scope.
Local Open Scope list_scope.

Fixpoint mem_valid (ms : list (bool * ty)) (vs : list (option val)) : Prop :=
  match ms, vs with
  | [], [] => True
  | (o, t) :: ms', v :: vs' => match v with Some v => valid t v | None => o = true end /\ mem_valid ms' vs'
  | _, _ => False
  end.
Lemma mem_valid_len : forall ms vs, mem_valid ms vs -> length vs = length ms.
Proof. induction ms as [|[o t] ms IH]; intros [|v vs]; cbn [mem_valid length]; try tauto. intros [_ H]. f_equal. apply IH, H. Qed.
Lemma valid_seq e root adds vr va : mem_valid root vr -> va = map (fun _ => None) adds -> valid (TSeq e root adds) (VSeq vr va).
Proof.
  intros H ->. constructor.
  - apply mem_valid_len, H.
  - apply map_length.
  - revert vr H. induction root as [|[o u] root IH]; intros [|v vr] H [|i] t Hn; cbn [mem_valid nth_error] in *; try discriminate; try tauto.
    + injection Hn as -> ->. destruct H as [H _]. intros E. injection E as ->. discriminate.
    + apply (IH vr (proj2 H) i t Hn).
  - revert vr H. induction root as [|[o' u] root IH]; intros [|v vr] H [|i] o t w Hn Hv; cbn [mem_valid nth_error] in *; try discriminate; try tauto.
    + injection Hn as -> ->. injection Hv as ->. apply H.
    + apply (IH vr (proj2 H) i o t w Hn Hv).
  - intros i o t v _ Hv. apply nth_error_In in Hv. apply in_map_iff in Hv as (x&Hx&_). discriminate.
  - intros _ v Hv. apply in_map_iff in Hv as (x&Hx&_). discriminate.
Qed.
Lemma octs_in l : bytes_ok l = true -> forall o, In o l -> (o < 256)%N.
Proof. apply bytes_in. Qed.

(* ---------------- sizes ---------------- *)
Lemma ie_octets_mono a b : (a <= b)%N -> (ie_octets a <= ie_octets b)%N.
Proof. unfold ie_octets, len_octets. destruct (a <? 128)%N eqn:?, (b <? 128)%N eqn:?; lia. Qed.
Lemma osize_le t v n : blen t v <= n -> (osize t v <= ie_octets (N.of_nat (octs_max n)))%N.
Proof.
  intros H. unfold osize. destruct (encode t v) as [o|] eqn:E; [|unfold ie_octets; lia]. apply encode_le in E.
  pose proof (octs_max_mono _ _ H). apply ie_octets_mono. lia.
Qed.
Lemma osize_le' t v n k : blen t v <= n -> (ie_octets (N.of_nat (octs_max n)) <=? k)%N = true -> (osize t v <= k)%N.
Proof. intros H Hk. pose proof (osize_le _ _ _ H). lia. Qed.
Lemma octs_none_size o : (N.of_nat (length o) < 16384)%N -> bytes_ok o = true ->
  osize (TOcts None) (VOcts o) = ie_octets (len_octets (N.of_nat (length o)) + N.of_nat (length o)).
Proof.
  intros Hn Hb. destruct (encode_total (TOcts None) (VOcts o) eq_refl) as (x&Hx&_); [constructor; [exact I|apply octs_in, Hb]|].
  unfold osize. rewrite Hx. f_equal. unfold encode in Hx. apply opt_inv in Hx as (b&H&E). apply some_inv in E; subst x.
  cbn [enc put_sized] in H. apply open_len in H; [|exact Hn]. change (pad_len 0) with 0 in H. unfold body_bits in H.
  rewrite (to_octets_exact b (N.to_nat (len_octets (N.of_nat (length o))) + length o)); [lia| |lia].
  intros ->. cbn in H. unfold len_octets in H. destruct (N.of_nat (length o) <? 128)%N; lia.
Qed.
Lemma octs_none_ge o : bytes_ok o = true -> (N.of_nat (length o) <= osize (TOcts None) (VOcts o))%N.
Proof.
  intros Hb. destruct (encode_total (TOcts None) (VOcts o) eq_refl) as (x&Hx&_); [constructor; [exact I|apply octs_in, Hb]|].
  unfold osize. rewrite Hx. unfold encode in Hx. apply opt_inv in Hx as (b&H&E). apply some_inv in E; subst x.
  cbn [enc put_sized] in H. apply open_ge in H. apply to_octets_ge in H. unfold ie_octets. lia.
Qed.

(* ---------------- argument structures ---------------- *)
Lemma grnc_valid g : grnc_ok g -> valid T_RANAP_GlobalRNC_ID (grnc_val g).
Proof.
  intros (H1&H2&H3). unfold grnc_val. apply valid_seq; [|reflexivity]. cbn [mem_valid]. repeat split.
  - constructor; [right; cbn; lia|apply octs_in, H2].
  - constructor. right. cbn. lia.
Qed.
Lemma grnc_size g : grnc_ok g -> (osize T_RANAP_GlobalRNC_ID (grnc_val g) <= 20)%N.
Proof.
  intros (H1&H2&H3). destruct g as [pl id]. cbn [g_plmn g_rnc] in *.
  apply osize_le' with (n := 100); [|reflexivity].
  unfold grnc_val. cbn [g_plmn g_rnc]. destruct pl as [|a [|b [|c [|x pl]]]]; try discriminate.
  unfold T_RANAP_GlobalRNC_ID. cbn [blen]. unfold T_RANAP_PLMNidentity, T_RANAP_TBCD_STRING, T_RANAP_RNC_ID. cbn [blen].
  cbn [length present map existsb]. unfold int_max, sized_max. cbn [c_ext c_ub c_lb]. unfold in_con. cbn [c_lb c_ub].
  replace ((0 <=? id) && (id <=? 4095))%Z with true by lia. vm_compute. lia.
Qed.
Lemma cause_blen c : cause_ok c -> blen T_RANAP_Cause (cause_val c) <= 70.
Proof.
  unfold cause_ok. generalize (cause_val c). clear c. intros v H.
  inversion H as [| | | | | | | | |e root more i t w Hn Hw|root more i t w Hn Hw]; subst.
  - do 6 (destruct i as [|i]; [injection Hn as <-; inversion Hw as [| |cc z Ha| | | | | | | | ]; subst; destruct Ha as [Ha|Ha]; [discriminate|];
      unfold T_RANAP_Cause; cbn [blen length Nat.ltb Nat.leb]; unfold T_RANAP_CauseRadioNetwork, T_RANAP_CauseTransmissionNetwork, T_RANAP_CauseNAS, T_RANAP_CauseProtocol, T_RANAP_CauseMisc, T_RANAP_CauseNon_Standard; cbn [blen]; unfold int_max;
      match goal with |- context [in_con ?a ?b] => replace (in_con a b) with true by (unfold in_con; cbn [c_lb c_ub] in *; lia) end; vm_compute; lia|]).
    destruct i; discriminate.
  - destruct i as [|i]; [|destruct i; discriminate]. injection Hn as <-. inversion Hw as [| |cc z Ha| | | | | | | | ]; subst. destruct Ha as [Ha|Ha]; [discriminate|].
    unfold T_RANAP_Cause; cbn [blen length Nat.add Nat.ltb Nat.leb Nat.sub]. unfold T_RANAP_CauseRadioNetworkExtension. cbn [blen]. unfold int_max.
    match goal with |- context [in_con ?a ?b] => replace (in_con a b) with true by (unfold in_con; cbn [c_lb c_ub] in *; lia) end; vm_compute; lia.
Qed.
Lemma cause_size c : cause_ok c -> (osize T_RANAP_Cause (cause_val c) <= 16)%N.
Proof. intros H. apply osize_le' with (n := 70); [apply cause_blen, H|reflexivity]. Qed.

(* ---------------- a RANAP message ---------------- *)
Lemma ranap_full d p c m s mid ko bs fs l : good_hdr ranap d p c -> In m all_msgs ->
  map (wanted m s) (m_rows m) = bs -> i_fields s = fs -> fills bs (m_rows m) fs -> pick bs fs = assigned l (m_rows m) ->
  exists b, r_msg (finish ranap d p c m s mid ko) = Some b /\
    if (total (m_rows m) (pick bs fs) <=? 1024)%N then b <> [] /\ holds T_RANAP_RANAP_PDU b d p c m l else b = [].
Proof.
  intros Hh Hm Hb Hf. subst bs fs. intros Hv Hp. rewrite Hp. exact (finish_full ranap d p c m s mid ko ranap_std eq_refl Hh Hm l Hv Hp).
Qed.
Lemma ranap_ok d p c m s mid ko bs fs l : good_hdr ranap d p c -> In m all_msgs ->
  map (wanted m s) (m_rows m) = bs -> i_fields s = fs -> fills bs (m_rows m) fs -> pick bs fs = assigned l (m_rows m) ->
  (fsize (m_rows m) (pick bs fs) <= 1016)%N ->
  exists b, r_msg (finish ranap d p c m s mid ko) = Some b /\ holds T_RANAP_RANAP_PDU b d p c m l.
Proof.
  intros Hh Hm Hb Hf Hv Hp Hs. destruct (ranap_full d p c m s mid ko bs fs l Hh Hm Hb Hf Hv Hp) as (b&Hr&Hc).
  replace (total (m_rows m) (pick bs fs) <=? 1024)%N with true in Hc by (unfold total, ie_octets, len_octets; destruct (_ <? 128)%N eqn:?; lia).
  exists b. split; [exact Hr|apply Hc].
Qed.
Lemma ranap_none d p c m s mid ko bs fs : 
  map (wanted m s) (m_rows m) = bs -> i_fields s = fs -> length fs = length (m_rows m) ->
  (fills bs (m_rows m) fs -> False) -> r_msg (finish ranap d p c m s mid ko) = None.
Proof.
  intros Hb Hf Hl H. subst. destruct (r_msg _) as [b|] eqn:E; [|reflexivity].
  exfalso. apply H. exact (finish_none _ _ _ _ _ _ _ _ _ Hl E).
Qed.
Lemma hdr_ok d p c : ((1 <=? d) && (d <=? 3) && (p <=? 255))%N && ((0 <=? c) && (c <=? 2))%Z = true -> good_hdr ranap d p c.
Proof.
  intros H. unfold good_hdr. change (alternatives (p_pdu ranap)) with 4%N. split; [lia|]. split; [lia|]. assert (Hd : c = 0%Z \/ c = 1%Z \/ c = 2%Z) by lia. cbn [In]. intuition.
Qed.
Ltac member k := exact (nth_error_In all_msgs k eq_refl).
Ltac start k := eapply ranap_ok; [apply hdr_ok; reflexivity|member k|vm_compute; reflexivity|vm_compute; reflexivity| | |].
Ltac rows := cbn [m_rows fills pick fsize r_ty].

(* Direct Transfer *)
Definition dt_ies (sapi : N) (nas : list N) : list (string * val) :=
  [("id-NAS-PDU", VOcts nas); ("id-SAPI", VEnum (if (sapi =? 3)%N then 1 else 0))].
Lemma sapi_valid (x : bool) : valid T_RANAP_SAPI (VEnum (if x then 1 else 0)).
Proof. apply v_enum_root. destruct x; cbn; auto. Qed.
Lemma dt_msg sapi nas : bytes_ok nas = true ->
  exists b, r_msg (new_msg_dt sapi nas) = Some b /\
    if (N.of_nat (length nas) <=? 1004)%N then holds T_RANAP_RANAP_PDU b 1 20 1 M_RANAP_DirectTransferIEs (dt_ies sapi nas) else b = [].
Proof.
  intros Hb. unfold new_msg_dt. cbv zeta. generalize (sapi_valid (sapi =? 3)%N). intros Hs.
  destruct (ranap_full 1 20 1 M_RANAP_DirectTransferIEs
    (put_ie M_RANAP_DirectTransferIEs "id-NAS-PDU" (VOcts nas)
    (put_ie M_RANAP_DirectTransferIEs "id-SAPI" (VEnum (if (sapi =? 3)%N then 1 else 0))
    (set_mask (macro M_RANAP_DirectTransferIEs "id-SAPI") (zero M_RANAP_DirectTransferIEs)))) [] true
    [true; false; false; false; true]
    [Some (VOcts nas); Some (zeroed T_RANAP_LAI); Some (zeroed T_RANAP_RAC); Some (zeroed T_RANAP_SAI); Some (VEnum (if (sapi =? 3)%N then 1 else 0))]
    (dt_ies sapi nas)) as (b&Hr&Hc).
  - apply hdr_ok. reflexivity.
  - member 52.
  - vm_compute. reflexivity.
  - reflexivity.
  - unfold M_RANAP_DirectTransferIEs. rows. repeat split; [|exact Hs]. constructor; [exact I|apply octs_in, Hb].
  - reflexivity.
  - exists b. split; [exact Hr|].
    replace (N.of_nat (length nas) <=? 1004)%N with
      (total (m_rows M_RANAP_DirectTransferIEs) (pick [true; false; false; false; true]
       [Some (VOcts nas); Some (zeroed T_RANAP_LAI); Some (zeroed T_RANAP_RAC); Some (zeroed T_RANAP_SAI); Some (VEnum (if (sapi =? 3)%N then 1 else 0))]) <=? 1024)%N.
    { destruct (_ <=? 1024)%N; [apply Hc|exact Hc]. }
    unfold M_RANAP_DirectTransferIEs. unfold total. rows.
    assert (E : osize T_RANAP_SAPI (VEnum (if (sapi =? 3)%N then 1 else 0)) = 5%N) by (destruct (sapi =? 3)%N; reflexivity). rewrite E.
    destruct (N.ltb_spec (N.of_nat (length nas)) 16384) as [Hn|Hn].
    + change T_RANAP_NAS_PDU with (TOcts None). rewrite (octs_none_size nas Hn Hb). generalize (N.of_nat (length nas)). intros n.
      unfold ie_octets, len_octets. repeat match goal with |- context [(?a <? 128)%N] => destruct (a <? 128)%N eqn:? end; lia.
    + pose proof (octs_none_ge nas Hb). change T_RANAP_NAS_PDU with (TOcts None). unfold ie_octets. lia.
Qed.

(* Reset *)
Lemma dom_valid d : dom_ok d -> valid T_RANAP_CN_DomainIndicator (VEnum d).
Proof. intros H. apply v_enum_root. unfold dom_ok in H. cbn. intuition. Qed.
Lemma dom_size d : dom_ok d -> osize T_RANAP_CN_DomainIndicator (VEnum d) = 5%N.
Proof. intros [-> | ->]; reflexivity. Qed.
Lemma reset_msg domain c rnc : dom_ok domain -> cause_ok c -> opt_ok grnc_ok rnc ->
  exists b, r_msg (new_msg_reset2 domain (Some c) rnc) = Some b /\
    holds T_RANAP_RANAP_PDU b 1 9 0 M_RANAP_ResetIEs
      ([("id-Cause", cause_val c); ("id-CN-DomainIndicator", VEnum domain)] ++ given "id-GlobalRNC-ID" grnc_val rnc).
Proof.
  intros Hd Hc Hg. unfold new_msg_reset2, ifs. unfold cause_ok in Hc. pose proof (cause_size c Hc). pose proof (dom_size _ Hd).
  destruct rnc as [g|]; cbn [opt_ok given app] in *.
  - pose proof (grnc_size g Hg). apply grnc_valid in Hg.
    generalize dependent (cause_val c). intros cv ? ?. generalize dependent (grnc_val g). intros gv ? ?.
    eapply ranap_ok with (bs := [true; true; true]) (fs := [Some cv; Some (VEnum domain); Some gv]);
      [apply hdr_ok; reflexivity|member 29|vm_compute; reflexivity|reflexivity| |reflexivity|].
    + unfold M_RANAP_ResetIEs. rows. repeat split; try assumption. apply dom_valid, Hd.
    + unfold M_RANAP_ResetIEs. rows. lia.
  - generalize dependent (cause_val c). intros cv ? ?.
    eapply ranap_ok with (bs := [true; true; false]) (fs := [Some cv; Some (VEnum domain); Some (zeroed T_RANAP_GlobalRNC_ID)]);
      [apply hdr_ok; reflexivity|member 29|vm_compute; reflexivity|reflexivity| |reflexivity|].
    + unfold M_RANAP_ResetIEs. rows. repeat split; try assumption. apply dom_valid, Hd.
    + unfold M_RANAP_ResetIEs. rows. lia.
Qed.
Lemma reset_no_cause domain rnc : r_msg (new_msg_reset2 domain None rnc) = None.
Proof.
  unfold new_msg_reset2, ifs. destruct rnc as [g|].
  - eapply ranap_none; [vm_compute; reflexivity|vm_compute; reflexivity|reflexivity|].
    unfold M_RANAP_ResetIEs. rows. intros [H _]. inversion H.
  - eapply ranap_none; [vm_compute; reflexivity|vm_compute; reflexivity|reflexivity|].
    unfold M_RANAP_ResetIEs. rows. intros [H _]. inversion H.
Qed.

(* Reset Acknowledge *)
Ltac ready k := eapply ranap_ok; [apply hdr_ok; reflexivity|member k|vm_compute; reflexivity|vm_compute; reflexivity| |vm_compute; reflexivity|].
Lemma reset_ack_msg domain rnc : dom_ok domain -> opt_ok grnc_ok rnc ->
  exists b, r_msg (new_msg_reset_ack domain rnc) = Some b /\
    holds T_RANAP_RANAP_PDU b 2 9 0 M_RANAP_ResetAcknowledgeIEs
      ([("id-CN-DomainIndicator", VEnum domain)] ++ given "id-GlobalRNC-ID" grnc_val rnc).
Proof.
  intros Hd Hg. unfold new_msg_reset_ack, ifs. pose proof (dom_size _ Hd).
  destruct rnc as [g|]; cbn [opt_ok given app] in *.
  - pose proof (grnc_size g Hg). apply grnc_valid in Hg. generalize dependent (grnc_val g). intros gv ? ?.
    ready 30.
    + unfold M_RANAP_ResetAcknowledgeIEs. rows. repeat split; try assumption. apply dom_valid, Hd.
    + unfold M_RANAP_ResetAcknowledgeIEs. rows. lia.
  - ready 30.
    + unfold M_RANAP_ResetAcknowledgeIEs. rows. repeat split; try assumption. apply dom_valid, Hd.
    + unfold M_RANAP_ResetAcknowledgeIEs. rows. lia.
Qed.

(* Error Indication *)
Lemma cd_size v : cd_ok v -> valid T_RANAP_CriticalityDiagnostics v /\ (osize T_RANAP_CriticalityDiagnostics v <= 905)%N.
Proof.
  intros (o&Ho&Hn). split; [eapply encode_valid; exact Ho|]. unfold osize. rewrite Ho. unfold ie_octets, len_octets. destruct (_ <? 128)%N; lia.
Qed.
Lemma error_ind_msg c cd domain : opt_ok cause_ok c -> opt_ok cd_ok cd -> opt_ok dom_ok domain ->
  exists b, r_msg (new_msg_error_ind c cd domain None) = Some b /\
    holds T_RANAP_RANAP_PDU b 1 22 1 M_RANAP_ErrorIndicationIEs
      (given "id-Cause" cause_val c ++ given "id-CriticalityDiagnostics" (fun v => v) cd ++ given "id-CN-DomainIndicator" VEnum domain).
Proof.
  intros Hc Hcd Hd. unfold new_msg_error_ind, ifs.
  destruct c as [c|], cd as [cd|], domain as [d|]; cbn [opt_ok given app] in *;
    try (pose proof (cause_size _ Hc); unfold cause_ok in Hc; generalize dependent (cause_val c); intros cv ? ?);
    try (apply cd_size in Hcd as [? ?]); try (pose proof (dom_size _ Hd); apply dom_valid in Hd);
    (ready 55; unfold M_RANAP_ErrorIndicationIEs; rows; [repeat split; assumption|lia]).
Qed.
(* with an RNC id only the criticality diagnostics are sent, whether given or not *)
Lemma error_ind_rnc c cd domain g : opt_ok cd_ok cd ->
  exists b, r_msg (new_msg_error_ind c cd domain (Some g)) = Some b /\
    holds T_RANAP_RANAP_PDU b 1 22 1 M_RANAP_ErrorIndicationIEs
      [("id-CriticalityDiagnostics", match cd with Some v => v | None => cd_empty end)].
Proof.
  intros Hcd. unfold new_msg_error_ind, ifs.
  generalize (grnc_val g). intros gv.
  assert (He : cd_ok cd_empty) by (eexists; split; [reflexivity|vm_compute; discriminate]).
  destruct c as [c|], cd as [cd|], domain as [d|]; cbn [opt_ok] in *;
    try (generalize (cause_val c); intros cv);
    try (apply cd_size in Hcd as [? ?]); apply cd_size in He as [? ?];
    (ready 55; unfold M_RANAP_ErrorIndicationIEs; rows; [repeat split; assumption|]); fold cd_empty; lia.
Qed.

(* Iu Release *)
Lemma iu_rel_cmd_msg c : cause_ok c -> exists b, r_msg (new_msg_iu_rel_cmd c) = Some b /\
  holds T_RANAP_RANAP_PDU b 1 1 0 M_RANAP_Iu_ReleaseCommandIEs [("id-Cause", cause_val c)].
Proof.
  intros Hc. unfold new_msg_iu_rel_cmd. pose proof (cause_size c Hc). unfold cause_ok in Hc. generalize dependent (cause_val c). intros cv ? ?.
  ready 0; unfold M_RANAP_Iu_ReleaseCommandIEs; rows; [auto|lia].
Qed.
Lemma iu_rel_cmd_bad c : ~ cause_ok c -> r_msg (new_msg_iu_rel_cmd c) = None.
Proof.
  intros Hc. unfold new_msg_iu_rel_cmd. unfold cause_ok in Hc. generalize dependent (cause_val c). intros cv Hc.
  eapply ranap_none; [vm_compute; reflexivity|vm_compute; reflexivity|reflexivity|].
  unfold M_RANAP_Iu_ReleaseCommandIEs. rows. tauto.
Qed.
Lemma iu_rel_req_msg c : cause_ok c -> exists b, r_msg (new_msg_iu_rel_req c) = Some b /\
  holds T_RANAP_RANAP_PDU b 1 11 1 M_RANAP_Iu_ReleaseRequestIEs [("id-Cause", cause_val c)].
Proof.
  intros Hc. unfold new_msg_iu_rel_req. pose proof (cause_size c Hc). unfold cause_ok in Hc. generalize dependent (cause_val c). intros cv ? ?.
  ready 37; unfold M_RANAP_Iu_ReleaseRequestIEs; rows; [auto|lia].
Qed.
Lemma iu_rel_compl_msg : exists b, r_msg new_msg_iu_rel_compl = Some b /\
  holds T_RANAP_RANAP_PDU b 2 1 0 M_RANAP_Iu_ReleaseCompleteIEs [].
Proof. unfold new_msg_iu_rel_compl. ready 1; unfold M_RANAP_Iu_ReleaseCompleteIEs; rows; [auto|lia]. Qed.

(* Security Mode Complete *)
Lemma sec_mod_compl_msg i e : (0 <= i <= 15)%Z -> (0 <= e <= 15)%Z -> exists b, r_msg (new_msg_sec_mod_compl i e) = Some b /\
  holds T_RANAP_RANAP_PDU b 2 6 0 M_RANAP_SecurityModeCompleteIEs
    [("id-ChosenIntegrityProtectionAlgorithm", VInt i); ("id-ChosenEncryptionAlgorithm", VInt e)].
Proof.
  intros Hi He. unfold new_msg_sec_mod_compl.
  assert (Hz : forall z, (0 <= z <= 15)%Z -> (osize (TInt (Some (mkCon false 0 15))) (VInt z) <= 16)%N).
  { intros z Hz. apply osize_le' with (n := 20); [|reflexivity]. cbn [blen]. unfold int_max. replace (in_con _ z) with true by (unfold in_con; cbn [c_lb c_ub]; lia). vm_compute. lia. }
  pose proof (Hz _ Hi). pose proof (Hz _ He).
  ready 23; unfold M_RANAP_SecurityModeCompleteIEs; rows; [|unfold T_RANAP_ChosenIntegrityProtectionAlgorithm, T_RANAP_ChosenEncryptionAlgorithm; lia].
  repeat split; constructor; right; cbn; lia.
Qed.

(* Security Mode Command *)
Definition loops_ok (m : N) : bool :=
  let chk alg one two :=
    let '(l, ok) := alg_loop alg m bits8 in
    if sound_mask m then ok && (if list_eq_dec Z.eq_dec l (selected one two m) then true else false)
    else negb ok || (match l with [] => true | _ => false end) in
  chk uia 0%Z 1%Z && chk uea 1%Z 2%Z.
Lemma loops_all : forallb loops_ok (map N.of_nat (seq 0 256)) = true.
Proof. vm_compute. reflexivity. Qed.
Lemma loops m : (m < 256)%N -> loops_ok m = true.
Proof.
  intros H. refine (proj1 (forallb_forall _ _) loops_all m _). apply in_map_iff. exists (N.to_nat m). split; [lia|apply in_seq; lia].
Qed.
Lemma uia_loop m : (m < 256)%N ->
  if sound_mask m then alg_loop uia m bits8 = (selected 0 1 m, true)
  else alg_loop uia m bits8 = ([], true) \/ snd (alg_loop uia m bits8) = false.
Proof.
  intros H. apply loops in H. unfold loops_ok in H. apply andb_prop in H as [H _]. destruct (alg_loop uia m bits8) as [l ok].
  destruct (sound_mask m).
  - apply andb_prop in H as [-> H]. destruct (list_eq_dec _ _ _) as [->|]; [reflexivity|discriminate].
  - destruct ok; [left|right; reflexivity]. destruct l; [reflexivity|discriminate].
Qed.
Lemma uea_loop m : (m < 256)%N ->
  if sound_mask m then alg_loop uea m bits8 = (selected 1 2 m, true)
  else alg_loop uea m bits8 = ([], true) \/ snd (alg_loop uea m bits8) = false.
Proof.
  intros H. apply loops in H. unfold loops_ok in H. apply andb_prop in H as [_ H]. destruct (alg_loop uea m bits8) as [l ok].
  destruct (sound_mask m).
  - apply andb_prop in H as [-> H]. destruct (list_eq_dec _ _ _) as [->|]; [reflexivity|discriminate].
  - destruct ok; [left|right; reflexivity]. destruct l; [reflexivity|discriminate].
Qed.
Lemma sel_cases one two m : sound_mask m = true -> selected one two m = [one] \/ selected one two m = [two] \/ selected one two m = [one; two].
Proof. unfold sound_mask. intros H. assert (m = 2 \/ m = 4 \/ m = 6)%N as [-> | [-> | ->]] by lia; cbn; auto. Qed.
Lemma bits_len k : length (octets_bits k) = 8 * length k.
Proof. unfold octets_bits. induction k as [|o k IH]; [reflexivity|]. cbn [flat_map]. rewrite app_length, IH, to_bits_len. cbn [length]. lia. Qed.
Lemma prot_valid l k : length k = 16 -> (l <> []) -> length l <= 2 -> (forall z, In z l -> (0 <= z <= 15)%Z) ->
  valid T_RANAP_IntegrityProtectionInformation (protection l k) /\ valid T_RANAP_EncryptionInformation (protection l k).
Proof.
  intros Hk Hn Hl Hz. assert (Hv : valid (TSeqOf (Some (mkCon false 1 16)) (TInt (Some (mkCon false 0 15)))) (VList (map VInt l))).
  { constructor; [right; cbn; rewrite map_length; destruct l; [congruence|cbn [length] in *; lia]|].
    intros v Hv. apply in_map_iff in Hv as (z&<-&Hin). constructor. right. cbn. apply Hz, Hin. }
  assert (Hb : valid (TBits (Some (mkCon false 128 128))) (VBits (octets_bits k))) by (constructor; right; rewrite bits_len; cbn; lia).
  unfold protection. split; (apply valid_seq; [|reflexivity]); cbn [mem_valid]; auto.
Qed.
Lemma prot_size l k : length k = 16 -> (l <> []) -> length l <= 2 -> (forall z, In z l -> (0 <= z <= 15)%Z) ->
  (osize T_RANAP_IntegrityProtectionInformation (protection l k) <= 60)%N /\ (osize T_RANAP_EncryptionInformation (protection l k) <= 60)%N.
Proof.
  intros Hk Hn Hl Hz.
  assert (Hs : forall bs, length bs = 128 -> forall f, f = T_RANAP_IntegrityProtectionInformation \/ f = T_RANAP_EncryptionInformation ->
    (osize f (VSeq [Some (VList (map VInt l)); Some (VBits bs); None] []) <= 60)%N).
  { intros bs Hbs f Hf. apply osize_le' with (n := 300); [|reflexivity].
    assert (He : blen f (VSeq [Some (VList (map VInt l)); Some (VBits bs); None] []) =
      1 + (1 + sized_max (Some (mkCon false 1 16)) (length (map VInt l)) (list_sum (map (blen (TInt (Some (mkCon false 0 15)))) (map VInt l))) +
      (1 + sized_max (Some (mkCon false 128 128)) 128 128 + (1 + 0 + 0))) + 0) by (rewrite <- Hbs; destruct Hf as [-> | ->]; reflexivity).
    rewrite He, map_length. assert (Hsum : list_sum (map (blen (TInt (Some (mkCon false 0 15)))) (map VInt l)) <= 10 * length l).
    { clear - Hz. induction l as [|z l IH]; [cbn; lia|]. cbn [map list_sum length]. 
      assert (blen (TInt (Some (mkCon false 0 15))) (VInt z) <= 10).
      { cbn [blen]. unfold int_max. replace (in_con _ z) with true by (unfold in_con; cbn [c_lb c_ub]; specialize (Hz z (or_introl eq_refl)); lia). vm_compute. lia. }
      specialize (IH (fun z h => Hz z (or_intror h))). change (list_sum (?a :: ?b)) with (a + list_sum b). lia. }
    generalize dependent (list_sum (map (blen (TInt (Some (mkCon false 0 15)))) (map VInt l))). intros n _ Hn'.
    assert (Hm : sized_max (Some (mkCon false 1 16)) (length l) n <= 40 + n).
    { unfold sized_max. replace (in_con _ _) with true by (unfold in_con; cbn [c_lb c_ub]; destruct l; [congruence|cbn [length] in *; lia]). cbn. lia. }
    assert (sized_max (Some (mkCon false 128 128)) 128 128 <= 150) by (vm_compute; lia). lia. }
  unfold protection. split; apply Hs; auto; rewrite bits_len; lia.
Qed.
Lemma status_valid st : dom_ok st -> valid T_RANAP_KeyStatus (VEnum st) /\ osize T_RANAP_KeyStatus (VEnum st) = 5%N.
Proof. intros [-> | ->]; (split; [apply v_enum_root; cbn; auto|reflexivity]). Qed.
Lemma sel_fine one two m : (0 <= one <= 15)%Z -> (0 <= two <= 15)%Z -> sound_mask m = true ->
  selected one two m <> [] /\ length (selected one two m) <= 2 /\ forall z, In z (selected one two m) -> (0 <= z <= 15)%Z.
Proof.
  intros H1 H2 Hm. destruct (sel_cases one two m Hm) as [-> | [-> | ->]]; (split; [discriminate|]); cbn [length In]; (split; [lia|]); intros z Hz; intuition; subst; lia.
Qed.
Lemma sec_mod_cmd_msg ik ck st ia ea : key_ok ik -> opt_ok key_ok ck -> dom_ok st -> (ia < 256)%N -> (ea < 256)%N ->
  if sound_mask ia && match ck with Some _ => sound_mask ea | None => true end
  then exists b, r_msg (new_msg_sec_mod_cmd2 ik ck st ia ea) = Some b /\
    holds T_RANAP_RANAP_PDU b 1 6 0 M_RANAP_SecurityModeCommandIEs
      ([("id-IntegrityProtectionInformation", protection (selected 0 1 ia) ik)] ++
       given "id-EncryptionInformation" (protection (selected 1 2 ea)) ck ++ [("id-KeyStatus", VEnum st)])
  else r_msg (new_msg_sec_mod_cmd2 ik ck st ia ea) = None.
Proof.
  intros Hik Hck Hst Hia Hea. unfold new_msg_sec_mod_cmd2. apply uia_loop in Hia. apply uea_loop in Hea. destruct (status_valid st Hst) as [Hsv Hss].
  destruct (sound_mask ia) eqn:Ei; cbn [andb].
  - rewrite Hia. cbn [negb]. destruct (sel_fine 0 1 ia ltac:(lia) ltac:(lia) Ei) as (N1&N2&N3). destruct Hik as [Hik _].
    destruct (prot_valid _ ik Hik N1 N2 N3) as [V1 _]. destruct (prot_size _ ik Hik N1 N2 N3) as [S1 _].
    destruct ck as [ck|].
    + cbn [opt_ok given] in *. destruct (sound_mask ea) eqn:Ee.
      * rewrite Hea. cbn [negb r_msg]. destruct (sel_fine 1 2 ea ltac:(lia) ltac:(lia) Ee) as (M1&M2&M3). destruct Hck as [Hck _].
        destruct (prot_valid _ ck Hck M1 M2 M3) as [_ V2]. destruct (prot_size _ ck Hck M1 M2 M3) as [_ S2].
        change prot_info with protection. cbn [app]. generalize dependent (protection (selected 0 1 ia) ik). intros pi ? ?.
        generalize dependent (protection (selected 1 2 ea) ck). intros pe ? ?.
        ready 22; unfold M_RANAP_SecurityModeCommandIEs; rows; [auto|lia].
      * destruct Hea as [Hea|Hea].
        -- rewrite Hea. cbn [negb r_msg]. eapply ranap_none; [vm_compute; reflexivity|cbn [prot_info map]; reflexivity|reflexivity|].
           unfold M_RANAP_SecurityModeCommandIEs. cbn [i_fields put_ie set_mask zero set_nth index_ie map m_rows r_ie String.eqb Ascii.eqb Bool.eqb fills r_ty].
           intros (_&H&_). inversion H as [| | | | | | | |e root adds vr va _ _ _ Hx _ _| |]; subst. specialize (Hx 0 false _ _ eq_refl eq_refl).
           inversion Hx as [| | | | | | |c t l Ha _| | | ]; subst. destruct Ha as [Ha|Ha]; [discriminate|cbn in Ha; lia].
        -- destruct (alg_loop uea ea bits8) as [l ok]. cbn [snd] in Hea. subst ok. reflexivity.
    + cbn [given r_msg]. change prot_info with protection. cbn [app]. generalize dependent (protection (selected 0 1 ia) ik). intros pi ? ?.
      ready 22; unfold M_RANAP_SecurityModeCommandIEs; rows; [auto|lia].
  - destruct Hia as [Hia|Hia].
    + rewrite Hia. cbn [negb].
      assert (Hno : forall s mid, i_fields s = set_nth 2 (Some (VEnum st)) (i_fields s) -> nth_error (i_fields s) 0 = Some (Some (prot_info [] ik)) -> length (i_fields s) = 3 ->
        r_msg (finish ranap 1 6 0 M_RANAP_SecurityModeCommandIEs s mid true) = None).
      { intros s mid _ H0 Hl. destruct s as [msk fs]. cbn [i_fields] in *. destruct fs as [|f0 [|f1 [|f2 [|x y]]]]; try discriminate. injection H0 as ->.
        eapply ranap_none; [reflexivity|reflexivity|reflexivity|]. unfold M_RANAP_SecurityModeCommandIEs. cbn [i_fields m_rows map fills r_ty].
        unfold wanted at 1. cbn [is_opt r_pres negb orb].
        intros (H&_). inversion H as [| | | | | | | |e root adds vr va _ _ _ Hx _ _| |]; subst. specialize (Hx 0 false _ _ eq_refl eq_refl).
        inversion Hx as [| | | | | | |c t l Ha _| | | ]; subst. destruct Ha as [Ha|Ha]; [discriminate|cbn in Ha; lia]. }
      destruct ck as [ck|].
      * destruct (alg_loop uea ea bits8) as [l ok]. destruct ok; cbn [negb r_msg]; [|reflexivity]. apply Hno; reflexivity.
      * cbn [r_msg]. apply Hno; reflexivity.
    + destruct (alg_loop uia ia bits8) as [l ok]. cbn [snd] in Hia. subst ok. reflexivity.
Qed.

(* Common ID and Paging *)
Lemma imsi_valid o : 3 <= length o <= 8 -> bytes_ok o = true -> valid T_RANAP_PermanentNAS_UE_ID (VChoice 0 (VOcts o)).
Proof.
  intros Hl Hb. eapply v_choice_root; [reflexivity|]. constructor; [right; cbn; lia|apply octs_in, Hb].
Qed.
Lemma imsi_size o : 3 <= length o <= 8 -> (osize T_RANAP_PermanentNAS_UE_ID (VChoice 0 (VOcts o)) <= 30)%N.
Proof.
  intros Hl. apply osize_le' with (n := 150); [|reflexivity].
  assert (He : blen T_RANAP_PermanentNAS_UE_ID (VChoice 0 (VOcts o)) = 1 + (whole_max 1 + sized_max (Some (mkCon false 3 8)) (length o) (8 * length o))) by reflexivity.
  rewrite He. unfold sized_max. replace (in_con _ _) with true by (unfold in_con; cbn [c_lb c_ub]; lia).
  replace (whole_max 1) with 0 by reflexivity. change (c_ub (mkCon false 3 8) <? 65536)%Z with true. cbn [andb].
  replace (whole_max (con_range (mkCon false 3 8))) with 3 by reflexivity. lia.
Qed.
Lemma imsi_bad o : (length o < 3 \/ 8 < length o) -> ~ valid T_RANAP_PermanentNAS_UE_ID (VChoice 0 (VOcts o)).
Proof.
  intros Hl H. inversion H as [| | | | | | | | |e root more i t w Hn Hw|]; subst. injection Hn as <-.
  inversion Hw as [| | | | | |c l Ha _| | | | ]; subst. destruct Ha as [Ha|Ha]; [discriminate|cbn in Ha; lia].
Qed.
Lemma common_id_msg imsi : forallb is_digit imsi = true -> 5 <= length imsi <= 16 ->
  exists m b o, new_msg_common_id (Some imsi) = Ok m /\ r_msg m = Some b /\ packed_text o = imsi /\
    holds T_RANAP_RANAP_PDU b 1 15 1 M_RANAP_CommonID_IEs [("id-PermanentNAS-UE-ID", VChoice 0 (VOcts o))].
Proof.
  intros Hd Hl. unfold new_msg_common_id. rewrite imsi_encode_exact. destruct (Nat.leb_spec ((length imsi + 1) / 2) 16); [|lia].
  cbn [obind]. destruct (packed_text_imsi imsi Hd) as [Hp Hb]. pose proof (imsi_octets_length imsi) as Ho.
  assert (H38 : 3 <= length (imsi_octets imsi) <= 8) by lia. pose proof (imsi_size _ H38). pose proof (imsi_valid _ H38 Hb).
  unfold imsi_val. generalize dependent (imsi_octets imsi). intros o ? ? ? ? ? ?. cbn [r_msg].
  assert (Hx : exists b, r_msg (finish ranap 1 15 1 M_RANAP_CommonID_IEs (put_ie M_RANAP_CommonID_IEs "id-PermanentNAS-UE-ID" (VChoice 0 (VOcts o)) (zero M_RANAP_CommonID_IEs)) [Fr ("imsi", 0)] true) = Some b /\
    holds T_RANAP_RANAP_PDU b 1 15 1 M_RANAP_CommonID_IEs [("id-PermanentNAS-UE-ID", VChoice 0 (VOcts o))]).
  { ready 46; unfold M_RANAP_CommonID_IEs; rows; [auto|lia]. }
  destruct Hx as (b&Hr&Hh). eexists _, b, o. split; [reflexivity|]. split; [exact Hr|]. split; [assumption|exact Hh].
Qed.
Lemma common_id_null : exists m, new_msg_common_id None = Ok m /\ r_msg m = None.
Proof. eexists. split; [reflexivity|]. vm_compute. reflexivity. Qed.
Lemma common_id_bad imsi : (length imsi < 5 \/ 16 < length imsi) -> length imsi <= 32 ->
  exists m, new_msg_common_id (Some imsi) = Ok m /\ r_msg m = None.
Proof.
  intros Hl Hm. unfold new_msg_common_id. rewrite imsi_encode_exact. destruct (Nat.leb_spec ((length imsi + 1) / 2) 16); [|lia].
  cbn [obind]. pose proof (imsi_octets_length imsi) as Ho. assert (Hb := imsi_bad (imsi_octets imsi) ltac:(lia)).
  eexists. split; [reflexivity|]. cbn [r_msg]. unfold imsi_val. generalize dependent (VChoice 0 (VOcts (imsi_octets imsi))). intros v Hb.
  eapply ranap_none; [vm_compute; reflexivity|vm_compute; reflexivity|reflexivity|]. unfold M_RANAP_CommonID_IEs. rows. tauto.
Qed.
Lemma is_ps_fine (x : bool) : dom_ok (if x then 1 else 0).
Proof. destruct x; [right|left]; reflexivity. Qed.
Lemma store32_len t : length (store32be t) = 4.
Proof. reflexivity. Qed.
Lemma store32_bytes t : bytes_ok (store32be t) = true.
Proof.
  unfold bytes_ok, store32be. apply forallb_forall. intros x [<- | [<- | [<- | [<- | []]]]]; apply N.ltb_lt, N.mod_lt; discriminate.
Qed.
Lemma tmsi_fine (x : bool) o : length o = 4 -> bytes_ok o = true ->
  valid T_RANAP_TemporaryUE_ID (VChoice (if x then 1 else 0) (VOcts o)) /\ (osize T_RANAP_TemporaryUE_ID (VChoice (if x then 1 else 0) (VOcts o)) <= 20)%N.
Proof.
  intros Hl Hb. split.
  - destruct x; (eapply v_choice_root; [reflexivity|]; constructor; [right; cbn; lia|apply octs_in, Hb]).
  - apply osize_le' with (n := 80); [|reflexivity]. destruct o as [|a [|b [|c [|d [|e o]]]]]; try discriminate. destruct x; vm_compute; lia.
Qed.
Lemma pcause_fine pc : (pc <= 5)%N -> valid T_RANAP_PagingCause (VEnum (Z.of_N pc)) /\ (osize T_RANAP_PagingCause (VEnum (Z.of_N pc)) <= 16)%N.
Proof.
  intros H. assert (Hc : (pc = 0 \/ pc = 1 \/ pc = 2 \/ pc = 3 \/ pc = 4 \/ pc = 5)%N) by lia.
  destruct Hc as [-> | [-> | [-> | [-> | [-> | ->]]]]]; (split; [|vm_compute; discriminate]);
    first [apply v_enum_root; cbn; tauto|apply v_enum_more; cbn; tauto].
Qed.
Lemma paging_msg imsi tmsi is_ps pc : forallb is_digit imsi = true -> 5 <= length imsi <= 16 -> opt_ok (fun t => (t < 2 ^ 32)%N) tmsi -> (pc <= 5)%N ->
  exists m b o, new_msg_paging_cmd imsi tmsi is_ps pc = Ok m /\ r_msg m = Some b /\ packed_text o = imsi /\
    holds T_RANAP_RANAP_PDU b 1 14 1 M_RANAP_PagingIEs (paging_ies is_ps o tmsi pc).
Proof.
  intros Hd Hl Ht Hp. unfold new_msg_paging_cmd. rewrite imsi_encode_exact. destruct (Nat.leb_spec ((length imsi + 1) / 2) 16); [|lia].
  cbn [obind]. destruct (packed_text_imsi imsi Hd) as [Hpt Hb]. pose proof (imsi_octets_length imsi) as Ho.
  assert (H38 : 3 <= length (imsi_octets imsi) <= 8) by lia. pose proof (imsi_size _ H38) as Is. pose proof (imsi_valid _ H38 Hb) as Iv.
  cbv zeta. unfold imsi_val, is_ps_val, paging_ies. generalize dependent (imsi_octets imsi). intros o Hpt Hb Ho H38 Is Iv. cbn [r_msg].
  destruct (pcause_fine pc Hp) as [Pv Ps]. pose proof (is_ps_fine is_ps) as Hps. pose proof (dom_size _ Hps) as Ds. pose proof (dom_valid _ Hps) as Dv.
  match goal with |- exists m b o, Ok (mkMade (r_msg ?f) _) = _ /\ _ => assert (Hx : exists b, r_msg f = Some b /\ holds T_RANAP_RANAP_PDU b 1 14 1 M_RANAP_PagingIEs (paging_ies is_ps o tmsi pc)) end.
  2:{ destruct Hx as (b&Hr&Hh). eexists _, b, o. split; [reflexivity|]. split; [exact Hr|]. split; [exact Hpt|exact Hh]. }
  unfold paging_ies, ifs. generalize dependent (if is_ps then 1 else 0)%Z. intros dz _ Ds Dv. generalize dependent (VChoice 0 (VOcts o)). intros iv Is Iv.
  assert (Htm : forall t, tmsi = Some t -> valid T_RANAP_TemporaryUE_ID (VChoice (if is_ps then 1 else 0) (VOcts (store32be t))) /\ (osize T_RANAP_TemporaryUE_ID (VChoice (if is_ps then 1 else 0) (VOcts (store32be t))) <= 20)%N).
  { intros t ->. apply tmsi_fine; [reflexivity|]. apply store32_bytes. }
  destruct tmsi as [t|]; cbn [given app]; [destruct (Htm t eq_refl) as [Tv Ts]; generalize dependent (VChoice (if is_ps then 1 else 0) (VOcts (store32be t))); intros tv Tv Ts|];
    destruct (pc =? 0)%N; cbn [given app]; generalize dependent (VEnum (Z.of_N pc)); intros pv Pv Ps; (ready 45; unfold M_RANAP_PagingIEs; rows; [auto 10|lia]).
Qed.
Lemma paging_bad imsi tmsi is_ps pc : (length imsi < 5 \/ 16 < length imsi) -> length imsi <= 32 ->
  exists m, new_msg_paging_cmd imsi tmsi is_ps pc = Ok m /\ r_msg m = None.
Proof.
  intros Hl Hm. unfold new_msg_paging_cmd. rewrite imsi_encode_exact. destruct (Nat.leb_spec ((length imsi + 1) / 2) 16); [|lia].
  cbn [obind]. pose proof (imsi_octets_length imsi) as Ho. assert (Hb := imsi_bad (imsi_octets imsi) ltac:(lia)).
  eexists. split; [reflexivity|]. cbn [r_msg]. unfold imsi_val, is_ps_val, ifs. generalize dependent (VChoice 0 (VOcts (imsi_octets imsi))). intros v Hb.
  destruct tmsi as [t|]; destruct (pc =? 0)%N; generalize (VEnum (Z.of_N pc)); intros pv;
    (eapply ranap_none; [vm_compute; reflexivity|vm_compute; reflexivity|reflexivity|]; unfold M_RANAP_PagingIEs; rows; tauto).
Qed.
Lemma paging_bad_cause imsi tmsi is_ps pc : length imsi <= 32 -> (5 < pc)%N ->
  exists m, new_msg_paging_cmd imsi tmsi is_ps pc = Ok m /\ r_msg m = None.
Proof.
  intros Hl Hp. unfold new_msg_paging_cmd. rewrite imsi_encode_exact. destruct (Nat.leb_spec ((length imsi + 1) / 2) 16); [|lia].
  cbn [obind]. eexists. split; [reflexivity|]. cbn [r_msg]. unfold imsi_val, is_ps_val, ifs. generalize (VChoice 0 (VOcts (imsi_octets imsi))). intros v.
  destruct (N.eqb_spec pc 0); [lia|].
  assert (Hb : ~ valid T_RANAP_PagingCause (VEnum (Z.of_N pc))) by (intros H1; inversion H1; subst; cbn [In] in *; lia).
  generalize dependent (VEnum (Z.of_N pc)). intros pv Hb.
  destruct tmsi as [t|]; (eapply ranap_none; [vm_compute; reflexivity|vm_compute; reflexivity|reflexivity|]; unfold M_RANAP_PagingIEs; rows; tauto).
Qed.
Lemma paging_fault imsi tmsi is_ps pc : 32 < length imsi -> new_msg_paging_cmd imsi tmsi is_ps pc = Fault OobWrite.
Proof. intros H. unfold new_msg_paging_cmd. rewrite imsi_encode_exact. destruct (Nat.leb_spec ((length imsi + 1) / 2) 16); [lia|reflexivity]. Qed.
Lemma common_id_fault imsi : 32 < length imsi -> new_msg_common_id (Some imsi) = Fault OobWrite.
Proof. intros H. unfold new_msg_common_id. rewrite imsi_encode_exact. destruct (Nat.leb_spec ((length imsi + 1) / 2) 16); [lia|reflexivity]. Qed.

(* lists of one item: the container of an item message *)
Lemma one_item_ok r v : (r_id r <= 65535)%N -> In (r_crit r) [0; 1; 2]%Z -> few_adds (r_ty r) = true -> valid (r_ty r) v -> (osize (r_ty r) v <= 100)%N ->
  exists o ie, new_ie r v = Some ie /\ ie = VSeq [Some (VInt (Z.of_N (r_id r))); Some (VEnum (r_crit r)); Some (VOcts o)] [] /\
    decode (r_ty r) o = Some v /\ valid std_cont (list_val [ie]) /\ (osize std_cont (list_val [ie]) <= 110)%N.
Proof.
  intros Hi Hc Hf Hv Hs. destruct (encode_total _ _ Hf Hv) as (o&Ho&Hb&_). unfold osize in Hs. rewrite Ho in Hs.
  assert (Hn : new_ie r v = Some (VSeq [Some (VInt (Z.of_N (r_id r))); Some (VEnum (r_crit r)); Some (VOcts o)] [])) by (unfold new_ie; rewrite Ho; reflexivity).
  exists o. eexists. split; [exact Hn|]. split; [reflexivity|]. split; [exact (decode_encode _ _ _ Ho)|].
  pose proof (new_ie_valid _ _ _ Hi Hc Hn) as Hvi.
  assert (Hvc : valid std_cont (list_val [VSeq [Some (VInt (Z.of_N (r_id r))); Some (VEnum (r_crit r)); Some (VOcts o)] []])).
  { apply cont_valid; [cbn; lia|]. intros ie [<-|[]]. exact Hvi. }
  split; [exact Hvc|]. destruct (encode_total _ _ (eq_refl : few_adds std_cont = true) Hvc) as (x&Hx&_). unfold osize. rewrite Hx.
  destruct (cont_len [VSeq [Some (VInt (Z.of_N (r_id r))); Some (VEnum (r_crit r)); Some (VOcts o)] []] x) as [C _].
  - intros ie [<-|[]]. cbn [ie_body]. discriminate.
  - exact Hx.
  - assert (Hlt : (N.of_nat (length o) < 100)%N) by (revert Hs; unfold ie_octets; lia).
    rewrite C. 2:{ intros ie o' [<-|[]] E. cbn [ie_body] in E. injection E as <-. lia. }
    unfold sizes, ie_size. cbn [fold_right ie_body]. revert Hs. unfold ie_octets, len_octets. intros Hs.
    repeat match goal with |- context[(?a <? ?b)%N] => destruct (N.ltb_spec a b) | H : context[(?a <? ?b)%N] |- _ => destruct (N.ltb_spec a b) end; lia.
Qed.

Lemma seq_item t ms vs : t = TSeq true ms [] -> mem_valid ms vs -> valid t (VSeq vs []).
Proof. intros -> H. apply valid_seq; [exact H|reflexivity]. Qed.
Lemma con_id_ok bs : length bs = 24 -> valid T_RANAP_ResetResourceItem (VSeq [Some (VBits bs); None] []) /\
  (osize T_RANAP_ResetResourceItem (VSeq [Some (VBits bs); None] []) <= 40)%N.
Proof.
  intros H. split.
  - eapply seq_item; [reflexivity|]. cbn [mem_valid]. split; [|auto]. constructor. right. cbn. lia.
  - do 24 (destruct bs as [|? bs]; [discriminate|]). destruct bs; [|discriminate]. apply osize_le' with (n := 200); [vm_compute; lia|reflexivity].
Qed.
Lemma reset_resource_msg domain c id rnc : dom_ok domain -> cause_ok c -> opt_ok grnc_ok rnc ->
  exists b o, r_msg (new_msg_reset_resource domain c [id] rnc) = Some b /\
    decode T_RANAP_ResetResourceItem o = Some (VSeq [Some (VBits (to_bits 24 id)); None] []) /\
    holds T_RANAP_RANAP_PDU b 1 27 0 M_RANAP_ResetResourceIEs
      ([("id-CN-DomainIndicator", VEnum domain); ("id-Cause", cause_val c); ("id-IuSigConIdList", one_item 78 0 o)] ++ given "id-GlobalRNC-ID" grnc_val rnc).
Proof.
  intros Hd Hc Hg. destruct (con_id_ok (to_bits 24 id) (to_bits_len _ _)) as [Iv Is].
  unfold new_msg_reset_resource, add_ies. generalize dependent (VSeq [Some (VBits (to_bits 24 id)); None] []). intros iv Iv Is.
  match goal with |- context[add_rows ?m ?s ?r ?f ?k] => pose proof (add_rows_snd m s r f k) as Ha; destruct (add_rows m s r f k) as [t x] end.
  cbn [snd] in Ha. subst x.
  destruct (one_item_ok (mkRow "id-IuSigConIdItem" 78 0 "ResetResourceItem" T_RANAP_ResetResourceItem Mandatory) iv) as (o&ie&Hn&->&Hdec&Lv&Ls);
    [discriminate|cbn; auto|reflexivity|exact Iv|cbn [r_ty]; lia|].
  cbn [r_ty r_id r_crit] in *.
  replace (encode_rows _ _ _ _) with (Some [VSeq [Some (VInt 78); Some (VEnum 0); Some (VOcts o)] []]).
  2:{ unfold M_RANAP_ResetResourceItemIEs, put_ie. cbn -[new_ie]. change (Z.of_N 78) with 78%Z in Hn. rewrite Hn. reflexivity. }
  assert (Hx : forall lv, valid T_RANAP_ResetResourceList lv -> (osize T_RANAP_ResetResourceList lv <= 110)%N -> exists b,
    r_msg (finish ranap 1 27 0 M_RANAP_ResetResourceIEs
      (ifs rnc (fun g s => put_ie M_RANAP_ResetResourceIEs "id-GlobalRNC-ID" (grnc_val g) (set_mask (macro M_RANAP_ResetIEs "id-GlobalRNC-ID") s))
      (put_ie M_RANAP_ResetResourceIEs "id-IuSigConIdList" lv
      (put_ie M_RANAP_ResetResourceIEs "id-Cause" (cause_val c)
      (put_ie M_RANAP_ResetResourceIEs "id-CN-DomainIndicator" (dom_val domain) (zero M_RANAP_ResetResourceIEs))))) (rel t) true) = Some b /\
    holds T_RANAP_RANAP_PDU b 1 27 0 M_RANAP_ResetResourceIEs
      ([("id-CN-DomainIndicator", VEnum domain); ("id-Cause", cause_val c); ("id-IuSigConIdList", lv)] ++ given "id-GlobalRNC-ID" grnc_val rnc)).
  { intros lv Hv Hs. unfold ifs, dom_val. unfold cause_ok in Hc. pose proof (cause_size c Hc). pose proof (dom_size _ Hd). pose proof (dom_valid _ Hd).
    destruct rnc as [g|]; cbn [opt_ok given app] in *.
    - pose proof (grnc_size g Hg). apply grnc_valid in Hg. generalize dependent (cause_val c). intros cv ? ?. generalize dependent (grnc_val g). intros gv ? ?.
      ready 31; unfold M_RANAP_ResetResourceIEs; rows; [repeat split; assumption|lia].
    - generalize dependent (cause_val c). intros cv ? ?. ready 31; unfold M_RANAP_ResetResourceIEs; rows; [repeat split; assumption|lia]. }
  destruct (Hx _ Lv Ls) as (b&Hr&Hh). exists b, o. split; [exact Hr|]. split; [exact Hdec|exact Hh].
Qed.
Lemma reset_resource_many domain c ids rnc : length ids <> 1 -> r_msg (new_msg_reset_resource domain c ids rnc) = None.
Proof. destruct ids as [|a [|b ids]]; cbn [length]; [reflexivity|lia|reflexivity]. Qed.

(* RAB Release Request *)
Lemma rab_id_ok rab_id : valid T_RANAP_RAB_ID (VBits (octets_bits [rab_id])).
Proof. constructor. right. rewrite bits_len. cbn. lia. Qed.
Lemma rel_item_size rab_id c : cause_ok c -> (osize T_RANAP_RAB_ReleaseItem (VSeq [Some (rab_id_val rab_id); Some (cause_val c); None] []) <= 60)%N.
Proof.
  intros Hc. apply osize_le' with (n := 300); [|reflexivity].
  assert (He : blen T_RANAP_RAB_ReleaseItem (VSeq [Some (rab_id_val rab_id); Some (cause_val c); None] []) =
    (1 + (1 + blen T_RANAP_RAB_ID (rab_id_val rab_id) + (1 + blen T_RANAP_Cause (cause_val c) + 1)) + 0)%nat) by reflexivity.
  rewrite He. pose proof (cause_blen c Hc). assert (blen T_RANAP_RAB_ID (rab_id_val rab_id) <= 30) by (vm_compute; lia). lia.
Qed.
Lemma rab_rel_req_msg rab_id c : cause_ok c ->
  exists b o, r_msg (new_msg_rab_rel_req rab_id c) = Some b /\
    decode T_RANAP_RAB_ReleaseItem o = Some (VSeq [Some (VBits (octets_bits [rab_id])); Some (cause_val c); None] []) /\
    holds T_RANAP_RANAP_PDU b 1 10 1 M_RANAP_RAB_ReleaseRequestIEs [("id-RAB-ReleaseList", one_item 40 1 o)].
Proof.
  intros Hc. assert (Iv : valid T_RANAP_RAB_ReleaseItem (VSeq [Some (rab_id_val rab_id); Some (cause_val c); None] [])).
  { eapply seq_item; [reflexivity|]. cbn [mem_valid]. split; [apply rab_id_ok|]. split; [exact Hc|auto]. }
  pose proof (rel_item_size rab_id c Hc) as Is.
  change (Some (VBits (octets_bits [rab_id]))) with (Some (rab_id_val rab_id)).
  unfold new_msg_rab_rel_req, add_ies. generalize dependent (VSeq [Some (rab_id_val rab_id); Some (cause_val c); None] []). intros iv Iv Is.
  match goal with |- context[add_rows ?m ?s ?r ?f ?k] => pose proof (add_rows_snd m s r f k) as Ha; destruct (add_rows m s r f k) as [t x] end.
  cbn [snd] in Ha. subst x.
  destruct (one_item_ok (mkRow "id-RAB-ReleaseItem" 40 1 "RAB-ReleaseItem" T_RANAP_RAB_ReleaseItem Mandatory) iv) as (o&ie&Hn&->&Hdec&Lv&Ls);
    [discriminate|cbn; auto|reflexivity|exact Iv|cbn [r_ty]; lia|].
  cbn [r_ty r_id r_crit] in *.
  replace (encode_rows _ _ _ _) with (Some [VSeq [Some (VInt 40); Some (VEnum 1); Some (VOcts o)] []]).
  2:{ unfold M_RANAP_RAB_ReleaseItemIEs, put_ie. cbn -[new_ie]. change (Z.of_N 40) with 40%Z in Hn. rewrite Hn. reflexivity. }
  assert (Hx : forall lv, valid T_RANAP_RAB_ReleaseList lv -> (osize T_RANAP_RAB_ReleaseList lv <= 110)%N -> exists b,
    r_msg (finish ranap 1 10 1 M_RANAP_RAB_ReleaseRequestIEs (put_ie M_RANAP_RAB_ReleaseRequestIEs "id-RAB-ReleaseList" lv (zero M_RANAP_RAB_ReleaseRequestIEs)) (rel t) true) = Some b /\
    holds T_RANAP_RANAP_PDU b 1 10 1 M_RANAP_RAB_ReleaseRequestIEs [("id-RAB-ReleaseList", lv)]).
  { intros lv Hv Hs. ready 35; unfold M_RANAP_RAB_ReleaseRequestIEs; rows; [auto|lia]. }
  destruct (Hx _ Lv Ls) as (b&Hr&Hh). exists b, o. split; [exact Hr|]. split; [exact Hdec|exact Hh].
Qed.

(* Initial UE Message *)
Lemma area_ok pl a : length pl = 3 -> bytes_ok pl = true -> length a = 2 -> bytes_ok a = true ->
  (valid T_RANAP_LAI (VSeq [Some (VOcts pl); Some (VOcts a); None] []) /\ (osize T_RANAP_LAI (VSeq [Some (VOcts pl); Some (VOcts a); None] []) <= 20)%N) /\
  (valid T_RANAP_SAI (VSeq [Some (VOcts pl); Some (VOcts a); Some (VOcts a); None] []) /\ (osize T_RANAP_SAI (VSeq [Some (VOcts pl); Some (VOcts a); Some (VOcts a); None] []) <= 25)%N).
Proof.
  intros Hp Hpb Ha Hab.
  assert (Hpv : valid T_RANAP_PLMNidentity (VOcts pl)) by (constructor; [right; cbn; lia|apply octs_in, Hpb]).
  assert (Hav : valid T_RANAP_LAC (VOcts a)) by (constructor; [right; cbn; lia|apply octs_in, Hab]).
  destruct pl as [|p1 [|p2 [|p3 [|? pl]]]]; try discriminate. destruct a as [|a1 [|a2 [|? a]]]; try discriminate.
  repeat split.
  - apply valid_seq; [|reflexivity]. cbn [mem_valid]. auto.
  - apply osize_le' with (n := 100); [vm_compute; lia|reflexivity].
  - apply valid_seq; [|reflexivity]. cbn [mem_valid]. auto.
  - apply osize_le' with (n := 130); [vm_compute; lia|reflexivity].
Qed.
Lemma sig_con_ok id : valid T_RANAP_IuSignallingConnectionIdentifier (VBits (to_bits 24 id)) /\ (osize T_RANAP_IuSignallingConnectionIdentifier (VBits (to_bits 24 id)) <= 20)%N.
Proof.
  split; [constructor; right; rewrite to_bits_len; cbn; lia|]. apply osize_le' with (n := 80); [|reflexivity].
  generalize (to_bits_len 24 id). generalize (to_bits 24 id). intros bs H. unfold T_RANAP_IuSignallingConnectionIdentifier. cbn [blen]. rewrite H. vm_compute. lia.
Qed.
Lemma nas_ok nas : bytes_ok nas = true -> (N.of_nat (length nas) <= 900)%N -> valid T_RANAP_NAS_PDU (VOcts nas) /\ (osize T_RANAP_NAS_PDU (VOcts nas) <= 910)%N.
Proof.
  intros Hb Hn. split; [constructor; [exact I|apply octs_in, Hb]|]. unfold T_RANAP_NAS_PDU. rewrite octs_none_size by (assumption || lia).
  unfold ie_octets, len_octets. repeat destruct (_ <? 128)%N; lia.
Qed.
Lemma buf0_ok le : length (buf0 le) = 2 /\ bytes_ok (buf0 le) = true.
Proof. destruct le; auto. Qed.
Lemma initial_ue_msg le id is_ps g nas : grnc_ok g -> bytes_ok nas = true -> (N.of_nat (length nas) <= 900)%N ->
  exists b, r_msg (new_msg_initial_ue le id is_ps g nas) = Some b /\
    holds T_RANAP_RANAP_PDU b 1 19 1 M_RANAP_InitialUE_MessageIEs
      [("id-CN-DomainIndicator", VEnum (if is_ps then 1 else 0));
       ("id-LAI", VSeq [Some (VOcts (g_plmn g)); Some (VOcts (area_octets le)); None] []);
       ("id-SAI", VSeq [Some (VOcts (g_plmn g)); Some (VOcts (area_octets le)); Some (VOcts (area_octets le)); None] []);
       ("id-NAS-PDU", VOcts nas); ("id-IuSigConId", VBits (to_bits 24 id)); ("id-GlobalRNC-ID", grnc_val g)].
Proof.
  intros Hg Hb Hn. pose proof (grnc_size g Hg) as Gs. pose proof (grnc_valid g Hg) as Gv. destruct Hg as (Hpl&Hpb&_).
  destruct (buf0_ok le) as [Hal Hab]. destruct (area_ok _ _ Hpl Hpb Hal Hab) as [[Lv Ls] [Sv Ss]]. destruct (sig_con_ok id) as [Iv Is]. destruct (nas_ok nas Hb Hn) as [Nv Ns].
  pose proof (is_ps_fine is_ps) as Hps. pose proof (dom_size _ Hps) as Ds. pose proof (dom_valid _ Hps) as Dv.
  unfold new_msg_initial_ue, is_ps_val.
  enough (Hx : exists b, r_msg (new_msg_initial_ue le id is_ps g nas) = Some b /\
    holds T_RANAP_RANAP_PDU b 1 19 1 M_RANAP_InitialUE_MessageIEs
      [("id-CN-DomainIndicator", VEnum (if is_ps then 1 else 0));
       ("id-LAI", VSeq [Some (VOcts (g_plmn g)); Some (VOcts (buf0 le)); None] []);
       ("id-SAI", VSeq [Some (VOcts (g_plmn g)); Some (VOcts (buf0 le)); Some (VOcts (buf0 le)); None] []);
       ("id-NAS-PDU", VOcts nas); ("id-IuSigConId", VBits (to_bits 24 id)); ("id-GlobalRNC-ID", grnc_val g)]) by exact Hx.
  unfold new_msg_initial_ue, is_ps_val.
  generalize dependent (VSeq [Some (VOcts (g_plmn g)); Some (VOcts (buf0 le)); None] []). intros v1 ? ?.
  generalize dependent (VSeq [Some (VOcts (g_plmn g)); Some (VOcts (buf0 le)); Some (VOcts (buf0 le)); None] []). intros v2 ? ?.
  generalize dependent (VBits (to_bits 24 id)). intros v3 ? ?. generalize dependent (grnc_val g). intros v4 ? ?.
  generalize dependent (VOcts nas). intros v5 ? ?. generalize dependent (VEnum (if is_ps then 1 else 0)). intros v6 ? ?.
  ready 51; unfold M_RANAP_InitialUE_MessageIEs; rows; [repeat split; assumption|lia].
Qed.
Lemma mask_bits m : (m < 256)%N -> (sound_mask m = true <-> m <> 0%N /\ forall i, N.testbit m i = true -> (i = 1 \/ i = 2)%N).
Proof.
  intros Hm.
  assert (Hall : forallb (fun n => Bool.eqb (sound_mask (N.of_nat n)) (negb (n =? 0)%nat && forallb (fun i => negb (N.testbit (N.of_nat n) i) || (i =? 1) || (i =? 2))%N [0; 1; 2; 3; 4; 5; 6; 7]%N)) (seq 0 256) = true)
    by (vm_compute; reflexivity).
  rewrite forallb_forall in Hall. specialize (Hall (N.to_nat m)). rewrite N2Nat.id in Hall. apply eqb_prop in Hall; [|apply in_seq; lia]. rewrite Hall. split.
  - intros H. apply andb_prop in H as [H1 H2]. split; [lia|]. intros i Hi. destruct (N.ltb_spec i 8).
    + rewrite forallb_forall in H2. specialize (H2 i). rewrite Hi in H2. cbn [negb orb] in H2. assert (Hin : In i [0; 1; 2; 3; 4; 5; 6; 7]%N) by (cbn [In]; lia). specialize (H2 Hin). lia.
    + rewrite N.bits_above_log2 in Hi; [discriminate|]. destruct (N.eq_dec m 0) as [->|Hz]; [cbn; lia|]. apply N.log2_lt_pow2; [lia|]. change 256%N with (2 ^ 8)%N in Hm. pose proof (N.pow_le_mono_r 2 8 i). lia.
  - intros [Hz H]. apply andb_true_intro. split; [lia|]. apply forallb_forall. intros i _. specialize (H i). destruct (N.testbit m i); [cbn [negb orb]; destruct H; [reflexivity| |]; subst; reflexivity|reflexivity].
Qed.
