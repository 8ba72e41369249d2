(* Where the limits of the factory messages are exactly, and which arguments give
   no message. *)
From Coq Require Import ZifyBool ZifyNat ZifyN String List.
From Verif Require Import Base Aper Aper_spec Aper_proofs Aper_valid Aper_len Container Container_proofs AllMsgs RanapTypes RanapTab Helpers Helpers_spec Helpers_proofs
  Factory Factory_spec Factory_len Factory_proofs Factory_msgs.
Ltac Zify.zify_post_hook ::= Z.div_mod_to_equations.
Local Open Scope list_scope.
Local Open Scope string_scope.
Local Open Scope list_scope.

(* ---------------- exact sizes ---------------- *)
Lemma items_bits : forall l p b, put_items put_bit l p = Some b -> length b = length l.
Proof.
  induction l as [|x l IH]; intros p b H; cbn [put_items] in H.
  - apply some_inv in H. subst b. reflexivity.
  - apply opt_inv in H as (b1&H1&H). unfold put_bit in H1. apply some_inv in H1. subst b1.
    apply after_inv in H as (b2&H2&->). apply IH in H2. rewrite app_length, H2. reflexivity.
Qed.
Lemma fixed_root {A} (put : A -> nat -> option bits) small n l p b k :
  (0 <= n < 65536)%Z -> (forall q b, put_items put l q = Some b -> length b = k) ->
  put_root put (Some small) (mkCon false n n) l p = Some b ->
  length l = Z.to_nat n /\ length b = (if (small <? Z.to_N n)%N then pad_len p else 0) + k.
Proof.
  intros Hn Hk H. unfold put_root in H. destruct (in_con _ _) eqn:Ei; [|discriminate]. unfold in_con in Ei. cbn [c_lb c_ub] in Ei.
  assert (El : length l = Z.to_nat n) by lia. split; [exact El|]. cbn [c_ub] in H. replace (n <? 65536)%Z with true in H by lia.
  apply opt_inv in H as (b1&H1&H). cbv zeta in H. unfold con_range in H1. cbn [c_lb c_ub] in H1. replace (n - n + 1)%Z with 1%Z in H1 by lia.
  apply whole_len in H1; [|cbn; lia]. change (length b1 = 0) in H1. destruct b1; [|discriminate].
  unfold aligns in H. cbn [c_lb c_ub] in H. rewrite Z.eqb_refl in H. replace (N.of_nat (length l)) with (Z.to_N n) in H by lia.
  destruct (small <? Z.to_N n)%N; apply after_inv in H as (b2&H2&->); apply Hk in H2; rewrite app_length, H2; [|reflexivity].
  cbn [app length]. unfold pad. rewrite repeat_length. f_equal. f_equal. lia.
Qed.
Lemma octs_fixed n l p b : (0 <= n < 65536)%Z -> enc (TOcts (Some (mkCon false n n))) (VOcts l) p = Some b ->
  length b = (if (2 <? Z.to_N n)%N then pad_len p else 0) + 8 * Z.to_nat n.
Proof.
  intros Hn H. cbn [enc put_sized c_ext] in H. apply (fixed_root _ _ _ _ _ _ (8 * length l) Hn) in H as [H1 H2].
  - rewrite H2, H1. reflexivity.
  - intros q b' Hq. apply (put_items_octets _ _ _ Hq).
Qed.
Lemma bits_fixed n l p b : (0 <= n < 65536)%Z -> enc (TBits (Some (mkCon false n n))) (VBits l) p = Some b ->
  length b = (if (16 <? Z.to_N n)%N then pad_len p else 0) + Z.to_nat n.
Proof.
  intros Hn H. cbn [enc put_sized c_ext] in H. apply (fixed_root _ _ _ _ _ _ (length l) Hn) in H as [H1 H2].
  - rewrite H2, H1. reflexivity.
  - intros q b' Hq. apply (items_bits _ _ _ Hq).
Qed.
Lemma osize_bits t v n : few_adds t = true -> valid t v -> 0 < n -> (forall b, enc t v 0 = Some b -> length b <= 8 * n /\ 8 * n < length b + 8) ->
  osize t v = ie_octets (N.of_nat n).
Proof.
  intros Hf Hv Hn H. destruct (encode_total t v Hf Hv) as (o&Ho&_). unfold osize. rewrite Ho. f_equal. f_equal.
  unfold encode, complete in Ho. apply opt_inv in Ho as (b&Hb&E). apply some_inv in E. subst o. destruct (H b Hb) as [H1 H2].
  unfold to_octets. destruct b as [|x b]; [cbn in H2; lia|]. unfold bits_octets. rewrite bits_octets_exact by lia. lia.
Qed.
Lemma seq_inv e root vr p b : enc (TSeq e root []) (VSeq vr []) p = Some b ->
  exists b1, length b = (if e then 1 else 0) + length (put_bitmap root vr) + length b1 /\
    put_members enc root vr (p + ((if e then 1 else 0) + length (put_bitmap root vr))) = Some b1.
Proof.
  intros H. cbn [enc present map existsb andb negb length Nat.eqb] in H.
  apply after_inv in H as (x&H&->). apply opt_inv in H as (y&H&H'). apply after_inv in H' as (z&Hz&->). apply some_inv in Hz. subst z.
  exists y. rewrite app_nil_r, !app_length. rewrite app_length in H. destruct e; split; auto.
Qed.
Lemma mem_some o t root v vr p b : put_members enc ((o, t) :: root) (Some v :: vr) p = Some b ->
  exists b1 b2, length b = length b1 + length b2 /\ enc t v p = Some b1 /\ put_members enc root vr (p + length b1) = Some b2.
Proof.
  intros H. cbn [put_members] in H. assert (H0 : (opt x <- enc t v p ;; after p x (put_members enc root vr)) = Some b) by (destruct o; exact H). clear H. apply opt_inv in H0 as (b1&H1&H). apply after_inv in H as (b2&H2&->).
  exists b1, b2. rewrite app_length. auto.
Qed.
Lemma mem_none o t root vr p b : put_members enc ((o, t) :: root) (None :: vr) p = Some b -> put_members enc root vr p = Some b.
Proof. cbn [put_members]. destruct o; [auto|discriminate]. Qed.
Lemma mem_nil p b : put_members enc [] [] p = Some b -> length b = 0.
Proof. cbn [put_members]. intros H. apply some_inv in H. subst b. reflexivity. Qed.

Lemma lai_exact pl a : valid T_RANAP_LAI (VSeq [Some (VOcts pl); Some (VOcts a); None] []) ->
  osize T_RANAP_LAI (VSeq [Some (VOcts pl); Some (VOcts a); None] []) = 10%N.
Proof.
  intros Hv. rewrite (osize_bits _ _ 6); [reflexivity|reflexivity|exact Hv|lia|]. intros b H.
  apply seq_inv in H as (x&->&H). change (length (put_bitmap _ _)) with 1 in *.
  apply mem_some in H as (b1&b2&->&H1&H). apply mem_some in H as (b3&b4&->&H3&H). apply mem_none, mem_nil in H.
  apply octs_fixed in H1; [|lia]. apply octs_fixed in H3; [|lia]. rewrite H1, H3, H. vm_compute. lia.
Qed.
Lemma sai_exact pl a s : valid T_RANAP_SAI (VSeq [Some (VOcts pl); Some (VOcts a); Some (VOcts s); None] []) ->
  osize T_RANAP_SAI (VSeq [Some (VOcts pl); Some (VOcts a); Some (VOcts s); None] []) = 12%N.
Proof.
  intros Hv. rewrite (osize_bits _ _ 8); [reflexivity|reflexivity|exact Hv|lia|]. intros b H.
  apply seq_inv in H as (x&->&H). change (length (put_bitmap _ _)) with 1 in *.
  apply mem_some in H as (b1&b2&->&H1&H). apply mem_some in H as (b3&b4&->&H3&H). apply mem_some in H as (b5&b6&->&H5&H). apply mem_none, mem_nil in H.
  apply octs_fixed in H1; [|lia]. apply octs_fixed in H3; [|lia]. apply octs_fixed in H5; [|lia]. rewrite H1, H3, H5, H. vm_compute. lia.
Qed.
Lemma grnc_exact g : grnc_ok g -> osize T_RANAP_GlobalRNC_ID (grnc_val g) = 9%N.
Proof.
  intros Hg. rewrite (osize_bits _ _ 5); [reflexivity|reflexivity|apply grnc_valid, Hg|lia|]. intros b H. unfold grnc_val in H.
  apply seq_inv in H as (x&->&H). change (length (put_bitmap _ _)) with 0 in *.
  apply mem_some in H as (b1&b2&->&H1&H). apply mem_some in H as (b3&b4&->&H3&H). apply mem_nil in H.
  apply octs_fixed in H1; [|lia]. unfold T_RANAP_RNC_ID in H3. cbn [enc put_int c_ext] in H3. unfold put_con in H3.
  destruct (in_con _ _); [|discriminate]. apply whole_len in H3; [|vm_compute; discriminate]. rewrite H1 in *. rewrite H3, H. vm_compute. lia.
Qed.
Lemma sig_con_exact id : osize T_RANAP_IuSignallingConnectionIdentifier (VBits (to_bits 24 id)) = 7%N.
Proof.
  rewrite (osize_bits _ _ 3); [reflexivity|reflexivity|apply sig_con_ok|lia|]. intros b H. apply bits_fixed in H; [|lia].
  rewrite H. vm_compute. lia.
Qed.

Lemma total_octets m l : total (m_rows m) (assigned l (m_rows m)) = pdu_octets m l.
Proof.
  unfold total, pdu_octets, message_ies, assigned. f_equal. f_equal. induction (m_rows m) as [|r rows IH]; [reflexivity|].
  cbn [map fsize flat_map]. rewrite IH, fold_right_app. unfold osize.
  destruct (assoc (r_ie r) l) as [v|]; [destruct (encode (r_ty r) v)|]; reflexivity.
Qed.
Lemma ranap_exact d p c m s mid ko bs fs l : good_hdr ranap d p c -> In m all_msgs ->
  map (wanted m s) (m_rows m) = bs -> i_fields s = fs -> fills bs (m_rows m) fs -> pick bs fs = assigned l (m_rows m) ->
  exists b, r_msg (finish ranap d p c m s mid ko) = Some b /\
    if (pdu_octets m l <=? 1024)%N then holds T_RANAP_RANAP_PDU b d p c m l else b = [].
Proof.
  intros Hh Hm Hb Hf Hv Hp. destruct (ranap_full d p c m s mid ko bs fs l Hh Hm Hb Hf Hv Hp) as (b&Hr&Hc).
  rewrite Hp, total_octets in Hc. exists b. split; [exact Hr|]. destruct (_ <=? 1024)%N; [apply Hc|exact Hc].
Qed.
Ltac exactly k := eapply ranap_exact; [apply hdr_ok; reflexivity|member k|vm_compute; reflexivity|vm_compute; reflexivity| |vm_compute; reflexivity].

(* ---------------- Initial UE Message ---------------- *)
Lemma initial_ue_exact le id is_ps g nas : grnc_ok g -> bytes_ok nas = true ->
  exists b, r_msg (new_msg_initial_ue le id is_ps g nas) = Some b /\
    if (N.of_nat (length nas) <=? 966)%N
    then holds T_RANAP_RANAP_PDU b 1 19 1 M_RANAP_InitialUE_MessageIEs
      [("id-CN-DomainIndicator", VEnum (if is_ps then 1 else 0));
       ("id-LAI", VSeq [Some (VOcts (g_plmn g)); Some (VOcts (area_octets le)); None] []);
       ("id-SAI", VSeq [Some (VOcts (g_plmn g)); Some (VOcts (area_octets le)); Some (VOcts (area_octets le)); None] []);
       ("id-NAS-PDU", VOcts nas); ("id-IuSigConId", VBits (to_bits 24 id)); ("id-GlobalRNC-ID", grnc_val g)]
    else b = [].
Proof.
  intros Hg Hb. pose proof (grnc_exact g Hg) as Gs. pose proof (grnc_valid g Hg) as Gv. destruct Hg as (Hpl&Hpb&_).
  destruct (buf0_ok le) as [Hal Hab]. destruct (area_ok _ _ Hpl Hpb Hal Hab) as [[Lv _] [Sv _]].
  pose proof (lai_exact _ _ Lv) as Ls. pose proof (sai_exact _ _ _ Sv) as Ss.
  destruct (sig_con_ok id) as [Iv _]. pose proof (sig_con_exact id) as Is.
  assert (Nv : valid T_RANAP_NAS_PDU (VOcts nas)) by (constructor; [exact I|apply octs_in, Hb]).
  pose proof (is_ps_fine is_ps) as Hps. pose proof (dom_size _ Hps) as Ds. pose proof (dom_valid _ Hps) as Dv.
  change (area_octets le) with (buf0 le).
  assert (Ns : if (N.of_nat (length nas) <? 16384)%N
    then osize T_RANAP_NAS_PDU (VOcts nas) = ie_octets (len_octets (N.of_nat (length nas)) + N.of_nat (length nas))
    else (16384 <= osize T_RANAP_NAS_PDU (VOcts nas))%N).
  { destruct (N.ltb_spec (N.of_nat (length nas)) 16384) as [Hn|Hn]; change T_RANAP_NAS_PDU with (TOcts None).
    - apply octs_none_size; assumption.
    - pose proof (octs_none_ge nas Hb). lia. }
  generalize dependent (N.of_nat (length nas)). intros n Ns.
  unfold new_msg_initial_ue, is_ps_val.
  generalize dependent (VSeq [Some (VOcts (g_plmn g)); Some (VOcts (buf0 le)); None] []). intros v1 ? ?.
  generalize dependent (VSeq [Some (VOcts (g_plmn g)); Some (VOcts (buf0 le)); Some (VOcts (buf0 le)); None] []). intros v2 ? ?.
  generalize dependent (VBits (to_bits 24 id)). intros v3 ? ?. generalize dependent (grnc_val g). intros v4 ? ?.
  generalize dependent (VOcts nas). intros v5 ? ?. generalize dependent (VEnum (if is_ps then 1 else 0)). intros v6 ? ?.
  assert (Hx : (n <=? 966)%N = (pdu_octets M_RANAP_InitialUE_MessageIEs
    [("id-CN-DomainIndicator", v6); ("id-LAI", v1); ("id-SAI", v2); ("id-NAS-PDU", v5); ("id-IuSigConId", v3); ("id-GlobalRNC-ID", v4)] <=? 1024)%N).
  { rewrite <- total_octets. unfold total, assigned, M_RANAP_InitialUE_MessageIEs. cbn [map m_rows r_ty fsize r_ie assoc String.eqb Ascii.eqb Bool.eqb]. rewrite Ds, Ls, Ss, Is, Gs.
    destruct (N.ltb_spec n 16384).
    - rewrite Ns. unfold ie_octets, len_octets. repeat match goal with |- context [(?a <? 128)%N] => destruct (a <? 128)%N eqn:? end; lia.
    - unfold ie_octets. lia. }
  rewrite Hx. exactly 51. unfold M_RANAP_InitialUE_MessageIEs. rows. repeat split; assumption.
Qed.

(* ---------------- arguments that no message can carry ---------------- *)
Ltac refuse := eapply ranap_none; [vm_compute; reflexivity|vm_compute; reflexivity|reflexivity|].
Lemma dom_iff d : valid T_RANAP_CN_DomainIndicator (VEnum d) <-> dom_ok d.
Proof. split; [|apply dom_valid]. intros H. inversion H; subst; cbn [In] in *; unfold dom_ok; intuition. Qed.
Lemma status_iff d : valid T_RANAP_KeyStatus (VEnum d) <-> dom_ok d.
Proof. split; [|intros H; apply (status_valid d H)]. intros H. inversion H; subst; cbn [In] in *; unfold dom_ok; intuition. Qed.
Lemma octs_allowed c l : valid (TOcts c) (VOcts l) -> allowed c (Z.of_nat (length l)) /\ forall o, In o l -> (o < 256)%N.
Proof. intros H. inversion H; subst. auto. Qed.
Lemma int_allowed c z : valid (TInt c) (VInt z) -> allowed c z.
Proof. intros H. inversion H; subst. auto. Qed.
Lemma seq_allowed e root adds vr va : valid (TSeq e root adds) (VSeq vr va) ->
  forall i o t v, nth_error root i = Some (o, t) -> nth_error vr i = Some (Some v) -> valid t v.
Proof. intros H. inversion H; subst. assumption. Qed.
Lemma grnc_iff g : valid T_RANAP_GlobalRNC_ID (grnc_val g) <-> grnc_ok g.
Proof.
  split; [|apply grnc_valid]. intros H. pose proof (seq_allowed _ _ _ _ _ H) as Hx.
  pose proof (Hx 0 false _ _ eq_refl eq_refl) as H0. pose proof (Hx 1 false _ _ eq_refl eq_refl) as H1.
  apply octs_allowed in H0 as [[Ha|Ha] Ho]; [discriminate|]. apply int_allowed in H1 as [Hz|Hz]; [discriminate|]. cbn [c_lb c_ub] in *.
  unfold grnc_ok. split; [lia|]. split; [|lia]. unfold bytes_ok. apply forallb_forall. intros o Hin. apply N.ltb_lt, Ho, Hin.
Qed.
Lemma alg_iff z : valid (TInt (Some (mkCon false 0 15))) (VInt z) <-> (0 <= z <= 15)%Z.
Proof.
  split; [|intros H; constructor; right; exact H]. intros H. apply int_allowed in H as [H|H]; [discriminate|exact H].
Qed.

Lemma reset_bad domain c rnc : ~ (dom_ok domain /\ cause_ok c /\ opt_ok grnc_ok rnc) -> r_msg (new_msg_reset2 domain (Some c) rnc) = None.
Proof.
  unfold new_msg_reset2, ifs, dom_val. rewrite <- dom_iff. unfold cause_ok. generalize (cause_val c). intros cv. generalize (VEnum domain). intros dv.
  destruct rnc as [g|]; cbn [opt_ok]; [rewrite <- grnc_iff; generalize (grnc_val g); intros gv|]; intros H;
    (refuse; unfold M_RANAP_ResetIEs; rows; tauto).
Qed.
Lemma reset_ack_bad domain rnc : ~ (dom_ok domain /\ opt_ok grnc_ok rnc) -> r_msg (new_msg_reset_ack domain rnc) = None.
Proof.
  unfold new_msg_reset_ack, ifs, dom_val. rewrite <- dom_iff. generalize (VEnum domain). intros dv.
  destruct rnc as [g|]; cbn [opt_ok]; [rewrite <- grnc_iff; generalize (grnc_val g); intros gv|]; intros H;
    (refuse; unfold M_RANAP_ResetAcknowledgeIEs; rows; tauto).
Qed.
Lemma reset_resource_bad domain c ids rnc : ~ (dom_ok domain /\ cause_ok c /\ opt_ok grnc_ok rnc) -> r_msg (new_msg_reset_resource domain c ids rnc) = None.
Proof.
  unfold new_msg_reset_resource. destruct ids as [|id [|]]; [reflexivity| |reflexivity].
  destruct (add_ies _ _) as [t [l|]]; [|reflexivity]. cbn [r_msg]. generalize (list_val l). intros lv. unfold ifs, dom_val.
  rewrite <- dom_iff. unfold cause_ok. generalize (cause_val c). intros cv. generalize (VEnum domain). intros dv.
  destruct rnc as [g|]; cbn [opt_ok]; [rewrite <- grnc_iff; generalize (grnc_val g); intros gv|]; intros H;
    (refuse; unfold M_RANAP_ResetResourceIEs; rows; tauto).
Qed.
Lemma iu_rel_req_bad c : ~ cause_ok c -> r_msg (new_msg_iu_rel_req c) = None.
Proof.
  unfold new_msg_iu_rel_req, cause_ok. generalize (cause_val c). intros cv H. refuse. unfold M_RANAP_Iu_ReleaseRequestIEs. rows. tauto.
Qed.
Lemma sec_mod_compl_bad i e : ~ ((0 <= i <= 15)%Z /\ (0 <= e <= 15)%Z) -> r_msg (new_msg_sec_mod_compl i e) = None.
Proof.
  unfold new_msg_sec_mod_compl. rewrite <- !alg_iff. generalize (VInt i) (VInt e). intros iv ev H. refuse.
  unfold M_RANAP_SecurityModeCompleteIEs. rows. unfold T_RANAP_ChosenIntegrityProtectionAlgorithm, T_RANAP_ChosenEncryptionAlgorithm. tauto.
Qed.
Lemma initial_ue_bad le id is_ps g nas : ~ grnc_ok g -> r_msg (new_msg_initial_ue le id is_ps g nas) = None.
Proof.
  rewrite <- grnc_iff. unfold new_msg_initial_ue. generalize (grnc_val g). intros gv H. refuse. unfold M_RANAP_InitialUE_MessageIEs. rows. tauto.
Qed.
Lemma rab_rel_req_bad rab_id c : ~ cause_ok c -> r_msg (new_msg_rab_rel_req rab_id c) = None.
Proof.
  intros H. unfold new_msg_rab_rel_req, add_ies.
  assert (Hv : ~ valid T_RANAP_RAB_ReleaseItem (VSeq [Some (rab_id_val rab_id); Some (cause_val c); None] [])).
  { intros Hv. apply H. exact (seq_allowed _ _ _ _ _ Hv 1 false _ _ eq_refl eq_refl). }
  generalize dependent (VSeq [Some (rab_id_val rab_id); Some (cause_val c); None] []). intros iv Hv.
  match goal with |- context[add_rows ?m ?s ?r ?f ?k] => pose proof (add_rows_snd m s r f k) as Ha; destruct (add_rows m s r f k) as [t x] end.
  cbn [snd] in Ha. destruct x as [l|]; [exfalso|reflexivity]. symmetry in Ha. apply rows_fills in Ha; [|reflexivity].
  revert Ha. unfold M_RANAP_RAB_ReleaseItemIEs, put_ie. cbn. tauto.
Qed.

(* Security Mode Command *)
Lemma sec_mod_cmd_bad ik ck st ia ea : ~ dom_ok st -> r_msg (new_msg_sec_mod_cmd2 ik ck st ia ea) = None.
Proof.
  rewrite <- status_iff. intros H. unfold new_msg_sec_mod_cmd2. generalize dependent (VEnum st). intros sv H.
  destruct (alg_loop uia ia bits8) as [li oi]. destruct oi; cbn [negb]; [|reflexivity].
  generalize (prot_info li ik). intros pi.
  destruct ck as [ck|].
  - destruct (alg_loop uea ea bits8) as [le oe]. destruct oe; cbn [negb]; [|reflexivity]. generalize (prot_info le ck). intros pe. cbn [r_msg].
    refuse. unfold M_RANAP_SecurityModeCommandIEs. rows. tauto.
  - cbn [r_msg]. refuse. unfold M_RANAP_SecurityModeCommandIEs. rows. tauto.
Qed.

(* Error Indication *)
Lemma cd_iff v : valid T_RANAP_CriticalityDiagnostics v <-> exists o, encode T_RANAP_CriticalityDiagnostics v = Some o.
Proof. split; [|intros (o&Ho); exact (encode_valid _ _ _ Ho)]. intros H. destruct (encode_total T_RANAP_CriticalityDiagnostics v eq_refl H) as (o&Ho&_). eauto. Qed.
Lemma error_ind_exact c cd domain : opt_ok cause_ok c -> opt_ok (valid T_RANAP_CriticalityDiagnostics) cd -> opt_ok dom_ok domain ->
  let l := given "id-Cause" cause_val c ++ given "id-CriticalityDiagnostics" (fun v => v) cd ++ given "id-CN-DomainIndicator" VEnum domain in
  exists b, r_msg (new_msg_error_ind c cd domain None) = Some b /\
    if (pdu_octets M_RANAP_ErrorIndicationIEs l <=? 1024)%N
    then holds T_RANAP_RANAP_PDU b 1 22 1 M_RANAP_ErrorIndicationIEs l else b = [].
Proof.
  intros Hc Hcd Hd. unfold new_msg_error_ind, ifs, dom_val. unfold cause_ok in Hc.
  destruct c as [c|], cd as [cd|], domain as [d|]; cbn [opt_ok given app] in *; cbv zeta;
    try (generalize dependent (cause_val c); intros cv ?); try (apply dom_valid in Hd; generalize dependent (VEnum d); intros dv ?);
    (exactly 55; unfold M_RANAP_ErrorIndicationIEs; rows; repeat split; assumption).
Qed.
Lemma error_ind_bad c cd domain : ~ (opt_ok cause_ok c /\ opt_ok (valid T_RANAP_CriticalityDiagnostics) cd /\ opt_ok dom_ok domain) ->
  r_msg (new_msg_error_ind c cd domain None) = None.
Proof.
  unfold new_msg_error_ind, ifs, dom_val, cause_ok.
  destruct c as [c|], cd as [cd|], domain as [d|]; cbn [opt_ok];
    try (generalize (cause_val c); intros cv); try (rewrite <- dom_iff; generalize (VEnum d); intros dv);
    intros H; try tauto; (refuse; unfold M_RANAP_ErrorIndicationIEs; rows; tauto).
Qed.
