(* Octets, decoded messages and what the client makes of them. *)
From Coq Require Import ZifyBool ZifyNat ZifyN.
From Verif Require Import Base Aper Aper_spec Aper_decode Aper_valid Lai Lai_proofs Container Container_proofs Container_exact RanapTypes RanapTab AllTypes AllMsgs
  DispatchTab Dispatch Dispatch_proofs Deliver_spec Deliver_proofs Helpers_spec Factory_spec Factory Factory_msgs E2e_spec E2e_proofs
  IuClient IuClient_spec IuClient_step Stack Stack_spec Stack_safe.
From Coq Require Import String List.
Local Open Scope list_scope.
Local Open Scope string_scope.
Local Open Scope list_scope.

(* what a successful decoder leaves in the structure *)
Definition sound (m : msgdef) (s : Container.ies) : Prop :=
  forall i r, nth_error (m_rows m) i = Some r -> exists f, nth_error (i_fields s) i = Some f /\
    (forall v, f = Some v -> valid (r_ty r) v) /\
    (is_opt r = true -> has_flag m s r = match f with Some _ => true | None => false end).
Lemma ranap_sizes : forallb (fun m => forallb (fun r => sizes_ok (r_ty r)) (m_rows m)) ranap_msgs = true.
Proof. vm_compute. reflexivity. Qed.
Lemma decoded_sound m o : In m ranap_msgs -> d_ok (decode_msg m o) = true -> sound m (d_ies (decode_msg m o)).
Proof.
  intros Hm Hd i r Hi. pose proof (all_ok m (in_ranap m Hm)) as Hok.
  destruct (body m o) as [bl|] eqn:Eb.
  2:{ rewrite decode_msg_body, Eb in Hd. discriminate. }
  assert (Hsz : sizes_ok (r_ty r) = true).
  { pose proof (proj1 (forallb_forall _ _) ranap_sizes m Hm) as H. exact (proj1 (forallb_forall _ _) H r (nth_error_In _ _ Hi)). }
  destruct (decode_msg_exact m o bl Hok Hd Eb i r Hi) as [(l1&ie&l2&oct&v&_&_&Hv&_&Hn&Hfl)|(_&Hn&Hfl)].
  - exists (Some v). split; [exact Hn|]. split; [|exact Hfl]. intros x E. injection E as <-. exact (decode_valid _ _ _ Hsz Hv).
  - exists None. split; [exact Hn|]. split; [discriminate|exact Hfl].
Qed.
Lemma field_nth m s n i r f : ies_once (m_rows m) = true -> nth_error (m_rows m) i = Some r -> nth_error (i_fields s) i = Some f ->
  r_ie r = n -> field m s n = f.
Proof.
  unfold field. intros Ho Hr Hf Hn. subst n. revert i Hr Hf Ho. generalize (i_fields s) as fs. generalize (m_rows m) as rs.
  induction rs as [|r0 rs IH]; intros fs i Hr Hf Ho; [destruct i; discriminate|]. destruct fs as [|f0 fs]; [destruct i; discriminate|].
  cbn [combine find fst]. cbn [ies_once] in Ho. apply andb_true_iff in Ho. destruct Ho as [Ho1 Ho2]. destruct i as [|i].
  - cbn [nth_error] in Hr, Hf. injection Hr as ->. injection Hf as ->. rewrite String.eqb_refl. reflexivity.
  - cbn [nth_error] in Hr, Hf. destruct (String.eqb_spec (r_ie r0) (r_ie r)) as [E|]; [|exact (IH fs i Hr Hf Ho2)].
    apply negb_true_iff in Ho1. assert (existsb (fun x => String.eqb (r_ie x) (r_ie r0)) rs = true); [|congruence].
    apply existsb_exists. exists r. split; [exact (nth_error_In _ _ Hr)|]. rewrite E. apply String.eqb_refl.
Qed.
Lemma find_none_rows (rs : list row) (fs : list (option val)) n : existsb (fun x => String.eqb (r_ie x) n) rs = false ->
  find (fun rf : row * option val => String.eqb (r_ie (fst rf)) n) (combine rs fs) = None.
Proof.
  revert fs. induction rs as [|r rs IH]; intros [|f fs] H; try reflexivity. cbn [existsb] in H. apply orb_false_iff in H.
  cbn [combine find fst]. rewrite (proj1 H). apply IH. apply H.
Qed.
Lemma shown_field m s : ies_once (m_rows m) = true -> sound m s -> forall n, assoc n (shown m s) = option_map Some (field m s n).
Proof.
  intros Ho Hs n. unfold shown, field.
  assert (Hf : forall i r f, nth_error (m_rows m) i = Some r -> nth_error (i_fields s) i = Some f -> is_opt r = true ->
            has_flag m s r = match f with Some _ => true | None => false end).
  { intros i r f Hr Hf Hopt. destruct (Hs i r Hr) as (f'&Hf'&_&H). rewrite Hf in Hf'. injection Hf' as <-. exact (H Hopt). }
  clear Hs. revert Ho Hf. generalize (i_fields s) as fs. generalize (m_rows m) as rs.
  induction rs as [|r rs IH]; intros [|f fs] Ho Hf; try reflexivity.
  cbn [combine flat_map find fst]. rewrite assoc_app. cbn [ies_once] in Ho. apply andb_true_iff in Ho. destruct Ho as [Ho1 Ho2].
  rewrite (IH fs Ho2 (fun i => Hf (Datatypes.S i))). pose proof (Hf 0%nat r f eq_refl eq_refl) as H0.
  destruct (String.eqb_spec (r_ie r) n) as [<-|Hne].
  - destruct (is_opt r); [rewrite (H0 eq_refl)|]; destruct f; cbn [assoc]; rewrite ?String.eqb_refl; try reflexivity;
      apply negb_true_iff in Ho1; rewrite (find_none_rows rs fs _ Ho1); reflexivity.
  - apply String.eqb_neq in Hne. destruct (is_opt r); [destruct (has_flag m s r)|destruct f]; cbn [assoc]; rewrite ?Hne; reflexivity.
Qed.
Lemma present_field m s i r : sound m s -> ies_once (m_rows m) = true -> nth_error (m_rows m) i = Some r -> is_opt r = true ->
  find (fun x => String.eqb (r_ie x) (r_ie r)) (m_rows m) = Some r ->
  present m s (r_ie r) = match field m s (r_ie r) with Some _ => true | None => false end.
Proof.
  intros Hs Ho Hi Hopt Hf. unfold present. rewrite Hf. destruct (Hs i r Hi) as (f&Hn&_&H). rewrite (H Hopt).
  rewrite (field_nth m s (r_ie r) i r f Ho Hi Hn eq_refl). reflexivity.
Qed.
Lemma field_valid m s i r : sound m s -> ies_once (m_rows m) = true -> nth_error (m_rows m) i = Some r ->
  forall v, field m s (r_ie r) = Some v -> valid (r_ty r) v.
Proof.
  intros Hs Ho Hi v Hv. destruct (Hs i r Hi) as (f&Hn&H&_). rewrite (field_nth m s (r_ie r) i r f Ho Hi Hn eq_refl) in Hv. exact (H v Hv).
Qed.

(* the messages the client is given on a connection *)
Lemma once_ranap m : In m ranap_msgs -> ies_once (m_rows m) = true.
Proof. exact (proj1 (forallb_forall _ _) ranap_ies_once m). Qed.
Lemma in_named l k m : find (fun m => String.eqb k (m_key m)) l = Some m -> In m l.
Proof. intros H. apply find_some in H. apply H. Qed.
Lemma decoded_in P d p m : In P paths -> decoded_as P d p = Some m -> In m ranap_msgs.
Proof.
  intros HP H. assert (Hin : In m (decoders P)).
  { unfold decoders. apply in_flat_map. unfold decoded_as in H. destruct (dec_tab P d) as [tab|] eqn:Et; [|discriminate].
    exists d. split; [apply (dec_tab_dirs P d HP); congruence|]. unfold table_of. rewrite Et. apply case_in in H. apply in_map_iff. exists (p, m). auto. }
  apply (in_named ranap_msgs (m_key m)). pose proof (decoders_named P HP) as E. revert E Hin. generalize (decoders P) as l.
  induction l as [|x l IH]; [intros _ []|]. cbn [map]. intros E [->|Hin]; [unfold named in E; congruence|]. apply IH; [congruence|exact Hin].
Qed.
Lemma call_co data : x_calls (rx_cn_co data) = [] \/
  exists d p cr m s, x_calls (rx_cn_co data) = [mkRmsg d p cr (Some (m, s))] /\ decoded_as cn_co d p = Some m /\ In m ranap_msgs /\ sound m s.
Proof.
  unfold rx_cn_co. pose proof (decode2_shape cn_co data) as H. destruct (pdu_parts data) as [[[[d p] cr] o]|].
  - destruct (decoded_as cn_co d p) as [m|] eqn:Em.
    + rewrite H. cbn [e_rc e_msg]. destruct (d_ok (decode_msg m o)) eqn:Ed; cbn [Z.eqb x_calls]; [|left; reflexivity].
      right. exists d, p, cr, m, (d_ies (decode_msg m o)). split; [reflexivity|]. split; [exact Em|].
      assert (Hm : In m ranap_msgs) by (apply (decoded_in cn_co d p); [cbn; tauto|exact Em]).
      split; [exact Hm|exact (decoded_sound m o Hm Ed)].
    + destruct H as (H&_). rewrite H. left. reflexivity.
  - rewrite H. left. reflexivity.
Qed.

(* ---------------- decoded values ---------------- *)
Lemma octs_inv c v : valid (TOcts c) v -> exists o, v = VOcts o /\ allowed c (Z.of_nat (List.length o)) /\ (forall x, In x o -> (x < 256)%N).
Proof. intros H. inversion H; subst. eexists. repeat split; eassumption. Qed.
Lemma fixed_inv n v : valid (TOcts (Some (mkCon false n n))) v -> exists o, v = VOcts o /\ Z.of_nat (List.length o) = n /\ (forall x, In x o -> (x < 256)%N).
Proof.
  intros H. apply octs_inv in H. destruct H as (o&->&Ha&Hb). exists o. split; [reflexivity|]. split; [|exact Hb].
  cbn [allowed c_ext c_lb c_ub] in Ha. unfold allowed in Ha. cbn in Ha. lia.
Qed.
Lemma lai_inv v : valid T_RANAP_LAI v -> exists a b c x y ext, v = lai_v [a; b; c] [x; y] ext /\
  forall o, In o [a; b; c; x; y] -> (o < 256)%N.
Proof.
  intros H. inversion H as [| | | | | | | |e root adds vr va Hl1 Hl2 Hm Hv _ _| |]; subst. destruct va; [|discriminate].
  destruct vr as [|f0 [|f1 [|f2 [|]]]]; try discriminate. 
  destruct f0 as [v0|]; [|destruct (Hm 0%nat _ eq_refl eq_refl)]. destruct f1 as [v1|]; [|destruct (Hm 1%nat _ eq_refl eq_refl)].
  destruct (fixed_inv 3 v0 (Hv 0%nat _ _ _ eq_refl eq_refl)) as (o0&->&H0&B0). destruct (fixed_inv 2 v1 (Hv 1%nat _ _ _ eq_refl eq_refl)) as (o1&->&H1&B1).
  destruct (len3 o0 ltac:(lia)) as (a&b&c&->). destruct (len2 o1 ltac:(lia)) as (x&y&->). exists a, b, c, x, y, f2. split; [reflexivity|].
  intros o Ho. cbn [In] in *. destruct Ho as [H'|[H'|[H'|H']]]; [apply B0; auto|apply B0; auto|apply B0; auto|apply B1; exact H'].
Qed.
Lemma sai_inv v : valid T_RANAP_SAI v -> exists p c s0 s1 ext, v = sai_v p c [s0; s1] ext.
Proof.
  intros H. inversion H as [| | | | | | | |e root adds vr va Hl1 Hl2 Hm Hv _ _| |]; subst. destruct va; [|discriminate].
  destruct vr as [|f0 [|f1 [|f2 [|f3 [|]]]]]; try discriminate.
  destruct f0 as [v0|]; [|destruct (Hm 0%nat _ eq_refl eq_refl)]. destruct f1 as [v1|]; [|destruct (Hm 1%nat _ eq_refl eq_refl)].
  destruct f2 as [v2|]; [|destruct (Hm 2%nat _ eq_refl eq_refl)].
  destruct (fixed_inv 3 v0 (Hv 0%nat _ _ _ eq_refl eq_refl)) as (o0&->&H0&_). destruct (fixed_inv 2 v1 (Hv 1%nat _ _ _ eq_refl eq_refl)) as (o1&->&H1&_).
  destruct (fixed_inv 2 v2 (Hv 2%nat _ _ _ eq_refl eq_refl)) as (o2&->&H2&_). destruct (len2 o2 ltac:(lia)) as (x&y&->). exists o0, o1, x, y, f3. reflexivity.
Qed.
Lemma rnc_inv v : valid T_RANAP_GlobalRNC_ID v -> exists a b c id, v = rnc_v [a; b; c] id /\ (id <= 4095)%N /\ forall o, In o [a; b; c] -> (o < 256)%N.
Proof.
  intros H. inversion H as [| | | | | | | |e root adds vr va Hl1 Hl2 Hm Hv _ _| |]; subst. destruct va; [|discriminate].
  destruct vr as [|f0 [|f1 [|]]]; try discriminate.
  destruct f0 as [v0|]; [|destruct (Hm 0%nat _ eq_refl eq_refl)]. destruct f1 as [v1|]; [|destruct (Hm 1%nat _ eq_refl eq_refl)].
  destruct (fixed_inv 3 v0 (Hv 0%nat _ _ _ eq_refl eq_refl)) as (o0&->&H0&B0). destruct (len3 o0 ltac:(lia)) as (a&b&c&->).
  pose proof (Hv 1%nat _ _ _ eq_refl eq_refl) as H1. inversion H1 as [| |c' z Ha| | | | | | | |]; subst. unfold allowed in Ha. cbn in Ha.
  exists a, b, c, (Z.to_N z). split; [unfold rnc_v; rewrite Z2N.id by lia; reflexivity|]. split; [lia|exact B0].
Qed.
Lemma rac_inv v : valid T_RANAP_RAC v -> exists x, v = VOcts [x].
Proof. intros H. destruct (fixed_inv 1 v H) as (o&->&Ho&_). destruct o as [|x [|]]; cbn in Ho; try lia. eauto. Qed.
Lemma cause_inv v : valid T_RANAP_Cause v -> exists i z, v = VChoice i (VInt z) /\ (0 <= z)%Z.
Proof.
  intros H. inversion H as [| | | | | | | | |e root more i t w Hn Hw|root more i t w Hn Hw]; subst.
  - do 6 (destruct i as [|i]; [cbn [nth_error] in Hn; injection Hn as <-; inversion Hw as [| |c z Ha| | | | | | | |]; subst; do 2 eexists; split; [reflexivity|]; unfold allowed in Ha; cbn in Ha; lia|]).
    destruct i; discriminate.
  - destruct i as [|[|i]]; try discriminate. cbn [nth_error] in Hn. injection Hn as <-. inversion Hw as [| |c z Ha| | | | | | | |]; subst.
    do 2 eexists. split; [reflexivity|]. unfold allowed in Ha. cbn in Ha. lia.
Qed.
Lemma items_inv v : valid T_RANAP_RAB_SetupOrModifiedList v -> exists l, v = VSeq [Some (VList l)] [] /\ forall x, In x l -> valid T_RANAP_IE x.
Proof.
  intros H. inversion H as [| | | | | | | |e root adds vr va Hl1 Hl2 Hm Hv _ _| |]; subst. destruct va; [|discriminate].
  destruct vr as [|f0 [|]]; try discriminate. destruct f0 as [v0|]; [|destruct (Hm 0%nat _ eq_refl eq_refl)].
  pose proof (Hv 0%nat _ _ _ eq_refl eq_refl) as H1. inversion H1; subst. eexists. split; [reflexivity|assumption].
Qed.

(* ---------------- the messages of iu_client.c ---------------- *)
Lemma as_initial : decoded_as cn_co 1 19 = Some M_RANAP_InitialUE_MessageIEs. Proof. reflexivity. Qed.
Lemma as_transfer : decoded_as cn_co 1 20 = Some M_RANAP_DirectTransferIEs. Proof. reflexivity. Qed.
Lemma as_release : decoded_as cn_co 1 11 = Some M_RANAP_Iu_ReleaseRequestIEs. Proof. reflexivity. Qed.
Lemma as_rab : decoded_as cn_co 4 0 = Some M_RANAP_RAB_AssignmentResponseIEs. Proof. reflexivity. Qed.
Lemma as_reset : decoded_as cn_cl 1 9 = Some M_RANAP_ResetIEs. Proof. reflexivity. Qed.

Lemma usable_lai m s i r : sound m s -> ies_once (m_rows m) = true -> nth_error (m_rows m) i = Some r -> r_ty r = T_RANAP_LAI -> r_ie r = "id-LAI" ->
  ((exists ra, parse_lai (c_lai (field m s "id-LAI")) = Ok (0%Z, ra)) <->
   exists plmn l0 l1 ext, field m s "id-LAI" = Some (lai_v plmn [l0; l1] ext) /\ usable_lac l0 l1).
Proof.
  intros Hs Ho Hi Ht Hn. destruct (field m s "id-LAI") as [v|] eqn:Ef.
  - pose proof (field_valid m s i r Hs Ho Hi v) as Hv. rewrite Hn, Ht in Hv. destruct (lai_inv v (Hv Ef)) as (a&b&c&x&y&ext&->&_).
    cbn [c_lai comp lai_v nth_error c_octs]. destruct (parse_lai_total_l (mkRLai [a; b; c] [x; y])) as (rc&ra&Hp&_&_&Hrc). cbn [lai_plmn lai_lac] in Hrc.
    assert (Eb : be_value [x; y] = be16 x y) by (unfold be_value, be16; cbn [fold_left]; lia). rewrite Eb in Hrc. unfold usable_lac. split.
    + intros (ra'&H). change (parse_lai (mkRLai [a; b; c] [x; y]) = Ok (0%Z, ra')) in H. rewrite Hp in H. injection H as -> _. exists [a; b; c], x, y, ext. split; [reflexivity|]. apply (proj1 Hrc eq_refl).
    + intros (pl&l0&l1&e&E&H1&H2). injection E as <- <- <- <-. exists ra. change (parse_lai (mkRLai [a; b; c] [x; y]) = Ok (0%Z, ra)). rewrite Hp. rewrite (proj2 Hrc); [reflexivity|]. auto.
  - split; [intros (ra&H); vm_compute in H; discriminate|intros (p&x&y&e&H&_); discriminate].
Qed.

Lemma if_field {A} m s n (f : option val -> A) i r : sound m s -> ies_once (m_rows m) = true -> nth_error (m_rows m) i = Some r -> is_opt r = true ->
  find (fun x => String.eqb (r_ie x) n) (m_rows m) = Some r -> r_ie r = n ->
  if_present m s n f = match field m s n with Some v => Some (f (Some v)) | None => None end.
Proof.
  intros Hs Ho Hi Hopt Hf <-. unfold if_present. rewrite (present_field m s i r Hs Ho Hi Hopt Hf). destruct (field m s (r_ie r)); reflexivity.
Qed.
Definition initial_of (s : Container.ies) : initial_ue :=
  let m := M_RANAP_InitialUE_MessageIEs in
  mkInitialUe (c_enum (field m s "id-CN-DomainIndicator")) (c_lai (field m s "id-LAI"))
    (if_present m s "id-RAC" c_octs) (c_sac (field m s "id-SAI")) (c_octs (field m s "id-NAS-PDU"))
    (c_grnc (field m s "id-GlobalRNC-ID")).
Lemma in_initial : In M_RANAP_InitialUE_MessageIEs ranap_msgs. Proof. exact (decoded_in cn_co 1 19 _ ltac:(cbn; tauto) as_initial). Qed.
Lemma in_transfer : In M_RANAP_DirectTransferIEs ranap_msgs. Proof. exact (decoded_in cn_co 1 20 _ ltac:(cbn; tauto) as_transfer). Qed.
Lemma in_release : In M_RANAP_Iu_ReleaseRequestIEs ranap_msgs. Proof. exact (decoded_in cn_co 1 11 _ ltac:(cbn; tauto) as_release). Qed.
Lemma in_rab : In M_RANAP_RAB_AssignmentResponseIEs ranap_msgs. Proof. exact (decoded_in cn_co 4 0 _ ltac:(cbn; tauto) as_rab). Qed.
Lemma in_reset : In M_RANAP_ResetIEs ranap_msgs. Proof. exact (decoded_in cn_cl 1 9 _ ltac:(cbn; tauto) as_reset). Qed.

Section Initial.
Variable s : Container.ies.
Notation m := M_RANAP_InitialUE_MessageIEs.
Hypothesis Hs : sound m s.
Let Ho : ies_once (m_rows m) = true := eq_refl.
Lemma initial_rac : iu_rac (initial_of s) = match field m s "id-RAC" with Some v => Some (c_octs (Some v)) | None => None end.
Proof. exact (if_field m s "id-RAC" c_octs 2 _ Hs Ho eq_refl eq_refl eq_refl eq_refl). Qed.
Lemma initial_one : one_octet (iu_rac (initial_of s)).
Proof. rewrite initial_rac. destruct (field m s "id-RAC") as [v|] eqn:Ef; [|exact I]. destruct (rac_inv v (field_valid m s 2 _ Hs Ho eq_refl v Ef)) as (x&->). cbn. eauto. Qed.
Lemma initial_iff data cr : x_calls (rx_cn_co data) = [mkRmsg 1 19 cr (Some (m, s))] -> (bad_initial (initial_of s) <-> fatal_first (rx_cn_co data)).
Proof.
  intros Hc. unfold bad_initial. set (ii := initial_of s).
    unfold ii at 1. unfold initial_of at 1. cbn [iu_lai]. rewrite (usable_lai m s 1 _ Hs Ho eq_refl eq_refl eq_refl).
    assert (Hr255 : iu_rac ii <> Some [255%N] <-> assoc "id-RAC" (shown m s) <> Some (Some (VOcts [255%N]))).
    { rewrite (shown_field m s Ho Hs). unfold ii. rewrite initial_rac. destruct (field m s "id-RAC") as [v|] eqn:Ef; cbn [option_map]; [|split; discriminate].
      destruct (rac_inv v (field_valid m s 2 _ Hs Ho eq_refl v Ef)) as (x&->). cbn [c_octs]. split; intros H1 H2; apply H1; congruence. }
    rewrite Hr255. clear Hr255.
    assert (Hg : (exists id, grnc_id_parse (iu_grnc ii) = Ok (Some id)) <-> assoc "id-GlobalRNC-ID" (shown m s) <> None).
    { rewrite (shown_field m s Ho Hs). unfold ii, initial_of. cbn [iu_grnc]. destruct (field m s "id-GlobalRNC-ID") as [v|] eqn:Ef; cbn [option_map].
      - destruct (rnc_inv v (field_valid m s 6 _ Hs Ho eq_refl v Ef)) as (a0&b0&c0&id&->&_). split; [discriminate|]. intros _. eexists. reflexivity.
      - split; [intros (id&H); discriminate|]. intros H. destruct (H eq_refl). }
    rewrite Hg. clear Hg.
    assert (Hsac : List.length (iu_sac ii) < 2 <-> assoc "id-SAI" (shown m s) = None).
    { rewrite (shown_field m s Ho Hs). unfold ii, initial_of. cbn [iu_sac]. destruct (field m s "id-SAI") as [v|] eqn:Ef; cbn [option_map].
      - destruct (sai_inv v (field_valid m s 3 _ Hs Ho eq_refl v Ef)) as (p0&c0&s0&s1&e&->). cbn. split; [lia|discriminate].
      - split; [reflexivity|]. cbn. lia. }
    rewrite Hsac. clear Hsac.
    assert (Hnas : 256 < List.length (iu_nas ii) <-> exists nas, assoc "id-NAS-PDU" (shown m s) = Some (Some (VOcts nas)) /\ 256 < List.length nas).
    { rewrite (shown_field m s Ho Hs). unfold ii, initial_of. cbn [iu_nas]. destruct (field m s "id-NAS-PDU") as [v|] eqn:Ef; cbn [option_map].
      - destruct (octs_inv _ v (field_valid m s 4 _ Hs Ho eq_refl v Ef)) as (o&->&_). cbn [c_octs]. split; [eauto|]. intros (n&E'&H). injection E' as <-. exact H.
      - split; [cbn; lia|]. intros (n&H&_). discriminate. }
    rewrite Hnas. clear Hnas. rewrite <- (shown_field m s Ho Hs) || idtac. split.
    + intros ((pl&l0&l1&ext&Hl&Hu)&H2&H3&H4). apply (fatal_initial _ s pl l0 l1 ext); auto.
      * exists cr. exact Hc.
      * rewrite (shown_field m s Ho Hs), Hl. reflexivity.
    + intros [s' pl l0 l1 ext m' Hcr Hl Hu H2 H3 H4]. destruct Hcr as (cr'&Hcr). rewrite Hc in Hcr. injection Hcr as _ <-. subst m'.
      split; [|auto]. exists pl, l0, l1, ext. split; [|exact Hu]. rewrite (shown_field m s Ho Hs) in Hl. destruct (field m s "id-LAI"); cbn [option_map] in Hl; congruence.
Qed.
End Initial.

Lemma first_crash E conn a data w : quiet E ->
  (snd (rx_co (stack E) data (handle_co_initial (stack E) conn a) w) = None <-> fatal_first (rx_cn_co data)).
Proof.
  intros Q. unfold rx_co. cbn [stack dec_co]. unfold shown_to_handler.
  destruct (call_co data) as [Hc|(d&p&cr&m&s&Hc&Hm&Hin&Hs)]; rewrite Hc.
  - cbn [ret snd]. split; [discriminate|]. intros []. destruct H as (?&H). congruence.
  - unfold handle_co_initial, PR_initiatingMessage, id_InitialUE_Message.
    assert (Hdp : m_dir (view (mkRmsg d p cr (Some (m, s)))) = d /\ m_proc (view (mkRmsg d p cr (Some (m, s)))) = p) by (split; reflexivity).
    destruct Hdp as [-> ->].
    destruct (N.eqb_spec d 1) as [->|Hd]; [destruct (N.eqb_spec p 19) as [->|Hp]|]; cbn [negb orb].
    2,3: cbn [ret snd]; split; [discriminate|]; intros []; destruct H as (?&H); congruence.
    rewrite as_initial in Hm. injection Hm as <-. change (m_ies (view _)) with (I_InitialUE (initial_of s)). cbv beta iota.
    set (ii := initial_of s).
    assert (Hb : snd ((let! _ := handle_co_initial_ue (stack E) conn a ii in ret tt) w) = None <-> snd (handle_co_initial_ue (stack E) conn a ii w) = None).
    { unfold bind. destruct (handle_co_initial_ue (stack E) conn a ii w) as [w' [z|]]; cbn [snd ret]; split; congruence. }
    rewrite Hb. clear Hb. unfold ii. rewrite (initial_crash (stack E) Q conn a (initial_of s) w (initial_one s Hs)). exact (initial_iff s Hs data cr Hc).
Qed.
Lemma first_fatal E conn a data w : fatal_first (rx_cn_co data) -> snd (rx_co (stack E) data (handle_co_initial (stack E) conn a) w) = None.
Proof.
  intros Hf. assert (H0 : exists s cr, x_calls (rx_cn_co data) = [mkRmsg 1 19 cr (Some (M_RANAP_InitialUE_MessageIEs, s))]) by (destruct Hf; destruct H as (cr&H); eauto).
  destruct H0 as (s&cr&Hc). unfold rx_co. cbn [stack dec_co]. unfold shown_to_handler.
  assert (Hs : sound M_RANAP_InitialUE_MessageIEs s).
  { destruct (call_co data) as [Hc'|(d&p&cr'&m&s'&Hc'&Hm&Hin&Hs)]; rewrite Hc in Hc'; [discriminate|]. injection Hc' as <- <- _ <- <-. exact Hs. }
  rewrite Hc. unfold handle_co_initial. change (m_ies (view _)) with (I_InitialUE (initial_of s)). cbn [view g_dir g_proc m_dir m_proc]. cbn [N.eqb Pos.eqb negb orb PR_initiatingMessage id_InitialUE_Message].
  unfold bind. pose proof (initial_fatal (stack E) conn a (initial_of s) w (initial_one s Hs) (proj2 (initial_iff s Hs data cr Hc) Hf)) as H.
  destruct (handle_co_initial_ue _ _ _ _ w) as [w' [z|]]; [discriminate|reflexivity].
Qed.
Lemma cause_back i z : (0 <= z)%Z -> cause_val (f_cause (c_cause (Some (VChoice i (VInt z))))) = VChoice i (VInt z).
Proof.
  intros Hz. unfold c_cause, f_cause, cause_val, c_int. cbn [IuClient.c_present IuClient.c_value Factory_spec.c_present Factory_spec.c_value].
  destruct (N.eqb_spec (N.of_nat i + 1) 0); [lia|]. rewrite Z2N.id by lia. f_equal. lia.
Qed.
Lemma event_runs E p ev w u : quiet E -> live (w_st w) p = Some u -> snd (global_iu_event E (Some p) ev w) <> None.
Proof.
  intros Q Hu. unfold global_iu_event. destruct (has_event_cb E); cbn [negb]; [|discriminate].
  unfold bind at 1. unfold bind at 1. unfold deref. unfold bind at 1. cbn [IuClient.get]. rewrite Hu. cbn [ret].
  destruct (u_notif u); cbn [negb]; [|discriminate].
  match goal with |- snd (?m ?w) <> None => assert (Hs : safe m); [|exact (Hs w)] end.
  apply safe_bind; [apply safe_callback; exact Q|]. intros _. apply safe_bind; [apply safe_trace|]. intros; apply safe_ret.
Qed.
Lemma cause_ok_dec c : cause_ok c \/ ~ cause_ok c.
Proof.
  unfold cause_ok. destruct (Aper.encode T_RANAP_Cause (cause_val c)) as [o|] eqn:Ee; [left; exact (encode_valid _ _ _ Ee)|right].
  intros H. destruct (encode_total T_RANAP_Cause (cause_val c) eq_refl H) as (o&Ho&_). congruence.
Qed.
Lemma has_release c : has_octets (DL_IuReleaseCmd c) = true <-> cause_ok (f_cause c).
Proof.
  unfold has_octets, octets_of. destruct (r_msg (new_msg_iu_rel_cmd (f_cause c))) eqn:Er.
  - split; [|reflexivity]. intros _. destruct (cause_ok_dec (f_cause c)) as [H|H]; [exact H|]. rewrite (iu_rel_cmd_bad _ H) in Er. discriminate.
  - split; [discriminate|]. intros H. destruct (iu_rel_cmd_msg _ H) as (b&Hb&_). congruence.
Qed.

Definition transfer_of (s : Container.ies) : direct_transfer :=
  let m := M_RANAP_DirectTransferIEs in
  mkDt (c_octs (field m s "id-NAS-PDU")) (if_present m s "id-LAI" c_lai) (if_present m s "id-RAC" c_octs) (if_present m s "id-SAI" c_sac).
Section Transfer.
Variable s : Container.ies.
Notation m := M_RANAP_DirectTransferIEs.
Hypothesis Hs : sound m s.
Let Ho : ies_once (m_rows m) = true := eq_refl.
Lemma transfer_lai : dt_lai (transfer_of s) = match field m s "id-LAI" with Some v => Some (c_lai (Some v)) | None => None end.
Proof. exact (if_field m s "id-LAI" c_lai 1 _ Hs Ho eq_refl eq_refl eq_refl eq_refl). Qed.
Lemma transfer_rac : dt_rac (transfer_of s) = match field m s "id-RAC" with Some v => Some (c_octs (Some v)) | None => None end.
Proof. exact (if_field m s "id-RAC" c_octs 2 _ Hs Ho eq_refl eq_refl eq_refl eq_refl). Qed.
Lemma transfer_sac : dt_sac (transfer_of s) = match field m s "id-SAI" with Some v => Some (c_sac (Some v)) | None => None end.
Proof. exact (if_field m s "id-SAI" c_sac 3 _ Hs Ho eq_refl eq_refl eq_refl eq_refl). Qed.
Lemma transfer_one : one_octet (dt_rac (transfer_of s)).
Proof. rewrite transfer_rac. destruct (field m s "id-RAC") as [v|] eqn:Ef; [|exact I]. destruct (rac_inv v (field_valid m s 2 _ Hs Ho eq_refl v Ef)) as (x&->). cbn. eauto. Qed.
Lemma transfer_two : two_octets (dt_sac (transfer_of s)).
Proof. rewrite transfer_sac. destruct (field m s "id-SAI") as [v|] eqn:Ef; [|exact I]. destruct (sai_inv v (field_valid m s 3 _ Hs Ho eq_refl v Ef)) as (p0&c0&s0&s1&e&->). cbn. eauto. Qed.
Lemma transfer_iff data cr : x_calls (rx_cn_co data) = [mkRmsg 1 20 cr (Some (m, s))] -> (bad_transfer (transfer_of s) <-> fatal_later (rx_cn_co data)).
Proof.
  intros Hc. unfold bad_transfer. set (ii := transfer_of s). pose proof transfer_lai as Hpl. fold ii in Hpl.
  assert (Hnas : 256 < List.length (dt_nas ii) <-> exists nas, assoc "id-NAS-PDU" (shown m s) = Some (Some (VOcts nas)) /\ 256 < List.length nas).
  { rewrite (shown_field m s Ho Hs). unfold ii, transfer_of. cbn [dt_nas]. destruct (field m s "id-NAS-PDU") as [v|] eqn:Ef; cbn [option_map].
    - destruct (octs_inv _ v (field_valid m s 0 _ Hs Ho eq_refl v Ef)) as (o&->&_). cbn [c_octs]. split; [eauto|]. intros (n&E'&H). injection E' as <-. exact H.
    - split; [cbn; lia|]. intros (n&H&_). discriminate. }
  rewrite Hnas. clear Hnas.
  assert (Hl : (dt_lai ii = None \/ (exists l ra, dt_lai ii = Some l /\ parse_lai l = Ok (0%Z, ra))) <->
    (assoc "id-LAI" (shown m s) = None \/ exists plmn l0 l1 ext, assoc "id-LAI" (shown m s) = Some (Some (lai_v plmn [l0; l1] ext)) /\ usable_lac l0 l1)).
  { rewrite Hpl, (shown_field m s Ho Hs). pose proof (usable_lai m s 1 _ Hs Ho eq_refl eq_refl eq_refl) as Hul.
    destruct (field m s "id-LAI") as [v|] eqn:Ef; cbn [option_map].
    - split; intros [H|H]; try discriminate; right.
      + destruct H as (l&ra&El&Hp). injection El as <-. destruct (proj1 Hul (ex_intro _ ra Hp)) as (pl&l0&l1&e&H1&H2). injection H1 as ->. exists pl, l0, l1, e. auto.
      + destruct H as (pl&l0&l1&e&H1&H2). injection H1 as ->. destruct (proj2 Hul) as (ra&Hp); [exists pl, l0, l1, e; auto|]. exists (c_lai (Some (lai_v pl [l0; l1] e))), ra. auto.
    - split; intros _; left; reflexivity. }
  rewrite Hl. split.
  - intros (H1&nas&H2&H3). apply (fatal_transfer _ s nas); auto. exists cr. exact Hc.
  - intros [s' nas m' Hcr H1 H2 H3|s' m' Hcr _|s' m' Hcr _]; destruct Hcr as (cr'&Hcr); rewrite Hc in Hcr; try discriminate.
    injection Hcr as _ <-. subst m'. split; [exact H3|eauto].
Qed.
End Transfer.

Lemma later_crash E p u data w : quiet E -> live (w_st w) p = Some u ->
  (snd (rx_co (stack E) data (handle_co (stack E) p) w) = None <-> fatal_later (rx_cn_co data)).
Proof.
  intros Q Hu. unfold rx_co. cbn [stack dec_co]. unfold shown_to_handler.
  destruct (call_co data) as [Hc|(d&q&cr&m&s&Hc&Hm&Hin&Hs)]; rewrite Hc.
  - cbn [ret snd]. split; [discriminate|]. intros []; destruct H as (?&H); congruence.
  - pose proof (once_ranap m Hin) as Ho. unfold handle_co.
    assert (Hdp : m_dir (view (mkRmsg d q cr (Some (m, s)))) = d /\ m_proc (view (mkRmsg d q cr (Some (m, s)))) = q) by (split; reflexivity).
    destruct Hdp as [-> ->].
    match goal with |- snd ((let! _ := ?b in ret tt) w) = None <-> _ => 
      assert (Hb : snd ((let! _ := b in ret tt) w) = None <-> snd (b w) = None) by
        (unfold bind; destruct (b w) as [w' [z|]]; cbn [snd ret]; split; congruence); rewrite Hb; clear Hb end.
    unfold PR_initiatingMessage, PR_successfulOutcome, PR_outcome, id_InitialUE_Message, id_DirectTransfer, id_ErrorIndication,
      id_Iu_ReleaseRequest, id_SecurityModeControl, id_Iu_Release, id_RAB_Assignment.
    assert (Hno : ~ (d = 1 /\ q = 20)%N -> ~ (d = 1 /\ q = 11)%N -> ~ (d = 4 /\ q = 0)%N -> ~ fatal_later (rx_cn_co data)).
    { intros H1 H2 H3 []; destruct H as (c'&H); rewrite Hc in H; injection H as -> -> _ _ _; tauto. }
    destruct (N.eqb_spec d 1) as [->|Hd1].
    { destruct (N.eqb_spec q 19) as [->|Hq19]; [cbn [ret snd]; split; [discriminate|intros H; exfalso; revert H; apply Hno; lia]|].
      destruct (N.eqb_spec q 20) as [->|Hq20].
      { rewrite as_transfer in Hm. injection Hm as <-. 
        change (m_ies (view _)) with (I_DirectTransfer (transfer_of s)). cbv beta iota.
        rewrite (transfer_crash (stack E) Q p (transfer_of s) w (transfer_one s Hs) (transfer_two s Hs)). exact (transfer_iff s Hs data cr Hc). }
      destruct (N.eqb_spec q 22) as [->|Hq22]; [cbn [ret snd]; split; [discriminate|intros H; exfalso; revert H; apply Hno; lia]|].
      destruct (N.eqb_spec q 11) as [->|Hq11]; [|cbn [ret snd]; split; [discriminate|intros H; exfalso; revert H; apply Hno; lia]].
      rewrite as_release in Hm. injection Hm as <-. cbn [view g_body m_ies m_key M_RANAP_Iu_ReleaseRequestIEs String.eqb Ascii.eqb Bool.eqb g_dir g_proc].
      set (m := M_RANAP_Iu_ReleaseRequestIEs) in *. set (c := c_cause (field m s "id-Cause")).
      assert (Hcr : snd (handle_co_iu_rel_req (stack E) p c w) = None <-> has_octets (DL_IuReleaseCmd c) = false).
      { unfold handle_co_iu_rel_req, tx_release, IuClient.encode. cbn [stack enc_ok]. destruct (has_octets (DL_IuReleaseCmd c)).
        - split; [|discriminate]. unfold bind at 1. unfold bind at 1. cbn [ret]. unfold bind at 1. unfold deref, bind at 1. cbn [IuClient.get]. rewrite Hu. cbn. discriminate.
        - split; reflexivity. }
      rewrite Hcr. clear Hcr. split.
      - intros H. apply (fatal_release _ s); [exists cr; exact Hc|]. fold m. rewrite (shown_field m s Ho Hs). destruct (field m s "id-Cause") as [v|] eqn:Ef; [|reflexivity].
        exfalso. pose proof (field_valid m s 0 _ Hs Ho eq_refl v Ef) as Hv. destruct (cause_inv v Hv) as (i&z&->&Hz).
        assert (Ht : has_octets (DL_IuReleaseCmd c) = true); [|congruence]. apply has_release. unfold cause_ok, c. rewrite (cause_back i z Hz). exact Hv.
      - intros [s' nas m' Hcr _ _ _|s' m' Hcr Hn|s' m' Hcr _]; destruct Hcr as (cr'&Hcr); rewrite Hc in Hcr; try discriminate.
        injection Hcr as _ <-. fold m in m'. subst m'. rewrite (shown_field m s Ho Hs) in Hn. unfold c. destruct (field m s "id-Cause"); [discriminate|]. reflexivity. }
    destruct (N.eqb_spec d 2) as [->|Hd2].
    { destruct (q =? 6)%N; [|destruct (q =? 1)%N]; (split; [|intros H; exfalso; revert H; apply Hno; lia]);
        [intros H; destruct (event_runs (stack E) p _ w u Q Hu H)|intros H; destruct (event_runs (stack E) p _ w u Q Hu H)|discriminate]. }
    destruct (N.eqb_spec d 4) as [->|Hd4]; [|cbn [ret snd]; split; [discriminate|intros H; exfalso; revert H; apply Hno; lia]].
    destruct (N.eqb_spec q 0) as [->|Hq0]; [|cbn [ret snd]; split; [discriminate|intros H; exfalso; revert H; apply Hno; lia]].
    rewrite as_rab in Hm. injection Hm as <-. cbn [view g_body m_ies m_key M_RANAP_RAB_AssignmentResponseIEs String.eqb Ascii.eqb Bool.eqb g_dir g_proc].
    set (m := M_RANAP_RAB_AssignmentResponseIEs) in *.
    assert (Hpl : if_present m s "id-RAB-SetupOrModifiedList" c_items = match field m s "id-RAB-SetupOrModifiedList" with Some v => Some (c_items (Some v)) | None => None end).
    { exact (if_field m s "id-RAB-SetupOrModifiedList" c_items 0 _ Hs Ho eq_refl eq_refl eq_refl eq_refl). }
    rewrite Hpl. clear Hpl. unfold handle_co_rab_ass_resp. unfold bind at 1. unfold deref, bind at 1. cbn [IuClient.get]. rewrite Hu. cbn [ret].
    assert (Hiff : fatal_later (rx_cn_co data) <-> field m s "id-RAB-SetupOrModifiedList" = Some (VSeq [Some (VList [])] [])).
    { split.
      - intros [s' nas m' Hcr _ _ _|s' m' Hcr _|s' m' Hcr Hn]; destruct Hcr as (cr'&Hcr); rewrite Hc in Hcr; try discriminate.
        injection Hcr as _ <-. fold m in m'. subst m'. rewrite (shown_field m s Ho Hs) in Hn. destruct (field m s "id-RAB-SetupOrModifiedList"); cbn [option_map] in Hn; congruence.
      - intros H. apply (fatal_rab _ s); [exists cr; exact Hc|]. fold m. rewrite (shown_field m s Ho Hs), H. reflexivity. }
    rewrite Hiff. clear Hiff. destruct (field m s "id-RAB-SetupOrModifiedList") as [v|] eqn:Ef; [|cbn [ret snd]; split; discriminate].
    destruct (items_inv v (field_valid m s 0 _ Hs Ho eq_refl v Ef)) as (l&->&_). cbn [c_items comp nth_error].
    destruct l as [|x l]; cbn [map].
    + cbn [fail snd]. split; reflexivity.
    + split; [|intros H; injection H; discriminate]. cbn [stack dec_item]. unfold decode_item.
      destruct (Aper.decode _ _); unfold lift, bind; cbn [ret]; [|discriminate]. intros H. destruct (event_runs (stack E) p _ w u Q Hu H).
Qed.

Lemma later_fatal E p data w : fatal_later (rx_cn_co data) -> live (w_st w) p <> None -> snd (rx_co (stack E) data (handle_co (stack E) p) w) = None.
Proof.
  intros Hf Hu. destruct (live (w_st w) p) as [u|] eqn:El; [clear Hu|destruct (Hu eq_refl)]. unfold rx_co. cbn [stack dec_co]. unfold shown_to_handler.
  assert (Hb : forall (b : M Z), snd (b w) = None -> snd ((let! _ := b in ret tt) w) = None).
  { intros b H. unfold bind. destruct (b w) as [w' [z|]]; [discriminate|reflexivity]. }
  pose proof (call_co data) as Hcall. pose proof Hf as Hf0. destruct Hf as [s nas m Hcr H1 H2 H3|s m Hcr H1|s m Hcr H1]; destruct Hcr as (cr&Hc);
    (destruct Hcall as [Hc'|(d&q&cr'&m'&s'&Hc'&Hm&Hin&Hs)]; rewrite Hc in Hc'; [discriminate|]; injection Hc' as <- <- _ <- <-); rewrite Hc; unfold handle_co; apply Hb;
    cbn [view g_dir g_proc m_dir m_proc]; cbn [N.eqb Pos.eqb PR_initiatingMessage PR_successfulOutcome PR_outcome id_InitialUE_Message id_DirectTransfer id_ErrorIndication id_Iu_ReleaseRequest id_RAB_Assignment].
  - change (snd (handle_co_dt (stack E) p (transfer_of s) w) = None).
    apply transfer_fatal; [exact (transfer_one s Hs)|exact (transfer_two s Hs)|]. apply (transfer_iff s Hs data cr Hc). exact Hf0.
  - change (snd (handle_co_iu_rel_req (stack E) p (c_cause (field m s "id-Cause")) w) = None).
    rewrite (shown_field m s eq_refl Hs) in H1. destruct (field m s "id-Cause"); [discriminate|]. reflexivity.
  - change (snd (handle_co_rab_ass_resp (stack E) p (if_present m s "id-RAB-SetupOrModifiedList" c_items) w) = None).
    rewrite (if_field m s "id-RAB-SetupOrModifiedList" c_items 0 _ Hs eq_refl eq_refl eq_refl eq_refl eq_refl).
    rewrite (shown_field m s eq_refl Hs) in H1. destruct (field m s "id-RAB-SetupOrModifiedList") as [v|]; cbn [option_map] in H1; [|discriminate]. injection H1 as ->.
    unfold handle_co_rab_ass_resp, deref, bind. cbn [IuClient.get]. rewrite El. reflexivity.
Qed.

(* ---------------- whole primitives ---------------- *)
Lemma found_live s c u : ue_conn_ctx_find s c = Some u -> live s (u_ptr u) <> None.
Proof.
  unfold ue_conn_ctx_find, live. intros H. apply find_some in H. destruct H as [Hin _]. intros Hn.
  pose proof (find_none _ _ Hn u Hin) as H. cbv beta in H. rewrite N.eqb_refl in H. discriminate.
Qed.
Lemma invalidated_runs E w c u : quiet E -> ue_conn_ctx_find (w_st w) c = Some u -> snd (link_invalidated_free (stack E) (u_ptr u) w) <> None.
Proof.
  intros Q Hf. pose proof (found_live _ _ _ Hf) as Hl. destruct (live (w_st w) (u_ptr u)) as [v|] eqn:Ev; [|destruct (Hl eq_refl)].
  unfold link_invalidated_free. unfold bind at 1. unfold deref, bind at 1. cbn [IuClient.get]. rewrite Ev. cbn [ret]. unfold bind at 1.
  pose proof (event_runs (stack E) (u_ptr u) EvLinkInvalidated w v Q Ev) as Hr.
  destruct (global_iu_event (stack E) (Some (u_ptr u)) EvLinkInvalidated w) as [w' [z|]]; [|destruct (Hr eq_refl)].
  unfold bind at 1. cbn [IuClient.get]. destruct (ue_conn_ctx_find (w_st w') (u_conn v)) as [u'|] eqn:Eu; [|discriminate].
  destruct (u_for u'); [|discriminate]. pose proof (found_live _ _ _ Eu) as Hl'. unfold free_ue, deref.
  destruct (live (w_st w') (u_ptr u')) as [x|] eqn:Ex; [|destruct (Hl' eq_refl)].
  unfold bind at 1. unfold bind at 1. cbn [IuClient.get]. rewrite Ex. cbn. discriminate.
Qed.
Lemma wrap_crash (b : M unit) w : snd ((let! _ := b in emit EPrimFree) w) = None <-> snd (b w) = None.
Proof. unfold bind. destruct (b w) as [w' [z|]]; cbn [snd emit]; split; congruence. Qed.

Lemma connect_crash E c a data w : quiet E ->
  (snd (exec (stack E) (OConnectInd c a data) w) = None <-> data <> [] /\ fatal_first (rx_cn_co data)).
Proof.
  intros Q. cbn [exec sccp_sap_up]. unfold sccp_sap_up. rewrite wrap_crash. unfold bind at 1, sccp_send, bind, trace, emit, ret.
  destruct data as [|b data].
  - cbn. split; [discriminate|]. intros [H _]. destruct (H eq_refl).
  - rewrite (first_crash E c a (b :: data) _ Q). split; [intros H; split; [discriminate|exact H]|apply proj2].
Qed.
Lemma data_crash E c data w : quiet E ->
  (snd (exec (stack E) (ODataInd c data) w) = None <->
   match ue_on (w_st w) c with
   | Some _ => fatal_later (rx_cn_co data)
   | None => pending (w_st w) c <> None /\ fatal_first (rx_cn_co data)
   end).
Proof.
  intros Q. cbn [exec]. unfold sccp_sap_up. rewrite wrap_crash. unfold bind at 1. cbn [IuClient.get].
  change (ue_on (w_st w) c) with (ue_conn_ctx_find (w_st w) c). destruct (ue_conn_ctx_find (w_st w) c) as [u|] eqn:Eu.
  - pose proof (found_live _ _ _ Eu) as Hl. destruct (live (w_st w) (u_ptr u)) as [v|] eqn:Ev; [|destruct (Hl eq_refl)].
    exact (later_crash E (u_ptr u) v data w Q Ev).
  - change (pending (w_st w) c) with (sccp_addr_find (w_st w) c). destruct (sccp_addr_find (w_st w) c) as [a|].
    + unfold sccp_addr_del, bind at 1, bind at 1. cbn [IuClient.get]. unfold put_st. rewrite (first_crash E c a data _ Q).
      split; [intros H; split; [discriminate|exact H]|apply proj2].
    + cbn [ret snd]. split; [discriminate|]. intros [H _]. destruct (H eq_refl).
Qed.
Lemma disconnect_crash E c data w : quiet E ->
  (snd (exec (stack E) (ODisconnectInd c data) w) = None <->
   ue_on (w_st w) c <> None /\ data <> [] /\ fatal_later (rx_cn_co data)).
Proof.
  intros Q. cbn [exec]. unfold sccp_sap_up. rewrite wrap_crash. unfold sccp_addr_del. unfold bind at 1. unfold bind at 1. cbn [IuClient.get]. unfold put_st.
  unfold bind at 1. cbn [IuClient.get w_st].
  assert (Hsame : forall s l k, ue_conn_ctx_find (set_cache s l) k = ue_conn_ctx_find s k) by reflexivity. rewrite Hsame.
  change (ue_on (w_st w) c) with (ue_conn_ctx_find (w_st w) c).
  destruct (ue_conn_ctx_find (w_st w) c) as [u|] eqn:Eu; [|cbn [ret snd]; split; [discriminate|intros (H&_); destruct (H eq_refl)]].
  set (w1 := mkW _ _). assert (Hu1 : ue_conn_ctx_find (w_st w1) c = Some u) by exact Eu.
  pose proof (found_live _ _ _ Hu1) as Hl. destruct (live (w_st w1) (u_ptr u)) as [v|] eqn:Ev; [|destruct (Hl eq_refl)].
  assert (Hrest : forall w2, snd ((let! s := IuClient.get in match ue_conn_ctx_find s c with None => ret tt | Some u => link_invalidated_free (stack E) (u_ptr u) end) w2) <> None).
  { intros w2. unfold bind. cbn [IuClient.get]. destruct (ue_conn_ctx_find (w_st w2) c) as [u2|] eqn:E2; [exact (invalidated_runs E w2 c u2 Q E2)|discriminate]. }
  rewrite crash_bind. destruct data as [|b data].
  - cbn [ret snd]. split; [|intros (_&H&_); destruct (H eq_refl)]. intros [H|(w2&x&_&H)]; [discriminate|destruct (Hrest w2 H)].
  - rewrite (later_crash E (u_ptr u) v (b :: data) w1 Q Ev). split.
    + intros [H|(w2&x&_&H)]; [|destruct (Hrest w2 H)]. split; [discriminate|]. split; [discriminate|exact H].
    + intros (_&_&H). left. exact H.
Qed.
Lemma call_cl data : x_calls (rx_cn_cl data) = [] \/
  (exists d p cr m s, x_calls (rx_cn_cl data) = [mkRmsg d p cr (Some (m, s))] /\ decoded_as cn_cl d p = Some m /\ In m ranap_msgs /\ sound m s) \/
  exists d p cr, x_calls (rx_cn_cl data) = [mkRmsg d p cr None] /\ (decoded_as cn_cl d p = None \/ (2 < d)%N).
Proof.
  destruct (pdu_parts data) as [[[[d p] cr] o]|] eqn:Ep.
  - destruct (cn_cl_exact data d p cr o Ep) as [H1 H2]. destruct (decoded_as cn_cl d p) as [m|] eqn:Em.
    + assert (Hm : In m ranap_msgs) by (apply (decoded_in cn_cl d p); [cbn; tauto|exact Em]).
      assert (Hin : In (d, p, m_key m) cn_connectionless) by (apply cn_cl_list; rewrite Em; reflexivity).
      rewrite (H1 _ m Hin Hm eq_refl). destruct (d_ok (decode_msg m o)) eqn:Ed; [|left; reflexivity].
      right. left. exists d, p, cr, m, (d_ies (decode_msg m o)). split; [reflexivity|]. split; [exact Em|]. split; [exact Hm|exact (decoded_sound m o Hm Ed)].
    + right. right. destruct H2 as [H2 _]; [intros k H; apply cn_cl_list in H; rewrite Em in H; discriminate|]. rewrite H2.
      destruct (N.leb_spec d 2); do 3 eexists; (split; [reflexivity|]); auto.
  - left. unfold rx_cn_cl, rx_free. pose proof (decode2_shape cn_cl data) as H. rewrite Ep in H. rewrite H. reflexivity.
Qed.
Lemma unitdata_runs E a data w : snd (exec (stack E) (OUnitdataInd a data) w) <> None.
Proof.
  cbn [exec]. unfold sccp_sap_up. rewrite wrap_crash. unfold rx_cl. cbn [stack dec_cl]. unfold shown_to_handler.
  assert (Hh : forall msg, (m_dir msg = 1%N -> m_proc msg = 9%N -> exists d g, m_ies msg = I_Reset d g) -> snd (handle_cl (stack E) a msg w) <> None).
  { intros msg H. unfold handle_cl, PR_initiatingMessage, id_Reset, id_ErrorIndication.
    assert (Hb : forall b : M Z, snd (b w) <> None -> snd ((let! _ := b in ret tt) w) <> None).
    { intros b H'. unfold bind. destruct (b w) as [w' [z|]]; [discriminate|destruct (H' eq_refl)]. }
    apply Hb. destruct (N.eqb_spec (m_dir msg) 1) as [E1|]; [|discriminate]. destruct (N.eqb_spec (m_proc msg) 9) as [E9|]; [|destruct (_ =? _)%N; discriminate].
    destruct (H E1 E9) as (d&g&->). unfold handle_cl_reset_req. destruct (enc_ok _ _); [|discriminate]. unfold sccp_send, bind, trace, emit, ret. discriminate. }
  destruct (call_cl data) as [Hc|[(d&p&cr&m&s&Hc&Hm&_&_)|(d&p&cr&Hc&Hd)]]; rewrite Hc; [discriminate| |]; apply Hh; cbn [view g_dir g_proc m_dir m_proc]; intros -> ->.
  - rewrite as_reset in Hm. injection Hm as <-. do 2 eexists. reflexivity.
  - destruct Hd as [Hd|Hd]; [rewrite as_reset in Hd; discriminate|lia].
Qed.
(* whatever the application does *)
Lemma any_connect E c a data w : data <> [] -> fatal_first (rx_cn_co data) -> snd (exec (stack E) (OConnectInd c a data) w) = None.
Proof.
  intros Hne Hf. cbn [exec]. unfold sccp_sap_up. rewrite wrap_crash. unfold bind at 1, sccp_send, bind, trace, emit, ret.
  destruct data as [|b data]; [destruct (Hne eq_refl)|]. exact (first_fatal E c a (b :: data) _ Hf).
Qed.
Lemma any_data E c data w :
  match ue_on (w_st w) c with Some _ => fatal_later (rx_cn_co data) | None => pending (w_st w) c <> None /\ fatal_first (rx_cn_co data) end ->
  snd (exec (stack E) (ODataInd c data) w) = None.
Proof.
  intros H. cbn [exec]. unfold sccp_sap_up. rewrite wrap_crash. unfold bind at 1. cbn [IuClient.get].
  change (ue_on (w_st w) c) with (ue_conn_ctx_find (w_st w) c) in H. destruct (ue_conn_ctx_find (w_st w) c) as [u|] eqn:Eu.
  - exact (later_fatal E (u_ptr u) data w H (found_live _ _ _ Eu)).
  - change (pending (w_st w) c) with (sccp_addr_find (w_st w) c) in H. destruct H as [H1 H2]. destruct (sccp_addr_find (w_st w) c) as [a|]; [|destruct (H1 eq_refl)].
    unfold sccp_addr_del, bind at 1, bind at 1. cbn [IuClient.get]. unfold put_st. exact (first_fatal E c a data _ H2).
Qed.
Lemma any_disconnect E c data w : ue_on (w_st w) c <> None -> data <> [] -> fatal_later (rx_cn_co data) -> snd (exec (stack E) (ODisconnectInd c data) w) = None.
Proof.
  intros Hu Hne Hf. cbn [exec]. unfold sccp_sap_up. rewrite wrap_crash. unfold sccp_addr_del. unfold bind at 1. unfold bind at 1. cbn [IuClient.get]. unfold put_st.
  unfold bind at 1. cbn [IuClient.get w_st].
  assert (Hsame : forall s l k, ue_conn_ctx_find (set_cache s l) k = ue_conn_ctx_find s k) by reflexivity. rewrite Hsame.
  change (ue_on (w_st w) c) with (ue_conn_ctx_find (w_st w) c) in Hu.
  destruct (ue_conn_ctx_find (w_st w) c) as [u|] eqn:Eu; [|destruct (Hu eq_refl)]. set (w1 := mkW _ _).
  rewrite crash_bind. left. destruct data as [|b data]; [destruct (Hne eq_refl)|]. apply (later_fatal E); [exact Hf|]. exact (found_live (w_st w1) c u Eu).
Qed.
