(* RAB Assignment Request *)
From Coq Require Import ZifyBool ZifyNat ZifyN String List.
From Verif Require Import Base Aper Aper_spec Aper_proofs Aper_valid Aper_len Container Container_proofs AllMsgs RanapTypes RanapTab Helpers Helpers_spec Helpers_proofs
  Factory Factory_spec Factory_len Factory_proofs Factory_msgs.
Ltac Zify.zify_post_hook ::= Z.div_mod_to_equations.
Local Open Scope list_scope.
Local Open Scope string_scope.
Local Open Scope list_scope.

Lemma list_max_le n s k : n <= k -> s <= 8 * k -> (N.of_nat k < 16384)%N -> list_max n s <= 23 + 8 * k.
Proof. intros. unfold list_max. destruct (N.ltb_spec (N.of_nat n) 16384); lia. Qed.
Lemma pair_valid id c1 o1 c2 o2 : (0 <= id <= 65535)%Z -> In c1 [0; 1; 2]%Z -> In c2 [0; 1; 2]%Z -> bytes_ok o1 = true -> bytes_ok o2 = true ->
  valid T_RANAP_RAB_SetupOrModifyList (one_pair id c1 o1 c2 o2).
Proof.
  intros Hi H1 H2 B1 B2. unfold one_pair. constructor; [right; cbn; lia|]. intros v [<-|[]]. constructor; [right; cbn; lia|]. intros v [<-|[]].
  apply valid_seq; [|reflexivity]. cbn [mem_valid]. split; [constructor; right; cbn; lia|].
  split; [apply v_enum_root; exact H1|]. split; [constructor; [exact I|apply octs_in, B1]|]. split; [apply v_enum_root; exact H2|].
  split; [constructor; [exact I|apply octs_in, B2]|exact I].
Qed.
Lemma pair_size o1 o2 : length o1 <= 300 -> length o2 <= 300 -> (osize T_RANAP_RAB_SetupOrModifyList (one_pair 53 0 o1 1 o2) <= 800)%N.
Proof.
  intros H1 H2. pose proof (list_max_le (length o1) (8 * length o1) 300 H1 ltac:(lia) eq_refl) as L1. pose proof (list_max_le (length o2) (8 * length o2) 300 H2 ltac:(lia) eq_refl) as L2.
  eapply osize_le' with (n := (200 + 2 * (23 + 8 * 300))%nat); [|reflexivity].
  assert (He : blen T_RANAP_RAB_SetupOrModifyList (one_pair 53 0 o1 1 o2) <= 200 + (list_max (length o1) (8 * length o1) + list_max (length o2) (8 * length o2))).
  { unfold one_pair. cbn. lia. }
  lia.
Qed.
Lemma tli_ok addr i o : length addr <= 20 -> 1 <= length addr -> i <= 1 -> length o = 4 -> bytes_ok o = true ->
  valid T_RANAP_TransportLayerInformation (transport addr (VChoice i (VOcts o))) /\
  blen T_RANAP_TransportLayerInformation (transport addr (VChoice i (VOcts o))) <= 300.
Proof.
  intros Ha Ha1 Hi Ho Hb. unfold transport. pose proof (bits_len addr) as Hl. split.
  - apply valid_seq; [|reflexivity]. cbn [mem_valid]. split; [constructor; right; cbn; lia|]. split; [|auto].
    destruct i as [|[|i]]; [| |lia]; (eapply v_choice_root; [reflexivity|]; constructor; [right; cbn; lia|apply octs_in, Hb]).
  - generalize dependent (octets_bits addr). intros bs Hl. destruct o as [|o1 [|o2 [|o3 [|o4 [|? o]]]]]; try discriminate.
    assert (Hs : sized_max (Some (mkCon true 1 160)) (length bs) (length bs) <= 200).
    { unfold sized_max. replace (in_con _ _) with true by (unfold in_con; cbn [c_lb c_ub]; lia). cbn. lia. }
    destruct i as [|[|i]]; [| |lia]; unfold T_RANAP_TransportLayerInformation, T_RANAP_TransportLayerAddress; cbn [blen]; cbn [present map existsb];
      match goal with |- context[blen ?t ?v] => assert (blen t v <= 60) by (vm_compute; lia) end; lia.
Qed.
(* the first item around its three variable parts *)
Definition first_item (rab_id : N) (nas par up tli : option val) : val :=
  VSeq [Some (VBits (octets_bits [rab_id])); nas; par; up; tli; None; None] [].
Lemma first_ok rab_id nas par up tli n : 
  match nas with Some v => valid T_RANAP_NAS_SynchronisationIndicator v | None => True end ->
  valid T_RANAP_RAB_Parameters par -> valid T_RANAP_UserPlaneInformation up -> valid T_RANAP_TransportLayerInformation tli ->
  match nas with Some v => blen T_RANAP_NAS_SynchronisationIndicator v | None => 0 end + blen T_RANAP_RAB_Parameters par +
    blen T_RANAP_UserPlaneInformation up + blen T_RANAP_TransportLayerInformation tli + 50 <= n ->
  valid T_RANAP_RAB_SetupOrModifyItemFirst (first_item rab_id nas (Some par) (Some up) (Some tli)) /\
  blen T_RANAP_RAB_SetupOrModifyItemFirst (first_item rab_id nas (Some par) (Some up) (Some tli)) <= n.
Proof.
  intros Hn Hp Hu Ht Hs. split.
  - eapply seq_item; [reflexivity|]. cbn [mem_valid]. split; [apply rab_id_ok|]. split; [destruct nas; [exact Hn|reflexivity]|].
    split; [exact Hp|]. split; [exact Hu|]. split; [exact Ht|]. auto.
  - assert (Hr : blen T_RANAP_RAB_ID (VBits (octets_bits [rab_id])) <= 30) by (vm_compute; lia).
    assert (He : blen T_RANAP_RAB_SetupOrModifyItemFirst (first_item rab_id nas (Some par) (Some up) (Some tli)) =
      (1 + (1 + blen T_RANAP_RAB_ID (VBits (octets_bits [rab_id])) + (1 + match nas with Some v => blen T_RANAP_NAS_SynchronisationIndicator v | None => 0 end +
       (1 + blen T_RANAP_RAB_Parameters par + (1 + blen T_RANAP_UserPlaneInformation up + (1 + blen T_RANAP_TransportLayerInformation tli + 2))))) + 0)%nat) by reflexivity.
    rewrite He. lia.
Qed.
Lemma rab_assign_ok first second :
  valid T_RANAP_RAB_SetupOrModifyItemFirst first -> valid T_RANAP_RAB_SetupOrModifyItemSecond second ->
  octs_max (blen T_RANAP_RAB_SetupOrModifyItemFirst first) <= 300 -> octs_max (blen T_RANAP_RAB_SetupOrModifyItemSecond second) <= 300 ->
  exists b o1 o2, r_msg (rab_assign first second) = Some b /\
    decode T_RANAP_RAB_SetupOrModifyItemFirst o1 = Some first /\ decode T_RANAP_RAB_SetupOrModifyItemSecond o2 = Some second /\
    holds T_RANAP_RANAP_PDU b 1 0 0 M_RANAP_RAB_AssignmentRequestIEs [("id-RAB-SetupOrModifyList", one_pair 53 0 o1 1 o2)].
Proof.
  intros V1 V2 L1 L2. destruct (encode_total _ _ (eq_refl : few_adds T_RANAP_RAB_SetupOrModifyItemFirst = true) V1) as (o1&E1&B1&_).
  destruct (encode_total _ _ (eq_refl : few_adds T_RANAP_RAB_SetupOrModifyItemSecond = true) V2) as (o2&E2&B2&_).
  unfold rab_assign, new_ie_pair. rewrite E1, E2. cbv zeta.
  pose proof (encode_le _ _ _ E1). pose proof (encode_le _ _ _ E2).
  assert (Hv := pair_valid 53 0 o1 1 o2 ltac:(lia) ltac:(cbn; auto) ltac:(cbn; auto) B1 B2). assert (Hs := pair_size o1 o2 ltac:(lia) ltac:(lia)).
  assert (Hx : forall lv mid, valid T_RANAP_RAB_SetupOrModifyList lv -> (osize T_RANAP_RAB_SetupOrModifyList lv <= 800)%N -> exists b,
    r_msg (finish ranap 1 0 0 M_RANAP_RAB_AssignmentRequestIEs (put_ie M_RANAP_RAB_AssignmentRequestIEs "id-RAB-SetupOrModifyList" lv
      (set_mask (macro M_RANAP_RAB_AssignmentRequestIEs "id-RAB-SetupOrModifyList") (zero M_RANAP_RAB_AssignmentRequestIEs))) mid true) = Some b /\
    holds T_RANAP_RANAP_PDU b 1 0 0 M_RANAP_RAB_AssignmentRequestIEs [("id-RAB-SetupOrModifyList", lv)]).
  { intros lv mid Hlv Hls. ready 58; unfold M_RANAP_RAB_AssignmentRequestIEs; rows; [auto|lia]. }
  destruct (Hx _ ([Fr ("pair", 0)] ++ [Fr ("container", 0)]) Hv Hs) as (b&Hr&Hh).
  exists b, o1, o2. split; [exact Hr|]. split; [exact (decode_encode _ _ _ E1)|]. split; [exact (decode_encode _ _ _ E2)|exact Hh].
Qed.
Ltac by_code := match goal with |- valid ?t ?v => let o := eval vm_compute in (encode t v) in match o with Some ?o => apply (encode_valid t v o); vm_compute; reflexivity end end.
Lemma addr_of (x : bool) ip : exists addr, addr = (if x then [53%N] ++ store16be 1 ++ store32be ip ++ repeat 0%N 13 else store32be ip) /\
  tla addr x false (store32be ip) /\ 1 <= length addr <= 20.
Proof.
  eexists. split; [reflexivity|]. destruct x; (split; [|cbn; lia]).
  - apply tla_x4_long; reflexivity.
  - apply tla_raw4; reflexivity.
Qed.
Lemma port_bytes p : bytes_ok (store16be p ++ [0; 0]%N) = true.
Proof.
  unfold bytes_ok. apply forallb_forall. intros x [<- | [<- | [<- | [<- | []]]]]; try reflexivity; apply N.ltb_lt, N.mod_lt; discriminate.
Qed.
Lemma voice_msg rab_id ip port x :
  exists b o1 o2 addr, r_msg (new_msg_rab_assign_voice rab_id ip port x) = Some b /\ tla addr x false (store32be ip) /\
    decode T_RANAP_RAB_SetupOrModifyItemFirst o1 = Some (rab_setup rab_id (Some [false; true; true; false]) amr_bearer (user_plane 1 version_1)
      (transport addr (binding_id (store16be port ++ [0; 0]%N)))) /\
    decode T_RANAP_RAB_SetupOrModifyItemSecond o2 = Some (comps [None; None; None; None; None; None; None]) /\
    holds T_RANAP_RANAP_PDU b 1 0 0 M_RANAP_RAB_AssignmentRequestIEs [("id-RAB-SetupOrModifyList", one_pair 53 0 o1 1 o2)].
Proof.
  destruct (addr_of x ip) as (addr&Ha&Ht&Hl).
  assert (Hb := port_bytes port). destruct (tli_ok addr 1 (store16be port ++ [0; 0]%N)) as [Tv Ts]; [lia|lia|lia|reflexivity|exact Hb|].
  assert (Hm : new_msg_rab_assign_voice rab_id ip port x = rab_assign (first_item rab_id (Some (nas_sync_ind 60)) (Some (rab_par_voice 6700 12200)) (Some (upi 1 1))
      (Some (transport addr (VChoice 1 (VOcts (store16be port ++ [0; 0]%N)))))) (VSeq [None; None; None; None; None; None; None] [])) by (subst addr; destruct x; reflexivity).
  rewrite Hm. destruct (first_ok rab_id (Some (nas_sync_ind 60)) (rab_par_voice 6700 12200) (upi 1 1) (transport addr (VChoice 1 (VOcts (store16be port ++ [0; 0]%N)))) 2000) as [Fv Fs];
    [by_code|by_code|by_code|exact Tv| |].
  { assert (blen T_RANAP_NAS_SynchronisationIndicator (nas_sync_ind 60) <= 30) by (vm_compute; lia).
    assert (blen T_RANAP_RAB_Parameters (rab_par_voice 6700 12200) <= 1400) by (vm_compute; lia).
    assert (blen T_RANAP_UserPlaneInformation (upi 1 1) <= 50) by (vm_compute; lia). lia. }
  destruct (rab_assign_ok _ (VSeq [None; None; None; None; None; None; None] []) Fv) as (b&o1&o2&Hr&D1&D2&Hh);
    [by_code|pose proof (octs_max_mono _ _ Fs) as Hq; change (octs_max 2000) with 251 in Hq; lia|vm_compute; lia|].
  exists b, o1, o2, addr. split; [exact Hr|]. split; [exact Ht|]. split; [rewrite D1; reflexivity|]. split; [exact D2|exact Hh].
Qed.
Lemma data_msg rab_id ip tei x :
  exists b o1 o2 addr, r_msg (new_msg_rab_assign_data rab_id ip tei x) = Some b /\ tla addr x false (store32be ip) /\
    decode T_RANAP_RAB_SetupOrModifyItemFirst o1 = Some (rab_setup rab_id None packet_bearer (user_plane 0 version_1)
      (transport addr (gtp_tei (store32be tei)))) /\
    decode T_RANAP_RAB_SetupOrModifyItemSecond o2 = Some (comps [Some (VList [VEnum 3]); Some (VEnum 1); Some (VInt 0); Some (VInt 0); None; None; None]) /\
    holds T_RANAP_RANAP_PDU b 1 0 0 M_RANAP_RAB_AssignmentRequestIEs [("id-RAB-SetupOrModifyList", one_pair 53 0 o1 1 o2)].
Proof.
  destruct (addr_of x ip) as (addr&Ha&Ht&Hl).
  destruct (tli_ok addr 0 (store32be tei)) as [Tv Ts]; [lia|lia|lia|reflexivity|apply store32_bytes|].
  assert (Hm : new_msg_rab_assign_data rab_id ip tei x = rab_assign (first_item rab_id None (Some (rab_par_data 1600000 800000)) (Some (upi 0 1))
      (Some (transport addr (VChoice 0 (VOcts (store32be tei)))))) (VSeq [Some (VList [VEnum 3]); some_enum 1; some_int 0; some_int 0; None; None; None] [])) by (subst addr; destruct x; reflexivity).
  rewrite Hm. destruct (first_ok rab_id None (rab_par_data 1600000 800000) (upi 0 1) (transport addr (VChoice 0 (VOcts (store32be tei)))) 2000) as [Fv Fs];
    [exact I|by_code|by_code|exact Tv| |].
  { assert (blen T_RANAP_RAB_Parameters (rab_par_data 1600000 800000) <= 1400) by (vm_compute; lia).
    assert (blen T_RANAP_UserPlaneInformation (upi 0 1) <= 50) by (vm_compute; lia). lia. }
  destruct (rab_assign_ok _ (VSeq [Some (VList [VEnum 3]); some_enum 1; some_int 0; some_int 0; None; None; None] []) Fv) as (b&o1&o2&Hr&D1&D2&Hh);
    [by_code|pose proof (octs_max_mono _ _ Fs) as Hq; change (octs_max 2000) with 251 in Hq; lia|vm_compute; lia|].
  exists b, o1, o2, addr. split; [exact Hr|]. split; [exact Ht|]. split; [rewrite D1; reflexivity|]. split; [exact D2|exact Hh].
Qed.
Lemma byte_order : exists ip, in_memory true ip = [1; 2; 3; 4]%N /\
  forall addr x213, tla addr x213 false (store32be ip) -> ~ tla addr x213 false (in_memory true ip).
Proof.
  exists 67305985%N. split; [reflexivity|]. change (store32be 67305985) with [4; 3; 2; 1]%N. change (in_memory true 67305985) with [1; 2; 3; 4]%N.
  intros addr x H1 H2. inversion H1; subst; inversion H2; subst; discriminate.
Qed.
Lemma to_bits_inj24 id id' : (id < 2 ^ 24)%N -> (id' < 2 ^ 24)%N -> to_bits 24 id = to_bits 24 id' -> id = id'.
Proof.
  intros H1 H2 H. rewrite <- (from_to_small 24 id), <- (from_to_small 24 id') by assumption. rewrite H. reflexivity.
Qed.

(* the two values of the pair, for C90 *)
Lemma voice_shape rab_id ip port x : exists f s, new_msg_rab_assign_voice rab_id ip port x = rab_assign f s /\
  valid T_RANAP_RAB_SetupOrModifyItemFirst f /\ valid T_RANAP_RAB_SetupOrModifyItemSecond s.
Proof.
  destruct (addr_of x ip) as (addr&Ha&_&Hl). assert (Hb := port_bytes port).
  destruct (tli_ok addr 1 (store16be port ++ [0; 0]%N)) as [Tv _]; [lia|lia|lia|reflexivity|exact Hb|].
  exists (first_item rab_id (Some (nas_sync_ind 60)) (Some (rab_par_voice 6700 12200)) (Some (upi 1 1))
      (Some (transport addr (VChoice 1 (VOcts (store16be port ++ [0; 0]%N)))))), (VSeq [None; None; None; None; None; None; None] []).
  split; [subst addr; destruct x; reflexivity|]. split; [|by_code].
  eapply first_ok; [by_code|by_code|by_code|exact Tv|apply le_n].
Qed.
Lemma data_shape rab_id ip tei x : exists f s, new_msg_rab_assign_data rab_id ip tei x = rab_assign f s /\
  valid T_RANAP_RAB_SetupOrModifyItemFirst f /\ valid T_RANAP_RAB_SetupOrModifyItemSecond s.
Proof.
  destruct (addr_of x ip) as (addr&Ha&_&Hl). 
  destruct (tli_ok addr 0 (store32be tei)) as [Tv _]; [lia|lia|lia|reflexivity|apply store32_bytes|].
  exists (first_item rab_id None (Some (rab_par_data 1600000 800000)) (Some (upi 0 1)) (Some (transport addr (VChoice 0 (VOcts (store32be tei)))))),
    (VSeq [Some (VList [VEnum 3]); some_enum 1; some_int 0; some_int 0; None; None; None] []).
  split; [subst addr; destruct x; reflexivity|]. split; [|by_code].
  eapply first_ok; [exact I|by_code|by_code|exact Tv|apply le_n].
Qed.
