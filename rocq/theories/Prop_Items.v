(* Elements of RAB lists: C84. *)
From Verif Require Import Base Helpers Helpers_spec Aper Aper_spec Aper_valid Aper_decode AllTypes RanapTypes X691 X691_proofs Prop_Format Asn1_spec RanapAsn Container RanapTab
  Dispatch Factory_spec Factory Factory_rab Factory_msgs E2e_spec E2e_proofs Items Items_spec Items_proofs Prop_E2e.
From Coq Require Import String List.
Import ListNotations.
Local Open Scope string_scope.
Local Open Scope list_scope.

(* the element a conformant peer has encoded, whatever follows *)
Theorem C84_conformant : forall name f t v o rest, In (name, f) item_decoders -> means ranap_asn (ARef name) t -> completed (x691 t v) o ->
  gives (f true (AnyOctets (o ++ rest))) v.
Proof. exact item_conformant. Qed.
Print Assumptions C84_conformant.
(* nothing but a value of the type, which could be sent again as it is *)
Theorem C84_values : forall name f t o, In (name, f) item_decoders -> means ranap_asn (ARef name) t ->
  (exists v o', gives (f true (AnyOctets o)) v /\ valid t v /\ completed (x691 t v) o') \/ refuses (f true (AnyOctets o)).
Proof. exact item_values. Qed.
Print Assumptions C84_values.
(* each has an ASN.1 type, and only one *)
Theorem C84_types : forall name f, In (name, f) item_decoders -> exists t, forall t', means ranap_asn (ARef name) t' <-> t' = t.
Proof. exact item_types. Qed.
Print Assumptions C84_types.
(* claimed: no argument ends the process.  False: an element without octets *)
Theorem C84_crash_refuted : forall name f, In (name, f) item_decoders -> f true AnyEmpty = Fault NullDeref.
Proof. exact item_empty. Qed.
Print Assumptions C84_crash_refuted.
(* Missing: that element *)
Theorem C84_crash_partial : forall name f dst a, In (name, f) item_decoders ->
  ((exists k, f dst a = Fault k) <-> dst = false \/ a = AnyNull \/ a = AnyEmpty).
Proof. exact item_safe. Qed.
Print Assumptions C84_crash_partial.
(* A bearer as the factory asks for it is the one the radio network reads: the list
   in the message that arrives has one element, and the decoder gives the bearer *)
Theorem C84_voice : forall rab_id ip port x213,
  exists b o1 o2 addr, r_msg (new_msg_rab_assign_voice rab_id ip port x213) = Some b /\ tla addr x213 false (store32be ip) /\
    arrives (rx_ran_co b) 1 0 0 M_RANAP_RAB_AssignmentRequestIEs [("id-RAB-SetupOrModifyList", one_pair 53 0 o1 1 o2)] /\
    gives (rab_setupormodifyitemfirst true (AnyOctets o1))
      (rab_setup rab_id (Some [false; true; true; false]) amr_bearer (user_plane 1 version_1)
        (transport addr (binding_id (store16be port ++ [0; 0]%N)))).
Proof.
  intros. destruct (C79_rab_assign_voice rab_id ip port x213) as (b&o1&o2&addr&Hb&Ht&H1&_&Ha). exists b, o1, o2, addr.
  do 3 (split; [assumption|]). exact (item_gives _ _ _ H1).
Qed.
Print Assumptions C84_voice.
Theorem C84_data : forall rab_id ip tei x213,
  exists b o1 o2 addr, r_msg (new_msg_rab_assign_data rab_id ip tei x213) = Some b /\ tla addr x213 false (store32be ip) /\
    arrives (rx_ran_co b) 1 0 0 M_RANAP_RAB_AssignmentRequestIEs [("id-RAB-SetupOrModifyList", one_pair 53 0 o1 1 o2)] /\
    gives (rab_setupormodifyitemfirst true (AnyOctets o1))
      (rab_setup rab_id None packet_bearer (user_plane 0 version_1) (transport addr (gtp_tei (store32be tei)))).
Proof.
  intros. destruct (C79_rab_assign_data rab_id ip tei x213) as (b&o1&o2&addr&Hb&Ht&H1&_&Ha). exists b, o1, o2, addr.
  do 3 (split; [assumption|]). exact (item_gives _ _ _ H1).
Qed.
Print Assumptions C84_data.
(* and the bearer it asks to release is the one the core network reads *)
Theorem C84_release : forall rab_id c, cause_ok c ->
  exists b o, r_msg (new_msg_rab_rel_req rab_id c) = Some b /\
    arrives (rx_cn_co b) 1 10 1 M_RANAP_RAB_ReleaseRequestIEs [("id-RAB-ReleaseList", one_item 40 1 o)] /\
    gives (rab_releaseitem true (AnyOctets o)) (VSeq [Some (VBits (octets_bits [rab_id])); Some (cause_val c); None] []).
Proof.
  intros rab_id c Hc. destruct (C79_rab_release_request rab_id c Hc) as (b&o&Hb&H1&Ha). exists b, o.
  do 2 (split; [assumption|]). exact (item_gives _ _ _ H1).
Qed.
Print Assumptions C84_release.
Example C84_ex : (* RAB 23, cause radio network 15: 0 0 00010111 0 000 001110; then one cut short *)
  gives (rab_faileditem true (AnyOctets [0x05; 0xc0; 0xe0]%N)) (VSeq [Some (VBits (to_bits 8 23)); Some (VChoice 0 (VInt 15)); None] [])
  /\ refuses (rab_faileditem true (AnyOctets [0x05]%N)).
Proof. split; vm_compute; reflexivity. Qed.
Example C84_hypotheses_ex :
  In ("RAB-FailedItem", rab_faileditem) item_decoders /\ means ranap_asn (ARef "RAB-FailedItem") T_RANAP_RAB_FailedItem /\
  completed (x691 T_RANAP_RAB_FailedItem (VSeq [Some (VBits (to_bits 8 23)); Some (VChoice 0 (VInt 15)); None] [])) [0x05; 0xc0; 0xe0]%N.
Proof.
  split; [right; left; reflexivity|]. split.
  - apply (proj2 (item_rows "id-RAB-FailedItem" 34%N _ T_RANAP_RAB_FailedItem (or_intror (or_introl eq_refl)))). reflexivity.
  - apply encode_x691. vm_compute. reflexivity.
Qed.
