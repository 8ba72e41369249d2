(* Property C74: the descriptor tables are what the ASN.1 modules say *)
From Verif Require Import Base Aper Container Asn1_spec Asn1_proofs PerBits.
From Verif Require Import RanapTypes RuaTypes HnbapTypes SabpTypes RanapAsn RuaAsn HnbapAsn SabpAsn.
From Verif Require Import RanapTab RuaTab HnbapTab SabpTab.
From Coq Require Import String List.
Import ListNotations.
Local Open Scope Z_scope.
Local Open Scope string_scope.
Local Open Scope list_scope.

(* every type of the compiled modules has a descriptor, every descriptor belongs
   to a type, and its contents are the one meaning of that type *)
Theorem C74_descriptors :
  implements "RANAP_" ranap_asn ranap_types /\ implements "RUA_" rua_asn rua_types /\
  implements "HNBAP_" hnbap_asn hnbap_types /\ implements "SABP_" sabp_asn sabp_types.
Proof. repeat split; first [apply ranap_impl|apply rua_impl|apply hnbap_impl|apply sabp_impl]. Qed.
Print Assumptions C74_descriptors.
(* Service Area: three octet strings, then optional extensions *)
Example C74_ex :
  In ("SAI", ASeq false [("pLMNidentity", (false, ARef "PLMNidentity")); ("lAC", (false, ARef "LAC"));
        ("sAC", (false, ARef "SAC")); ("iE-Extensions", (true, ARef "IE-Extensions"))] []) (g_types ranap_asn) /\
  (exists ext, In ("RANAP_SAI", TSeq false [(false, TOcts (Some (mkCon false 3 3)));
        (false, TOcts (Some (mkCon false 2 2))); (false, TOcts (Some (mkCon false 2 2))); (true, ext)] []) ranap_types) /\
  List.length (g_types ranap_asn) = 592%nat /\ List.length (g_types rua_asn) = 36%nat /\
  List.length (g_types hnbap_asn) = 116%nat /\ List.length (g_types sabp_asn) = 63%nat.
Proof.
  split; [|split; [|repeat split; vm_compute; reflexivity]].
  - apply lookup_in. vm_compute. reflexivity.
  - eexists. apply lookup_in. vm_compute. reflexivity.
Qed.

(* every IE of every message table: the number is the constant of that name, the
   type is the meaning of the ASN.1 type of that name *)
Theorem C74_message_tables :
  forall G ms m r, In (G, ms) [(ranap_asn, ranap_msgs); (rua_asn, rua_msgs); (hnbap_asn, hnbap_msgs); (sabp_asn, sabp_msgs)] ->
  In m ms -> In r (m_rows m) ->
  In (r_ie r, Z.of_N (r_id r)) (g_consts G) /\ forall t, means G (ARef (r_tyname r)) t <-> t = r_ty r.
Proof.
  intros G ms m r [H|[H|[H|[H|[]]]]]; inversion H; subst; apply rows_msg;
    first [apply ranap_rows|apply rua_rows|apply hnbap_rows|apply sabp_rows].
Qed.
Print Assumptions C74_message_tables.
Example C74_tables_ex : exists m r, In m rua_msgs /\ In r (m_rows m) /\ r_ie r = "id-RANAP-Message" /\
  r_tyname r = "RANAP-Message" /\ means rua_asn (ARef "RANAP-Message") (TOcts None).
Proof.
  eexists M_RUA_ConnectIEs, _. split; [left; reflexivity|]. split; [do 4 right; left; reflexivity|].
  split; [reflexivity|]. split; [reflexivity|].
  apply m_ref with (AOcts None); [apply lookup_in; vm_compute; reflexivity|]. constructor. constructor.
Qed.

(* the numbers asn1c derived from the bounds: the width of the range, and no
   effective width from 64K on *)
Theorem C74_constraint_widths :
  forall p, In p per_constraints ->
  let range := p_upper p - p_lower p + 1 in
  1 <= range /\ 0 <= p_range_bits p /\ range <= 2 ^ p_range_bits p /\
  (forall k, 0 <= k -> range <= 2 ^ k -> p_range_bits p <= k) /\
  p_effective_bits p = (if (p_upper p <? 65536)%Z then p_range_bits p else -1).
Proof. exact bits_ok. Qed.
Print Assumptions C74_constraint_widths.
Example C74_widths_ex : List.length per_constraints = 799%nat /\
  exists p, In p per_constraints /\ p_lower p = 1 /\ p_upper p = 65536 /\ p_range_bits p = 16 /\ p_effective_bits p = -1.
Proof.
  split; [vm_compute; reflexivity|].
  destruct (List.find (fun p => (p_upper p =? 65536)%Z && (p_lower p =? 1)%Z)%bool per_constraints) as [p|] eqn:E;
    [|vm_compute in E; discriminate].
  exists p. pose proof (find_some _ _ E) as [Hin _]. split; [exact Hin|].
  vm_compute in E. inversion E; subst p. repeat split.
Qed.
