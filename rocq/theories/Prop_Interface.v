(* C98: everything in a message can be reached by a name of its own *)
From Verif Require Import Base Aper Container Generator_spec Naming Naming_spec RanapTab AllTypes DispatchTab UsedNames Naming_proofs.
From Coq Require Import String.
Local Open Scope list_scope.

(* the members of the structure of a message: one for each IE *)
Theorem C98_members : forall I m, In I interfaces -> In m (if_msgs I) ->
  NoDup (mask :: map member_of (m_rows m)) /\ Forall identifier (map member_of (m_rows m)).
Proof. exact members_l. Qed.
Print Assumptions C98_members.

(* the structures, the members of the union of all messages and the functions *)
Theorem C98_messages : forall I, In I interfaces ->
  NoDup (map (fun m => union_member (key m)) (if_msgs I)) /\ Forall identifier (map (fun m => union_member (key m)) (if_msgs I)) /\
  Forall identifier (map (struct_of I) (if_msgs I)) /\ Forall identifier (functions I) /\
  (forall m, In m (if_msgs I) -> ~ In (struct_of I m) (map chars (if_types I)) /\
     decode_declared (chars (if_file I)) (key m) = function_of I Decode m).
Proof. exact messages_l. Qed.
Print Assumptions C98_messages.

(* also those of different protocols *)
Theorem C98_protocols : NoDup (flat_map functions interfaces) /\ NoDup (flat_map (fun I => map (struct_of I) (if_msgs I)) interfaces).
Proof. exact apart_l. Qed.
Print Assumptions C98_protocols.

(* a message: its type, its list of IEs and their type are in the files of asn1c *)
Theorem C98_message_found : forall I m, In I interfaces -> In m (if_msgs I) ->
  (exists t, In (t, m_cont m) all_types /\ chars t ++ chars "_t" = message_type (chars (if_prefix I)) (key m)) /\
  exists t l e, In (t, l, e) (if_lists I) /\ chars t = message_type (chars (if_prefix I)) (key m) /\
    chars l = list_member (key m) /\ chars e = element_type (chars (if_prefix I)).
Proof. exact fits_message_l. Qed.
Print Assumptions C98_message_found.

(* an IE: its type, number and criticality are there, with the values of the model *)
Theorem C98_ie_found : forall I m r, In I interfaces -> In m (if_msgs I) -> In r (m_rows m) ->
  (exists t, In (t, r_ty r) all_types /\ chars t ++ chars "_t" = type_name (chars (if_prefix I)) (chars (r_tyname r))) /\
  (exists t, In t (if_types I) /\ chars t = type_name (chars (if_prefix I)) (chars (r_tyname r))) /\
  (exists c, In (c, r_id r) (if_ids I) /\ chars c = id_constant (chars (if_prefix I)) (chars (r_ie r))) /\
  (exists c, In (c, r_crit r) (if_crits I) /\ chars c = criticality_constant (chars (if_prefix I)) (chars (criticality_of (r_crit r)))).
Proof. exact fits_ie_l. Qed.
Print Assumptions C98_ie_found.

(* within the functions: no name hides another one *)
Theorem C98_functions : forall I m, In I interfaces -> In m (if_msgs I) ->
  NoDup (ies_parameter (key m) :: message_variable (key m) :: decoder_locals) /\
  (forall r, In r (m_rows m) -> ~ In (value_variable (chars (if_prefix I)) (chars (r_tyname r))) (ies_parameter (key m) :: message_variable (key m) :: decoder_locals)) /\
  NoDup [message_parameter (key m); ies_parameter (key m); chars "ie"].
Proof. exact locals_l. Qed.
Print Assumptions C98_functions.

(* what is written by hand uses such names only, and the function for the structure it is given *)
Theorem C98_members_used : forall file line t x, In (file, line, t, x) members_used ->
  exists I m, In I interfaces /\ In m (if_msgs I) /\ chars t = struct_of I m /\ In (chars x) (members m).
Proof. exact members_used_l. Qed.
Print Assumptions C98_members_used.
Theorem C98_union_members_used : forall file line t x, In (file, line, t, x) union_members_used ->
  exists I m, In I interfaces /\ In m (if_msgs I) /\ chars t = union_member (key m) /\ In (chars x) (members m).
Proof. exact union_members_used_l. Qed.
Print Assumptions C98_union_members_used.
Theorem C98_flags_used : forall file line x, In (file, line, x) flags_used ->
  exists I m r, In I interfaces /\ In m (if_msgs I) /\ In r (m_rows m) /\ is_opt r = true /\ flag_define m r = x.
Proof. exact flags_used_l. Qed.
Print Assumptions C98_flags_used.
Theorem C98_calls : forall file line x t, In (file, line, x, t) calls ->
  exists I m k, In I interfaces /\ In m (if_msgs I) /\ chars x = function_of I k m /\ chars t = struct_of I m.
Proof. exact calls_l. Qed.
Print Assumptions C98_calls.
Theorem C98_union_calls : forall file line x t, In (file, line, x, t) union_calls ->
  exists I m k, In I interfaces /\ In m (if_msgs I) /\ chars x = function_of I k m /\ chars t = union_member (key m).
Proof. exact union_calls_l. Qed.
Print Assumptions C98_union_calls.

(* the switch statements of the receive paths are, case by case, those of the model *)
Theorem C98_switches : Forall2 (fun p s => fst (fst p) = fst s /\ Forall2 (same_case (snd (fst p))) (snd p) (snd s)) paths switches.
Proof. exact switches_l. Qed.
Print Assumptions C98_switches.

(* ---------------- for any file of ASN.1 ---------------- *)
Theorem C98_member_name : forall x v, ~ contains (chars "id-") x ->
  (member (chars "id-" ++ x) = v <-> first_word_small (map hyphen_out x) v).
Proof. exact member_iff. Qed.
Print Assumptions C98_member_name.
Theorem C98_union_member_name : forall k v, union_member k = v <-> first_word_small (map hyphen_out k) v.
Proof. exact union_member_iff. Qed.
Print Assumptions C98_union_member_name.
(* names that differ in more than capitals and hyphens stay different *)
Theorem C98_different : forall x y, ~ contains (chars "id-") x -> ~ contains (chars "id-") y ->
  member (chars "id-" ++ x) = member (chars "id-" ++ y) -> alike x y.
Proof. exact member_alike. Qed.
Print Assumptions C98_different.
Theorem C98_function_names : forall f k k', ~ contains (chars "ies") k -> ~ contains (chars "ies") k' ->
  (decode_defined f k = decode_defined f k' <-> alike k k') /\ (encode_name f k = encode_name f k' <-> alike k k') /\
  (free_name f k = free_name f k' <-> alike k k').
Proof. exact functions_alike. Qed.
Print Assumptions C98_function_names.
Theorem C98_struct_names : forall p k k', struct_type p k = struct_type p k' <-> map hyphen_out k = map hyphen_out k'.
Proof. exact structs_alike. Qed.
Print Assumptions C98_struct_names.
(* the header and the code agree on the decoder if and only if there is no "ies" in the name *)
Theorem C98_declared : forall f k, decode_declared f k = decode_defined f k <-> ~ contains (chars "ies") k.
Proof. exact declared_l. Qed.
Print Assumptions C98_declared.
(* so the names are not always good: two IEs with one member, a decoder that is declared only *)
Theorem C98_names_may_meet : exists x y, ~ contains (chars "id-") x /\ ~ contains (chars "id-") y /\ x <> y /\
  member (chars "id-" ++ x) = member (chars "id-" ++ y).
Proof. exact refuted_members. Qed.
Print Assumptions C98_names_may_meet.
Theorem C98_declared_only : exists k, decode_declared (chars "ranap") k <> decode_defined (chars "ranap") k.
Proof. exact refuted_declared. Qed.
Print Assumptions C98_declared_only.

(* ---------------- cases that meet the hypotheses ---------------- *)
Example C98_messages_ex : map (fun I => List.length (if_msgs I)) interfaces = [105; 5; 18; 16]%nat /\
  map (fun I => List.length (flat_map m_rows (if_msgs I))) interfaces = [268; 15; 40; 39]%nat.
Proof. split; vm_compute; reflexivity. Qed.
Example C98_member_ex : member (chars "id-RAB-ReleasedItem-IuRelComp") = chars "raB_ReleasedItem_IuRelComp" /\
  member (chars "id-SAI") = chars "sai" /\ ~ contains (chars "id-") (chars "SAI").
Proof.
  split; [vm_compute; reflexivity|]. split; [vm_compute; reflexivity|]. intros (a&b&E).
  assert (H : In 105%N (chars "SAI")) by (rewrite E; apply in_or_app; right; left; reflexivity). vm_compute in H. intuition discriminate.
Qed.
Example C98_key_ex : ~ contains (chars "ies") (chars "DirectTransferIEs") /\ function_of ranap_interface Decode RanapTab.M_RANAP_DirectTransferIEs = chars "ranap_decode_directtransferies".
Proof.
  split; [|vm_compute; reflexivity]. intros (a&b&E).
  assert (H : (List.length a <= 17)%nat) by (apply (f_equal (@List.length N)) in E; rewrite !app_length in E; change (List.length (chars "DirectTransferIEs")) with 17%nat in E; lia).
  apply (f_equal (skipn (List.length a))) in E. rewrite skipn_app, skipn_all, Nat.sub_diag in E. cbn [app skipn] in E.
  remember (List.length a) as n. clear -E H. do 18 (destruct n as [|n]; [vm_compute in E; discriminate E|]). lia.
Qed.
Example C98_used_ex : In ("src/iu_client.c", 468%N, "RANAP_InitialUE_MessageIEs_t", "rac")%string members_used /\
  In ("src/iu_client.c", 467%N, "INITIALUE_MESSAGEIES_RANAP_RAC_PRESENT")%string flags_used /\
  In ("src/iu_client.c", 640%N, "ranap_free_rab_setupormodifieditemies", "RANAP_RAB_SetupOrModifiedItemIEs_t")%string calls /\
  In ("src/ranap_common_cn.c", 49%N, "ranap_decode_directtransferies", "directTransferIEs")%string union_calls /\
  In ("tests/hnb-test-ranap.c", 31%N, "directTransferIEs", "nas_pdu")%string union_members_used.
Proof. repeat split; vm_compute; tauto. Qed.
