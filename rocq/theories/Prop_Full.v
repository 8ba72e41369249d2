(* Property C92: the types of the codec and those of TS 25.413, 25.468, 25.469 and
   25.419 *)
From Verif Require Import Base Aper Aper_proofs X691 X691_proofs Asn1_spec Asn1_proofs Interop_spec RanapTypes RuaTypes HnbapTypes SabpTypes
  Constr_proofs Full_spec Full_proofs.
From Coq Require Import String List.
Import ListNotations.
Local Open Scope string_scope.
Local Open Scope list_scope.

(* the codec has every type of the four specifications as it is defined there, but
   for messages, lists and three more *)
Theorem C92_types_partial : forall M n a, In M modules -> In (n, a) (g_types (md_types M)) ->
  ~ In n (md_messages M) -> ~ In n (map fst (md_lists M)) -> ~ In n templates -> ~ In n wrong ->
  exists t, described M n t /\ is_type M n t.
Proof. exact types_same. Qed.
Print Assumptions C92_types_partial.
Example C92_types_ex : In (nth 2 modules (mkModule "" (Gram [] []) [] [] [])) modules /\
  exists a, In ("HNB-Identity", a) (g_types (md_types (nth 2 modules (mkModule "" (Gram [] []) [] [] [])))) /\
  ~ In "HNB-Identity" (md_messages (nth 2 modules (mkModule "" (Gram [] []) [] [] []))) /\ ~ In "HNB-Identity" templates /\ ~ In "HNB-Identity" wrong.
Proof.
  cbn [nth modules]. split; [right; right; left; reflexivity|]. eexists. split; [apply lookup_in; vm_compute; reflexivity|].
  split; [|split]; intros H; vm_compute in H; repeat (destruct H as [H|H]; [discriminate|]); exact H.
Qed.

(* messages: the extensions are missing in the codec (see C75 for what follows) *)
Theorem C92_messages_refuted : forall M n, In M modules -> In n (md_messages M) ->
  described M n compiled /\ is_type M n message_body /\ compiled <> message_body.
Proof. intros M n HM Hn. destruct (messages_are M n HM Hn) as [H1 H2]. repeat split; [exact H1|apply H2|apply H2|discriminate]. Qed.
Print Assumptions C92_messages_refuted.
(* lists: the codec has one container in the place of the list of them (see C76),
   and two lists it has not at all *)
Theorem C92_lists_refuted : forall M n max, In M modules -> In (n, max) (md_lists M) -> is_type M n (container_list max) /\
  (~ In n missing -> described M n compiled) /\ (In n missing -> forall t, ~ described M n t).
Proof. exact lists_are. Qed.
Print Assumptions C92_lists_refuted.
Example C92_lists_ex : exists M, In M modules /\ In "DirectTransfer" (md_messages M) /\ In ("RAB-ReleasedList", 256%Z) (md_lists M) /\
  In ("DirectTransferInformationList-RANAP-RelocInf", 15%Z) (md_lists M).
Proof.
  eexists. split; [left; reflexivity|]. split; [|split].
  - vm_compute. tauto.
  - apply lookup_in; vm_compute; reflexivity.
  - apply lookup_in; vm_compute; reflexivity.
Qed.

(* a Private Message of RANAP, RUA or HNBAP identifies its IEs by a number or an
   object identifier; in the codec by a number without the choice *)
Theorem C92_private_refuted : forall M, In M (firstn 3 modules) ->
  described M "PrivateMessage" compiled /\ is_type M "PrivateMessage" private_body /\ compiled <> private_body.
Proof.
  intros M HM. assert (HM' : In M modules) by (rewrite <- (firstn_skipn 3 modules); apply in_or_app; left; exact HM).
  assert (A : forallb (fun M => has_b M "PrivateMessage" compiled private_body) (firstn 3 modules) = true) by (vm_compute; reflexivity).
  destruct (has_ok M _ _ _ HM' (proj1 (forallb_forall _ _) A M HM)) as [H1 H2]. repeat split; [exact H1|apply H2|apply H2|discriminate].
Qed.
Print Assumptions C92_private_refuted.

(* a Redirection Indication is a container; the codec expects an extensible
   SEQUENCE with one, and so never reads one as it was sent *)
Theorem C92_redirection_refuted : forall M, nth_error modules 0 = Some M ->
  is_type M "RedirectionIndication" container /\
  exists t, described M "RedirectionIndication" t /\
  forall ies o, completed (x691 container (VList ies)) o -> List.length ies < 256 -> decode t o <> Some (compiled_value ies).
Proof.
  intros M HM. assert (HM' := nth_error_In _ _ HM). injection HM as <-.
  destruct (has_ok _ "RedirectionIndication" compiled container HM') as [H1 H2]; [vm_compute; reflexivity|].
  split; [exact H2|]. exists compiled. split; [exact H1|]. exact redirection_lost.
Qed.
Print Assumptions C92_redirection_refuted.
Example C92_redirection_ex :
  let ies := [VSeq [Some (VInt 16); Some (VEnum 1); Some (VOcts [1; 0xaa]%N)] []] in
  completed (x691 container (VList ies)) [0; 1; 0; 0x10; 0x40; 2; 1; 0xaa]%N /\ List.length ies < 256.
Proof. cbv zeta. split; [apply encode_x691; vm_compute; reflexivity|vm_compute; repeat constructor]. Qed.

(* in an Enhanced Relocation Complete Response, the list of RABs to be released
   stands inside the item of another list, and there it is misread even if it has
   one element: as an empty list ... *)
Theorem C92_nested_refuted : forall M, nth_error modules 0 = Some M ->
  is_type M "RAB-SetupItem-EnhancedRelocCompleteRes" (setup_item (container_list 256)) /\
  exists t, described M "RAB-SetupItem-EnhancedRelocCompleteRes" t /\ t = setup_item compiled /\
  (exists o, completed (x691 (setup_item (container_list 256)) (setup (list_value [released 1]))) o /\ decode t o = Some (setup (compiled_value []))) /\
  (* ... or, with two, not at all *)
  (exists o, completed (x691 (setup_item (container_list 256)) (setup (list_value [released 1; released 2]))) o /\ decode t o = None).
Proof.
  intros M HM. assert (HM' := nth_error_In _ _ HM). injection HM as <-.
  destruct (has_ok _ "RAB-SetupItem-EnhancedRelocCompleteRes" (setup_item compiled) (setup_item (container_list 256)) HM') as [H1 H2]; [vm_compute; reflexivity|].
  split; [exact H2|]. exists (setup_item compiled). split; [exact H1|]. split; [reflexivity|]. split.
  - destruct (encode (setup_item (container_list 256)) (setup (list_value [released 1]))) as [o|] eqn:E; [|vm_compute in E; discriminate].
    exists o. split; [apply encode_x691, E|]. vm_compute in E. injection E as <-. vm_compute. reflexivity.
  - destruct (encode (setup_item (container_list 256)) (setup (list_value [released 1; released 2]))) as [o|] eqn:E; [|vm_compute in E; discriminate].
    exists o. split; [apply encode_x691, E|]. vm_compute in E. injection E as <-. vm_compute. reflexivity.
Qed.
Print Assumptions C92_nested_refuted.
