(* Properties C75 and C76: peers that follow the unabridged grammar of TS 25.413,
   TS 25.468, TS 25.469 and TS 25.419 *)
From Verif Require Import Base Aper Aper_spec Aper_valid Container Container_proofs X691 X691_proofs
  AllMsgs RanapTab RanapTypes Interop_spec Interop_proofs.
From Coq Require Import String. Local Open Scope list_scope. Local Open Scope nat_scope.

(* C75: protocol extensions of a message are passed over *)
Theorem C75_extensions_ignored :
  forall m ies ext o rest, In m all_msgs ->
  completed (x691 message_body (body_value ies ext)) o ->
  body m (o ++ rest) = Some ies /\
  forall o0, completed (x691 message_body (body_value ies None)) o0 -> decode_msg m (o ++ rest) = decode_msg m o0.
Proof.
  intros m ies ext o rest Hm H. apply encode_x691 in H.
  assert (Hb : forall x o' r, encode message_body (body_value ies x) = Some o' -> body m (o' ++ r) = Some ies).
  { intros x o' r Ho. unfold body. rewrite (cont_compiled m Hm), (body_compiled ies x o' r Ho). reflexivity. }
  split; [exact (Hb _ _ _ H)|]. intros o0 H0. apply encode_x691 in H0.
  rewrite !decode_msg_body, (Hb _ _ _ H). specialize (Hb _ _ [] H0). rewrite app_nil_r in Hb. rewrite Hb. reflexivity.
Qed.
Print Assumptions C75_extensions_ignored.
(* and a generated body is the one without extensions *)
Theorem C75_bodies_conformant :
  forall m s o, In m all_msgs -> encode_msg m s = Some o ->
  exists ies, completed (x691 message_body (body_value ies None)) o /\ body m o = Some ies.
Proof.
  intros m s o Hm H. unfold encode_msg in H. rewrite (cont_compiled m Hm) in H.
  unfold encode_ies in H. destruct (encode_rows m s (m_rows m) (i_fields s)) as [l|]; [|discriminate].
  exists l. change (encode compiled (compiled_value l) = Some o) in H. split.
  - apply encode_x691. rewrite <- body_same. exact H.
  - unfold body. rewrite (cont_compiled m Hm), (Aper_proofs.decode_encode _ _ _ H). reflexivity.
Qed.
Print Assumptions C75_bodies_conformant.
(* a Direct Transfer with the extension id-RedirectAttemptFlag (127) *)
Example C75_ex :
  let ies := [VSeq [Some (VInt 16); Some (VEnum 1); Some (VOcts [1; 0xaa]%N)] []] in
  let ext := [VSeq [Some (VInt 127); Some (VEnum 1); Some (VOcts [0]%N)] []] in
  completed (x691 message_body (body_value ies (Some ext)))
    [0x40; 0; 1; 0; 0x10; 0x40; 2; 1; 0xaa;  0; 0; 0; 0x7f; 0x40; 1; 0]%N /\
  i_fields (d_ies (decode_msg M_RANAP_DirectTransferIEs
    [0x40; 0; 1; 0; 0x10; 0x40; 2; 1; 0xaa;  0; 0; 0; 0x7f; 0x40; 1; 0]%N)) =
    [Some (VOcts [0xaa]%N); None; None; None; None].
Proof. split; [apply encode_x691|]; vm_compute; reflexivity. Qed.

(* C76: lists.  Of a list with several elements only the first is read, without
   an error ... *)
Theorem C76_elements_lost_refuted :
  forall name max, In (name, max) lists ->
  exists t, In (name, t) ranap_types /\
  forall ie more o rest,
  completed (x691 (container_list max) (list_value (ie :: more))) o ->
  decode t (o ++ rest) = Some (VSeq [Some (VList [ie])] []).
Proof.
  intros name max Hin. destruct (lists_compiled name max Hin) as [Hm Ht]. exists compiled. split; [exact Ht|].
  intros ie more o rest H. apply encode_x691 in H. exact (list_first_any max ie more o rest Hm H).
Qed.
Print Assumptions C76_elements_lost_refuted.
(* ... and a list that is sent with several elements is, for the peer, a list of
   one container that holds them all *)
Theorem C76_elements_merged_refuted :
  forall name max, In (name, max) lists ->
  exists t, In (name, t) ranap_types /\
  forall ies o, encode t (VSeq [Some (VList ies)] []) = Some o ->
  completed (x691 (container_list max) (VList [VList ies])) o.
Proof.
  intros name max Hin. destruct (lists_compiled name max Hin) as [Hm Ht]. exists compiled. split; [exact Ht|].
  intros ies o H. apply encode_x691. rewrite (list_one max ies Hm). exact H.
Qed.
Print Assumptions C76_elements_merged_refuted.
(* a list of one element is the same octets in both *)
Theorem C76_single_element_partial :
  forall name max, In (name, max) lists ->
  exists t, In (name, t) ranap_types /\
  forall ie o, encode t (VSeq [Some (VList [ie])] []) = Some o <-> completed (x691 (container_list max) (list_value [ie])) o.
Proof.
  intros name max Hin. destruct (lists_compiled name max Hin) as [Hm Ht]. exists compiled. split; [exact Ht|].
  intros ie o. rewrite <- encode_x691. unfold list_value. cbn [map]. rewrite (list_one max [ie] Hm). reflexivity.
Qed.
Print Assumptions C76_single_element_partial.
(* two released RABs, as a conformant RNC reports them: the second is lost *)
Example C76_ex :
  let rab n := VSeq [Some (VInt 43); Some (VEnum 1); Some (VOcts [0x20; n]%N)] [] in
  let o := [1; 0; 1; 0; 0x2b; 0x40; 2; 0x20; 5;  0; 1; 0; 0x2b; 0x40; 2; 0x20; 6]%N in
  In ("RANAP_RAB_ReleasedList"%string, 256%Z) lists /\
  completed (x691 (container_list 256) (list_value [rab 5%N; rab 6%N])) o /\
  decode T_RANAP_RAB_ReleasedList o = Some (VSeq [Some (VList [rab 5%N])] []).
Proof.
  split; [apply Asn1_proofs.lookup_in; vm_compute; reflexivity|]. split; [apply encode_x691; vm_compute; reflexivity|vm_compute; reflexivity].
Qed.
(* also of as many as the list may have, whose number looks like an extension bit *)
Example C76_max_ex :
  let rab n := VSeq [Some (VInt 43); Some (VEnum 1); Some (VOcts [0x20; n]%N)] [] in
  exists o, completed (x691 (container_list 256) (list_value (map (fun n => rab (N.of_nat n)) (List.seq 0 256)))) o /\
  decode T_RANAP_RAB_ReleasedList o = Some (VSeq [Some (VList [rab 0%N])] []).
Proof.
  cbv zeta. destruct (encode (container_list 256) (list_value (map (fun n =>
    VSeq [Some (VInt 43); Some (VEnum 1); Some (VOcts [0x20; N.of_nat n]%N)] []) (List.seq 0 256)))) as [o|] eqn:E; [|vm_compute in E; discriminate].
  exists o. split; [apply encode_x691; exact E|]. vm_compute in E. injection E as <-. vm_compute. reflexivity.
Qed.
