(* C101: the order of the IEs in a message does not matter *)
From Verif Require Import Base Aper Container Container_spec RanapTypes RanapTab AllMsgs DispatchTab Dispatch Dispatch_spec Container_proofs IuClient Stack Order_spec Order_proofs.
Local Open Scope list_scope.

(* each generated decoder: accepted in one order, accepted in the other, with the same result *)
Theorem C101_decoders : forall m b b', In m all_msgs -> body_reordered m b b' ->
  d_ok (decode_msg m b) = d_ok (decode_msg m b') /\ (d_ok (decode_msg m b) = true -> decode_msg m b = decode_msg m b').
Proof. intros m b b' H. apply order_l, all_ok, H. Qed.
Print Assumptions C101_decoders.
(* each RANAP receive function: the same result and the same callback *)
Theorem C101_receive : forall P receive data data', In (P, receive) receive_of -> reordered P data data' ->
  x_rc (receive data) = x_rc (receive data') /\ x_calls (receive data) = x_calls (receive data') /\
  (x_rc (receive data) = 0%Z -> receive data = receive data').
Proof. exact receive_l. Qed.
Print Assumptions C101_receive.
(* the client, over whole histories: the same state, and the same is sent and told *)
Theorem C101_client : forall E ops ops', Forall2 same_op ops ops' -> forall w, run (stack E) ops w = run (stack E) ops' w.
Proof. exact same_run. Qed.
Print Assumptions C101_client.

(* ---------------- cases that meet the hypotheses ---------------- *)
Example C101_ex : reordered cn_co dt_a dt_b /\ reordered ran_co dt_a dt_b /\ dt_a <> dt_b /\ x_rc (rx_cn_co dt_a) = 0%Z /\
  map (fun g => option_map (fun x => i_fields (snd x)) (g_body g)) (x_calls (rx_cn_co dt_b)) = [Some [Some (VOcts [0xaa; 0xbb; 0xcc]%N); None; None; None; Some (VEnum 0)]].
Proof.
  split; [apply dt_reordered; cbn; tauto|]. split; [apply dt_reordered; cbn; tauto|]. split; [discriminate|]. split; vm_compute; reflexivity.
Qed.
Example C101_client_ex : Forall2 same_op [ODataInd 1 dt_a; ODisconnectInd 1 dt_a; OStateInd] [ODataInd 1 dt_b; ODisconnectInd 1 dt_b; OStateInd].
Proof. repeat constructor; apply dt_reordered; cbn; tauto. Qed.
(* an IE that occurs twice: then the last one counts, so that the order does matter *)
Example C101_twice : let o := [0; 0; 2; 0; 0x10; 0x40; 2; 1; 0xaa; 0; 0x10; 0x40; 2; 1; 0xbb]%N in let o' := [0; 0; 2; 0; 0x10; 0x40; 2; 1; 0xbb; 0; 0x10; 0x40; 2; 1; 0xaa]%N in
  nth_error (i_fields (d_ies (decode_msg M_RANAP_DirectTransferIEs o))) 0 = Some (Some (VOcts [0xbb]%N)) /\
  nth_error (i_fields (d_ies (decode_msg M_RANAP_DirectTransferIEs o'))) 0 = Some (Some (VOcts [0xaa]%N)).
Proof. split; vm_compute; reflexivity. Qed.
