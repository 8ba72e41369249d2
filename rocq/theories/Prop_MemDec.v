(* C99: running out of memory while a message is read *)
From Verif Require Import Base Aper Container Container_spec Items RanapTypes RanapTab AllMsgs Dispatch Dispatch_spec MemDec MemDec_spec Container_proofs MemDec_proofs.
Local Open Scope list_scope.

(* each receive function: with memory as ever; without, an error and no callback *)
Theorem C99_reported : forall receive receive_m, In (receive, receive_m) receivers -> forall deny data,
  let '(r, n) := receive_m deny data in
  (granted deny n -> r = receive data) /\
  (denied deny n -> x_rc r = (-1)%Z /\ x_calls r = [] /\ granted deny (n - 1)).
Proof. intros f g H deny data. exact (receivers_l f g deny data H). Qed.
Print Assumptions C99_reported.
(* each generated decoder *)
Theorem C99_decoders : forall m deny octets,
  let '(r, n) := decode_msg_m deny 0 m octets in
  (granted deny n -> r = decode_msg m octets) /\ (denied deny n -> d_ok r = false /\ granted deny (n - 1)).
Proof. exact decoders_l. Qed.
Print Assumptions C99_decoders.
(* each decoder for elements of RAB lists *)
Theorem C99_items : forall t dst a deny,
  let '(r, n) := decode_from_list_m deny 0 t dst a in
  (granted deny n -> r = decode_from_list t dst a) /\ (denied deny n -> r = Ok (mkItem (-1) None [] [])).
Proof. exact items_l. Qed.
Print Assumptions C99_items.
(* one request for the message and one for each IE *)
Theorem C99_requests : forall deny m octets l, body m octets = Some l ->
  snd (decode_msg_m deny 0 m octets) <= 1 + List.length l /\
  (d_ok (fst (decode_msg_m deny 0 m octets)) = true -> snd (decode_msg_m deny 0 m octets) = 1 + List.length l).
Proof. exact requests_l. Qed.
Print Assumptions C99_requests.
(* what a decoder leaves, its free function releases *)
Theorem C99_releasable : forall m deny octets, In m all_msgs ->
  free_ies m (d_ies (fst (decode_msg_m deny 0 m octets))) = contents (d_ies (fst (decode_msg_m deny 0 m octets))).
Proof. intros m deny o H. apply free_exact_m, all_ok, H. Qed.
Print Assumptions C99_releasable.
(* the receive functions release all they got, but for the connection-oriented one of the core network *)
Theorem C99_released_partial : forall deny data,
  (ids_once cn_cl data -> x_freed (fst (rx_cn_cl_m deny data)) = Some (x_alloc (fst (rx_cn_cl_m deny data)))) /\
  (ids_once ran_co data -> x_freed (fst (rx_ran_co_m deny data)) = Some (x_alloc (fst (rx_ran_co_m deny data)))).
Proof. intros deny data. split; intros H; apply released_m; try exact H; cbn; tauto. Qed.
Print Assumptions C99_released_partial.
Theorem C99_released_refuted : exists data deny,
  x_rc (rx_cn_co data) = 0%Z /\ ids_once cn_co data /\
  fst (rx_cn_co_m deny data) = mkRx (-1) [] [VOcts [0xaa; 0xbb; 0xcc]%N] (Some []).
Proof. exists dt_octets, (only 3). exact co_leak. Qed.
Print Assumptions C99_released_refuted.

(* ---------------- cases that meet the hypotheses ---------------- *)
Example C99_ex : snd (rx_cn_co_m never dt_octets) = 4 /\ x_rc (fst (rx_cn_co_m never dt_octets)) = 0%Z /\
  List.map (fun k => (x_rc (fst (rx_cn_co_m (only k) dt_octets)), snd (rx_cn_co_m (only k) dt_octets))) [0; 1; 2; 3; 4] =
  [((-1)%Z, 1); ((-1)%Z, 2); ((-1)%Z, 3); ((-1)%Z, 4); (0%Z, 4)] /\
  granted never 4 /\ denied (only 3) 4.
Proof.
  split; [vm_compute; reflexivity|]. split; [vm_compute; reflexivity|]. split; [vm_compute; reflexivity|].
  split; [intros k _; reflexivity|]. exists 3. split; [auto|reflexivity].
Qed.
Example C99_ran_ex : x_rc (rx_ran_co dt_octets) = 0%Z /\ ids_once ran_co dt_octets /\
  fst (rx_ran_co_m (only 3) dt_octets) = mkRx (-1) [] [VOcts [0xaa; 0xbb; 0xcc]%N] (Some [VOcts [0xaa; 0xbb; 0xcc]%N]).
Proof.
  split; [vm_compute; reflexivity|]. split; [|vm_compute; reflexivity].
  intros d p cr b m l H Hm Hb. vm_compute in H. injection H as <- <- <- <-. vm_compute in Hm. injection Hm as <-.
  vm_compute in Hb. injection Hb as <-. vm_compute. repeat constructor; cbn [In]; intuition discriminate.
Qed.
