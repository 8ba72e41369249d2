(* RUA message factory: C60, C61, C66. *)
From Verif Require Import Base Aper Aper_spec Aper_proofs Container RuaTypes RuaTab Factory_spec RuaFactory_spec RuaFactory RuaFactory_proofs.
From Coq Require Import String List.
Local Open Scope list_scope.
Local Open Scope string_scope.
Local Open Scope list_scope.

(* ---------------- C60 ---------------- *)
(* A payload fits up to the given number of octets (the buffer has 1024); a larger
   one gives an empty message.  19 is the payload protocol identifier of RUA. *)
Theorem C60_udt : forall payload, bytes_ok payload = true ->
  exists b e, rua_new_udt (Some payload) = Ok (mkWrapped (Some (b, 19%N)) e) /\
    if (N.of_nat (length payload) <=? 1009)%N
    then b <> [] /\ holds T_RUA_RUA_PDU b 1 4 0 M_RUA_ConnectionlessTransferIEs [message_ie payload]
    else b = [].
Proof. exact udt_msg. Qed.
Print Assumptions C60_udt.
(* the context id is the number modulo 2^24, see C60_context and C61 *)
Theorem C60_connect_partial : forall is_ps id payload, bytes_ok payload = true ->
  exists b e, rua_new_conn is_ps id (Some payload) = Ok (mkWrapped (Some (b, 19%N)) e) /\
    if (N.of_nat (length payload) <=? 992)%N
    then b <> [] /\ holds T_RUA_RUA_PDU b 1 1 0 M_RUA_ConnectIEs (connect_ies is_ps id payload)
    else b = [].
Proof. exact conn_msg. Qed.
Print Assumptions C60_connect_partial.
Theorem C60_direct_transfer_partial : forall is_ps id payload, bytes_ok payload = true ->
  exists b e, rua_new_dt is_ps id (Some payload) = Ok (mkWrapped (Some (b, 19%N)) e) /\
    if (N.of_nat (length payload) <=? 997)%N
    then b <> [] /\ holds T_RUA_RUA_PDU b 1 2 0 M_RUA_DirectTransferIEs (transfer_ies is_ps id payload)
    else b = [].
Proof. exact dt_msg. Qed.
Print Assumptions C60_direct_transfer_partial.
Theorem C60_disconnect_partial : forall is_ps id payload, octets payload ->
  exists b e, rua_new_disc is_ps id payload = Ok (mkWrapped (Some (b, 19%N)) e) /\
    if (size payload <=? 992)%N
    then b <> [] /\ holds T_RUA_RUA_PDU b 1 3 0 M_RUA_DisconnectIEs (disconnect_ies is_ps id payload)
    else b = [].
Proof. exact disc_msg. Qed.
Print Assumptions C60_disconnect_partial.
Theorem C60_context : forall id, (id < 2 ^ 24)%N -> exists v, context_ie id = ("id-Context-ID", VBits v) /\ length v = 24 /\ from_bits 0 v = id.
Proof. intros id H. exists (to_bits 24 id). split; [reflexivity|]. split; [reflexivity|exact (from_to_small 24 id H)]. Qed.
Print Assumptions C60_context.
(* calling one of the first three without a buffer is a NULL dereference *)
Theorem C60_null : forall is_ps id, rua_new_udt None = Fault NullDeref /\
  rua_new_conn is_ps id None = Fault NullDeref /\ rua_new_dt is_ps id None = Fault NullDeref.
Proof. intros. repeat split. Qed.
Print Assumptions C60_null.
Example C60_ex : bytes_ok [0; 20; 64; 4]%N = true /\ connect_ies true 5 [1; 2]%N =
  [("id-CN-DomainIndicator", VEnum 1);
   ("id-Context-ID", VBits (repeat false 21 ++ [true; false; true]));
   ("id-Establishment-Cause", VEnum 1); ("id-RANAP-Message", VOcts [1; 2]%N)].
Proof. split; reflexivity. Qed.
Example C60_disc_ex : octets None /\ length (disconnect_ies true 5 None) = 3 /\ length (disconnect_ies true 5 (Some [])) = 3 /\
  length (disconnect_ies true 5 (Some [7%N])) = 4.
Proof. repeat split. Qed.

(* ---------------- C61 ---------------- *)
Theorem C61_context_ids_refuted : exists id id', id <> id' /\ (id < 2 ^ 32)%N /\ (id' < 2 ^ 32)%N /\
  forall is_ps payload, rua_new_conn is_ps id payload = rua_new_conn is_ps id' payload /\
    rua_new_dt is_ps id payload = rua_new_dt is_ps id' payload /\
    rua_new_disc is_ps id payload = rua_new_disc is_ps id' payload.
Proof.
  exists 1%N, 16777217%N. split; [discriminate|]. split; [reflexivity|]. split; [reflexivity|]. intros is_ps payload.
  split; [|split]; [apply conn_low|apply dt_low|apply disc_low]; reflexivity.
Qed.
Print Assumptions C61_context_ids_refuted.
(* Exactly the upper octet is lost: numbers that differ in the low 24 bits give
   different messages for all payloads that fit. *)
Theorem C61_context_ids_partial : forall is_ps is_ps' id id' p p' b b' e e',
  bytes_ok p = true -> bytes_ok p' = true -> (N.of_nat (length p) <= 992)%N -> (N.of_nat (length p') <= 992)%N ->
  (id mod 2 ^ 24 <> id' mod 2 ^ 24)%N ->
  (rua_new_conn is_ps id (Some p) = Ok (mkWrapped (Some (b, 19%N)) e) -> rua_new_conn is_ps' id' (Some p') = Ok (mkWrapped (Some (b', 19%N)) e') -> b <> b') /\
  (rua_new_dt is_ps id (Some p) = Ok (mkWrapped (Some (b, 19%N)) e) -> rua_new_dt is_ps' id' (Some p') = Ok (mkWrapped (Some (b', 19%N)) e') -> b <> b') /\
  (rua_new_disc is_ps id (Some p) = Ok (mkWrapped (Some (b, 19%N)) e) -> rua_new_disc is_ps' id' (Some p') = Ok (mkWrapped (Some (b', 19%N)) e') -> b <> b').
Proof. exact ids_differ. Qed.
Print Assumptions C61_context_ids_partial.
Example C61_ex : (5 mod 2 ^ 24 <> 6 mod 2 ^ 24)%N /\ (exists b e, rua_new_conn true 5 (Some [1%N]) = Ok (mkWrapped (Some (b, 19%N)) e)).
Proof. split; [discriminate|]. eexists. eexists. vm_compute. reflexivity. Qed.

(* ---------------- C66 ---------------- *)
(* The caller's buffer and the returned message are accounted for, but the copy of
   the payload stays allocated after every call that makes one. *)
Theorem C66_leak_refuted : forall c w d, payload_of c = Some d -> d <> [] -> do_rua c = Ok w -> w_msg w <> None ->
  exists live, live_after (w_ev w) [inmsg_lab] = Some live /\ In payload_lab live.
Proof.
  intros c w d Hp Hd H Hw. destruct (rua_mem c w) as (live&Hl&Hm); [congruence|exact H|].
  exists live. split; [exact Hl|]. rewrite (Hm Hw). right. unfold copy_left. rewrite Hp. destruct d; [congruence|].
  rewrite Bool.andb_false_r. left. reflexivity.
Qed.
Print Assumptions C66_leak_refuted.
(* What does hold: nothing is released twice, the caller's buffer is released, and
   apart from the copy only the returned message is left. *)
Theorem C66_released_partial : forall c w, payload_of c <> None -> do_rua c = Ok w ->
  exists live, live_after (w_ev w) [inmsg_lab] = Some live /\
    (w_msg w <> None -> live = msg_lab :: copy_left c) /\
    forall l, In l (copy_left c) -> l = payload_lab.
Proof.
  intros c w Hp H. destruct (rua_mem c w Hp H) as (live&Hl&Hm). exists live. split; [exact Hl|]. split; [exact Hm|].
  intros l. unfold copy_left. destruct (payload_of c) as [d|]; [|intros []]. destruct (_ && _); [intros []|]. intros [<-|[]]. reflexivity.
Qed.
Print Assumptions C66_released_partial.
(* all calls on octets return a message, and none faults *)
Theorem C66_total : forall c, (match payload_of c with Some d => bytes_ok d | None => is_disc c end) = true ->
  exists b e, do_rua c = Ok (mkWrapped (Some (b, 19%N)) e).
Proof. exact rua_no_fault. Qed.
Print Assumptions C66_total.
Example C66_ex : exists w, do_rua (RDt true 7 (Some [1; 2; 3]%N)) = Ok w /\ w_msg w <> None /\
  live_after (w_ev w) [inmsg_lab] = Some [msg_lab; payload_lab].
Proof. eexists. split; [vm_compute; reflexivity|]. split; [discriminate|reflexivity]. Qed.
