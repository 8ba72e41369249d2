(* Property C93: a function that makes a message, when memory runs out. *)
From Verif Require Import Base Helpers Factory_spec Factory RuaFactory Memory_spec Memory Memory_proofs Memory_calls Memory_rua.
From Coq Require Import List.
Local Open Scope list_scope.

(* ---------------- C93, RANAP ---------------- *)
(* If all requests are granted, the result is that of the model without failing
   allocations. *)
Theorem C93_granted : forall deny c m r s, do_call c = Ok m -> do_call_m deny c m0 = (r, s) -> q_denied s = [] -> r = Ok (r_msg m).
Proof. exact granted. Qed.
Print Assumptions C93_granted.
(* It is not always NULL that is returned otherwise.  Calls that build part of
   their arguments on the heap crash: *)
Theorem C93_crash_refuted : forall deny c, heap_first c = true -> deny 0 ATemp = true -> fst (do_call_m deny c m0) = Fault NullDeref.
Proof. intros deny c Hc H. exact (crash_first deny c H Hc). Qed.
Print Assumptions C93_crash_refuted.
(* a list that cannot grow gives a message that lacks all its IEs, *)
Theorem C93_ies_lost_refuted : forall c m, one_list c = true -> do_call c = Ok m -> r_msg m <> None ->
  exists b, fst (do_call_m (none_for ACell) c m0) = Ok (Some b) /\ without_ies b.
Proof. exact cells_lost. Qed.
Print Assumptions C93_ies_lost_refuted.
(* and a RAB assignment request that lacks its only item, whatever was asked for. *)
Theorem C93_rab_lost_refuted : forall rab_id ip port tei x213,
  fst (do_call_m (none_for APair) (CallRabVoice rab_id ip port x213) m0) = Ok (Some nothing_assigned) /\
  fst (do_call_m (none_for APair) (CallRabData rab_id ip tei x213) m0) = Ok (Some nothing_assigned).
Proof. intros. split; [apply voice_lost|apply data_lost]. Qed.
Print Assumptions C93_rab_lost_refuted.
(* What does hold: NULL is returned if, whatever else was denied, a request for an IE,
   its value, the message body or the message buffer was denied, *)
Theorem C93_null_partial : forall deny c m r s k, do_call c = Ok m -> do_call_m deny c m0 = (r, s) ->
  In k (q_denied s) -> looked_at k = true -> r = Ok None.
Proof. exact reported. Qed.
Print Assumptions C93_null_partial.
(* a crash only comes after a request for a part of the arguments was denied, *)
Theorem C93_crash_partial : forall deny c m f s, do_call c = Ok m -> do_call_m deny c m0 = (Fault f, s) -> In ATemp (q_denied s).
Proof. exact crash_temp. Qed.
Print Assumptions C93_crash_partial.
(* and the calls that have no such parts never crash. *)
Theorem C93_no_crash_partial : forall deny c, heap_args c = false -> exists r, fst (do_call_m deny c m0) = Ok r.
Proof. exact plain_no_crash. Qed.
Print Assumptions C93_no_crash_partial.
Example C93_ex : let c := CallDt 3 [1; 2; 3]%N in
  (exists m b, do_call c = Ok m /\ r_msg m = Some b /\ do_call_m plenty c m0 = (Ok (Some b), mkMst 7 [])) /\
  heap_args c = false /\ one_list c = true /\
  do_call_m (none_for AMsg) c m0 = (Ok None, mkMst 7 [AMsg]) /\
  do_call_m (none_for AValue) c m0 = (Ok None, mkMst 2 [AValue]) /\
  do_call_m (none_for ACell) c m0 = (Ok (Some [0; 20; 64; 3; 0; 0; 0]%N), mkMst 8 [ACell; ACell]).
Proof.
  cbv zeta. split; [|split; [|split; [|split; [|split]]]]; try reflexivity; try (vm_compute; reflexivity).
  eexists. eexists. split; [vm_compute; reflexivity|]. split; [reflexivity|vm_compute; reflexivity].
Qed.
Example C93_heap_ex : heap_first (CallRabRelReq 5 (mkCause 1 0)) = true /\ heap_first (CallSecModCmd [] None 0 6 6) = true /\
  do_call_m (none_for ATemp) (CallCommonId (Some [49; 50]%N)) m0 = (Fault NullDeref, mkMst 1 [ATemp]).
Proof. repeat split. Qed.

(* ---------------- C93, RUA ---------------- *)
Theorem C93_rua_granted : forall deny c w r s, do_rua c = Ok w -> do_rua_m deny c m0 = (r, s) -> q_denied s = [] -> r = Ok (w_msg w).
Proof. exact rua_granted. Qed.
Print Assumptions C93_rua_granted.
(* Without memory for the body or the buffer every call that would make a message
   crashes; *)
Theorem C93_rua_crash_refuted : forall k c w, k = ABody \/ k = AMsg -> do_rua c = Ok w -> w_msg w <> None ->
  fst (do_rua_m (none_for k) c m0) = Fault NullDeref.
Proof. exact rua_crashes. Qed.
Print Assumptions C93_rua_crash_refuted.
(* without memory for the copy of the RANAP message the message is the one for an
   empty RANAP message. *)
Theorem C93_rua_lost_refuted : forall c w, do_rua (emptied c) = Ok w -> is_disc c = false -> fst (do_rua_m (none_for ACopy) c m0) = Ok (w_msg w).
Proof. exact rua_lost. Qed.
Print Assumptions C93_rua_lost_refuted.
(* What does hold: NULL if a request for an IE or its value was denied, *)
Theorem C93_rua_null_partial : forall deny c w r s, do_rua c = Ok w -> do_rua_m deny c m0 = (r, s) ->
  In AIe (q_denied s) \/ In AValue (q_denied s) -> r = Ok None.
Proof. exact rua_reported. Qed.
Print Assumptions C93_rua_null_partial.
(* and a crash if and only if a request for the body or the buffer was denied. *)
Theorem C93_rua_crash_partial : forall deny c w r s, do_rua c = Ok w -> do_rua_m deny c m0 = (r, s) ->
  (exists f, r = Fault f) <-> In ABody (q_denied s) \/ In AMsg (q_denied s).
Proof. exact rua_crash. Qed.
Print Assumptions C93_rua_crash_partial.
Example C93_rua_ex : let c := RDt true 7 (Some [1; 2; 3]%N) in
  (exists w, do_rua c = Ok w /\ w_msg w <> None) /\ (exists w, do_rua (emptied c) = Ok w) /\
  do_rua_m (none_for AMsg) c m0 = (Fault NullDeref, mkMst 10 [AMsg]) /\
  do_rua_m (none_for AIe) c m0 = (Ok None, mkMst 2 [AIe]).
Proof.
  cbv zeta. split; [eexists; split; [vm_compute; reflexivity|discriminate]|]. split; [eexists; vm_compute; reflexivity|].
  split; vm_compute; reflexivity.
Qed.
