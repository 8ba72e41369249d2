(* Property C107: printing messages (asn1 xer-print 1) does not change them *)
From Verif Require Import Base Aper RanapTab Container Helpers Factory_spec Factory RuaFactory Memory_spec Xer Xer_spec Xer_proofs XerFactory XerFactory_proofs.
From Coq Require Import String List ZArith NArith.
Import ListNotations.
Local Open Scope list_scope.

(* Messages that are received: whether they are printed, and whether that works, makes no
   difference to what is decoded. *)
Theorem C107_decoded : forall on out m octets, fst (decode_msg_x on out m octets) = decode_msg m octets.
Proof. exact decode_same. Qed.
Print Assumptions C107_decoded.
(* Of a message that could be decoded each IE was printed once, in order, with its own type. *)
Theorem C107_shown : forall out m octets d p, decode_msg_x true out m octets = (d, p) -> d_ok d = true ->
  exists l, ies_in m octets l /\ Forall2 (value_of m) l p.
Proof. exact decode_printed. Qed.
Print Assumptions C107_shown.
(* Of one that could not, those in front of the IE at fault. *)
Theorem C107_shown_first : forall out m octets d p, decode_msg_x true out m octets = (d, p) ->
  p = [] \/ exists l1 l2, ies_in m octets (l1 ++ l2) /\ Forall2 (value_of m) l1 p.
Proof. exact decode_prefix. Qed.
Print Assumptions C107_shown_first.
(* Nothing is printed unless it was asked for. *)
Theorem C107_silent : forall out m octets s,
  snd (decode_msg_x false out m octets) = [] /\ encode_msg_x false out m s = (encode_msg m s, [], []).
Proof. intros out m octets s. exact (conj (decode_silent out m octets) (encode_off out m s)). Qed.
Print Assumptions C107_silent.

(* Messages that are sent: claimed is that printing makes no difference either.  False: if stdout
   cannot be written, a message that could be encoded is not. *)
Theorem C107_encoded_refuted : exists out m s o, encode_msg m s = Some o /\ fst (fst (encode_msg_x true out m s)) = None.
Proof.
  exists (fun _ => false), M_RANAP_Iu_ReleaseRequestIEs, (mkIes 0 [Some (VChoice 0 (VInt 40))]), (match encode_msg M_RANAP_Iu_ReleaseRequestIEs (mkIes 0 [Some (VChoice 0 (VInt 40))]) with Some o => o | None => [] end).
  split; vm_compute; reflexivity.
Qed.
Print Assumptions C107_encoded_refuted.
(* Missing: output that fails.  As long as it works the message is the same, and each IE was
   printed once, in order. *)
Theorem C107_encoded_partial : forall out m s l, encode_ies m s = Some (VSeq [Some (VList l)] []) -> (forall k, k < List.length l -> out k = true) ->
  encode_msg_x true out m s = (encode_msg m s, map PIe l, []).
Proof. exact encode_all. Qed.
Print Assumptions C107_encoded_partial.
(* The first output that fails ends the encoder: there is no message, and the octets of that IE
   stay allocated. *)
Theorem C107_failed_output : forall out m s l k, encode_ies m s = Some (VSeq [Some (VList l)] []) -> k < List.length l ->
  (forall j, j < k -> out j = true) -> out k = false ->
  exists ie o, nth_error l k = Some ie /\ octets_of ie o /\ encode_msg_x true out m s = (None, map PIe (firstn (S k) l), [o]).
Proof. exact encode_fail. Qed.
Print Assumptions C107_failed_output.
(* Printing never makes a message out of what cannot be encoded. *)
Theorem C107_not_encoded : forall on out m s, encode_ies m s = None -> fst (fst (encode_msg_x on out m s)) = None.
Proof. exact encode_none. Qed.
Print Assumptions C107_not_encoded.
(* The pairs in a RAB Assignment Request in the same way. *)
Theorem C107_pairs : forall on out id c1 t1 v1 c2 t2 v2 log,
  fst (new_ie_pair_x on out id c1 t1 v1 c2 t2 v2 log) =
  (if (on && negb (out (List.length log)))%bool then None else new_ie_pair id c1 t1 v1 c2 t2 v2).
Proof.
  intros on out id c1 t1 v1 c2 t2 v2 log. unfold new_ie_pair_x, print. destruct (new_ie_pair id c1 t1 v1 c2 t2 v2); destruct on; try reflexivity; destruct (out (List.length log)); reflexivity.
Qed.
Print Assumptions C107_pairs.

(* The functions that make RANAP messages.  Without printing nothing is different, *)
Theorem C107_calls_silent : forall out k, do_call_x false out k = (do m <- do_call k ;; Ok (r_msg m, [])).
Proof. exact call_off. Qed.
Print Assumptions C107_calls_silent.
(* with it there are some values to print: the message is the same if all of them can be, and
   there is none otherwise, *)
Theorem C107_calls_partial : forall k m, do_call k = Ok m -> rab_request k = false -> exists p, forall out,
  ((forall j, j < List.length p -> out j = true) -> do_call_x true out k = Ok (r_msg m, p)) /\
  ((exists j, j < List.length p /\ out j = false) -> exists q, do_call_x true out k = Ok (None, q)).
Proof. exact same_or_none. Qed.
Print Assumptions C107_calls_partial.
(* but for the requests to set up a RAB.  Two values are printed here.  If the first of them
   cannot be, but the second can, a request without any RAB is made. *)
Theorem C107_rab_refuted : forall out k m, do_call k = Ok m -> rab_request k = true -> exists q, do_call_x true out k = Ok
  (if out 0 then if out 1 then r_msg m else None else if out 1 then Some nothing_assigned else None, q).
Proof. exact rab_call. Qed.
Print Assumptions C107_rab_refuted.
(* The functions that make RUA messages: with printing the same message, or none *)
Theorem C107_rua_partial : forall c w, do_rua c = Ok w -> exists p, forall out,
  ((forall j, j < List.length p -> out j = true) -> do_rua_x true out c = Ok (w_msg w, p)) /\
  ((exists j, j < List.length p /\ out j = false) -> exists q, do_rua_x true out c = Ok (None, q)).
Proof. exact rua_prints. Qed.
Print Assumptions C107_rua_partial.
Theorem C107_rua_silent : forall out c, do_rua_x false out c = (do w <- do_rua c ;; Ok (w_msg w, [])).
Proof. exact rua_silent. Qed.
Print Assumptions C107_rua_silent.
Example C107_rua_ex : exists o a b c, do_rua_x true (fun _ => true) (RDt false 5 (Some [1; 2]%N)) = Ok (Some (o, 19%N), [a; b; c]) /\
  (exists e, do_rua (RDt false 5 (Some [1; 2]%N)) = Ok (mkWrapped (Some (o, 19%N)) e)) /\
  do_rua_x true (fun k => Nat.eqb k 0) (RDt false 5 (Some [1; 2]%N)) = Ok (None, [a; b]).
Proof. do 4 eexists. split; [vm_compute; reflexivity|]. split; [eexists; vm_compute; reflexivity|]. vm_compute. reflexivity. Qed.
(* a call with two values to print, and a request for a RAB *)
Example C107_calls_ex :
  (exists m p, do_call (CallSecModCompl 0 1) = Ok (mkMade (Some m) p) /\ exists a b, do_call_x true (fun _ => true) (CallSecModCompl 0 1) = Ok (Some m, [a; b]) /\
    do_call_x true (fun k => negb (Nat.eqb k 1)) (CallSecModCompl 0 1) = Ok (None, [a; b])) /\
  exists m p, do_call (CallRabVoice 1 2 3 true) = Ok (mkMade (Some m) p) /\ m <> nothing_assigned /\ exists q,
    do_call_x true (fun k => negb (Nat.eqb k 0)) (CallRabVoice 1 2 3 true) = Ok (Some nothing_assigned, q).
Proof.
  split.
  - eexists. eexists. split; [vm_compute; reflexivity|]. eexists. eexists. split; vm_compute; reflexivity.
  - eexists. eexists. split; [vm_compute; reflexivity|]. split; [discriminate|]. eexists. vm_compute. reflexivity.
Qed.

(* an Iu Release Request: made if the output works, then decoded and printed by the peer; not made
   if it does not *)
Example C107_ex :
  let m := M_RANAP_Iu_ReleaseRequestIEs in let s := mkIes 0 [Some (VChoice 0 (VInt 40))] in
  exists ie o, encode_ies m s = Some (VSeq [Some (VList [ie])] []) /\ encode_msg_x true (fun _ => true) m s = (Some o, [PIe ie], []) /\
    snd (decode_msg_x true (fun _ => false) m o) = [PValue "Cause" (VChoice 0 (VInt 40))] /\
    d_ok (fst (decode_msg_x true (fun _ => false) m o)) = true /\
    exists lost, encode_msg_x true (fun _ => false) m s = (None, [PIe ie], [lost]).
Proof.
  intros m s. subst m s. eexists. eexists. split; [vm_compute; reflexivity|]. split; [vm_compute; reflexivity|]. split; [vm_compute; reflexivity|]. split; [vm_compute; reflexivity|].
  eexists. vm_compute. reflexivity.
Qed.
