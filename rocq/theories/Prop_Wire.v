(* Property C72: the octets of a message, one by one *)
From Coq Require Import String List.
From Verif Require Import Base Aper Aper_spec Container RanapTab AllMsgs Container_proofs Wire_spec Factory_spec Factory Factory_len Wire_msgs.
Local Open Scope list_scope.

(* the body of every message type: the IEs that are present, in table order, each
   with the number and criticality of the table and the octets of its value *)
Theorem C72_body_octets :
  forall m s o, In m all_msgs -> List.length (i_fields s) = List.length (m_rows m) -> encode_msg m s = Some o ->
  exists l,
    Forall2 (fun rf x => exists v w, snd rf = Some v /\ encode (r_ty (fst rf)) v = Some w /\
                                     x = (r_id (fst rf), Z.to_N (r_crit (fst rf)), w))
      (filter (fun rf => negb (is_opt (fst rf)) || has_flag m s (fst rf)) (combine (m_rows m) (i_fields s))) l /\
    ((forall x, In x l -> (N.of_nat (List.length (snd x)) < 16384)%N) -> o = wire_body l).
Proof. exact body_octets. Qed.
Print Assumptions C72_body_octets.

(* the PDU around it, for each of the four protocols *)
Theorem C72_pdu_octets :
  forall P d p c td out b, In P [ranap; rua; hnbap; sabp] -> (1 <= d)%N -> generate P d p c td out = Some b -> b <> [] ->
  exists o, encode td out = Some o /\ b = wire_pdu d p (Z.to_N c) o /\ (N.of_nat (List.length b) <= 1024)%N.
Proof. exact generate_octets. Qed.
Print Assumptions C72_pdu_octets.

(* receiving: such octets are read back, whatever follows them, with any IEs in
   any order and any repetition *)
Theorem C72_pdu_read :
  forall P d p c o rest, In P [ranap; rua; hnbap; sabp] -> (1 <= d <= alternatives (p_pdu P))%N -> (p <= 255)%N -> (c <= 2)%N ->
  (N.of_nat (List.length o) < 16384)%N -> bytes_ok o = true ->
  pdu_in (p_pdu P) (wire_pdu d p c o ++ rest) = Some (d, p, Z.of_N c, o).
Proof.
  intros P d p c o rest HP. apply pdu_read.
  destruct HP as [<-|[<-|[<-|[<-|[]]]]]; [apply ranap_std|apply rua_std|apply hnbap_std|apply sabp_std].
Qed.
Print Assumptions C72_pdu_read.
Theorem C72_body_read :
  forall m l rest, In m all_msgs -> (N.of_nat (List.length l) <= 65535)%N -> (forall x, In x l -> raw_ok x) ->
  body m (wire_body l ++ rest) =
    Some (map (fun x => VSeq [Some (VInt (Z.of_N (fst (fst x)))); Some (VEnum (Z.of_N (snd (fst x)))); Some (VOcts (snd x))] []) l).
Proof.
  intros m l rest Hm Hl Hr. rewrite (body_read m l rest Hm Hl Hr). f_equal. apply map_ext. intros [[id c] o]. reflexivity.
Qed.
Print Assumptions C72_body_read.

Local Open Scope N_scope.
(* an Iu Release Complete and a Direct Transfer, tests/test-ranap.ok *)
Example C72_ex :
  alternatives (p_pdu ranap) = 4 /\ alternatives (p_pdu rua) = 3 /\
  wire_pdu 2 1 0 (wire_body []) = [0x20; 0x01; 0x00; 0x03; 0x00; 0x00; 0x00] /\
  wire_pdu 1 20 1 (wire_body [(16, 1, [3; 0xaa; 0xbb; 0xcc]); (59, 1, [0])]) =
    [0x00; 0x14; 0x40; 0x10; 0x00; 0x00; 0x02; 0x00; 0x10; 0x40; 0x04; 0x03; 0xaa; 0xbb; 0xcc; 0x00; 0x3b; 0x40; 0x01; 0x00] /\
  raw_ok (16, 1, [3; 0xaa; 0xbb; 0xcc]).
Proof. vm_compute. repeat split; discriminate. Qed.
(* a value that a message type encodes, and a message that is made *)
Example C72_hypotheses_ex : let m := M_RANAP_Iu_ReleaseCompleteIEs in
  In m all_msgs /\ encode_msg m (zero_ies m) = Some (wire_body []) /\ List.length (i_fields (zero_ies m)) = List.length (m_rows m) /\
  (exists v, encode_ies m (zero_ies m) = Some v /\ generate ranap 2 1 0 (m_cont m) v = Some (wire_pdu 2 1 0 (wire_body []))).
Proof.
  split; [unfold all_msgs; apply in_or_app; left; vm_compute; tauto|]. split; [vm_compute; reflexivity|]. split; [vm_compute; reflexivity|].
  eexists. split; vm_compute; reflexivity.
Qed.
