(* Property C77: what the generated decoders report, for arbitrary octets *)
From Verif Require Import Base Aper Aper_spec Container Container_proofs RanapTab AllMsgs Container_exact.
From Coq Require Import String. Local Open Scope list_scope. Local Open Scope nat_scope.

(* Whenever decoding succeeds, each IE of the message type is either reported
   with the value of its last occurrence in the message, or does not occur and
   is reported absent; the presence flag of an optional IE says which. *)
Theorem C77_reported_exactly :
  forall m o l, In m all_msgs -> d_ok (decode_msg m o) = true -> body m o = Some l ->
  forall i r, nth_error (m_rows m) i = Some r ->
  (exists before ie after oct v,
     l = before ++ ie :: after /\ ie_parts ie = Some (r_id r, oct) /\ decode (r_ty r) oct = Some v /\
     (forall x o', In x after -> ie_parts x <> Some (r_id r, o')) /\
     nth_error (i_fields (d_ies (decode_msg m o))) i = Some (Some v) /\
     (is_opt r = true -> has_flag m (d_ies (decode_msg m o)) r = true)) \/
  ((forall x o', In x l -> ie_parts x <> Some (r_id r, o')) /\
     nth_error (i_fields (d_ies (decode_msg m o))) i = Some None /\
     (is_opt r = true -> has_flag m (d_ies (decode_msg m o)) r = false)).
Proof. intros m o l Hm. exact (decode_msg_exact m o l (all_ok m Hm)). Qed.
Print Assumptions C77_reported_exactly.
(* a Direct Transfer with two NAS-PDUs, in the order aa, SAPI, bb: bb is reported *)
Example C77_ex :
  let o := [0; 0; 3; 0; 0x10; 0x40; 2; 1; 0xaa; 0; 0x3b; 0x40; 1; 0; 0; 0x10; 0x40; 2; 1; 0xbb]%N in
  decode_msg M_RANAP_DirectTransferIEs o =
    mkDres true (mkIes 8 [Some (VOcts [0xbb]%N); None; None; None; Some (VEnum 0%Z)]) [VOcts [0xaa]%N] /\
  option_map (fun l => map ie_parts l) (body M_RANAP_DirectTransferIEs o) =
    Some [Some (16, [1; 0xaa]); Some (59, [0]); Some (16, [1; 0xbb])]%N.
Proof. vm_compute. split; reflexivity. Qed.
