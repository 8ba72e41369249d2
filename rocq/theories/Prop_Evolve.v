(* Property C78: peers of an earlier or later release of the protocol *)
From Verif Require Import Base Aper Aper_spec Aper_decode X691 X691_proofs AllTypes Evolve_spec Evolve_proofs RanapTypes HnbapTypes.

(* a peer that uses a later release of a type, with components behind the
   extension marker this release does not know: everything else is read *)
Theorem C78_later_peer_understood :
  forall old new v w o rest, evolves old new -> known any_extra old v w ->
  completed (x691 new v) o -> decode old (o ++ rest) = Some w.
Proof. intros old new v w o rest He Hk H. apply encode_x691 in H. exact (forward_octets old new v w o rest He Hk H). Qed.
Print Assumptions C78_later_peer_understood.

(* a peer that uses an earlier release: the components it does not know are absent *)
Theorem C78_earlier_peer_understood :
  forall old new v w o rest, evolves old new -> known no_extra old v w -> valid new v ->
  completed (x691 old w) o -> decode new (o ++ rest) = Some v.
Proof. intros old new v w o rest He Hk Hv H. apply encode_x691 in H. exact (backward_octets old new v w o rest He Hk Hv H). Qed.
Print Assumptions C78_earlier_peer_understood.

(* a value of an enumeration or an alternative this release does not have is
   refused, not taken for another one *)
Theorem C78_unknown_value_refused :
  (forall r m x z o, ~ In z r -> ~ In z m -> completed (x691 (TEnum true r (m ++ x)) (VEnum z)) o ->
     decode (TEnum true r m) o = None) /\
  (forall root root' more more' x i v o, Forall2 evolves root root' -> Forall2 evolves more more' ->
     length root + length more <= i -> completed (x691 (TChoice true root' (more' ++ x)) (VChoice i v)) o ->
     decode (TChoice true root more) o = None).
Proof.
  split; intros.
  - eapply new_enum; [..|apply encode_x691]; eassumption.
  - eapply new_alternative; [..|apply encode_x691]; eassumption.
Qed.
Print Assumptions C78_unknown_value_refused.

(* cells of a RANAP load report, and the same type with two more components of
   a later release, the second of them present *)
Definition CellBased_later : ty := TSeq true
  [(false, T_RANAP_CellIdList); (true, T_RANAP_IE_Extensions)] ([] ++ [(true, TBool); (true, TInt None)]).
Example C78_ex_later :
  let v := VSeq [Some (VList [VInt 7; VInt 268435455]); None] ([] ++ [None; Some (VInt 1000)]) in
  let w := VSeq [Some (VList [VInt 7; VInt 268435455]); None] [] in
  evolves T_RANAP_CellBased CellBased_later /\ known any_extra T_RANAP_CellBased v w /\
  completed (x691 CellBased_later v) [0x82; 0x00; 0x07; 0xc0; 0x0f; 0xff; 0xff; 0xff; 0x02; 0x80; 0x03; 0x02; 0x03; 0xe8]%N /\
  decode T_RANAP_CellBased [0x82; 0x00; 0x07; 0xc0; 0x0f; 0xff; 0xff; 0xff; 0x02; 0x80; 0x03; 0x02; 0x03; 0xe8]%N = Some w.
Proof.
  cbv zeta. repeat split.
  - apply ev_seq; [|constructor|discriminate]. repeat constructor; apply evolves_refl.
  - apply k_seq; [|constructor|exact I]. repeat constructor.
  - apply encode_x691. vm_compute. reflexivity.
Qed.
(* the other way round: a later receiver reads the earlier list as one without additions *)
Example C78_ex_earlier :
  let v := VSeq [Some (VList [VInt 7]); None] ([] ++ [None; None]) in
  let w := VSeq [Some (VList [VInt 7]); None] [] in
  known no_extra T_RANAP_CellBased v w /\ valid CellBased_later v /\
  completed (x691 T_RANAP_CellBased w) [0x00; 0x00; 0x07]%N /\
  decode CellBased_later [0x00; 0x00; 0x07]%N = Some v.
Proof.
  cbv zeta. repeat split.
  - apply k_seq; [repeat constructor|constructor|]. intros u [<-|[<-|[]]]; reflexivity.
  - apply (decode_valid _ [0x00; 0x00; 0x07]%N); vm_compute; reflexivity.
  - apply encode_x691. vm_compute. reflexivity.
Qed.
