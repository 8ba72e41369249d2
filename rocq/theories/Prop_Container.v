(* Properties C26-C29 and C63: the generated IE containers of all message types *)
From Verif Require Import Base Aper Aper_spec Aper_valid Container Container_proofs
  RanapTab RuaTab HnbapTab SabpTab RanapSpec RuaSpec HnbapSpec SabpSpec AllMsgs.
From Coq Require Import String. Local Open Scope list_scope. Local Open Scope nat_scope.

(* C26: every message type, every presence mask, every valid IE value *)
Theorem C26_container_round_trip :
  forall m s, In m all_msgs ->
  List.length (i_fields s) = List.length (m_rows m) ->
  (forall i r, nth_error (m_rows m) i = Some r -> wanted m s r = true ->
     exists v, nth_error (i_fields s) i = Some (Some v) /\ valid (r_ty r) v) ->
  exists o s',
    encode_msg m s = Some o /\
    (forall rest, decode_msg m (o ++ rest) = mkDres true s' []) /\
    (i_mask s' < 65536)%N /\
    (forall n, N.testbit (i_mask s') n = true <->
       exists r, In r (m_rows m) /\ is_opt r = true /\ has_flag m s r = true /\ flag m r = (2 ^ n)%N) /\
    forall i r, nth_error (m_rows m) i = Some r ->
      (is_opt r = true -> has_flag m s' r = has_flag m s r) /\
      nth_error (i_fields s') i = (if wanted m s r then nth_error (i_fields s) i else Some None).
Proof. intros m s Hm. exact (round_trip_msg m s (all_ok m Hm) (all_cont m Hm)). Qed.
Print Assumptions C26_container_round_trip.
Example C26_ex : (* RANAP Direct Transfer with NAS-PDU and SAPI: octets of tests/test-ranap.ok *)
  let s := mkIes 8 [Some (VOcts [0xaa; 0xbb; 0xcc]%N); None; None; None; Some (VEnum 0%Z)] in
  map (fun r => (r_ie r, wanted M_RANAP_DirectTransferIEs s r)) (m_rows M_RANAP_DirectTransferIEs) =
    [("id-NAS-PDU", true); ("id-LAI", false); ("id-RAC", false); ("id-SAI", false); ("id-SAPI", true)]%string /\
  encode_msg M_RANAP_DirectTransferIEs s =
    Some [0x00; 0x00; 0x02; 0x00; 0x10; 0x40; 0x04; 0x03; 0xaa; 0xbb; 0xcc; 0x00; 0x3b; 0x40; 0x01; 0x00]%N.
Proof. vm_compute. split; reflexivity. Qed.

(* C27 *)
Theorem C27_ids_unique :
  forall m, In m all_msgs -> NoDup (map r_id (m_rows m)).
Proof. intros m H. exact (proj1 (tab_parts m (all_ok m H))). Qed.
Print Assumptions C27_ids_unique.
Theorem C27_flags_distinct_bits :
  forall m, In m all_msgs ->
  NoDup (map (flag m) (filter is_opt (m_rows m))) /\
  forall r, In r (m_rows m) -> is_opt r = true -> exists k, k < 16 /\ flag m r = (2 ^ N.of_nat k)%N.
Proof.
  intros m H. destruct (tab_parts m (all_ok m H)) as (_&H2&_&H4). split; [exact H2|].
  intros r Hr. exact (proj2 (proj2 (proj2 (H4 r Hr)))).
Qed.
Print Assumptions C27_flags_distinct_bits.
(* no macro name is used for two flags anywhere in one protocol *)
Theorem C27_flag_macros_unique :
  forall spec msgs, In (spec, msgs) all_specs -> NoDup (all_defines msgs).
Proof. exact defines_nodup. Qed.
Print Assumptions C27_flag_macros_unique.
(* the names are identifiers of capital letters, digits and underscores *)
Theorem C27_flag_macros_identifiers :
  forall spec msgs name, In (spec, msgs) all_specs -> In name (all_defines msgs) ->
  forallb (fun c => let n := Ascii.nat_of_ascii c in ((65 <=? n) && (n <=? 90)) || ((48 <=? n) && (n <=? 57)) || (n =? 95))%nat (list_ascii_of_string name) = true /\
  exists c r, name = String c r /\ (65 <= Ascii.nat_of_ascii c <= 90)%nat.
Proof. exact defines_names. Qed.
Print Assumptions C27_flag_macros_identifiers.
Example C27_ex :
  flag_define M_RANAP_ErrorIndicationIEs (mkRow "id-GlobalRNC-ID" 86 1 "GlobalRNC-ID" TNull Optional)
    = "ERRORINDICATIONIES_RANAP_GLOBALRNC_ID_PRESENT"%string /\
  List.length all_msgs = 144 /\ fold_right Nat.max 0 (map (fun m => List.length (opt_rows m)) all_msgs) = 9.
Proof. vm_compute. repeat split. Qed.

(* C28: a container without any IE is accepted by every decoder, and nearly
   every message type has a mandatory IE *)
Theorem C28_missing_mandatory_refuted :
  (forall m, In m all_msgs -> d_ok (decode_msg m [0; 0; 0]%N) = true /\
     forall f, In f (i_fields (d_ies (decode_msg m [0; 0; 0]%N))) -> f = None) /\
  exists r, In M_RANAP_InitialUE_MessageIEs all_msgs /\ In r (m_rows M_RANAP_InitialUE_MessageIEs) /\
    r_pres r = Mandatory.
Proof.
  split.
  - intros m H. rewrite (empty_ok m H). split; [reflexivity|]. intros f Hf. cbn [d_ies zero_ies i_fields] in Hf.
    apply in_map_iff in Hf as (r&<-&_). reflexivity.
  - eexists. split; [|split; [left; reflexivity|reflexivity]].
    exact (nth_error_In all_msgs 51 eq_refl).
Qed.
Print Assumptions C28_missing_mandatory_refuted.
(* what acceptance does depend on: each IE that is there is known and decodes *)
Theorem C28_acceptance_partial :
  forall m o, In m all_msgs ->
  (d_ok (decode_msg m o) = true <->
   exists l, body m o = Some l /\
     Forall (fun ie => exists id oct r v, ie_parts ie = Some (id, oct) /\ In r (m_rows m) /\ r_id r = id /\
                                          decode (r_ty r) oct = Some v) l).
Proof. intros m o H. exact (decode_msg_ok m o (all_ok m H)). Qed.
Print Assumptions C28_acceptance_partial.
Example C28_ex : d_ok (decode_msg M_RANAP_DirectTransferIEs
    [0x00; 0x00; 0x01; 0x00; 0x3b; 0x40; 0x01; 0x00]%N) = true /\
  exists r rest, m_rows M_RANAP_DirectTransferIEs = r :: rest /\ r_ie r = "id-NAS-PDU"%string /\ r_pres r = Mandatory.
Proof. split; [vm_compute; reflexivity|]. eexists _, _. split; [reflexivity|]. split; reflexivity. Qed.

(* C29: an unknown IE is fatal wherever it is, whatever its criticality *)
Theorem C29_unknown_ie_fatal_refuted :
  (forall m o l ie id v, In m all_msgs -> body m o = Some l -> In ie l -> ie_parts ie = Some (id, v) ->
     (forall r, In r (m_rows m) -> r_id r <> id) -> d_ok (decode_msg m o) = false) /\
  (* a Direct Transfer, then the same with IE 999 of criticality ignore appended *)
  d_ok (decode_msg M_RANAP_DirectTransferIEs
    [0; 0; 1; 0; 0x10; 0x40; 4; 3; 0xaa; 0xbb; 0xcc]%N) = true /\
  d_ok (decode_msg M_RANAP_DirectTransferIEs
    [0; 0; 2; 0; 0x10; 0x40; 4; 3; 0xaa; 0xbb; 0xcc; 0x03; 0xe7; 0x40; 1; 0]%N) = false /\
  option_map (fun l => nth_error l 1) (body M_RANAP_DirectTransferIEs
    [0; 0; 2; 0; 0x10; 0x40; 4; 3; 0xaa; 0xbb; 0xcc; 0x03; 0xe7; 0x40; 1; 0]%N)
    = Some (Some (VSeq [Some (VInt 999); Some (VEnum 1); Some (VOcts [0%N])] [])).
Proof. split; [exact unknown_fatal|]. vm_compute. repeat split. Qed.
Print Assumptions C29_unknown_ie_fatal_refuted.
(* a message without unknown IEs is not affected: C28_acceptance_partial; the
   IEs before an unknown one are decoded, but the result is a failure *)

(* C63 *)
Theorem C63_tables_complete_refuted :
  exists l ie, In ("Write-Replace-IEs"%string, l) sabp_spec /\ In ie l /\
    ie = ("id-Broadcast-Message-Content"%string, 0%N, 0%Z, "Broadcast-Message-Content"%string, Mandatory) /\
    forall m, In m sabp_msgs -> m_key m = "Write-Replace-IEs"%string -> ~ In ie (map row_sig (m_rows m)).
Proof.
  eexists _, _. split; [left; reflexivity|]. split; [do 8 right; left; reflexivity|]. split; [reflexivity|].
  intros m Hm Hk. repeat (destruct Hm as [<-|Hm]; [first [discriminate Hk|
    cbn; intros Hc; repeat (destruct Hc as [Hc|Hc]; [discriminate Hc|]); exact Hc]|]). destruct Hm.
Qed.
Print Assumptions C63_tables_complete_refuted.
(* so no Write-Replace message that carries a broadcast message is ever decoded *)
Theorem C63_write_replace_never_decoded_refuted :
  forall o l ie v, body M_SABP_Write_Replace_IEs o = Some l -> In ie l -> ie_parts ie = Some (0%N, v) ->
    d_ok (decode_msg M_SABP_Write_Replace_IEs o) = false.
Proof.
  intros o l ie v Hb Hin Hp. eapply unknown_fatal; try eassumption.
  - exact (nth_error_In all_msgs 128 eq_refl).
  - intros r Hr He. vm_compute in Hr. repeat (destruct Hr as [<-|Hr]; [vm_compute in He; discriminate|]). destruct Hr.
Qed.
Print Assumptions C63_write_replace_never_decoded_refuted.
(* every other object set is reproduced exactly, and no table has an IE, number,
   criticality, type or presence that the object set does not have *)
Theorem C63_tables_complete_partial :
  forall spec msgs, In (spec, msgs) all_specs ->
  (forall key l, In (key, l) spec -> ~ In key incomplete ->
     exists m, In m msgs /\ m_key m = key /\ map row_sig (m_rows m) = l) /\
  (forall m, In m msgs -> exists l, In (m_key m, l) spec /\ forall r, In r (m_rows m) -> In (row_sig r) l).
Proof.
  intros spec msgs H. split; [intros key l; exact (tables_complete spec msgs key l H)|intros m; exact (tables_sound spec msgs m H)].
Qed.
Print Assumptions C63_tables_complete_partial.
Example C63_ex : List.length incomplete = 19 /\ List.length ranap_spec + List.length rua_spec + List.length hnbap_spec + List.length sabp_spec = 147.
Proof. vm_compute. split; reflexivity. Qed.
