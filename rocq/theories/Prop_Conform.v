(* Properties C90 and C91: messages as the modules PDU-Descriptions and PDU-Contents
   of TS 25.413, 25.468, 25.469 and 25.419 define them *)
From Verif Require Import Base Aper Container X691 X691_proofs Asn1_spec Asn1_proofs AllMsgs RanapTab RuaTab HnbapTab SabpTab RanapProc Factory_spec
  Factory RuaFactory Hnb_spec Hnb DispatchTab Dispatch Deliver_spec Deliver_proofs Interop_spec Conform_spec Conform_proofs Conform_read.
From Coq Require Import String List.
Import ListNotations.
Local Open Scope list_scope.

(* C90: whatever a function of the RANAP factory returns, other than NULL and the
   empty buffer, is the message it is there for, complete and with the criticality
   of its procedure *)
Theorem C90_ranap : forall k mk b, do_call k = Ok mk -> r_msg mk = Some b -> b <> [] -> conforming ranap_protocol (ranap_set k) b.
Proof. exact ranap_conforming. Qed.
Print Assumptions C90_ranap.
Example C90_ranap_ex : exists mk b, do_call (CallReset 0 (Some (mkCause 2 65)) None) = Ok mk /\ r_msg mk = Some b /\ b <> [].
Proof. eexists _, _. split; [reflexivity|]. split; [vm_compute; reflexivity|discriminate]. Qed.

(* RUA procedures have criticality ignore; the RUA factory never sends it *)
Theorem C90_rua_refuted : forall c b ev, do_rua c = Ok (mkWrapped (Some (b, ppi_rua)) ev) -> b <> [] ->
  forall set, ~ conforming rua_protocol set b.
Proof. exact rua_not_conforming. Qed.
Print Assumptions C90_rua_refuted.
(* apart from that, what it returns is the message it is there for *)
Theorem C90_rua_partial : forall c b ev, do_rua c = Ok (mkWrapped (Some (b, ppi_rua)) ev) -> b <> [] ->
  message_of rua_protocol (rua_set c) 1 0 b.
Proof. exact rua_made. Qed.
Print Assumptions C90_rua_partial.
Example C90_rua_ex : exists b ev, do_rua (RConn true 7 (Some [1; 2; 3]%N)) = Ok (mkWrapped (Some (b, ppi_rua)) ev) /\ b <> [].
Proof. eexists _, _. split; [vm_compute; reflexivity|discriminate]. Qed.

(* the emulated HNB: its register requests conform, its HNB De-Register does not *)
Theorem C90_hnb_register : forall E h h' e b, hstep E h HRegister = Ok (h', e) -> In (HSend hnbap_ppid b) e -> b <> [] ->
  conforming hnbap_protocol "HNBRegisterRequestIEs" b.
Proof.
  intros E h h' e b H. cbn [hstep] in H. destruct send_register_req as [e'|] eqn:He; cbn [obind] in H; [|discriminate].
  inversion H; subst e'. exact (register_conforming e b He).
Qed.
Print Assumptions C90_hnb_register.
Theorem C90_hnb_ue_register : forall E h imsi h' e b, hstep E h (HUeRegister imsi) = Ok (h', e) -> In (HSend hnbap_ppid b) e -> b <> [] ->
  conforming hnbap_protocol "UERegisterRequestIEs" b.
Proof.
  intros E h imsi h' e b H. cbn [hstep] in H. destruct (send_ue_register imsi) as [e'|] eqn:He; cbn [obind] in H; [|discriminate].
  inversion H; subst e'. exact (ue_register_conforming imsi e b He).
Qed.
Print Assumptions C90_hnb_ue_register.
Theorem C90_hnb_deregister_refuted : forall E h h' e b, hstep E h HDeregister = Ok (h', e) -> In (HSend hnbap_ppid b) e -> b <> [] ->
  message_of hnbap_protocol "HNBDe-RegisterIEs" 1 0 b /\ forall set, ~ conforming hnbap_protocol set b.
Proof.
  intros E h h' e b H. cbn [hstep] in H. destruct send_deregister_req as [e'|] eqn:He; cbn [obind] in H; [|discriminate].
  inversion H; subst e'. exact (deregister_made e b He).
Qed.
Print Assumptions C90_hnb_deregister_refuted.
Example C90_hnb_ex : forall E h,
  (exists e b, hstep E h HRegister = Ok (h, e) /\ In (HSend hnbap_ppid b) e /\ b <> []) /\
  (exists e b, hstep E h HDeregister = Ok (h, e) /\ In (HSend hnbap_ppid b) e /\ b <> []) /\
  (exists e b, hstep E h (HUeRegister [57; 48; 49; 57; 57; 48; 48; 48; 48; 48; 48; 49]%N) = Ok (h, e) /\ In (HSend hnbap_ppid b) e /\ b <> []).
Proof.
  intros E h. split; [|split]; cbn [hstep].
  - destruct send_register_req as [e|] eqn:He; vm_compute in He; [|discriminate]. injection He as <-. eexists _, _. split; [reflexivity|]. split; [left; reflexivity|discriminate].
  - destruct send_deregister_req as [e|] eqn:He; vm_compute in He; [|discriminate]. injection He as <-. eexists _, _. split; [reflexivity|]. split; [left; reflexivity|discriminate].
  - destruct (send_ue_register _) as [e|] eqn:He; vm_compute in He; [|discriminate]. injection He as <-. eexists _, _. split; [reflexivity|]. split; [left; reflexivity|discriminate].
Qed.

(* and any message of the four protocols that an application builds with the
   generated encoders and the generators, if it gives the header of its procedure and
   no list in it has more than one element: then, and only then *)
Theorem C90_any_message_partial : forall P Q ms m d p c s v b, In (P, Q, ms) protocols -> In m ms -> ~ In (m_key m) lacking ->
  In (d, p, c, m_key m) (pr_procedures Q) -> List.length (i_fields s) = List.length (m_rows m) ->
  encode_ies m s = Some v -> generate P d p c (m_cont m) v = Some b -> b <> [] -> (conforming Q (m_key m) b <-> elements_given Q m s).
Proof. exact any_exact. Qed.
Print Assumptions C90_any_message_partial.
(* so a list of two or more elements, which an application can put into the structure, or of
   none, never makes a message of the protocol *)
Theorem C90_lists_refuted : forall P Q ms m d p c c' s v b i r l, In (P, Q, ms) protocols -> In m ms -> In (d, p, c', m_key m) (pr_procedures Q) ->
  nth_error (m_rows m) i = Some r -> wanted m s r = true -> nth_error (i_fields s) i = Some (Some (compiled_value l)) -> In (r_tyname r) (map fst (pr_lists Q)) ->
  List.length l <> 1%nat -> encode_ies m s = Some v -> generate P d p c (m_cont m) v = Some b -> forall set, ~ conforming Q set b.
Proof. exact lists_not_built. Qed.
Print Assumptions C90_lists_refuted.
Example C90_lists_ex : let m := M_RANAP_RAB_ReleaseRequestIEs in
  exists s v b r, nth_error (m_rows m) 0 = Some r /\ wanted m s r = true /\ nth_error (i_fields s) 0 = Some (Some (compiled_value two_items)) /\
    In (r_tyname r) (map fst (pr_lists ranap_protocol)) /\ encode_ies m s = Some v /\ generate ranap 1 10 1 (m_cont m) v = Some b /\ b <> [].
Proof.
  exists (mkIes 0 [Some (compiled_value two_items)]). eexists _, _, _. split; [reflexivity|]. split; [reflexivity|]. split; [reflexivity|].
  split; [|split; [vm_compute; reflexivity|split; [vm_compute; reflexivity|discriminate]]].
  apply (in_map fst _ ("RAB-ReleaseList"%string, (256%Z, "RAB-ReleaseItemIEs"%string))), lookup_in. vm_compute. reflexivity.
Qed.
(* the four messages of SABP whose table lacks a mandatory IE can not be built *)
Theorem C90_sabp_refuted : forall P Q ms m d p c c' s v b, In (P, Q, ms) protocols -> In m ms -> In (m_key m) lacking ->
  In (d, p, c', m_key m) (pr_procedures Q) -> encode_ies m s = Some v -> generate P d p c (m_cont m) v = Some b ->
  forall set, ~ conforming Q set b.
Proof. exact lacking_never_built. Qed.
Print Assumptions C90_sabp_refuted.
Example C90_any_ex :
  (In (sabp, sabp_protocol, sabp_msgs) protocols /\ In M_SABP_Kill_IEs sabp_msgs /\ ~ In (m_key M_SABP_Kill_IEs) lacking /\
   In (1%N, 1%N, 0%Z, m_key M_SABP_Kill_IEs) (pr_procedures sabp_protocol) /\
   exists s v b, List.length (i_fields s) = List.length (m_rows M_SABP_Kill_IEs) /\ elements_given sabp_protocol M_SABP_Kill_IEs s /\ encode_ies M_SABP_Kill_IEs s = Some v /\
     generate sabp 1 1 0 (m_cont M_SABP_Kill_IEs) v = Some b /\ b <> []) /\
  (In M_SABP_Kill_Complete_IEs sabp_msgs /\ In (m_key M_SABP_Kill_Complete_IEs) lacking /\
   In (2%N, 1%N, 0%Z, m_key M_SABP_Kill_Complete_IEs) (pr_procedures sabp_protocol) /\
   exists s v b, encode_ies M_SABP_Kill_Complete_IEs s = Some v /\ generate sabp 2 1 0 (m_cont M_SABP_Kill_Complete_IEs) v = Some b /\ b <> []).
Proof.
  split.
  - split; [do 3 right; left; reflexivity|]. split; [do 3 right; left; reflexivity|]. split; [intros H; repeat (destruct H as [H|H]; [discriminate|]); exact H|].
    split; [do 3 right; left; reflexivity|].
    exists (mkIes 0 [Some (VBits (repeat false 16)); Some (VBits (repeat true 16)); Some (VList [VSeq [Some (VOcts [1; 2; 3]%N); Some (VOcts [0; 1]%N); Some (VOcts [0; 9]%N)] []])]).
    eexists _, _. split; [reflexivity|]. split; [intros i r v _ _ _; split; intros max set []|]. split; [vm_compute; reflexivity|]. split; [vm_compute; reflexivity|discriminate].
  - split; [do 4 right; left; reflexivity|]. split; [do 2 right; left; reflexivity|]. split; [do 4 right; left; reflexivity|].
    exists (mkIes 0 [Some (VBits (repeat false 16)); Some (VBits (repeat true 16))]). eexists _, _. split; [vm_compute; reflexivity|]. split; [vm_compute; reflexivity|discriminate].
Qed.

(* C91: messages that the specification permits are not all read: those four of
   SABP never are, and of RANAP for instance a Relocation Command with a container
   from the target *)
Theorem C91_permitted_read_refuted :
  (forall P Q ms m declared sent l ext b, In (P, Q, ms) protocols -> In m ms -> In (m_key m) lacking -> message_with Q (m_key m) declared sent l ext b ->
     exists d p o, pdu_in (p_pdu P) b = Some (d, p, sent, o) /\ d_ok (decode_msg m o) = false) /\
  (exists l b, message_with ranap_protocol "RelocationCommandIEs" 0 0 l None b /\ x_calls (rx_ran_co b) = []).
Proof.
  split; [exact lacking_never_read|].
  exists [VSeq [Some (VInt 63); Some (VEnum 0); Some (VOcts [2; 0xaa; 0xbb]%N)] []], [0x20; 0x02; 0x00; 0x0a; 0; 0; 1; 0; 63; 0; 3; 2; 0xaa; 0xbb]%N.
  split; [|vm_compute; reflexivity].
  eexists 2%N, 2%N, _, (p_pdu ranap), [0; 0; 1; 0; 63; 0; 3; 2; 0xaa; 0xbb]%N.
  split; [do 3 right; left; reflexivity|]. split; [do 5 right; left; reflexivity|]. split; [exact (proj1 (proj2 (proj2 ranap_same)))|].
  split; [apply encode_x691; vm_compute; reflexivity|]. split; [apply encode_x691; vm_compute; reflexivity|].
  eapply (ies_sent _ _ 63%N).
  - apply (plain_value _ _ (TOcts None) (VOcts [0xaa; 0xbb]%N)); vm_compute; reflexivity.
  - repeat (apply ies_left; [discriminate|]). constructor.
Qed.
Print Assumptions C91_permitted_read_refuted.
(* ... and a RAB Release Request of two RABs is read, but its second RAB is not in what
   the application gets *)
Theorem C91_lists_refuted : exists l b s, message_with ranap_protocol "RAB-ReleaseRequestIEs" 1 1 l None b /\
  x_calls (rx_cn_co b) = [mkRmsg 1 10 1 (Some (M_RANAP_RAB_ReleaseRequestIEs, s))] /\ ~ reported ranap_protocol M_RANAP_RAB_ReleaseRequestIEs l s.
Proof.
  exists two_ies, two_message, (mkIes 0 [Some (compiled_value [item [0; 66; 208]%N])]). split; [exact two_permitted|]. split; [vm_compute; reflexivity|].
  intros H. destruct (H 0 _ eq_refl) as [(c&oct&v&[E|[]]&(HL&_)&Hv)|(Hp&_)]; [|apply Hp; reflexivity]. injection E as <- <-. injection Hv as <-.
  destruct (HL 256%Z "RAB-ReleaseItemIEs"%string) as (es&Hx&E); [apply lookup_in; vm_compute; reflexivity|].
  unfold compiled_value in E. injection E as <-. pose proof (x691_fun _ _ _ _ Hx two_list) as E. discriminate E.
Qed.
Print Assumptions C91_lists_refuted.
(* What is true: one of whose IEs the tables lost none is read whatever follows it
   and whatever extensions it has, with the values that were sent but for the elements of a
   list after the first, so with all of them exactly if no list has more than one ... *)
Theorem C91_permitted_read_partial : forall P Q ms m declared sent l ext b rest, In (P, Q, ms) protocols -> In m ms ->
  message_with Q (m_key m) declared sent l ext b ->
  exists d p o, In (d, p, declared, m_key m) (pr_procedures Q) /\ pdu_in (p_pdu P) (b ++ rest) = Some (d, p, sent, o) /\
    (d_ok (decode_msg m o) = true <-> known m l) /\
    (known m l -> first_reported Q m l (d_ies (decode_msg m o)) /\ (reported Q m l (d_ies (decode_msg m o)) <-> single Q m l)).
Proof. exact read_message. Qed.
Print Assumptions C91_permitted_read_partial.
(* ... and only the tables of nineteen object sets lost any *)
Theorem C91_complete_tables : forall P Q ms m declared sent l ext b, In (P, Q, ms) protocols -> In m ms -> ~ In (m_key m) incomplete ->
  message_with Q (m_key m) declared sent l ext b -> known m l.
Proof. exact read_complete. Qed.
Print Assumptions C91_complete_tables.
(* So on the receive paths: a permitted message of the path's list is delivered
   with its values, or not at all *)
Theorem C91_delivered_partial : forall d p m declared sent l ext b rest, In (d, p, declared, m_key m) ranap_procedures -> In m ranap_msgs ->
  message_with ranap_protocol (m_key m) declared sent l ext b ->
  forall L rx, In (L, rx) [(cn_connection, rx_cn_co); (cn_connectionless, rx_cn_cl); (ran_connection, rx_ran_co)] -> In (d, p, m_key m) L ->
  (known m l -> exists s, x_calls (rx (b ++ rest)) = [mkRmsg d p sent (Some (m, s))] /\
     first_reported ranap_protocol m l s /\ (reported ranap_protocol m l s <-> single ranap_protocol m l)) /\
  (~ known m l -> x_calls (rx (b ++ rest)) = []).
Proof.
  intros d p m declared sent l ext b rest Hp Hm HM L rx [E|[E|[E|[]]]] HL; inversion E; subst; eapply deliver; try eassumption; intros data d' p' cr o Hd.
  - exact (proj1 (cn_co_exact data d' p' cr o Hd)).
  - exact (proj1 (cn_cl_exact data d' p' cr o Hd)).
  - exact (proj1 (ran_co_exact data d' p' cr o Hd)).
Qed.
Print Assumptions C91_delivered_partial.
Example C91_ex : (* an Iu Release Request with a cause and an extension *)
  let l := [VSeq [Some (VInt 4); Some (VEnum 1); Some (VOcts [0x0b; 0x40]%N)] []] in
  let ext := Some [VSeq [Some (VInt 200); Some (VEnum 1); Some (VOcts [0]%N)] []] in
  let b := [0x00; 0x0b; 0x40; 0x10; 0x40; 0; 1; 0; 4; 0x40; 2; 0x0b; 0x40; 0; 0; 0; 0xc8; 0x40; 1; 0]%N in
  let m := M_RANAP_Iu_ReleaseRequestIEs in
  message_with ranap_protocol (m_key m) 1 1 l ext b /\ known m l /\ single ranap_protocol m l /\ In (1%N, 11%N, 1%Z, m_key m) ranap_procedures /\
  In (1%N, 11%N, m_key m) cn_connection /\ ~ In (m_key m) incomplete.
Proof.
  cbv zeta. split; [|split; [|split; [|split; [|split]]]].
  - exists 1%N, 11%N, [("id-Cause"%string, 4%N, 1%Z, "Cause"%string, Mandatory)], (p_pdu ranap), [0x40; 0; 1; 0; 4; 0x40; 2; 0x0b; 0x40; 0; 0; 0; 0xc8; 0x40; 1; 0]%N.
    split; [apply in_procs_ok; vm_compute; reflexivity|]. split; [exact (nth_error_In (pr_sets ranap_protocol) 37 eq_refl)|].
    split; [exact (proj1 (proj2 (proj2 ranap_same)))|]. split; [apply encode_x691; vm_compute; reflexivity|].
    split; [apply encode_x691; vm_compute; reflexivity|].
    apply (ies_sent _ _ 4%N); [|constructor]. apply (plain_value _ _ RanapTypes.T_RANAP_Cause (VChoice 0 (VInt 46))); vm_compute; reflexivity.
  - intros ie id c o [<-|[]] E. injection E as <- _ _. left. reflexivity.
  - intros r c oct max set es [<-|[]] _ Hin. exfalso. revert Hin. apply lookup_none. vm_compute. reflexivity.
  - apply in_procs_ok. vm_compute. reflexivity.
  - do 5 right. left. reflexivity.
  - intros H. repeat (destruct H as [H|H]; [discriminate|]). exact H.
Qed.
