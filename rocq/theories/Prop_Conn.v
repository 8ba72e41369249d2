(* C39-C44: connections and UE contexts.  A history is a list of SCCP
   primitives, timer expiries and API calls; the environment [E] decides what
   the codec, SCCP and the application (which may call any API function in any
   callback) do. *)
From Verif Require Import Base Lai IuClient IuClient_spec IuClient_conn IuClient_life2 IuClient_loss2 IuClient_inv IuClient_ex.

(* C39 *)
Theorem C39_uplink_routing :
  forall E l c d,
    let w := reach E l in
    let s := w_st w in
    match ue_on s c with
    | Some u =>
        In u (s_ues s) /\ u_conn u = c /\
        (forall u', In u' (s_ues s) -> u_conn u' = c -> (u_ptr u' <= u_ptr u)%N) /\
        exists t, added (w_tr w) (w_tr (fst (exec E (ODataInd c d) w))) t /\
          (forall q, In q (recvs t) -> fst (fst (fst q)) = u_ptr u) /\
          (forall q, In q (events t) -> fst q = Some (u_ptr u))
    | None =>
        pending s c = None ->
        exec E (ODataInd c d) w = (mkW s (EPrimFree :: w_tr w), Some tt)
    end.
Proof. exact routing_l. Qed.
Print Assumptions C39_uplink_routing.
Example C39_ex :
  option_map u_ptr (ue_on (w_st (reach E0 h0)) 5) = Some 1%N /\
  recvs (rev (w_tr (fst (exec E0 (ODataInd 5 [3%N]) (mkW (w_st (reach E0 h0)) []))))) = [(1, [9; 9], None, None)]%N /\
  ue_on (w_st (reach E0 h0)) 99 = None /\ pending (w_st (reach E0 h0)) 99 = None.
Proof. vm_compute. auto. Qed.

(* C40: false of the code for NAS PDUs of more than 256 octets: msgb_put aborts *)
Theorem C40_long_nas_refuted :
  exists E l c d u,
    snd (run E l w0) = Some tt /\ ue_on (w_st (reach E l)) c = Some u /\
    dec_co E d = Some (dt (repeat 7%N 257)) /\
    snd (exec E (ODataInd c d) (reach E l)) = None /\
    recvs (w_tr (fst (exec E (ODataInd c d) (mkW (w_st (reach E l)) [])))) = [] /\
    faults (w_tr (fst (exec E (ODataInd c d) (mkW (w_st (reach E l)) [])))) = [Assertion].
Proof.
  exists (ex_env [initial 10 None 1 [1; 2]%N; dt (repeat 7%N 257)] 0 no_app).
  exists [OConnectInd 5 (mk_addr 100) [0%N]], 5%N, [1%N].
  eexists. split; [vm_compute; reflexivity|]. split; [vm_compute; reflexivity|]. vm_compute. auto.
Qed.
Print Assumptions C40_long_nas_refuted.
(* true for up to 256 octets, and the exact outcome for longer ones.  Missing:
   delivery of longer PDUs, which is false. *)
Theorem C40_direct_transfer_delivery_partial :
  forall E l c d msg u ra sai,
    let w := reach E l in
    ue_on (w_st w) c = Some u ->
    dec_co E msg = Some (mkMsg PR_initiatingMessage id_DirectTransfer (I_DirectTransfer d)) ->
    dt_info d = Some (ra, sai) ->
    exists t, added (w_tr w) (w_tr (fst (exec E (ODataInd c msg) w))) t /\
      if length (dt_nas d) <=? 256
      then recvs t = [(u_ptr u, dt_nas d, ra, sai)]
      else t = [EBufAlloc; EFault Assertion].
Proof. exact dt_delivery_l. Qed.
Print Assumptions C40_direct_transfer_delivery_partial.
Theorem C40_initial_ue_delivery_partial :
  forall E l o x,
    let w := reach E l in
    let res := exec E o w in
    opens E (w_st w) o = Some x -> snd res = Some tt ->
    exists t p, added (w_tr w) (w_tr (fst res)) t /\
      recvs t = [(p, acc_nas (op_acc x), Some (acc_ra (op_acc x)), Some (acc_sai (op_acc x)))].
Proof. intros E l o x w res H1 H2. destruct (created_l E l o x H1 H2) as (t&p&H3&H4&_). exists t, p. auto. Qed.
Print Assumptions C40_initial_ue_delivery_partial.
Example C40_ex :
  let w := reach E0 h0 in
  option_map u_conn (ue_on (w_st w) 5) = Some 5%N /\
  dt_info (mkDt [9; 9]%N (Some (mkRLai plmn_26242 [0; 10]%N)) (Some [3%N]) (Some [1; 2]%N)) =
    Some (Some (mkRaId 262 42 false 10 3), Some 258%N) /\
  match opens E0 (w_st w) (OConnectInd 8 (mk_addr 100) [0%N]) with
  | Some x => acc_nas (op_acc x) = [1; 2]%N /\ acc_sai (op_acc x) = 7%N
  | None => False
  end.
Proof. vm_compute. auto. Qed.

(* C41 *)
Theorem C41_connect_answered_first_and_once :
  forall E l o,
    let w := reach E l in
    exists t, added (w_tr w) (w_tr (fst (exec E o w))) t /\
      filter (fun e => match e with ESccp (NConnectResp _) => true | _ => false end) t =
        match o with OConnectInd c _ _ => [ESccp (NConnectResp c)] | _ => [] end /\
      match o with OConnectInd c _ _ => exists t', t = ESccp (NConnectResp c) :: t' | _ => True end.
Proof. exact connect_resp_l. Qed.
Print Assumptions C41_connect_answered_first_and_once.
Example C41_ex : (* garbage is answered too *)
  w_tr (fst (exec E0 (OConnectInd 9 (mk_addr 1) [200%N]) w0)) = [EPrimFree; ESccp (NConnectResp 9)].
Proof. reflexivity. Qed.

(* C42: an empty connect, anything about other connections, then data.  The
   right hand side is a connect with that data in the same state, without the
   remembered address. *)
Theorem C42_empty_connect_then_data :
  forall E l1 c a l2 d, d <> [] ->
    snd (run E l1 w0) = Some tt -> ue_on (w_st (reach E l1)) c = None ->
    (forall o, In o l2 -> conn_of o <> Some c) ->
    let s := w_st (reach E (l1 ++ OConnectInd c a [] :: l2)) in
    forall tr,
      exec E (ODataInd c d) (mkW s (ESccp (NConnectResp c) :: tr)) =
      exec E (OConnectInd c a d) (forget c (mkW s tr)).
Proof.
  intros E l1 c a l2 d Hd Hr Hu Ho s tr. destruct (empty_connect_l E l1 c a l2 Hr Hu Ho) as [H1 H2].
  exact (late_data_l E s tr c a d Hd H2 H1).
Qed.
Print Assumptions C42_empty_connect_then_data.
(* the remembered address is used up by the first data, whatever it is *)
Theorem C42_remembered_address_used_once :
  forall E l1 c a l2 d,
    snd (run E l1 w0) = Some tt -> ue_on (w_st (reach E l1)) c = None ->
    (forall o, In o l2 -> conn_of o <> Some c) ->
    let w := reach E (l1 ++ OConnectInd c a [] :: l2) in
    pending (w_st w) c = Some a /\
    pending (w_st (fst (exec E (ODataInd c d) w))) c = pending (w_st (reach E l1)) c.
Proof.
  intros E l1 c a l2 d Hr Hu Ho w. split; [apply empty_connect_l; auto|apply empty_connect_use_l; auto].
Qed.
Print Assumptions C42_remembered_address_used_once.
Example C42_ex :
  let l1 := [OConnectInd 5 (mk_addr 100) [0%N]] in
  snd (run E0 l1 w0) = Some tt /\ ue_on (w_st (reach E0 l1)) 6 = None /\
  let w := reach E0 (l1 ++ OConnectInd 6 (mk_addr 200) [] :: [ODataInd 5 [3%N]]) in
  pending (w_st w) 6 = Some (mk_addr 200) /\
  recvs (w_tr (fst (exec E0 (ODataInd 6 [1%N]) (mkW (w_st w) [])))) = [(3, [3], Some (mkRaId 262 42 false 10 255), Some 7)]%N /\
  pending (w_st (fst (exec E0 (ODataInd 6 [1%N]) w))) 6 = None.
Proof. vm_compute. auto. Qed.

(* C43 *)
Theorem C43_only_initial_ue_creates :
  forall E l o u',
    let w := reach E l in
    In u' (s_ues (w_st (fst (exec E o w)))) ->
    (exists u, In u (s_ues (w_st w)) /\ u_ptr u' = u_ptr u /\ u_conn u' = u_conn u /\
               u_rnc u' = u_rnc u /\ u_ra u' = u_ra u) \/
    (exists x, opens E (w_st w) o = Some x /\ u_conn u' = op_conn x /\ u_ra u' = acc_ra (op_acc x) /\
       forall u, In u (s_ues (w_st w)) -> (u_ptr u < u_ptr u')%N).
Proof. exact created_only_l. Qed.
Print Assumptions C43_only_initial_ue_creates.
Theorem C43_initial_ue_creates :
  forall E l o x,
    let w := reach E l in
    let res := exec E o w in
    opens E (w_st w) o = Some x -> snd res = Some tt ->
    exists t p, added (w_tr w) (w_tr (fst res)) t /\
      recvs t = [(p, acc_nas (op_acc x), Some (acc_ra (op_acc x)), Some (acc_sai (op_acc x)))] /\
      (forall u, In u (s_ues (w_st w)) -> (u_ptr u < p)%N) /\
      (In (EApi (AFreeUe (Some p))) t \/
       exists u n, In u (s_ues (w_st (fst res))) /\ u_ptr u = p /\ u_conn u = op_conn x /\
         u_ra u = acc_ra (op_acc x) /\
         In n (s_rncs (w_st (fst res))) /\ n_ptr n = u_rnc u /\
         rnc_id_eqb (n_id n) (acc_id (op_acc x)) = true /\
         (touched_b p t = false -> u_notif u = true /\ u_for u = false /\ u_timer u = None)).
Proof. exact created_l. Qed.
Print Assumptions C43_initial_ue_creates.
Example C43_ex :
  let w := reach E0 h0 in
  map u_conn (s_ues (w_st w)) = [7; 6; 5]%N /\
  opens E0 (w_st w) (OConnectInd 8 (mk_addr 100) [0%N]) <> None /\
  map u_conn (s_ues (w_st (fst (exec E0 (OConnectInd 8 (mk_addr 100) [0%N]) w)))) = [8; 7; 6; 5]%N /\
  (* an Initial UE Message on an existing connection, and a Direct Transfer on a new one *)
  opens E0 (w_st w) (ODataInd 5 [0%N]) = None /\
  opens E0 (w_st w) (OConnectInd 8 (mk_addr 100) [3%N]) = None.
Proof. vm_compute. repeat split; discriminate. Qed.

(* C44 *)
Theorem C44_disconnect_with_ue :
  forall E l c d u, fresh_conns E l ->
    let w := reach E l in
    let res := exec E (ODisconnectInd c d) w in
    ue_on (w_st w) c = Some u -> snd res = Some tt ->
    exists t1 t2, added (w_tr w) (w_tr (fst res)) (t1 ++ t2 ++ [EPrimFree]) /\
      (* first the payload, handled like received data *)
      (if (length d =? 0) then t1 = [] else
         added (w_tr w) (w_tr (fst (exec E (ODataInd c d) (forget c w)))) (t1 ++ [EPrimFree])) /\
      link_events t1 = [] /\ recvs t2 = [] /\
      (* then one event *)
      events t2 = (if has_event_cb E && u_notif u && negb (touched_b (u_ptr u) t1)
                   then [(Some (u_ptr u), EvLinkInvalidated)] else []) /\
      (* no context waiting for its release is left on the connection *)
      (forall v, In v (s_ues (w_st (fst res))) -> u_conn v = c -> u_for v = false).
Proof. exact disconnect_l. Qed.
Print Assumptions C44_disconnect_with_ue.
Theorem C44_disconnect_without_ue :
  forall E l c d, ue_on (w_st (reach E l)) c = None ->
    let w := reach E l in
    exec E (ODisconnectInd c d) w = (mkW (w_st (forget c w)) (EPrimFree :: w_tr w), Some tt).
Proof. intros E l c d H. exact (disc_none_l E _ c d H). Qed.
Print Assumptions C44_disconnect_without_ue.
Theorem C44_disconnect_drops_remembered_address :
  forall E l c d,
    let w := reach E l in
    remembered (w_st (fst (exec E (ODisconnectInd c d) w))) c = tl (remembered (w_st w) c) /\
    forall c', c' <> c -> remembered (w_st (fst (exec E (ODisconnectInd c d) w))) c' = remembered (w_st w) c'.
Proof.
  intros E l c d w. split; [|intros c' Hc]; unfold w; rewrite (exec_remembered E _ _ _ (reach_good E l)).
  - rewrite N.eqb_refl. reflexivity.
  - apply N.eqb_neq in Hc. rewrite Hc. reflexivity.
Qed.
Print Assumptions C44_disconnect_drops_remembered_address.
Example C44_ex :
  let E := ex_env msgs0 0 free_subject in
  let w := reach E h0 in
  fresh_conns E h0 /\ option_map u_notif (ue_on (w_st w) 5) = Some true /\
  snd (exec E (ODisconnectInd 5 [3%N]) w) = Some tt /\
  rev (w_tr (fst (exec E (ODisconnectInd 5 [3%N]) (mkW (w_st w) [])))) =
    [EBufAlloc; ERecv 1%N [9; 9]%N None None; EBufFree; EEvent (Some 1%N) EvLinkInvalidated;
     EApi (AFreeUe (Some 1%N)); ESccp (NDisconnectReq 5); ERet 0; EPrimFree] /\
  map u_conn (s_ues (w_st (fst (exec E (ODisconnectInd 5 [3%N]) w)))) = [7; 6]%N /\
  remembered (w_st (fst (exec E (OConnectInd 5 (mk_addr 1) []) w0))) 5 = [mk_addr 1].
Proof. split; [apply fresh_ex; vm_compute; reflexivity|]. vm_compute. auto. Qed.
