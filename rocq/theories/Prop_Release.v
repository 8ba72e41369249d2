(* C49-C56: release, reset, buffers, encoder failure *)
From Verif Require Import Base Lai IuClient IuClient_spec IuClient_conn IuClient_rel IuClient_rel2 IuClient_ex.

(* C49: false of the code: neither the timeout nor the Release Complete leads to
   an event or frees the context.  First a concrete history, then for every
   history, context, cause and timeout. *)
Theorem C49_release_free_reports_refuted :
  exists E l p,
    In (OApi (ATxReleaseFree p None 4)) l /\ snd (run E l w0) = Some tt /\ has_event_cb E = true /\
    live (w_st (reach E l)) p <> None /\
    (* its timer fires and its Release Complete arrives *)
    let l' := l ++ [OTimer p; ODataInd 5 [5%N]] in
    dec_co E [5%N] = Some (mkMsg PR_successfulOutcome id_Iu_Release I_Other) /\
    ue_on (w_st (reach E l)) 5 = live (w_st (reach E l)) p /\
    snd (run E l' w0) = Some tt /\
    (forall e, ~ In (EEvent (Some p) e) (w_tr (reach E l'))) /\ live (w_st (reach E l')) p <> None.
Proof.
  exists E0, (h0 ++ [OApi (ATxReleaseFree 1%N None 4)]), 1%N.
  split; [cbn; auto 8|]. split; [vm_compute; reflexivity|]. split; [reflexivity|].
  split; [vm_compute; discriminate|]. split; [reflexivity|]. split; [vm_compute; reflexivity|].
  split; [vm_compute; reflexivity|]. split.
  - intros e H. vm_compute in H. repeat (destruct H as [H|H]; [discriminate H|]). destruct H.
  - vm_compute; discriminate.
Qed.
Print Assumptions C49_release_free_reports_refuted.
Theorem C49_release_free_never_reports :
  forall E l p c d,
    let h := l ++ [OApi (ATxReleaseFree p c d)] in
    let w := reach E h in
    snd (run E h w0) = Some tt ->
    (exists w', exec E (OTimer p) w = (w', Some tt) /\ w_tr w' = w_tr w /\ live (w_st w') p <> None) /\
    (forall conn msg u i, ue_on (w_st w) conn = Some u -> u_ptr u = p ->
       dec_co E msg = Some (mkMsg PR_successfulOutcome id_Iu_Release i) ->
       exec E (ODataInd conn msg) w = (mkW (w_st w) (EPrimFree :: w_tr w), Some tt)).
Proof. exact release_free_l. Qed.
Print Assumptions C49_release_free_never_reports.

(* C50: in the whole trace (newest first), no event about a context is more
   recent than a release with free of it *)
Theorem C50_no_event_after_release_free :
  forall E l p c d t1 ev t2,
    w_tr (reach E l) = t1 ++ EEvent (Some p) ev :: t2 -> ~ In (EApi (ATxReleaseFree p c d)) t2.
Proof. exact no_event_after_l. Qed.
Print Assumptions C50_no_event_after_release_free.
Example C50_ex : (* an event before it, none after it although the connection is lost *)
  let l := h0 ++ [OApi (ATxReleaseFree 1%N None 4); ODisconnectInd 5 []; ODisconnectInd 6 []] in
  events (rev (w_tr (reach E0 l))) = events (rev (w_tr (reach E0 h0))) ++ [(Some 3%N, EvLinkInvalidated)] /\
  In (EApi (ATxReleaseFree 1%N None 4)) (w_tr (reach E0 l)) /\
  events (rev (w_tr (reach E0 (h0 ++ [ODisconnectInd 5 []])))) =
    events (rev (w_tr (reach E0 h0))) ++ [(Some 1%N, EvLinkInvalidated)].
Proof. vm_compute. auto 20. Qed.

(* C51: false of the code when SCCP reuses the connection id *)
Theorem C51_free_closes_own_connection_refuted :
  exists E l p, snd (run E l w0) = Some tt /\
    (exists u v, live (w_st (reach E l)) p = Some u /\ In v (s_ues (w_st (reach E l))) /\ u_ptr v <> p /\
       u_conn v = 5%N) /\
    (* the connection of p was closed by the peer, a new one has its id *)
    l = [OConnectInd 5 (mk_addr 100) [0%N]; ODisconnectInd 5 []; OConnectInd 5 (mk_addr 100) [0%N]] /\
    sends (w_tr (fst (exec E (OApi (AFreeUe (Some p))) (mkW (w_st (reach E l)) [])))) = [NDisconnectReq 5%N].
Proof.
  exists E0, [OConnectInd 5 (mk_addr 100) [0%N]; ODisconnectInd 5 []; OConnectInd 5 (mk_addr 100) [0%N]], 1%N.
  split; [vm_compute; reflexivity|]. split; [|split; vm_compute; reflexivity].
  eexists; eexists. split; [vm_compute; reflexivity|]. split; [vm_compute; left; reflexivity|].
  split; [discriminate|reflexivity].
Qed.
Print Assumptions C51_free_closes_own_connection_refuted.
(* it sends exactly one disconnect, for the connection id of the freed context,
   removes that context and nothing else, and if ids are not reused while a
   context has them, no other context has that connection *)
Theorem C51_free_closes_own_connection_partial :
  forall E l p u,
    let w := reach E l in
    live (w_st w) p = Some u ->
    exists t, exec E (OApi (AFreeUe (Some p))) w =
      (mkW (set_ues (w_st w) (filter (fun u => negb (u_ptr u =? p)%N) (s_ues (w_st w)))) (rev t ++ w_tr w), Some tt) /\
      sends t = [NDisconnectReq (u_conn u)] /\
      (fresh_conns E l -> forall v, In v (s_ues (w_st w)) -> u_ptr v <> p -> u_conn v <> u_conn u).
Proof. exact free_l. Qed.
Print Assumptions C51_free_closes_own_connection_partial.
Example C51_ex :
  fresh_conns E0 h0 /\ option_map u_conn (live (w_st (reach E0 h0)) 3%N) = Some 6%N /\
  map u_conn (s_ues (w_st (fst (exec E0 (OApi (AFreeUe (Some 3%N))) (reach E0 h0))))) = [7; 5]%N.
Proof. split; [apply fresh_ex; vm_compute; reflexivity|]. vm_compute. auto. Qed.

(* C52 *)
Theorem C52_release_request_answered :
  forall E l conn msg c u,
    let w := reach E l in
    ue_on (w_st w) conn = Some u ->
    dec_co E msg = Some (mkMsg PR_initiatingMessage id_Iu_ReleaseRequest (I_IuReleaseRequest c)) ->
    enc_ok E (DL_IuReleaseCmd c) = true ->
    exec E (ODataInd conn msg) w =
      (mkW (w_st w) (EPrimFree :: ESccp (NDataReq conn (DL_IuReleaseCmd c)) :: w_tr w), Some tt).
Proof. exact release_request_l. Qed.
Print Assumptions C52_release_request_answered.
Example C52_ex :
  ue_on (w_st (reach E0 h0)) 6 <> None /\
  dec_co E0 [4%N] = Some (mkMsg PR_initiatingMessage id_Iu_ReleaseRequest (I_IuReleaseRequest (mkCause 1 15))) /\
  enc_ok E0 (DL_IuReleaseCmd (mkCause 1 15)) = true /\
  hd EPrimFree (tl (w_tr (fst (exec E0 (ODataInd 6 [4%N]) (reach E0 h0))))) =
    ESccp (NDataReq 6 (DL_IuReleaseCmd (mkCause 1 15))).
Proof. split; [vm_compute; discriminate|]. vm_compute. auto. Qed.

(* C53 *)
Theorem C53_reset_acknowledged :
  forall E l calling msg d g,
    let w := reach E l in
    dec_cl E msg = Some (mkMsg PR_initiatingMessage id_Reset (I_Reset d g)) ->
    enc_ok E (DL_ResetAck d g) = true ->
    exec E (OUnitdataInd calling msg) w =
      (mkW (w_st w) (EPrimFree :: ESccp (NUnitdataReq calling (DL_ResetAck d g)) :: w_tr w), Some tt).
Proof. exact reset_ack_l. Qed.
Print Assumptions C53_reset_acknowledged.
Theorem C53_other_connectionless_ignored :
  forall E l calling msg,
    let w := reach E l in
    (forall m, dec_cl E msg = Some m -> m_dir m <> PR_initiatingMessage \/ m_proc m <> id_Reset) ->
    exec E (OUnitdataInd calling msg) w = (mkW (w_st w) (EPrimFree :: w_tr w), Some tt).
Proof. exact other_cl_l. Qed.
Print Assumptions C53_other_connectionless_ignored.
Example C53_ex :
  let m := mkMsg PR_initiatingMessage id_Reset (I_Reset 1 (Some (mkGrnc plmn_26242 23))) in
  let E := ex_env [m; mkMsg PR_initiatingMessage id_ErrorIndication I_ErrorIndication;
                   mkMsg PR_successfulOutcome id_Reset I_Other] 0 no_app in
  w_tr (fst (exec E (OUnitdataInd (mk_addr 9) [0%N]) w0)) =
    [EPrimFree; ESccp (NUnitdataReq (mk_addr 9) (DL_ResetAck 1 (Some (mkGrnc plmn_26242 23))))] /\
  w_tr (fst (exec E (OUnitdataInd (mk_addr 9) [1%N]) w0)) = [EPrimFree] /\
  w_tr (fst (exec E (OUnitdataInd (mk_addr 9) [2%N]) w0)) = [EPrimFree].
Proof. vm_compute. auto. Qed.

(* C54: the primitive is freed exactly once and as the last thing that happens;
   only a crash prevents it *)
Theorem C54_primitive_freed_once :
  forall E l o,
    let w := reach E l in
    let res := exec E o w in
    exists t, added (w_tr w) (w_tr (fst res)) t /\
      match snd res with
      | Some _ => faults t = [] /\ exists t',
          t = t' ++ (match o with OTimer _ | OApi _ => [] | _ => [EPrimFree] end) /\ ~ In EPrimFree t'
      | None => exists f t', t = t' ++ [EFault f] /\ faults t' = [] /\ ~ In EPrimFree t'
      end.
Proof. exact prim_free_l. Qed.
Print Assumptions C54_primitive_freed_once.
Example C54_ex :
  map (fun o => count (fun e => match e with EPrimFree => true | _ => false end)
                  (w_tr (fst (exec E0 o (mkW (w_st (reach E0 h0)) [])))))
    [OConnectInd 5 (mk_addr 1) []; OConnectCfm; ODisconnectInd 99 []; ODataInd 5 [3%N];
     OUnitdataInd (mk_addr 1) [3%N]; OStateInd; OOtherPrim; OTimer 1%N] = [1; 1; 1; 1; 1; 1; 1; 0].
Proof. vm_compute. reflexivity. Qed.

(* C55: false of the code: a refused message leaks its NAS buffer *)
Theorem C55_no_leak_refuted :
  exists E l o, snd (exec E o (reach E l)) = Some tt /\
    exists t, added (w_tr (reach E l)) (w_tr (fst (exec E o (reach E l)))) t /\
      In EBufAlloc t /\ ~ In EBufFree t.
Proof.
  exists (ex_env [initial 10 (Some [255%N]) 1 [1; 2]%N] 0 no_app), [], (OConnectInd 5 (mk_addr 100) [0%N]).
  split; [vm_compute; reflexivity|].
  exists [ESccp (NConnectResp 5); EBufAlloc; EPrimFree].
  split; [vm_compute; reflexivity|]. split; [right; left; reflexivity|].
  intros [H|[H|[H|[]]]]; discriminate.
Qed.
Print Assumptions C55_no_leak_refuted.
(* buffers balance in every run of every operation, except that a refused
   message leaks exactly one *)
Theorem C55_leaks_characterised_partial :
  forall E l o,
    let w := reach E l in
    let res := exec E o w in
    snd res = Some tt ->
    exists t, added (w_tr w) (w_tr (fst res)) t /\
      count is_alloc t = count is_free t + (if refuses E (w_st w) o then 1 else 0).
Proof. exact balance_l. Qed.
Print Assumptions C55_leaks_characterised_partial.
Example C55_ex :
  snd (exec E0 (ODataInd 5 [3%N]) (reach E0 h0)) = Some tt /\
  refuses E0 (w_st (reach E0 h0)) (ODataInd 5 [3%N]) = false /\
  count is_alloc (w_tr (fst (exec E0 (ODataInd 5 [3%N]) (mkW (w_st (reach E0 h0)) [])))) = 1 /\
  count is_free (w_tr (fst (exec E0 (ODataInd 5 [3%N]) (mkW (w_st (reach E0 h0)) [])))) = 1.
Proof. vm_compute. auto. Qed.

(* C56: false of the code: the result of the encoder is not checked *)
Definition bad_enc : env :=
  mkEnv (dec_co E0) (dec_cl E0) (dec_item E0)
        (fun m => match m with DL_CommonId [] => false | DL_Paging _ _ _ _ => false | _ => true end)
        (send E0) (app E0) (app_rc E0) (has_event_cb E0) (addr_dump E0) (ri_match E0).
Theorem C56_encoder_failure_refuted :
  exists E l a p u, api_msg a = Some (p, DL_CommonId []) /\
    enc_ok E (DL_CommonId []) = false /\ snd (run E l w0) = Some tt /\
    live (w_st (reach E l)) p = Some u /\
    snd (exec E (OApi a) (reach E l)) = None /\
    exists t, w_tr (fst (exec E (OApi a) (reach E l))) = EFault NullDeref :: t.
Proof.
  exists bad_enc, h0, (ATxCommonId 1%N []), 1%N. eexists.
  split; [reflexivity|]. split; [reflexivity|]. split; [vm_compute; reflexivity|].
  split; [vm_compute; reflexivity|]. split; [vm_compute; reflexivity|].
  eexists. vm_compute. reflexivity.
Qed.
Print Assumptions C56_encoder_failure_refuted.
(* every connection oriented send function sends exactly its message on the
   connection of its context if that can be encoded and crashes if not *)
Theorem C56_send_functions_partial :
  forall E a p m u w, api_msg a = Some (p, m) -> live (w_st w) p = Some u ->
    let res := run_api E a w in
    if enc_ok E m then
      snd res = Some tt /\ exists t rc, added (w_tr w) (w_tr (fst res)) (t ++ [ERet rc]) /\
        sends t = [NDataReq (u_conn u) m]
    else snd res = None /\ exists t, w_tr (fst res) = EFault NullDeref :: t.
Proof. exact encoder_failure_l. Qed.
Print Assumptions C56_send_functions_partial.
(* if everything can be encoded, an API call crashes only on a dead context *)
Theorem C56_no_other_crash_partial :
  forall E a w, (forall m, enc_ok E m = true) -> snd (run_api E a w) = None ->
    exists p, api_target a = Some p /\ live (w_st w) p = None.
Proof. exact encoder_ok_l. Qed.
Print Assumptions C56_no_other_crash_partial.
Example C56_ex :
  api_msg (ATxRelease 1%N None) = Some (1%N, DL_IuReleaseCmd (mkCause 3 83)) /\
  live (w_st (reach E0 h0)) 1%N <> None /\ (forall m, enc_ok E0 m = true).
Proof. split; [reflexivity|]. split; [vm_compute; discriminate|reflexivity]. Qed.
