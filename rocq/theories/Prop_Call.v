(* C68-C70: what uplink messages tell, what calls do, legacy paging; C49: timers *)
From Verif Require Import Base Lai IuClient IuClient_spec IuClient_call_spec IuClient_call IuClient_ex.

(* C40: of all the messages on the connection of a UE context, exactly these give
   something to the receive callback, once, for this context.  Missing: longer NAS
   PDUs, for which it is false. *)
Theorem C40_delivered_exactly_partial :
  forall E l conn msg m u,
    let w := reach E l in
    ue_on (w_st w) conn = Some u -> dec_co E msg = Some m ->
    exists t, added (w_tr w) (w_tr (fst (exec E (ODataInd conn msg) w))) t /\
      recvs t = match delivers m with
                | Some (nas, area, sac) => [(u_ptr u, nas, area, sac)]
                | None => []
                end.
Proof. exact delivery_l. Qed.
Print Assumptions C40_delivered_exactly_partial.
(* an area without a PLMN is not readable: nothing is delivered *)
Example C40_delivered_ex :
  let lai x := mkRLai plmn_26242 x in
  let good := mkMsg 1 20 (I_DirectTransfer (mkDt [9; 9]%N (Some (lai [0; 10]%N)) (Some [3%N]) None)) in
  let bad := mkMsg 1 20 (I_DirectTransfer (mkDt [9; 9]%N (Some (mkRLai [] [0; 10]%N)) (Some [3%N]) None)) in
  let E := ex_env (msgs0 ++ [good; bad]) 0 no_app in
  let w := reach E h0 in
  let got b := recvs (w_tr (fst (exec E (ODataInd 5 [b]) (mkW (w_st w) [])))) in
  ue_on (w_st w) 5 <> None /\
  delivers good = Some ([9; 9]%N, Some (mkRaId 262 42 false 10 3), None) /\ delivers bad = None /\
  got (N.of_nat (length msgs0)) = [(1%N, [9; 9]%N, Some (mkRaId 262 42 false 10 3), None)] /\
  got (N.of_nat (length msgs0) + 1)%N = [].
Proof. split; [vm_compute; discriminate|]. vm_compute. auto. Qed.

(* C68: a message on the connection of a UE context leads to the event it stands
   for, once, and to no other *)
Theorem C68_uplink_event_exact :
  forall E l conn msg m u,
    let w := reach E l in
    ue_on (w_st w) conn = Some u -> dec_co E msg = Some m ->
    exists t, added (w_tr w) (w_tr (fst (exec E (ODataInd conn msg) w))) t /\
      events t = match told E m with
                 | Some ev => if has_event_cb E && u_notif u then [(Some (u_ptr u), ev)] else []
                 | None => []
                 end.
Proof. exact uplink_event_l. Qed.
Print Assumptions C68_uplink_event_exact.
(* every other message is dropped *)
Theorem C68_other_messages_dropped :
  forall E l conn msg m u,
    let w := reach E l in
    ue_on (w_st w) conn = Some u -> dec_co E msg = Some m -> handled m = false ->
    exec E (ODataInd conn msg) w = (mkW (w_st w) (EPrimFree :: w_tr w), Some tt).
Proof. exact unhandled_l. Qed.
Print Assumptions C68_other_messages_dropped.
Theorem C68_undecodable_dropped :
  forall E l conn msg u,
    let w := reach E l in
    ue_on (w_st w) conn = Some u -> dec_co E msg = None ->
    exec E (ODataInd conn msg) w = (mkW (w_st w) (EPrimFree :: w_tr w), Some tt).
Proof. exact undecodable_l. Qed.
Print Assumptions C68_undecodable_dropped.
Example C68_ex :
  let smc := mkMsg 2 6 I_Other in
  let rab := mkMsg 4 0 (I_RabAssignmentResponse (Some [[1]; [2]]%N)) in
  let none := mkMsg 4 0 (I_RabAssignmentResponse None) in
  let other := mkMsg 2 14 I_Other in
  let E := ex_env (msgs0 ++ [smc; rab; none; other]) 0 no_app in
  let w := reach E h0 in
  let told_by b := events (rev (firstn (length (w_tr (fst (exec E (ODataInd 5 [b]) w))) - length (w_tr w))
                                       (w_tr (fst (exec E (ODataInd 5 [b]) w))))) in
  ue_on (w_st w) 5 <> None /\
  told_by 6%N = [(Some 1%N, EvSecurityModeComplete)] /\ told_by 5%N = [(Some 1%N, EvIuRelease)] /\
  told_by 7%N = [(Some 1%N, EvRabAssign 5)] /\ told_by 8%N = [] /\ told_by 9%N = [] /\
  handled other = false /\ handled rab = true /\ told_by 99%N = [].
Proof. vm_compute. repeat split; try reflexivity; discriminate. Qed.

(* C69: each call about a live context, from the main loop or from a callback *)
Theorem C69_call_exact :
  forall E w a p u k,
    api_target a = Some p -> live (w_st w) p = Some u -> call_of u a = Some k ->
    (forall m, api_msg a = Some (p, m) -> enc_ok E m = true) ->
    let tr := rev (k_before k) ++ EApi a :: w_tr w in
    let rc := send E tr (k_req k) in
    run_api E a w = (mkW (change p (k_ctx k rc) (w_st w)) (ERet (k_ret k rc) :: ESccp (k_req k) :: tr), Some tt).
Proof. exact call_l. Qed.
Print Assumptions C69_call_exact.
(* every call with a target is covered by the table *)
Theorem C69_call_total : forall u a p, api_target a = Some p -> call_of u a <> None.
Proof.
  intros u [b [q|] nas sapi|q ik ck sck nk|q imsi|q c|q c d|[q|]|q m|q r|i t l|i t l r|i t l|i t r] p H; discriminate.
Qed.
Print Assumptions C69_call_total.
(* calls without a target: ENOTCONN, deactivation not implemented, free of NULL *)
Theorem C69_call_without_context :
  forall E w a r,
    (match a with
     | ATx _ None _ _ => r = (-107)%Z
     | ARabDeact _ _ => r = (-1)%Z
     | AFreeUe None => r = 0%Z
     | _ => False end) ->
    run_api E a w = (mkW (w_st w) (ERet r :: EApi a :: w_tr w), Some tt).
Proof. exact no_target_l. Qed.
Print Assumptions C69_call_without_context.
(* a call about a context that no longer exists reads freed memory *)
Theorem C69_call_after_free :
  forall E w a p, api_target a = Some p -> live (w_st w) p = None ->
    (forall m, api_msg a = Some (p, m) -> enc_ok E m = true) ->
    run_api E a w = (mkW (w_st w) (EFault UseAfterFree :: EApi a :: w_tr w), None).
Proof. exact dead_target_l. Qed.
Print Assumptions C69_call_after_free.
Example C69_ex :
  let w := reach E0 h0 in
  exists u, live (w_st w) 1%N = Some u /\ u_conn u = 5%N /\
    (* a NAS message, its buffer released; a release with a timeout of 4 seconds *)
    w_tr (fst (run_api E0 (ATx 77 (Some 1%N) [1; 2]%N 0) w)) =
      [ERet 0; ESccp (NDataReq 5 (DL_DirectTransfer 0 [1; 2]%N)); ENasFree 77;
       EApi (ATx 77 (Some 1%N) [1; 2]%N 0)] ++ w_tr w /\
    option_map u_timer (live (w_st (fst (run_api E0 (ATxReleaseFree 1%N None 4) w))) 1%N) = Some (Some 4%Z) /\
    live (w_st (fst (run_api E0 (AFreeUe (Some 1%N)) w))) 1%N = None /\
    snd (run_api E0 (ATxRelease 9%N None) w) = None.
Proof. vm_compute. eexists. repeat split; reflexivity. Qed.

(* C70 *)
Theorem C70_legacy_paging_exact :
  forall E l imsi tmsi lac rac a ps,
    let w := reach E l in
    (a = APageCs imsi tmsi lac /\ rac = 0%N /\ ps = false \/ a = APagePs imsi tmsi lac rac /\ ps = true) ->
    enc_ok E (DL_Paging imsi tmsi ps 0) = true ->
    let h := registrations E l in
    (exists addr, serves_lac_rac E h lac rac addr /\
       let req := NUnitdataReq addr (DL_Paging imsi tmsi ps 0) in
       let rc := send E (EApi a :: w_tr w) req in
       exec E (OApi a) w =
         (mkW (w_st w) (ERet (if (rc =? 0)%Z then 1 else 0) :: ESccp req :: EApi a :: w_tr w), Some tt))
    \/ ((forall addr, ~ serves_lac_rac E h lac rac addr) /\
       exec E (OApi a) w = (mkW (w_st w) (ERet 0 :: EApi a :: w_tr w), Some tt)).
Proof. exact legacy_l. Qed.
Print Assumptions C70_legacy_paging_exact.
Example C70_ex : (* RAC 3 of LAC 10 belongs to RNC 2, last seen at 201; RAC 4 to nobody *)
  let w := reach E0 h0 in
  firstn 2 (w_tr (fst (exec E0 (OApi (APagePs [1]%N None 10 3)) w))) =
    [ERet 1; ESccp (NUnitdataReq (mk_addr 201) (DL_Paging [1]%N None true 0))] /\
  firstn 1 (w_tr (fst (exec (ex_env msgs0 (-1) no_app) (OApi (APagePs [1]%N None 10 3)) w))) = [ERet 0] /\
  firstn 2 (w_tr (fst (exec E0 (OApi (APagePs [1]%N None 10 4)) w))) = [ERet 0; EApi (APagePs [1]%N None 10 4)].
Proof. vm_compute. repeat split. Qed.

(* C49, in every history: a running timer belongs to a context that was silenced
   for good, so that its expiry is never reported *)
Theorem C49_armed_timer_is_silenced :
  forall E l u, In u (s_ues (w_st (reach E l))) -> u_timer u <> None ->
    u_notif u = false /\ u_for u = true.
Proof. exact armed_l. Qed.
Print Assumptions C49_armed_timer_is_silenced.
Theorem C49_timer_never_reports :
  forall E l p, let w := reach E l in
    snd (exec E (OTimer p) w) = Some tt /\ w_tr (fst (exec E (OTimer p) w)) = w_tr w.
Proof. exact timer_silent_l. Qed.
Print Assumptions C49_timer_never_reports.
Example C49_timer_ex :
  let l := h0 ++ [OApi (ATxReleaseFree 1%N None 4)] in
  exists u, In u (s_ues (w_st (reach E0 l))) /\ u_timer u = Some 4%Z.
Proof. vm_compute. eexists. split; [right; right; left; reflexivity|reflexivity]. Qed.
