(* C45-C48: loss of peers, memory safety *)
From Verif Require Import Base Lai IuClient IuClient_spec IuClient_loss2 IuClient_ex.

(* C45: [hits E o n] says that indication [o] declares RNC [n] lost *)
Theorem C45_rnc_loss :
  forall E l o, fresh_conns E l -> touches_only_subject E -> is_loss_ind o = true ->
    let w := reach E l in
    let s := w_st w in
    let res := exec E o w in
    snd res = Some tt ->
    exists t, added (w_tr w) (w_tr (fst res)) t /\
      NoDup (link_events t) /\
      (forall p, In p (link_events t) <-> has_event_cb E = true /\
         exists u n, In u (s_ues s) /\ u_ptr u = p /\ u_notif u = true /\
                     In n (s_rncs s) /\ n_ptr n = u_rnc u /\ hits E o n) /\
      (forall q e, In (q, e) (events t) -> e = EvLinkInvalidated) /\ recvs t = [] /\
      (forall u, In u (s_ues s) -> (forall n, In n (s_rncs s) -> n_ptr n = u_rnc u -> ~ hits E o n) ->
         In u (s_ues (w_st (fst res)))) /\
      (forall u n, In u (s_ues (w_st (fst res))) -> In n (s_rncs s) -> n_ptr n = u_rnc u -> hits E o n ->
         u_for u = false).
Proof. exact rnc_loss_l. Qed.
Print Assumptions C45_rnc_loss.
Theorem C45_nothing_lost :
  forall E l o, is_loss_ind o = true ->
    let w := reach E l in
    (forall n, In n (s_rncs (w_st w)) -> ~ hits E o n) ->
    exec E o w = (mkW (w_st w) (EPrimFree :: w_tr w), Some tt).
Proof. intros E l o. exact (no_loss_l E (reach E l) o). Qed.
Print Assumptions C45_nothing_lost.
Example C45_ex : (* two UEs of RNC 2, whose last address has point code 201 *)
  let E := ex_env msgs0 0 free_subject in
  let w := reach E h0 in
  fresh_conns E h0 /\ touches_only_subject E /\
  map (fun n => a_pc (n_addr n)) (s_rncs (w_st w)) = [Some 201; Some 100]%N /\
  link_events (rev (w_tr (fst (exec E (OPcstateInd 201 SpInaccessible RemAvailable) (mkW (w_st w) []))))) = [4; 3]%N /\
  map u_conn (s_ues (w_st (fst (exec E (OPcstateInd 201 SpInaccessible RemAvailable) w)))) = [5]%N /\
  link_events (w_tr (fst (exec E (ONoticeInd (mk_addr 100) 1) (mkW (w_st w) [])))) = [1]%N /\
  (* congestion *)
  fst (exec E (ONoticeInd (mk_addr 100) 2) w) = mkW (w_st w) (EPrimFree :: w_tr w).
Proof.
  split; [apply fresh_ex; vm_compute; reflexivity|]. split; [apply free_subject_touches|]. vm_compute. auto 8.
Qed.

(* C46: the decision and its effect *)
Theorem C46_reachability_decision :
  forall sp rem,
    (snd (pcstate_decision sp rem) = true <->
       sp = SpInaccessible \/ rem = RemUnavailableUnknown \/ rem = RemUnequipped \/ rem = RemInaccessible) /\
    (fst (pcstate_decision sp rem) = true <->
       snd (pcstate_decision sp rem) = false /\ (sp = SpAccessible \/ rem = RemAvailable)).
Proof.
  intros sp rem. split; [apply loss_iff|].
  destruct sp, rem; cbn; intuition discriminate.
Qed.
Print Assumptions C46_reachability_decision.
Theorem C46_no_loss_no_effect :
  forall E l pc sp rem,
    ~ (sp = SpInaccessible \/ rem = RemUnavailableUnknown \/ rem = RemUnequipped \/ rem = RemInaccessible) ->
    let w := reach E l in
    exec E (OPcstateInd pc sp rem) w = (mkW (w_st w) (EPrimFree :: w_tr w), Some tt).
Proof.
  intros E l pc sp rem H w. apply (no_loss_l E w (OPcstateInd pc sp rem) eq_refl).
  intros n _ [Hd _]. apply H. exact Hd.
Qed.
Print Assumptions C46_no_loss_no_effect.
Example C46_ex : (* values outside the enumerations *)
  pcstate_decision (SpOther 77) (RemOther 99) = (false, false) /\
  pcstate_decision SpCongested RemAvailable = (true, false) /\
  pcstate_decision SpAccessible RemUnequipped = (false, true).
Proof. auto. Qed.

(* C47: false of the code.  Two UEs of one RNC; the callback of the first frees
   the second, which is the saved "next" entry of the list walk. *)
Definition free_other : list eff -> list api :=
  fun t => match t with EEvent (Some 2%N) EvLinkInvalidated :: _ => [AFreeUe (Some 1%N)] | _ => [] end.
Theorem C47_free_in_callback_refuted :
  exists E l o,
    fresh_conns E l /\ snd (run E l w0) = Some tt /\
    (* the application frees, once, a context that exists and was not freed before *)
    (forall a, In (EApi a) (w_tr (fst (exec E o (reach E l)))) -> a = AFreeUe (Some 1%N)) /\
    live (w_st (reach E l)) 1%N <> None /\
    count (fun e => match e with EApi _ => true | _ => false end) (w_tr (fst (exec E o (reach E l)))) = 1 /\
    (* and the library touches it afterwards *)
    exists t, w_tr (fst (exec E o (reach E l))) = EFault UseAfterFree :: ERet 0 :: t.
Proof.
  exists (ex_env msgs0 0 free_other).
  exists [OConnectInd 5 (mk_addr 100) [0%N]; OConnectInd 6 (mk_addr 100) [0%N]].
  exists (ONoticeInd (mk_addr 100) 1).
  split; [apply fresh_ex; vm_compute; reflexivity|]. split; [vm_compute; reflexivity|].
  split.
  { intros a H. vm_compute in H. repeat (destruct H as [H|H]; [first [discriminate H|injection H as <-; reflexivity]|]). destruct H. }
  split; [vm_compute; discriminate|]. split; [vm_compute; reflexivity|]. eexists. vm_compute. reflexivity.
Qed.
Print Assumptions C47_free_in_callback_refuted.
(* That is the only direction that hurts: an application may free the subject and
   any contexts that were created after it.  If it never gives a context that is
   gone to a call, no freed context is touched. *)
Theorem C47_free_none_older_partial :
  forall E l, frees_none_older E -> fresh_conns E l ->
    (forall i, dec_item E i <> Fault UseAfterFree) ->
    (forall a p rest, w_tr (reach E l) = EFault UseAfterFree :: EApi a :: rest ->
       api_target a = Some p -> live (w_st (reach E l)) p <> None) ->
    ~ In (EFault UseAfterFree) (w_tr (reach E l)).
Proof.
  intros E l Hf Hc Hd Ha Hin. destruct (memory_safe_l E l Hf Hc Hd Hin) as (a&p&rest&H1&H2&H3).
  exact (Ha a p rest H1 H2 H3).
Qed.
Print Assumptions C47_free_none_older_partial.
(* the callback about context 1 frees context 2, which was created after it and has
   just been told that its link is lost *)
Definition free_newer : list eff -> list api :=
  fun t => match t with EEvent (Some 1%N) EvLinkInvalidated :: _ => [AFreeUe (Some 2%N)] | _ => [] end.
Example C47_ex :
  let E := ex_env msgs0 0 free_newer in
  let l := [OConnectInd 5 (mk_addr 100) [0%N]; OConnectInd 6 (mk_addr 100) [0%N]; ONoticeInd (mk_addr 100) 1] in
  frees_none_older E /\ fresh_conns E l /\ (forall i, dec_item E i <> Fault UseAfterFree) /\
  snd (run E l w0) = Some tt /\ In (EApi (AFreeUe (Some 2%N))) (w_tr (reach E l)) /\ map u_ptr (s_ues (w_st (reach E l))) = [1%N].
Proof.
  split.
  { intros p t q H. cbn in H. destruct p as [|[]]; cbn in H; try contradiction. destruct H as [H|[]]. injection H as <-. lia. }
  split; [apply fresh_ex; vm_compute; reflexivity|]. split; [discriminate|]. vm_compute. auto 20.
Qed.

(* C48: the library itself never touches a freed context, if the application
   frees in a LINK_INVALIDATED callback no context older than the subject and SCCP
   does not reuse the id of a connection whose context exists.  A crash by use after free
   is then directly in an API call that was given a dead context. *)
Theorem C48_memory_safety_partial :
  forall E l, frees_none_older E -> fresh_conns E l ->
    (forall i, dec_item E i <> Fault UseAfterFree) ->
    In (EFault UseAfterFree) (w_tr (reach E l)) ->
    exists a p rest, w_tr (reach E l) = EFault UseAfterFree :: EApi a :: rest /\
      api_target a = Some p /\ live (w_st (reach E l)) p = None.
Proof. exact memory_safe_l. Qed.
Print Assumptions C48_memory_safety_partial.
Example C48_ex :
  let E := ex_env msgs0 0 free_subject in
  frees_none_older E /\ fresh_conns E (h0 ++ [OPcstateInd 201 SpInaccessible RemAvailable]) /\
  (forall i, dec_item E i <> Fault UseAfterFree) /\
  snd (run E (h0 ++ [OPcstateInd 201 SpInaccessible RemAvailable]) w0) = Some tt /\
  (* the conclusion is not empty: the application itself errs *)
  w_tr (fst (exec E (OApi (ATxRelease 77%N None)) w0)) = [EFault UseAfterFree; EApi (ATxRelease 77%N None)].
Proof.
  split; [intros p t q H; apply free_subject_touches in H; subst; lia|].
  split; [apply fresh_ex; vm_compute; reflexivity|]. split; [discriminate|]. vm_compute. auto.
Qed.
(* With connection id reuse it is false: context 1 of the lost connection 5 is
   still held, the application asks for its release (allowed, documented), a new
   connection 5 opens context 2 and is lost.  The callback frees context 2; the
   library then looks up connection 5 again, finds context 1 and frees that,
   which is the saved next entry. *)
Definition h48 : list op :=
  [OConnectInd 5 (mk_addr 100) [0%N]; ODisconnectInd 5 []; OApi (ATxReleaseFree 1%N None 0);
   OConnectInd 5 (mk_addr 100) [0%N]; ONoticeInd (mk_addr 100) 1].
Definition free_2 : list eff -> list api :=
  fun t => match t with EEvent (Some 2%N) EvLinkInvalidated :: _ => [AFreeUe (Some 2%N)] | _ => [] end.
Theorem C48_connection_reuse_refuted :
  exists E l, frees_only_subject E /\
    (* every API call of the application was given a live context *)
    filter (fun e => match e with EApi _ => true | _ => false end) (w_tr (reach E l)) =
      [EApi (AFreeUe (Some 2%N)); EApi (ATxReleaseFree 1%N None 0)] /\
    (forall p, In p [1; 2]%N -> live (w_st (reach E (firstn 4 l))) p <> None) /\
    exists t, w_tr (reach E l) = EFault UseAfterFree :: ESccp (NDisconnectReq 5) :: ERet 0 :: t.
Proof.
  exists (ex_env msgs0 0 free_2), h48.
  split.
  { intros p t q H. cbn in H. destruct p as [|[|[]|]]; cbn in H; try contradiction. destruct H as [H|[]]. congruence. }
  split; [vm_compute; reflexivity|]. split.
  { intros p [<-|[<-|[]]]; vm_compute; discriminate. }
  eexists. vm_compute. reflexivity.
Qed.
Print Assumptions C48_connection_reuse_refuted.
