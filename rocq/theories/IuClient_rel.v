(* Release, buffers, downlink messages *)
From Coq Require Import ZifyBool ZifyNat ZifyN Sorted.
From Verif Require Import Base Lai Lai_proofs IuClient IuClient_frame IuClient_spec IuClient_reg IuClient_step IuClient_inv IuClient_area IuClient_conn IuClient_life IuClient_life2 IuClient_loss IuClient_loss2.

Section Rel.
Variable E : env.

(* ---------------- C49 ---------------- *)
Lemma reach_api l a : snd (run E (l ++ [OApi a]) w0) = Some tt ->
  snd (run E l w0) = Some tt /\ run_api E a (reach E l) = (reach E (l ++ [OApi a]), Some tt).
Proof.
  unfold reach. rewrite run_app. unfold bind. destruct (run E l w0) as [w [[]|]]; cbn [fst snd]; [|discriminate].
  intros H. split; [reflexivity|]. cbn [run exec] in *. unfold bind, ret in *.
  destruct (run_api E a w) as [w' [[]|]]; [reflexivity|discriminate].
Qed.
Lemma rf_state l p c d : snd (run E (l ++ [OApi (ATxReleaseFree p c d)]) w0) = Some tt ->
  exists u, live (w_st (reach E (l ++ [OApi (ATxReleaseFree p c d)]))) p = Some u /\
    u_notif u = false /\ u_for u = true /\ u_timer u <> None.
Proof.
  intros H. destruct (reach_api _ _ H) as [_ H1]. set (w := reach E l) in *.
  destruct (run_rf_eq E p c d w) as (t&o&H2&->). cbv zeta in H2. rewrite H1 in H2.
  destruct (live (w_st w) p) as [u|] eqn:Hl; [|discriminate].
  destruct (enc_ok E _); [|discriminate]. injection H2 as ->. cbn [w_st].
  exists (rf_ue (fun _ => Some t) u). unfold live in *. cbn [set_ues s_ues]. rewrite live_upd by reflexivity. rewrite Hl.
  repeat split; discriminate.
Qed.
Lemma timer_silent p u w : live (w_st w) p = Some u -> u_notif u = false -> exists w',
  exec E (OTimer p) w = (w', Some tt) /\ w_tr w' = w_tr w /\ live (w_st w') p <> None.
Proof.
  intros Hl Hn. cbn [exec]. unfold timer_fires. rewrite bind_get, Hl. destruct (u_timer u).
  - rewrite bind_put. set (v := mkW _ _).
    assert (Hv : live (w_st v) p = Some (mkUe (u_ptr u) (u_rnc u) (u_conn u) (u_ra u) (u_notif u) (u_for u) None)).
    { unfold v, live in *. cbn [w_st set_ues s_ues]. rewrite live_upd by reflexivity. rewrite Hl. reflexivity. }
    unfold bind. rewrite (event_eq E _ _ EvIuRelease _ Hv). cbn [u_notif]. rewrite Hn, andb_false_r.
    exists v. split; [reflexivity|]. split; [reflexivity|]. congruence.
  - exists w. split; [reflexivity|]. split; [reflexivity|]. congruence.
Qed.
Lemma release_free_l : forall l p c d,
  let h := l ++ [OApi (ATxReleaseFree p c d)] in
  let w := reach E h in
  snd (run E h w0) = Some tt ->
  (exists w', exec E (OTimer p) w = (w', Some tt) /\ w_tr w' = w_tr w /\ live (w_st w') p <> None) /\
  (forall conn msg u i, ue_on (w_st w) conn = Some u -> u_ptr u = p ->
     dec_co E msg = Some (mkMsg PR_successfulOutcome id_Iu_Release i) ->
     exec E (ODataInd conn msg) w = (mkW (w_st w) (EPrimFree :: w_tr w), Some tt)).
Proof.
  intros l p c d h w H. destruct (rf_state l p c d H) as (u&Hl&Hn&_). fold h in Hl. fold w in Hl.
  split; [eapply timer_silent; eauto|].
  intros conn msg v i Hv Hp Hd. rewrite (exec_data_known E conn msg w v Hv). unfold rx_co. rewrite Hd.
  unfold handle_co. cbn [m_dir m_proc m_ies].
  change (PR_successfulOutcome =? PR_initiatingMessage)%N with false.
  change (PR_successfulOutcome =? PR_successfulOutcome)%N with true.
  change (id_Iu_Release =? id_SecurityModeControl)%N with false.
  change (id_Iu_Release =? id_Iu_Release)%N with true. cbv iota beta.
  unfold bind. rewrite Hp. rewrite (event_eq E p u EvIuRelease w Hl), Hn, andb_false_r. reflexivity.
Qed.

(* ---------------- C51 ---------------- *)
Lemma free_l : forall l p u,
  let w := reach E l in
  live (w_st w) p = Some u ->
  exists t, exec E (OApi (AFreeUe (Some p))) w =
    (mkW (set_ues (w_st w) (filter (fun u => negb (u_ptr u =? p)%N) (s_ues (w_st w)))) (rev t ++ w_tr w), Some tt) /\
    sends t = [NDisconnectReq (u_conn u)] /\
    (fresh_conns E l -> forall v, In v (s_ues (w_st w)) -> u_ptr v <> p -> u_conn v <> u_conn u).
Proof.
  intros l p u. cbv zeta. set (w := reach E l). intros Hl. cbn [exec]. rewrite run_free_eq, Hl.
  exists [EApi (AFreeUe (Some p)); ESccp (NDisconnectReq (u_conn u)); ERet 0]. split; [reflexivity|]. split; [reflexivity|].
  intros Hf v Hv Hne Hc. apply live_in in Hl as [Hi Hp]. apply Hne.
  pose proof (reach_dist E l Hf) as D. rewrite (nodup_inj u_conn _ _ _ D Hv Hi Hc). exact Hp.
Qed.

(* ---------------- C52, C53 ---------------- *)
Lemma release_request_l : forall l conn msg c u,
  let w := reach E l in
  ue_on (w_st w) conn = Some u ->
  dec_co E msg = Some (mkMsg PR_initiatingMessage id_Iu_ReleaseRequest (I_IuReleaseRequest c)) ->
  enc_ok E (DL_IuReleaseCmd c) = true ->
  exec E (ODataInd conn msg) w =
    (mkW (w_st w) (EPrimFree :: ESccp (NDataReq conn (DL_IuReleaseCmd c)) :: w_tr w), Some tt).
Proof.
  intros l conn msg c u. cbv zeta. set (w := reach E l). intros Hu Hd He.
  rewrite (exec_data_known E conn msg w u Hu). unfold rx_co. rewrite Hd.
  unfold handle_co. cbn [m_dir m_proc m_ies].
  change (PR_initiatingMessage =? PR_initiatingMessage)%N with true.
  change (id_Iu_ReleaseRequest =? id_InitialUE_Message)%N with false.
  change (id_Iu_ReleaseRequest =? id_DirectTransfer)%N with false.
  change (id_Iu_ReleaseRequest =? id_ErrorIndication)%N with false.
  change (id_Iu_ReleaseRequest =? id_Iu_ReleaseRequest)%N with true. cbv iota beta.
  pose proof (reach_good E l) as G. fold w in G. apply ue_on_in in Hu as [Hi Hc].
  unfold handle_co_iu_rel_req, tx_release, encode. rewrite He.
  unfold deref, sccp_send, bind, get, ret, trace, emit. rewrite (live_good _ _ (g_ues _ G) Hi). rewrite Hc. reflexivity.
Qed.
Lemma reset_l : forall w calling msg,
  exec E (OUnitdataInd calling msg) w =
  match dec_cl E msg with
  | Some (mkMsg 1 9 (I_Reset d g)) =>
      (mkW (w_st w) (EPrimFree ::
         (if enc_ok E (DL_ResetAck d g) then [ESccp (NUnitdataReq calling (DL_ResetAck d g))] else []) ++ w_tr w), Some tt)
  | Some m =>
      if (m_dir m =? 1)%N && (m_proc m =? 9)%N
      then (mkW (w_st w) (EFault OobRead :: w_tr w), None)
      else (mkW (w_st w) (EPrimFree :: w_tr w), Some tt)
  | None => (mkW (w_st w) (EPrimFree :: w_tr w), Some tt)
  end.
Proof.
  intros w a msg. cbn [exec]. unfold sccp_sap_up, rx_cl. destruct (dec_cl E msg) as [[dir proc i]|]; [|reflexivity].
  unfold handle_cl. cbn [m_dir m_proc m_ies]. unfold PR_initiatingMessage, id_Reset, id_ErrorIndication.
  destruct (dir =? 1)%N eqn:H1.
  - apply N.eqb_eq in H1. subst dir. destruct (proc =? 9)%N eqn:H2.
    + apply N.eqb_eq in H2. subst proc. cbn [andb]. destruct i; try reflexivity.
      unfold handle_cl_reset_req. destruct (enc_ok E _); reflexivity.
    + assert (Hb : forall b : bool, (let! _ := (let! _ := (if b then ret 0%Z else ret (-1)%Z) in ret tt) in emit EPrimFree) w
         = (mkW (w_st w) (EPrimFree :: w_tr w), Some tt)) by (intros []; reflexivity).
      rewrite Hb. cbn [andb]. destruct proc as [|[[[[]|[]|]|[[]|[]|]|]|[[[]|[]|]|[[]|[]|]|]|]]; try reflexivity; discriminate.
  - cbn [andb]. destruct dir as [|[]]; try reflexivity; discriminate.
Qed.
Lemma reset_ack_l : forall l calling msg d g, let w := reach E l in
  dec_cl E msg = Some (mkMsg PR_initiatingMessage id_Reset (I_Reset d g)) -> enc_ok E (DL_ResetAck d g) = true ->
  exec E (OUnitdataInd calling msg) w =
    (mkW (w_st w) (EPrimFree :: ESccp (NUnitdataReq calling (DL_ResetAck d g)) :: w_tr w), Some tt).
Proof. intros l a msg d g w Hd He. rewrite reset_l, Hd. cbv iota beta delta [PR_initiatingMessage id_Reset]. rewrite He. reflexivity. Qed.
Lemma other_cl_l : forall l calling msg, let w := reach E l in
  (forall m, dec_cl E msg = Some m -> m_dir m <> PR_initiatingMessage \/ m_proc m <> id_Reset) ->
  exec E (OUnitdataInd calling msg) w = (mkW (w_st w) (EPrimFree :: w_tr w), Some tt).
Proof.
  intros l a msg w H. rewrite reset_l. destruct (dec_cl E msg) as [[dir proc i]|]; [|reflexivity].
  specialize (H _ eq_refl). cbn [m_dir m_proc] in *. unfold PR_initiatingMessage, id_Reset in H.
  assert (Hb : (dir =? 1)%N && (proc =? 9)%N = false) by lia. rewrite Hb.
  destruct dir as [|[]]; try reflexivity. destruct proc as [|[[[[]|[]|]|[[]|[]|]|]|[[[]|[]|]|[[]|[]|]|]|]]; try reflexivity; discriminate.
Qed.

(* ---------------- C55 ---------------- *)
Definition is_buf (e : eff) : bool := is_alloc e || is_free e.
Definition bal (n : nat) {A} (m : M A) : Prop := forall w, exists t, w_tr (fst (m w)) = t ++ w_tr w /\
  (snd (m w) <> None -> count is_alloc t = count is_free t + n).
Lemma count_app f a b : count f (a ++ b) = count f a + count f b.
Proof. unfold count. rewrite filter_app, app_length. reflexivity. Qed.
Lemma count_rev f t : count f (rev t) = count f t.
Proof. induction t as [|e t IH]; [reflexivity|]. cbn [rev]. rewrite count_app, IH. unfold count. cbn. destruct (f e); cbn; lia. Qed.
Lemma bal_ret {A} (a : A) : bal 0 (ret a).
Proof. intros w. exists []. split; [reflexivity|]. intros _. reflexivity. Qed.
Lemma bal_get : bal 0 get.
Proof. intros w. exists []. split; [reflexivity|]. intros _. reflexivity. Qed.
Lemma bal_trace : bal 0 trace.
Proof. intros w. exists []. split; [reflexivity|]. intros _. reflexivity. Qed.
Lemma bal_put s : bal 0 (put_st s).
Proof. intros w. exists []. split; [reflexivity|]. intros _. reflexivity. Qed.
Lemma bal_emit e : is_buf e = false -> bal 0 (emit e).
Proof. intros He w. exists [e]. split; [reflexivity|]. intros _. destruct e; try discriminate; reflexivity. Qed.
Lemma bal_fail {A} n f : bal n (@fail A f).
Proof. intros w. exists [EFault f]. split; [reflexivity|]. intros H. exfalso. apply H. reflexivity. Qed.
Lemma bal_bind {A B} n k (m : M A) (f : A -> M B) : bal n m -> (forall a, bal k (f a)) -> bal (n + k) (bind m f).
Proof.
  intros Hm Hf w. destruct (Hm w) as (t1&E1&K1). unfold bind. destruct (m w) as [w' [a|]]; cbn [fst snd] in *.
  - destruct (Hf a w') as (t2&E2&K2). exists (t2 ++ t1). split; [rewrite E2, E1, app_assoc; reflexivity|]. intros Hs.
    rewrite !count_app, (K2 Hs), (K1 ltac:(discriminate)). lia.
  - exists t1. split; [exact E1|]. intros H. exfalso. apply H. reflexivity.
Qed.
Lemma bal_bind0 {A B} n (m : M A) (f : A -> M B) : bal 0 m -> (forall a, bal n (f a)) -> bal n (bind m f).
Proof. apply (bal_bind 0 n). Qed.
Lemma bal_bindr {A B} n (m : M A) (f : A -> M B) : bal n m -> (forall a, bal 0 (f a)) -> bal n (bind m f).
Proof. intros Hm Hf. rewrite <- (Nat.add_0_r n). apply bal_bind; auto. Qed.
Lemma bal_lift {A} n (o : outcome A) : (forall a, o = Ok a -> n = 0) -> bal n (lift o).
Proof. destruct o; intros H; [rewrite (H a eq_refl); apply bal_ret|apply bal_fail]. Qed.
Lemma bal_lift0 {A} (o : outcome A) : bal 0 (lift o).
Proof. apply bal_lift. auto. Qed.
Lemma bal_pres {A} (m : M A) : pres m -> bal 0 m.
Proof.
  intros H w. destruct (H w) as (_&t&H1&H2). exists t. split; [exact H1|]. intros _.
  assert (Hc : forall f, (forall e, api_eff e = true -> f e = false) -> count f t = 0).
  { intros f Hf. revert H2. clear -Hf. induction t as [|e t IH]; [reflexivity|]. cbn [forallb]. intros H. apply andb_prop in H as [Ha Hb].
    unfold count in *. cbn [filter]. rewrite (Hf e Ha). apply IH, Hb. }
  rewrite !Hc; [reflexivity| |]; intros []; try discriminate; reflexivity.
Qed.
Ltac bb := repeat
  match goal with
  | |- bal 0 (ret _) => apply bal_ret
  | |- bal _ (fail _) => apply bal_fail
  | |- bal 0 get => apply bal_get
  | |- bal 0 trace => apply bal_trace
  | |- bal 0 (put_st _) => apply bal_put
  | |- bal 0 (lift _) => apply bal_lift0
  | |- bal 0 (emit _) => apply bal_emit; reflexivity
  | |- bal 0 (deref _) => unfold deref
  | |- bal 0 (bind _ _) => apply bal_bind0; [|intros]
  | |- bal 0 (match ?x with _ => _ end) => destruct x
  end.
Lemma bal_apis l : bal 0 (run_apis E l).
Proof. apply bal_pres, pres_run_apis. Qed.
Lemma bal_callback e : is_buf e = false -> bal 0 (callback E e).
Proof. intros H. unfold callback. apply bal_bind0; [apply bal_emit, H|]. intros _. bb. apply bal_apis. Qed.
Lemma bal_event p ev : bal 0 (global_iu_event E p ev).
Proof. unfold global_iu_event. bb. apply bal_callback. reflexivity. Qed.
Lemma bal_send r : bal 0 (sccp_send E r).
Proof. unfold sccp_send. bb. Qed.
Lemma bal_encode m : bal 0 (encode E m).
Proof. unfold encode. bb. Qed.
Lemma bal_free p : bal 0 (free_ue E p).
Proof. unfold free_ue. bb. apply bal_send. Qed.
Lemma bal_register id r a : bal 0 (rnc_register E id r a).
Proof. unfold rnc_register, rnc_alloc, event_new_area. bb; apply bal_event. Qed.
Lemma bal_link p : bal 0 (link_invalidated_free E p).
Proof. unfold link_invalidated_free. bb; auto using bal_event, bal_free. Qed.
Lemma bal_loop r : forall fuel p, bal 0 (invalidate_loop E fuel p r).
Proof. induction fuel; intros p; cbn [invalidate_loop]; bb; auto using bal_link. Qed.
Lemma bal_rncs h : forall l, bal 0 (invalidate_rncs E l h).
Proof. induction l; cbn [invalidate_rncs]; [bb|]. apply bal_bind0; [|auto]. unfold invalidate_rnc. bb. apply bal_loop. Qed.

Lemma bal_alloc : bal 1 (emit EBufAlloc).
Proof. intros w. exists [EBufAlloc]. split; [reflexivity|]. intros _. reflexivity. Qed.
(* a buffer that is freed at the end *)
Lemma bal_freed {A} (m : M A) (v : Z) : bal 0 m ->
  bal 0 (let! _ := emit EBufAlloc in let! _ := m in let! _ := emit EBufFree in ret v).
Proof.
  intros Hm w. rewrite bind_emit. set (w1 := mkW _ _). destruct (Hm w1) as (t&H1&H2). unfold bind.
  destruct (m w1) as [w2 [a|]]; cbn [fst snd emit ret w_tr] in *.
  - exists (EBufFree :: t ++ [EBufAlloc]). split; [rewrite H1; unfold w1; cbn [w_tr List.app]; rewrite <- app_assoc; reflexivity|].
    intros _. specialize (H2 ltac:(discriminate)).
    change (EBufFree :: t ++ [EBufAlloc]) with ([EBufFree] ++ t ++ [EBufAlloc]). rewrite !count_app, H2. cbn. lia.
  - exists (t ++ [EBufAlloc]). split; [rewrite H1; unfold w1; cbn [w_tr]; rewrite <- app_assoc; reflexivity|].
    intros H. exfalso. apply H. reflexivity.
Qed.
Lemma bal_ext {A} n (m m' : M A) : (forall w, m w = m' w) -> bal n m' -> bal n m.
Proof. intros H Hm w. rewrite H. apply Hm. Qed.

Lemma bal_dt p d : bal (if is_none (dt_info d) then 1 else 0) (handle_co_dt E p d).
Proof.
  unfold handle_co_dt. 
  assert (Hacc : forall ra sai, bal 0 (let! _ := emit EBufAlloc in
     (let! _ := nas_put (dt_nas d) in let! _ := callback E (ERecv p (dt_nas d) ra sai) in let! _ := emit EBufFree in ret 0%Z))).
  { intros ra sai. eapply bal_ext; [|apply (bal_freed (let! _ := nas_put (dt_nas d) in callback E (ERecv p (dt_nas d) ra sai)))].
    - intros w. apply bind_ext. intros _ w'. rewrite bind_assoc. reflexivity.
    - unfold nas_put. bb. apply bal_callback. reflexivity. }
  unfold dt_info. destruct (dt_lai d) as [l|].
  2:{ cbn [is_none]. eapply bal_ext; [|apply (Hacc None None)]. intros w. apply bind_ext. intros _ w'. rewrite bind_ret. reflexivity. }
  destruct (lift_parse_lai l) as (rc&ra&->).
  assert (Hleak : forall A B (m : M A) (k : A -> M B), bal 0 m -> (forall a, bal 0 (k a)) ->
     bal 1 (let! _ := emit EBufAlloc in let! r := m in k r)).
  { intros A B m k Hm Hk. change 1 with (1 + 0). apply bal_bind; [apply bal_alloc|]. intros _. apply bal_bind0; auto. }
  destruct rc as [|rc|rc].
  2,3: cbn [is_none]; eapply bal_ext; [|apply (Hleak _ _ (ret tt) (fun _ => ret (-1)%Z)); [bb|intros; bb]];
    intros w; apply bind_ext; intros _ w'; reflexivity.
  cbn [lift]. 
  set (R := match dt_rac d with None => _ | Some _ => _ end) at 1.
  assert (Hrac : forall B (k : N -> M B) w, (let! rac := match dt_rac d with Some o => lift (asn1str_to_u8 o) | None => ret (ra_rac ra) end in k rac) w =
    match R with Some r => k r w | None => fail Assertion w end).
  { intros B k w. unfold R. destruct (dt_rac d) as [[|x o]|]; reflexivity. }
  set (S := match dt_sac d with None => _ | Some _ => _ end) at 1.
  assert (Hsac : forall B (k : option N -> M B) w, (let! sai := match dt_sac d with Some o => let! v := lift (asn1str_to_u16 o) in ret (Some v) | None => ret None end in k sai) w =
    match S with Some r => k r w | None => fail Assertion w end).
  { intros B k w. unfold S. destruct (dt_sac d) as [[|x [|y o]]|]; reflexivity. }
  assert (Hgen : forall w, (let! _ := emit EBufAlloc in
     let! r := (let! (rc, ra) := ret (0%Z, ra) in
       if negb (rc =? 0)%Z then ret None else
       let! rac := match dt_rac d with Some o => lift (asn1str_to_u8 o) | None => ret (ra_rac ra) end in
       let! sai := match dt_sac d with Some o => let! v := lift (asn1str_to_u16 o) in ret (Some v) | None => ret None end in
       ret (Some (Some (mkRaId (ra_mcc ra) (ra_mnc ra) (ra_mnc3 ra) (ra_lac ra) rac), sai))) in
     match r with None => ret (-1)%Z | Some (ra, sai) =>
       let! _ := nas_put (dt_nas d) in let! _ := callback E (ERecv p (dt_nas d) ra sai) in let! _ := emit EBufFree in ret 0%Z end) w =
     match R, S with
     | Some rac, Some sai => (let! _ := emit EBufAlloc in
         let! _ := nas_put (dt_nas d) in
         let! _ := callback E (ERecv p (dt_nas d) (Some (mkRaId (ra_mcc ra) (ra_mnc ra) (ra_mnc3 ra) (ra_lac ra) rac)) sai) in
         let! _ := emit EBufFree in ret 0%Z) w
     | _, _ => (let! _ := emit EBufAlloc in fail Assertion) w
     end).
  { intros w. rewrite bind_emit. set (w1 := mkW _ _). rewrite bind_assoc, bind_ret. cbn [negb Z.eqb]. cbv iota beta.
    rewrite bind_assoc, Hrac. destruct R as [r|]; [|reflexivity]. rewrite bind_assoc, Hsac.
    destruct S; [|reflexivity]. rewrite bind_ret. reflexivity. }
  eapply bal_ext; [exact Hgen|]. clear Hgen Hrac Hsac.
  assert (Hf : forall n, bal n (let! _ := emit EBufAlloc in @fail Z Assertion)).
  { intros n w. exists [EFault Assertion; EBufAlloc]. split; [reflexivity|]. intros H. exfalso. apply H. reflexivity. }
  destruct R, S; cbn [is_none]; try apply Hf. apply Hacc.
Qed.
Lemma bal_handle_co p m : bal (if refused_dt m then 1 else 0) (handle_co E p m).
Proof.
  unfold handle_co, refused_dt. apply bal_bindr; [|intros; bb].
  destruct (m_dir m =? PR_initiatingMessage)%N eqn:H1; cbn [andb].
  - destruct (m_proc m =? id_InitialUE_Message)%N eqn:H2.
    + assert (H3 : (m_proc m =? id_DirectTransfer)%N = false) by (apply N.eqb_eq in H2; rewrite H2; reflexivity). rewrite H3. cbn [andb]. bb.
    + destruct (m_proc m =? id_DirectTransfer)%N; cbn [andb]; [destruct (m_ies m); bb; apply bal_dt|].
      unfold handle_co_iu_rel_req, tx_release. bb; auto using bal_encode, bal_send.
  - unfold handle_co_rab_ass_resp. bb; auto using bal_event.
Qed.
Lemma bal_initial c a m : bal (if refused_initial m then 1 else 0) (handle_co_initial E c a m).
Proof.
  unfold refused_initial. destruct (acceptable m) as [x|] eqn:Ha.
  - cbn [is_none]. rewrite andb_false_r. eapply bal_ext; [intros w; apply (initial_acc E c a m x w Ha)|].
    eapply bal_ext; [|apply (bal_bindr 0 (let! _ := emit EBufAlloc in
       let! _ := (let! n := rnc_register E (acc_id x) (gprs_rai_to_osmo (acc_ra x)) a in
         let! p := ue_conn_ctx_alloc n c in
         let! s := get in
         let! _ := put_st (set_ues s (upd_ue p
            (fun u => mkUe (u_ptr u) (u_rnc u) (u_conn u) (acc_ra x) (u_notif u) (u_for u) (u_timer u)) (s_ues s))) in
         callback E (ERecv p (acc_nas x) (Some (acc_ra x)) (Some (acc_sai x)))) in
       let! _ := emit EBufFree in ret 0%Z) (fun _ => ret tt))].
    + intros w. unfold take_initial. rewrite !bind_assoc. apply bind_ext. intros _ w1. rewrite !bind_assoc. apply bind_ext. intros n w2.
      rewrite !bind_assoc. apply bind_ext. intros p w3. rewrite !bind_assoc. apply bind_ext. intros s w4.
      rewrite !bind_assoc. apply bind_ext. intros _ w5. apply bind_ext. intros _ w6. reflexivity.
    + apply bal_freed. unfold ue_conn_ctx_alloc. bb; auto using bal_register. apply bal_callback. reflexivity.
    + intros; bb.
  - cbn [is_none]. rewrite andb_true_r. unfold handle_co_initial.
    destruct (m_dir m =? PR_initiatingMessage)%N eqn:H1; cbn [andb negb orb]; [|bb].
    destruct (m_proc m =? id_InitialUE_Message)%N eqn:H2; cbn [andb negb orb]; [|bb].
    destruct (m_ies m) as [i| | | | | |] eqn:Hi; try apply bal_fail.
    unfold acceptable in Ha. rewrite Hi, H1, H2 in Ha. cbn [andb] in Ha. intros w.
    set (Q := fun r : world * option unit => exists t, w_tr (fst r) = t ++ w_tr w /\
       (snd r <> None -> count is_alloc t = count is_free t + 1)).
    assert (Hfail : forall f s, Q (mkW s (EFault f :: EBufAlloc :: w_tr w), None)).
    { intros f s. exists [EFault f; EBufAlloc]. split; [reflexivity|]. intros H. exfalso. apply H. reflexivity. }
    assert (Hbuf : forall s, Q (mkW s (EBufAlloc :: w_tr w), Some tt)).
    { intros s. exists [EBufAlloc]. split; [reflexivity|]. intros _. reflexivity. }
    match goal with |- exists t, w_tr (fst ?r) = _ /\ _ => change (Q r) end.
    unfold handle_co_initial_ue. rewrite bind_assoc, bind_emit.
    destruct (lift_parse_lai (iu_lai i)) as (rc&ra&Hp). rewrite Hp in *. cbn [lift]. rewrite bind_assoc, bind_ret.
    destruct (lift_grnc (iu_grnc i)) as (g&Hg). rewrite Hg in *. cbn [lift].
    destruct (negb (rc =? 0)%Z) eqn:Hrc; [apply Hbuf|].
    assert (rc = 0%Z) by lia. subst rc.
    destruct (iu_rac i) as [[|o ol]|]; cbn [rac_of asn1str_to_u8 lift] in *.
    + apply Hfail.
    + rewrite bind_assoc, bind_ret. unfold OSMO_RESERVED_RAC in *. destruct (o =? 255)%N eqn:Ho; cbn [andb]; [apply Hbuf|].
      rewrite bind_assoc, bind_ret. destruct g as [id|]; [|apply Hbuf].
      destruct (iu_sac i) as [|s0 [|s1 sr]] eqn:Hsac; cbn [asn1str_to_u16 lift]; [apply Hfail|apply Hfail|].
      rewrite bind_assoc, bind_ret, bind_assoc. unfold nas_put, NAS_BUF_SIZE.
      destruct (length (iu_nas i) <=? 256); [discriminate|]. apply Hfail.
    + rewrite bind_assoc, bind_ret. cbn [andb].
      rewrite bind_assoc, bind_ret. destruct g as [id|]; [|apply Hbuf].
      destruct (iu_sac i) as [|s0 [|s1 sr]] eqn:Hsac; cbn [asn1str_to_u16 lift]; [apply Hfail|apply Hfail|].
      rewrite bind_assoc, bind_ret, bind_assoc. unfold nas_put, NAS_BUF_SIZE.
      destruct (length (iu_nas i) <=? 256); [discriminate|]. apply Hfail.
Qed.

Lemma balance_l : forall l o,
  let w := reach E l in
  let res := exec E o w in
  snd res = Some tt ->
  exists t, added (w_tr w) (w_tr (fst res)) t /\
    count is_alloc t = count is_free t + (if refuses E (w_st w) o then 1 else 0).
Proof.
  intros l o. cbv zeta. set (w := reach E l). intros Hs.
  assert (Hgen : exists t, w_tr (fst (exec E o w)) = t ++ w_tr w /\
    (snd (exec E o w) <> None -> count is_alloc t = count is_free t + (if refuses E (w_st w) o then 1 else 0))).
  { clear Hs. 
    assert (Hfin : forall A n (m : M A), bal n m -> bal n (let! _ := m in emit EPrimFree)).
    { intros A n m Hm. apply bal_bindr; [exact Hm|]. intros; bb. }
    assert (Hz : forall A (m : M A), bal 0 m -> forall v, exists t, w_tr (fst (m v)) = t ++ w_tr v /\
       (snd (m v) <> None -> count is_alloc t = count is_free t + 0)) by (intros A m H; exact H).
    destruct o as [c a l2| |c l2|c l2|a l2|a c|pc sp rem| | |p|a]; cbn [exec refuses]; unfold sccp_sap_up.
    - apply Hfin. apply bal_bind0; [apply bal_send|]. intros _. destruct l2 as [|x l2].
      + unfold sccp_addr_add. bb.
      + unfold rx_co. destruct (dec_co E (x :: l2)); [apply bal_initial|bb].
    - apply Hz, Hfin. bb.
    - destruct (ue_on (w_st w) c) as [u|] eqn:Hon.
      + pose proof (disc_some E w c l2 u Hon) as Heq. cbn [exec] in Heq. unfold sccp_sap_up in Heq. rewrite Heq.
        assert (Hn : bal (match l2 with [] => 0 | _ => match dec_co E l2 with Some m => if refused_dt m then 1 else 0 | None => 0 end end)
           (match l2 with [] => ret tt | _ :: _ => rx_co E l2 (handle_co E (u_ptr u)) end)).
        { destruct l2 as [|x l2]; [bb|]. unfold rx_co. destruct (dec_co E (x :: l2)); [apply bal_handle_co|bb]. }
        eapply (bal_bindr _ _ (fun _ : unit => let! s := get in
           let! _ := match ue_conn_ctx_find s c with Some u => link_invalidated_free E (u_ptr u) | None => ret tt end in emit EPrimFree)) in Hn.
        2:{ intros _. bb. apply bal_link. }
        destruct (Hn (forget c w)) as (t&Ht&Hc).
        exists t. split; [exact Ht|]. intros Hs. rewrite (Hc Hs). destruct l2; [reflexivity|]. destruct (dec_co E _); reflexivity.
      + pose proof (disc_none_l E w c l2 Hon) as Heq. cbn [exec] in Heq. unfold sccp_sap_up in Heq. rewrite Heq.
        exists [EPrimFree]. split; [reflexivity|]. intros _. destruct l2; reflexivity.
    - rewrite bind_assoc, bind_get. unfold ue_conn_ctx_find. fold (ue_on (w_st w) c).
      unfold sccp_addr_find. fold (pending (w_st w) c).
      destruct (ue_on (w_st w) c) as [u|].
      + apply Hfin. unfold rx_co. destruct (dec_co E l2); [apply bal_handle_co|bb].
      + destruct (pending (w_st w) c) as [a|].
        * apply Hfin. apply bal_bind0; [unfold sccp_addr_del; bb|]. intros _. unfold rx_co.
          destruct (dec_co E l2); [apply bal_initial|bb].
        * assert (Hx : (match dec_co E l2 with Some _ | _ => false end) = false) by (destruct (dec_co E l2); reflexivity).
          destruct (dec_co E l2); apply Hz, Hfin; bb.
    - apply Hz, Hfin. unfold rx_cl, handle_cl, handle_cl_reset_req. bb. apply bal_send.
    - apply Hz, Hfin. unfold handle_notice_ind. bb. apply bal_rncs.
    - apply Hz, Hfin. unfold handle_pcstate_ind. destruct (pcstate_decision sp rem). bb. apply bal_rncs.
    - apply Hz, Hfin. bb.
    - apply Hz, Hfin. bb.
    - apply Hz. unfold timer_fires. bb. apply bal_event.
    - apply Hz. apply bal_pres, pres_run_api. }
  destruct Hgen as (t&Ht&Hc). exists (rev t). split; [apply added_rev, Ht|].
  rewrite !count_rev. apply Hc. congruence.
Qed.
End Rel.
