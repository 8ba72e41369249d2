(* Exact effect of API calls and of uplink messages; an armed timer is silent *)
From Coq Require Import ZifyBool ZifyNat ZifyN Sorted.
From Verif Require Import Base Lai Lai_proofs IuClient IuClient_frame IuClient_spec IuClient_call_spec
  IuClient_reg IuClient_step IuClient_inv IuClient_area IuClient_conn IuClient_life IuClient_life2
  IuClient_loss IuClient_loss2 IuClient_rel IuClient_rel2.

Section Call.
Variable E : env.

(* ---------------- uplink ---------------- *)
Lemma event_events p u ev w : live (w_st w) p = Some u ->
  exists t, w_tr (fst (global_iu_event E (Some p) ev w)) = t ++ w_tr w /\
    events t = if has_event_cb E && u_notif u then [(Some p, ev)] else [].
Proof.
  intros Hl. rewrite (event_eq E p u ev w Hl). destruct (has_event_cb E && u_notif u).
  2:{ exists []. split; reflexivity. }
  rewrite fst_bind_trace_ret.
  destruct (callback_frame E (EEvent (Some p) ev) w) as (Hs & t & Ht & Ha).
  exists (t ++ [EEvent (Some p) ev]). rewrite Ht, <- app_assoc. split; [reflexivity|].
  rewrite events_app. rewrite (events_api _ Ha). reflexivity.
Qed.

Lemma fst_drop {A} (m : M A) w : fst ((let! _ := m in ret tt) w) = fst (m w).
Proof. unfold bind. destruct (m w) as [w' [a|]]; reflexivity. Qed.

Definition no_event (e : eff) : bool := match e with EEvent _ _ => false | _ => true end.
Lemma no_event_events t : forallb no_event t = true -> events t = [].
Proof.
  induction t as [|e t IH]; [reflexivity|]. cbn [forallb]. intros H. apply andb_prop in H as [H1 H2].
  unfold events in *. cbn [flat_map]. rewrite (IH H2). destruct e; try reflexivity; discriminate.
Qed.
Lemma no_event_api e : api_eff e = true -> no_event e = true.
Proof. destruct e; cbn; auto; discriminate. Qed.
Lemma ne_ret {A} (a : A) w : exists t, w_tr (fst (ret a w)) = t ++ w_tr w /\ events t = [].
Proof. exists []. split; reflexivity. Qed.
Lemma ne_gpres {A} (m : M A) w : gpres no_event m -> exists t, w_tr (fst (m w)) = t ++ w_tr w /\ events t = [].
Proof. intros H. destruct (H w) as (_&t&H1&H2). exists t. split; [exact H1|]. apply no_event_events, H2. Qed.
Lemma ne_fail {A} f w : exists t, w_tr (fst (@fail A f w)) = t ++ w_tr w /\ events t = [].
Proof. exists [EFault f]. split; reflexivity. Qed.

Lemma dt_no_event p d : gpres no_event (handle_co_dt E p d).
Proof.
  unfold handle_co_dt, nas_put.
  repeat match goal with
  | |- gpres _ (ret _) => apply gpres_ret
  | |- gpres _ (fail _) => apply gpres_fail; exact no_event_api
  | |- gpres _ (lift _) => apply gpres_lift; exact no_event_api
  | |- gpres _ (emit _) => apply gpres_emit; reflexivity
  | |- gpres _ (callback _ _) => apply gq_callback; [exact no_event_api|reflexivity]
  | |- gpres _ (bind _ _) => apply gpres_bind; [|intros]
  | |- gpres _ (match ?x with _ => _ end) => destruct x
  end.
Qed.
Lemma rel_no_event p c : gpres no_event (handle_co_iu_rel_req E p c).
Proof.
  unfold handle_co_iu_rel_req. apply gpres_bind; [|intros; apply gpres_ret].
  apply gpres_pres; [exact no_event_api|apply pres_tx_release].
Qed.

Lemma told_l p u m w : live (w_st w) p = Some u ->
  exists t, w_tr (fst (handle_co E p m w)) = t ++ w_tr w /\
    events t = match told E m with
               | Some ev => if has_event_cb E && u_notif u then [(Some p, ev)] else []
               | None => []
               end.
Proof.
  intros Hl. unfold handle_co, told. rewrite fst_drop.
  unfold PR_initiatingMessage, PR_successfulOutcome, PR_outcome, id_SecurityModeControl, id_Iu_Release, id_RAB_Assignment.
  destruct (m_dir m =? 1)%N eqn:D1.
  { assert ((m_dir m =? 2)%N = false) as -> by lia. assert ((m_dir m =? 4)%N = false) as -> by lia. cbn [andb].
    repeat match goal with |- context [(m_proc m =? ?k)%N] => destruct (m_proc m =? k)%N end; try apply ne_ret;
      destruct (m_ies m); try apply ne_fail; apply ne_gpres; [apply dt_no_event|apply rel_no_event]. }
  destruct (m_dir m =? 2)%N eqn:D2; cbn [andb].
  { assert ((m_dir m =? 4)%N = false) as -> by lia. cbn [andb].
    destruct (m_proc m =? 6)%N; [apply event_events, Hl|].
    destruct (m_proc m =? 1)%N; [apply event_events, Hl|apply ne_ret]. }
  destruct (m_dir m =? 4)%N; cbn [andb]; [|apply ne_ret].
  destruct (m_proc m =? 0)%N; [|apply ne_ret].
  destruct (m_ies m) as [i|d| |c|l|d g|]; try apply ne_fail; destruct l as [[|i r]|];
    unfold handle_co_rab_ass_resp; unfold deref; rewrite bind_assoc, bind_get, Hl, bind_ret.
  - apply ne_fail.
  - destruct (dec_item E i) as [[x|]|f]; cbn [lift]; rewrite ?bind_ret, ?bind_fail; [apply event_events, Hl|apply ne_ret|apply ne_fail].
  - apply ne_ret.
Qed.

Lemma uplink_event_l : forall l c d m u,
  let w := reach E l in
  ue_on (w_st w) c = Some u -> dec_co E d = Some m ->
  exists t, added (w_tr w) (w_tr (fst (exec E (ODataInd c d) w))) t /\
    events t = match told E m with
               | Some ev => if has_event_cb E && u_notif u then [(Some (u_ptr u), ev)] else []
               | None => []
               end.
Proof.
  intros l c d m u. cbv zeta. set (w := reach E l). intros Hu Hd. pose proof (reach_good E l) as G. fold w in G.
  apply ue_on_in in Hu as Hi. destruct Hi as [Hi _]. pose proof (live_good _ _ (g_ues _ G) Hi) as Hl.
  rewrite (exec_data_known _ _ _ _ _ Hu), emit_fin. cbn [fst w_tr]. unfold rx_co. rewrite Hd.
  destruct (told_l (u_ptr u) u m w Hl) as (t&H1&H2).
  eexists. split; [apply added_rev; rewrite H1, app_assoc; reflexivity|].
  rewrite events_rev, events_app, H2.
  assert (Ho : forall A (x : option A), events (match x with Some _ => [EPrimFree] | None => [] end) = [])
    by (intros A []; reflexivity).
  rewrite Ho. destruct (told E m) as [ev|]; [destruct (_ && _)|]; reflexivity.
Qed.

Definition no_recv (e : eff) : bool := match e with ERecv _ _ _ _ => false | _ => true end.
Lemma no_recv_recvs t : forallb no_recv t = true -> recvs t = [].
Proof.
  induction t as [|e t IH]; [reflexivity|]. cbn [forallb]. intros H. apply andb_prop in H as [H1 H2].
  unfold recvs in *. cbn [flat_map]. rewrite (IH H2). destruct e; try reflexivity; discriminate.
Qed.
Lemma no_recv_api e : api_eff e = true -> no_recv e = true.
Proof. destruct e; cbn; auto; discriminate. Qed.
Lemma dt_bad p d : dt_info d = None -> gpres no_recv (handle_co_dt E p d).
Proof.
  intros H. unfold handle_co_dt. apply gpres_bind; [apply gpres_emit; reflexivity|]. intros _. unfold dt_info in H.
  destruct (dt_lai d) as [l|]; [|discriminate]. destruct (parse_lai l) as [[rc r0]|f]; cbn [lift].
  2:{ intros w. rewrite bind_assoc, bind_fail. exact (gpres_fail no_recv no_recv_api f w). }
  intros w. rewrite bind_assoc, bind_ret. revert w.
  destruct (rc =? 0)%Z eqn:Er; cbn [negb].
  2:{ intros w. rewrite bind_ret. apply gpres_ret. }
  assert (rc = 0%Z) by lia. subst rc. intros w. rewrite bind_assoc. revert w.
  destruct (dt_rac d) as [[|x xs]|]; cbn [asn1str_to_u8 lift].
  - intros w. rewrite bind_fail. exact (gpres_fail no_recv no_recv_api _ w).
  - destruct (dt_sac d) as [[|y [|z zs]]|]; try discriminate; intros w; cbn [asn1str_to_u16 lift];
      rewrite bind_ret, !bind_assoc, bind_fail; exact (gpres_fail no_recv no_recv_api _ w).
  - destruct (dt_sac d) as [[|y [|z zs]]|]; try discriminate; intros w; cbn [asn1str_to_u16 lift];
      rewrite bind_ret, !bind_assoc, bind_fail; exact (gpres_fail no_recv no_recv_api _ w).
Qed.
Lemma gnr_rab p x : gpres no_recv (handle_co_rab_ass_resp E p x).
Proof.
  unfold handle_co_rab_ass_resp. apply gpres_bind; [apply gpres_pres; [exact no_recv_api|apply pres_deref]|]. intros u.
  destruct x as [[|i r]|]; [apply gpres_fail, no_recv_api| |apply gpres_ret].
  apply gpres_bind; [apply gpres_lift, no_recv_api|]. intros [y|]; [|apply gpres_ret].
  apply gq_event; [exact no_recv_api|reflexivity].
Qed.
Lemma delivers_none p m : delivers m = None ->
  (forall d ra sai, m = dt_msg d -> dt_info d = Some (ra, sai) -> False) ->
  gpres no_recv (handle_co E p m).
Proof.
  intros Hn Hd. unfold handle_co. apply gpres_bind; [|intros; apply gpres_ret].
  destruct (m_dir m =? PR_initiatingMessage)%N eqn:D1.
  - destruct (m_proc m =? id_InitialUE_Message)%N; [apply gpres_ret|].
    destruct (m_proc m =? id_DirectTransfer)%N eqn:P1.
    + destruct (m_ies m) as [i|d| |c|l|d g|] eqn:Ei; try (apply gpres_fail, no_recv_api).
      apply dt_bad. destruct (dt_info d) as [[ra sai]|] eqn:Ed; [|reflexivity]. exfalso.
      apply (Hd d ra sai); [|exact Ed]. destruct m as [md mp mi]. cbn [m_dir m_proc m_ies] in *.
      apply N.eqb_eq in D1, P1. subst. reflexivity.
    + destruct (m_proc m =? id_ErrorIndication)%N; [apply gpres_ret|].
      destruct (m_proc m =? id_Iu_ReleaseRequest)%N; [|apply gpres_ret].
      destruct (m_ies m); try (apply gpres_fail, no_recv_api).
      unfold handle_co_iu_rel_req. apply gpres_bind; [|intros; apply gpres_ret].
      apply gpres_pres; [exact no_recv_api|apply pres_tx_release].
  - destruct (m_dir m =? PR_successfulOutcome)%N.
    + destruct (m_proc m =? id_SecurityModeControl)%N; [apply gq_event; [exact no_recv_api|reflexivity]|].
      destruct (m_proc m =? id_Iu_Release)%N; [apply gq_event; [exact no_recv_api|reflexivity]|apply gpres_ret].
    + destruct (m_dir m =? PR_outcome)%N; [|apply gpres_ret].
      destruct (m_proc m =? id_RAB_Assignment)%N; [|apply gpres_ret].
      destruct (m_ies m); try (apply gpres_fail, no_recv_api). apply gnr_rab.
Qed.
Lemma delivery_l : forall l c d m u,
  let w := reach E l in
  ue_on (w_st w) c = Some u -> dec_co E d = Some m ->
  exists t, added (w_tr w) (w_tr (fst (exec E (ODataInd c d) w))) t /\
    recvs t = match delivers m with
              | Some (nas, ra, sai) => [(u_ptr u, nas, ra, sai)]
              | None => []
              end.
Proof.
  intros l c d m u. cbv zeta. set (w := reach E l). intros Hu Hd.
  assert (Hx : (exists x ra sai, m = dt_msg x /\ dt_info x = Some (ra, sai)) \/
               (forall x ra sai, m = dt_msg x -> dt_info x = Some (ra, sai) -> False)).
  { destruct m as [md mp [i|x| |z|z|z g|]]; try (right; intros; discriminate).
    destruct (dt_info x) as [[ra sai]|] eqn:Ex.
    2:{ right. intros y ra sai H H'. inversion H. congruence. }
    destruct ((md =? PR_initiatingMessage)%N && (mp =? id_DirectTransfer)%N) eqn:Ek.
    - left. exists x, ra, sai. apply andb_prop in Ek as [E1 E2]. apply N.eqb_eq in E1, E2. subst. auto.
    - right. intros y ra' sai' H _. inversion H. subst. vm_compute in Ek. discriminate. }
  destruct Hx as [(x&ra&sai& -> &Hi)|Hx].
  - destruct (dt_delivery_l E l c x d u ra sai Hu Hd Hi) as (t&H1&H2). exists t. split; [exact H1|].
    unfold delivers, dt_msg. cbn [m_dir m_proc m_ies]. change ((PR_initiatingMessage =? 1) && (id_DirectTransfer =? 20))%N with true.
    rewrite Hi. destruct (length (dt_nas x) <=? 256); [exact H2|]. subst t. reflexivity.
  - assert (Hn : delivers m = None).
    { unfold delivers. destruct ((m_dir m =? 1) && (m_proc m =? 20))%N eqn:Ek; [|reflexivity].
      destruct (m_ies m) as [i|x| |z|z|z g|] eqn:Ei; try reflexivity.
      destruct (dt_info x) as [[ra sai]|] eqn:Ex; [|reflexivity]. exfalso. apply (Hx x ra sai); [|exact Ex].
      destruct m as [md mp mi]. cbn [m_dir m_proc m_ies] in *. apply andb_prop in Ek as [E1 E2]. apply N.eqb_eq in E1, E2.
      subst. reflexivity. }
    rewrite Hn. rewrite (exec_data_known _ _ _ _ _ Hu), emit_fin. cbn [fst w_tr]. unfold rx_co. rewrite Hd.
    destruct (delivers_none (u_ptr u) m Hn Hx w) as (_&t&H1&H2).
    eexists. split; [apply added_rev; rewrite H1, app_assoc; reflexivity|].
    rewrite recvs_rev, recvs_app, (no_recv_recvs _ H2).
    destruct (snd (handle_co E (u_ptr u) m w)); reflexivity.
Qed.

Lemma unhandled_l : forall l c d m u,
  let w := reach E l in
  ue_on (w_st w) c = Some u -> dec_co E d = Some m -> handled m = false ->
  exec E (ODataInd c d) w = (mkW (w_st w) (EPrimFree :: w_tr w), Some tt).
Proof.
  intros l c d m u. cbv zeta. set (w := reach E l). intros Hu Hd Hh.
  rewrite (exec_data_known _ _ _ _ _ Hu). unfold rx_co. rewrite Hd.
  unfold handled in Hh. cbn [existsb fst snd] in Hh. unfold handle_co.
  unfold PR_initiatingMessage, PR_successfulOutcome, PR_outcome, id_SecurityModeControl, id_Iu_Release, id_RAB_Assignment,
    id_InitialUE_Message, id_DirectTransfer, id_ErrorIndication, id_Iu_ReleaseRequest.
  destruct (m_dir m =? 1)%N eqn:D1; cbn [andb orb] in Hh.
  { destruct (m_proc m =? 19)%N; [reflexivity|]. destruct (m_proc m =? 20)%N eqn:P1; [discriminate|].
    destruct (m_proc m =? 22)%N; [reflexivity|]. destruct (m_proc m =? 11)%N eqn:P2; [discriminate|]. reflexivity. }
  destruct (m_dir m =? 2)%N eqn:D2; cbn [andb orb] in Hh.
  { destruct (m_proc m =? 6)%N; [discriminate|]. destruct (m_proc m =? 1)%N; [discriminate|]. reflexivity. }
  destruct (m_dir m =? 4)%N eqn:D4; cbn [andb orb] in Hh; [|reflexivity].
  destruct (m_proc m =? 0)%N; [discriminate|]. reflexivity.
Qed.
Lemma undecodable_l : forall l c d u,
  let w := reach E l in
  ue_on (w_st w) c = Some u -> dec_co E d = None ->
  exec E (ODataInd c d) w = (mkW (w_st w) (EPrimFree :: w_tr w), Some tt).
Proof.
  intros l c d u. cbv zeta. intros Hu Hd. rewrite (exec_data_known _ _ _ _ _ Hu). unfold rx_co. rewrite Hd. reflexivity.
Qed.

(* ---------------- calls ---------------- *)
Lemma change_filter p s : change p (fun _ => None) s = set_ues s (filter (fun u => negb (u_ptr u =? p)%N) (s_ues s)).
Proof.
  unfold change. f_equal. induction (s_ues s) as [|v r IH]; [reflexivity|]. cbn [flat_map filter].
  rewrite IH. destruct (u_ptr v =? p)%N; reflexivity.
Qed.
Lemma change_map p f s : change p (fun u => Some (f u)) s = set_ues s (upd_ue p f (s_ues s)).
Proof.
  unfold change, upd_ue. f_equal. induction (s_ues s) as [|v r IH]; [reflexivity|]. cbn [flat_map map].
  rewrite IH. destruct (u_ptr v =? p)%N; reflexivity.
Qed.
Lemma change_id p s : change p (fun u => Some u) s = s.
Proof.
  rewrite change_map. destruct s as [ul n c x]. unfold set_ues, upd_ue. cbn [s_ues s_rncs s_cache s_next]. f_equal.
  rewrite <- (map_id ul) at 2. apply map_ext. intros a. destruct (_ =? _)%N; reflexivity.
Qed.

Lemma run_rf_exact p c d w u : let c' := match c with Some c => c | None => mkCause 3 83 end in
  live (w_st w) p = Some u -> enc_ok E (DL_IuReleaseCmd c') = true ->
  let tr := EApi (ATxReleaseFree p c d) :: w_tr w in
  let q := NDataReq (u_conn u) (DL_IuReleaseCmd c') in
  let t := if (send E tr q =? 0)%Z then d else 0%Z in
  run_api E (ATxReleaseFree p c d) w =
  (mkW (set_ues (w_st w) (upd_ue p (rf_ue (fun _ => Some t)) (s_ues (w_st w)))) (ERet 0 :: ESccp q :: tr), Some tt).
Proof.
  cbv zeta. intros Hl He. unfold run_api. rewrite bind_emit, bind_assoc. unfold tx_release_free. rewrite bind_assoc. unfold deref at 1.
  rewrite bind_assoc, bind_get. cbn [w_st]. rewrite Hl.
  rewrite bind_ret, bind_assoc, bind_get, bind_assoc, bind_put. cbn [w_st w_tr].
  rewrite bind_assoc. unfold tx_release, cause_normal_release. rewrite bind_assoc. unfold encode. rewrite He.
  rewrite bind_ret, bind_assoc. unfold deref. rewrite bind_assoc, bind_get.
  assert (Hl' : live (set_ues (w_st w) (upd_ue p (fun u => mkUe (u_ptr u) (u_rnc u) (u_conn u) (u_ra u) false true (u_timer u)) (s_ues (w_st w)))) p
     = Some (rf_ue u_timer u)).
  { unfold live. cbn [set_ues s_ues]. rewrite live_upd by reflexivity. unfold live in Hl. rewrite Hl. reflexivity. }
  cbn [w_st]. rewrite Hl', bind_ret. unfold sccp_send. rewrite bind_assoc, bind_trace, bind_assoc, bind_emit, bind_ret.
  rewrite bind_assoc, bind_get, bind_put, bind_ret. cbn [w_st w_tr emit u_conn rf_ue]. f_equal. f_equal.
  unfold set_ues at 1 3. cbn [s_ues s_rncs s_cache s_next set_ues]. f_equal.
  rewrite upd_upd by reflexivity. reflexivity.
Qed.

Lemma call_l : forall w a p u k,
  api_target a = Some p -> live (w_st w) p = Some u -> call_of u a = Some k ->
  (forall m, api_msg a = Some (p, m) -> enc_ok E m = true) ->
  let tr := rev (k_before k) ++ EApi a :: w_tr w in
  let rc := send E tr (k_req k) in
  run_api E a w = (mkW (change p (k_ctx k rc) (w_st w)) (ERet (k_ret k rc) :: ESccp (k_req k) :: tr), Some tt).
Proof.
  intros w a p u k Ha Hl Hk Hm. cbv zeta.
  assert (Hd : forall tr, deref p (mkW (w_st w) tr) = (mkW (w_st w) tr, Some u)).
  { intros tr. unfold deref. rewrite bind_get. cbn [w_st]. rewrite Hl. reflexivity. }
  destruct a as [b [q|] nas sapi|q ik ck sck nk|q imsi|q c|q c d|[q|]|q m0|q r|i t l|i t l r|i t l|i t r]; try discriminate;
    cbn [api_target] in Ha; injection Ha as ->; cbn [call_of] in Hk; injection Hk as <-; cbn [k_before k_req k_ctx k_ret];
    try specialize (Hm _ eq_refl).
  - unfold keep. rewrite change_id. unfold run_api. rewrite bind_emit. cbn [iu_tx]. rewrite bind_assoc, (bind_eq _ _ _ _ _ (Hd _)), bind_assoc, bind_emit. unfold encode.
    rewrite Hm. reflexivity.
  - unfold keep. rewrite change_id. unfold run_api. rewrite bind_emit. unfold tx_sec_mode_cmd, encode. rewrite Hm.
    rewrite bind_assoc, bind_ret, bind_assoc, (bind_eq _ _ _ _ _ (Hd _)). reflexivity.
  - unfold keep. rewrite change_id. unfold run_api. rewrite bind_emit. unfold tx_common_id, encode.
    rewrite bind_assoc, (bind_eq _ _ _ _ _ (Hd _)). rewrite Hm. reflexivity.
  - unfold keep. rewrite change_id. unfold run_api. rewrite bind_emit. unfold tx_release, encode, cause_normal_release. rewrite Hm.
    rewrite bind_assoc, bind_ret, bind_assoc, (bind_eq _ _ _ _ _ (Hd _)). reflexivity.
  - pose proof (run_rf_exact p c d w u Hl Hm) as H. cbv zeta in H. rewrite H. rewrite change_map. reflexivity.
  - rewrite run_free_eq, Hl, change_filter. reflexivity.
  - unfold keep. rewrite change_id. unfold run_api. rewrite bind_emit. unfold rab_act. rewrite bind_assoc, (bind_eq _ _ _ _ _ (Hd _)). reflexivity.
Qed.

Lemma no_target_l : forall w a r,
  (match a with
   | ATx _ None _ _ => r = (-107)%Z
   | ARabDeact _ _ => r = (-1)%Z
   | AFreeUe None => r = 0%Z
   | _ => False end) ->
  run_api E a w = (mkW (w_st w) (ERet r :: EApi a :: w_tr w), Some tt).
Proof. intros w [b [q|] nas sapi|q ik ck sck nk|q imsi|q c|q c d|[q|]|q m0|q x|i t l|i t l x|i t l|i t x] r H; try contradiction; subst r; reflexivity. Qed.

Lemma dead_target_l : forall w a p, api_target a = Some p -> live (w_st w) p = None ->
  (forall m, api_msg a = Some (p, m) -> enc_ok E m = true) ->
  run_api E a w = (mkW (w_st w) (EFault UseAfterFree :: EApi a :: w_tr w), None).
Proof.
  intros w a p Ha Hl Hm.
  assert (Hd : forall tr, deref p (mkW (w_st w) tr) = (mkW (w_st w) (EFault UseAfterFree :: tr), None)).
  { intros tr. unfold deref. rewrite bind_get. cbn [w_st]. rewrite Hl. reflexivity. }
  assert (Hb : forall A (k : ue -> M A) tr, bind (deref p) k (mkW (w_st w) tr) = (mkW (w_st w) (EFault UseAfterFree :: tr), None)).
  { intros A k tr. unfold bind. rewrite Hd. reflexivity. }
  destruct a as [b [q|] nas sapi|q ik ck sck nk|q imsi|q c|q c d|[q|]|q m0|q r|i t l|i t l r|i t l|i t r]; try discriminate;
    cbn [api_target] in Ha; injection Ha as ->; try specialize (Hm _ eq_refl); unfold run_api; rewrite bind_emit;
    unfold iu_tx, tx_sec_mode_cmd, tx_common_id, tx_release_free, tx_release, rab_act, free_ue, encode, cause_normal_release;
    rewrite ?Hm, ?bind_assoc, ?bind_ret, ?bind_assoc, Hb; reflexivity.
Qed.

(* ---------------- legacy paging ---------------- *)
Lemma legacy_l : forall l imsi tmsi lac rac a ps, let w := reach E l in
  (a = APageCs imsi tmsi lac /\ rac = 0%N /\ ps = false \/ a = APagePs imsi tmsi lac rac /\ ps = true) ->
  enc_ok E (DL_Paging imsi tmsi ps 0) = true ->
  let h := registrations E l in
  (exists addr, serves_lac_rac E h lac rac addr /\
     let req := NUnitdataReq addr (DL_Paging imsi tmsi ps 0) in
     let rc := send E (EApi a :: w_tr w) req in
     exec E (OApi a) w = (mkW (w_st w) (ERet (if (rc =? 0)%Z then 1 else 0) :: ESccp req :: EApi a :: w_tr w), Some tt))
  \/ ((forall addr, ~ serves_lac_rac E h lac rac addr) /\
     exec E (OApi a) w = (mkW (w_st w) (ERet 0 :: EApi a :: w_tr w), Some tt)).
Proof.
  intros l imsi tmsi lac rac a ps. cbv zeta. set (w := reach E l). intros Ha He.
  assert (Hx : exec E (OApi a) w = (let! rc := iu_page E imsi tmsi lac rac ps in emit (ERet rc)) (mkW (w_st w) (EApi a :: w_tr w))).
  { destruct Ha as [(->&->&->)|(->&->)]; cbn [exec]; unfold run_api; rewrite bind_emit; reflexivity. }
  rewrite Hx. unfold iu_page. rewrite bind_assoc, bind_get. cbn [w_st].
  pose proof (reach_rep E l) as R. pose proof (reach_good E l) as G. fold w in R, G.
  destruct (lac_rac_find_legacy (w_st w) lac rac) as [n|] eqn:Hf.
  - left. unfold lac_rac_find_legacy in Hf. apply find_some in Hf as [Hn Hf]. apply existsb_exists in Hf as (e&Hie&He').
    apply andb_prop in He' as [H1 H2]. apply N.eqb_eq in H1, H2.
    assert (Hc : 0 < cnt n e) by (apply cnt_pos; exists e; split; [exact Hie|apply rai_eqb_refl]).
    exists (n_addr n). split.
    2:{ unfold tx_paging_cmd, encode. rewrite He. reflexivity. }
    pose proof (table_refines_l E l e) as HT. cbv zeta in HT. fold w in HT.
    destruct (last_of_area (registrations E l) e) as [g|] eqn:Hg.
    2:{ exfalso. apply (HT n). apply serves_cnt. split; assumption. }
    destruct HT as (n'&Hs&Hu&Hid&g'&Hg'&Ha'). assert (n = n') as <- by (apply Hu, serves_cnt; split; assumption).
    exists e, g, g'. repeat split; auto.
  - right. split; [|reflexivity]. intros addr (r&g&g'&Hl&Hr&Hg&_).
    pose proof (table_refines_l E l r) as HT. cbv zeta in HT. fold w in HT. rewrite Hg in HT.
    destruct HT as (n&Hs&_). apply serves_cnt in Hs as [Hn Hc]. apply cnt_pos in Hc as (e&Hie&Hre).
    unfold lac_rac_find_legacy in Hf. pose proof (find_none _ _ Hf n Hn) as Hx'. cbv beta in Hx'.
    assert (Ht : existsb (fun e => (l_lac (r_lai e) =? lac)%N && (r_rac e =? rac)%N) (n_areas n) = true).
    { apply existsb_exists. exists e. split; [exact Hie|]. unfold rai_eqb, lai_eqb in Hre.
      apply andb_prop in Hre as [Hre H2]. apply andb_prop in Hre as [_ H1]. apply N.eqb_eq in H1, H2.
      subst lac rac. rewrite H1, H2, !N.eqb_refl. reflexivity. }
    congruence.
Qed.

(* ---------------- timers ---------------- *)
Definition T (s : st) : Prop := forall u, In u (s_ues s) -> u_timer u <> None -> u_notif u = false /\ u_for u = true.
Definition tp {A} (m : M A) : Prop := forall w, T (w_st w) -> T (w_st (fst (m w))).
Definition tps {A} (s : st) (m : M A) : Prop := forall w, w_st w = s -> T s -> T (w_st (fst (m w))).
Lemma tp_ret {A} (a : A) : tp (ret a). Proof. intros w H. exact H. Qed.
Lemma tp_get : tp get. Proof. intros w H. exact H. Qed.
Lemma tp_trace : tp trace. Proof. intros w H. exact H. Qed.
Lemma tp_fail {A} f : tp (@fail A f). Proof. intros w H. exact H. Qed.
Lemma tp_emit e : tp (emit e). Proof. intros w H. exact H. Qed.
Lemma tp_lift {A} (o : outcome A) : tp (lift o). Proof. destruct o; [apply tp_ret|apply tp_fail]. Qed.
Lemma tp_bind {A B} (m : M A) (k : A -> M B) : tp m -> (forall a, tp (k a)) -> tp (bind m k).
Proof.
  intros Hm Hk w H. specialize (Hm w H). unfold bind. destruct (m w) as [w' [a|]]; [|exact Hm]. apply Hk, Hm.
Qed.
Lemma tp_getb {B} (k : st -> M B) : (forall s, tps s (k s)) -> tp (bind get k).
Proof. intros Hk w H. rewrite bind_get. apply (Hk _ w eq_refl H). Qed.
Lemma tps_tp {A} s (m : M A) : tp m -> tps s m.
Proof. intros H w <- Hs. apply H, Hs. Qed.
Lemma tps_put s s' : (T s -> T s') -> tps s (put_st s').
Proof. intros H w _ Hs. apply H, Hs. Qed.
Lemma tps_bind {A B} s (m : M A) (k : A -> M B) : tps s m -> (forall a, tp (k a)) -> tps s (bind m k).
Proof.
  intros Hm Hk w Hw H. specialize (Hm w Hw H). unfold bind. destruct (m w) as [w' [a|]]; [|exact Hm]. apply Hk, Hm.
Qed.
Lemma tp_deref q : tp (deref q).
Proof. unfold deref. apply tp_bind; [apply tp_get|]. intros s. destruct (live s q); [apply tp_ret|apply tp_fail]. Qed.
Lemma T_ues s s' : s_ues s' = s_ues s -> T s -> T s'. Proof. unfold T. intros ->. auto. Qed.
Lemma T_filter s f : T s -> T (set_ues s (filter f (s_ues s))).
Proof. intros H u Hi. cbn [set_ues s_ues] in Hi. apply filter_In in Hi as [Hi _]. apply H, Hi. Qed.
Lemma T_upd s q f : (forall u, (u_timer u <> None -> u_notif u = false /\ u_for u = true) ->
    u_timer (f u) <> None -> u_notif (f u) = false /\ u_for (f u) = true) ->
  T s -> T (set_ues s (upd_ue q f (s_ues s))).
Proof.
  intros Hf H u Hi. cbn [set_ues s_ues] in Hi. unfold upd_ue in Hi. apply in_map_iff in Hi as (v&Hv&Hi).
  destruct (u_ptr v =? q)%N; subst u; [apply Hf|]; apply H, Hi.
Qed.
Lemma tp_send r : tp (sccp_send E r).
Proof. unfold sccp_send. apply tp_bind; [apply tp_trace|]. intros. apply tp_bind; [apply tp_emit|]. intros. apply tp_ret. Qed.
Lemma tp_encode m : tp (encode E m).
Proof. unfold encode. destruct (enc_ok E m); [apply tp_ret|apply tp_fail]. Qed.
Ltac tt' := repeat
  match goal with
  | |- tp (ret _) => apply tp_ret
  | |- tp (fail _) => apply tp_fail
  | |- tp (lift _) => apply tp_lift
  | |- tp trace => apply tp_trace
  | |- tp get => apply tp_get
  | |- tp (deref _) => apply tp_deref
  | |- tp (sccp_send _ _) => apply tp_send
  | |- tp (encode _ _) => apply tp_encode
  | |- tp (emit _) => apply tp_emit
  | |- tp (bind get _) => apply tp_getb; intros
  | |- tp (bind _ _) => apply tp_bind; [|intros]
  | |- tp (match ?x with _ => _ end) => destruct x
  | |- tps _ (match ?x with _ => _ end) => destruct x
  | |- tps _ (put_st _) => apply tps_put
  | |- tps _ (bind get _) => apply tps_tp
  | |- tps _ (bind _ _) => apply tps_bind; [|intros]
  | |- tps _ _ => apply tps_tp
  end.
Lemma tp_page_loop l f i t b : forall n, tp (page_loop E l f i t b n).
Proof. induction l; intros n; cbn [page_loop]; unfold tx_paging_cmd; tt'; auto. Qed.
Lemma tp_page i t l r b : tp (iu_page E i t l r b).
Proof. unfold iu_page, tx_paging_cmd. tt'. Qed.
Lemma tp_free q : tp (free_ue E q).
Proof. unfold free_ue. tt'. apply T_filter. Qed.
Lemma tp_rf p c d : tp (run_api E (ATxReleaseFree p c d)).
Proof.
  intros w H. destruct (run_rf_eq E p c d w) as (t&o&Heq&->). cbv zeta in Heq. rewrite Heq. clear Heq.
  destruct (live (w_st w) p) as [u|]; [|exact H].
  destruct (enc_ok E _); cbn [fst w_st]; apply T_upd; auto.
Qed.
Lemma tp_api a : tp (run_api E a).
Proof.
  destruct a as [b [q|] nas sapi|q ik ck sck nk|q imsi|q c|q c d|q|q m|q r|i t l|i t l r|i t l|i t r];
    try (unfold run_api; tt'; unfold iu_tx, tx_sec_mode_cmd, tx_common_id, tx_release, rab_act, page_cs2, page_ps2;
         tt'; auto using tp_page, tp_free, tp_page_loop; fail).
  apply tp_rf.
Qed.
Lemma tp_apis l : tp (run_apis E l).
Proof. induction l; cbn [run_apis]; [apply tp_ret|]. apply tp_bind; auto using tp_api. Qed.
Lemma tp_callback e : tp (callback E e).
Proof. unfold callback. tt'. apply tp_apis. Qed.
Lemma tp_event q ev : tp (global_iu_event E q ev).
Proof. unfold global_iu_event. tt'; apply tp_callback. Qed.
Lemma tp_register id r a : tp (rnc_register E id r a).
Proof. unfold rnc_register, rnc_alloc, event_new_area. tt'; auto using tp_event; apply T_ues; reflexivity. Qed.
Lemma tp_initial c a m : tp (handle_co_initial E c a m).
Proof.
  unfold handle_co_initial, handle_co_initial_ue, nas_put, ue_conn_ctx_alloc.
  tt'; auto using tp_register, tp_callback; try (apply T_upd; auto; fail).
  intros H u [<-|Hi]; [cbn; congruence|apply H, Hi].
Qed.
Lemma tp_co q m : tp (handle_co E q m).
Proof.
  unfold handle_co, handle_co_dt, nas_put, handle_co_iu_rel_req, tx_release, handle_co_rab_ass_resp.
  tt'; auto using tp_event, tp_callback.
Qed.
Lemma tp_cl a m : tp (handle_cl E a m).
Proof. unfold handle_cl, handle_cl_reset_req. tt'. Qed.
Lemma tp_link q : tp (link_invalidated_free E q).
Proof. unfold link_invalidated_free. tt'; auto using tp_event, tp_free. Qed.
Lemma tp_loop r : forall fuel q, tp (invalidate_loop E fuel q r).
Proof. induction fuel; intros q; cbn [invalidate_loop]; tt'; auto using tp_link. Qed.
Lemma tp_rncs h : forall l, tp (invalidate_rncs E l h).
Proof. induction l; cbn [invalidate_rncs]; [tt'|]. apply tp_bind; [|auto]. unfold invalidate_rnc. tt'. apply tp_loop. Qed.
Lemma tp_exec o : tp (exec E o).
Proof.
  destruct o as [c a l2| |c l2|c l2|a l2|a c|pc sp rem| | |q|a]; cbn [exec]; unfold sccp_sap_up, rx_co, rx_cl, sccp_addr_add, sccp_addr_del,
    handle_notice_ind, handle_pcstate_ind, timer_fires; try (destruct (pcstate_decision sp rem));
    tt'; auto using tp_initial, tp_co, tp_cl, tp_link, tp_rncs, tp_event, tp_api;
    try (apply T_ues; reflexivity); apply T_upd; cbn; intros; congruence.
Qed.
Lemma tp_run l : tp (run E l).
Proof. induction l; cbn [run]; [apply tp_ret|]. apply tp_bind; auto using tp_exec. Qed.

Lemma armed_l : forall l u, In u (s_ues (w_st (reach E l))) -> u_timer u <> None -> u_notif u = false /\ u_for u = true.
Proof. intros l. apply (tp_run l w0). intros u []. Qed.

Lemma timer_silent_l : forall l p, let w := reach E l in
  snd (exec E (OTimer p) w) = Some tt /\ w_tr (fst (exec E (OTimer p) w)) = w_tr w.
Proof.
  intros l p. cbv zeta. set (w := reach E l). cbn [exec]. unfold timer_fires. rewrite bind_get.
  destruct (live (w_st w) p) as [u|] eqn:Hl; [|split; reflexivity].
  destruct (u_timer u) as [z|] eqn:Ht; [|split; reflexivity].
  rewrite bind_put. apply live_in in Hl as Hi. destruct Hi as [Hi Hp].
  assert (Hn : u_notif u = false) by (eapply armed_l; [exact Hi|rewrite Ht; discriminate]).
  set (w1 := mkW _ _).
  assert (Hl1 : exists u1, live (w_st w1) p = Some u1 /\ u_notif u1 = false).
  { eexists. unfold w1. cbn [w_st]. unfold live. cbn [set_ues s_ues]. rewrite live_upd by reflexivity.
    unfold live in Hl. rewrite Hl. split; [reflexivity|exact Hn]. }
  destruct Hl1 as (u1&Hl1&Hn1). unfold bind. rewrite (event_eq E p u1 _ w1 Hl1), Hn1, Bool.andb_false_r. split; reflexivity.
Qed.
End Call.
