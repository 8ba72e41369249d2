(* Proofs for C96: connections the client has no use for. *)
From Coq Require Import ZifyBool ZifyNat ZifyN Sorted.
From Verif Require Import Base Lai IuClient IuClient_spec IuClient_frame IuClient_reg IuClient_step IuClient_inv IuClient_conn IuClient_life2 IuClient_iso_spec IuClient_iso.

Section Quiet.
Variable E : env.
Variable c : N.

Definition okq (e : eff) : Prop := match e with ESccp r => request_conn r <> Some c | _ => True end.
Definition noc (s : st) : Prop := forall u, In u (s_ues s) -> u_conn u <> c.
Definition ext (w w' : world) : Prop := exists t, w_tr w' = t ++ w_tr w /\ Forall okq t.
Definition quiet {A} (m : M A) : Prop := forall w, noc (w_st w) -> noc (w_st (fst (m w))) /\ ext w (fst (m w)).

Lemma ext_refl w : ext w w.
Proof. exists []. split; [reflexivity|constructor]. Qed.
Lemma ext_trans a b d : ext a b -> ext b d -> ext a d.
Proof. intros (t&T1&T2) (u&U1&U2). exists (u ++ t). split; [rewrite U1, T1, app_assoc; reflexivity|]. apply Forall_app. split; assumption. Qed.
Lemma quiet_ret {A} (a : A) : quiet (ret a).
Proof. intros w H. split; [exact H|apply ext_refl]. Qed.
Lemma quiet_emit e : okq e -> quiet (emit e).
Proof. intros He w H. split; [exact H|]. exists [e]. split; [reflexivity|]. constructor; [exact He|constructor]. Qed.
Lemma quiet_fail {A} f : quiet (@fail A f).
Proof. intros w H. split; [exact H|]. exists [EFault f]. split; [reflexivity|]. constructor; [exact I|constructor]. Qed.
Lemma quiet_get : quiet get.
Proof. intros w H. split; [exact H|apply ext_refl]. Qed.
Lemma quiet_trace : quiet trace.
Proof. intros w H. split; [exact H|apply ext_refl]. Qed.
Lemma quiet_lift {A} (o : outcome A) : quiet (lift o).
Proof. destruct o; [apply quiet_ret|apply quiet_fail]. Qed.
Lemma quiet_bind {A B} (m : M A) (k : A -> M B) : quiet m -> (forall a, quiet (k a)) -> quiet (bind m k).
Proof.
  intros Hm Hk w H. destruct (Hm w H) as (H1&H2). unfold bind. destruct (m w) as [w1 [a|]]; cbn [fst] in *; [|split; assumption].
  destruct (Hk a w1 H1) as (H3&H4). split; [exact H3|eapply ext_trans; eassumption].
Qed.
Lemma quiet_modify (f : st -> st) : (forall s, noc s -> noc (f s)) -> quiet (let! s := get in put_st (f s)).
Proof. intros H w Hn. cbn [bind get put_st fst w_st]. split; [apply H, Hn|]. exists []. split; [reflexivity|constructor]. Qed.
Lemma quiet_get_bind {A} (k : st -> M A) : (forall s, noc s -> forall w, w_st w = s -> noc (w_st (fst (k s w))) /\ ext w (fst (k s w))) -> quiet (bind get k).
Proof. intros H w Hn. rewrite bind_get. apply H; [exact Hn|reflexivity]. Qed.
Lemma quiet_put_bind {A} s' (k : M A) w : noc s' -> quiet k -> noc (w_st (fst ((let! _ := put_st s' in k) w))) /\ ext w (fst ((let! _ := put_st s' in k) w)).
Proof. intros Hn Hk. rewrite bind_put. apply (Hk (mkW s' (w_tr w)) Hn). Qed.
Lemma quiet_deref {B} p (k : ue -> M B) : (forall u, u_conn u <> c -> quiet (k u)) -> quiet (bind (deref p) k).
Proof.
  intros H w Hn. unfold deref. rewrite bind_assoc, bind_get. destruct (live (w_st w) p) as [u|] eqn:Hl.
  - rewrite bind_ret. apply live_in in Hl as [Hi _]. apply H; [apply Hn, Hi|exact Hn].
  - rewrite bind_fail. exact (quiet_fail (A:=B) UseAfterFree w Hn).
Qed.
Lemma quiet_send r : request_conn r <> Some c -> quiet (sccp_send E r).
Proof. intros H. unfold sccp_send. apply quiet_bind; [apply quiet_trace|intros t]. apply quiet_bind; [apply quiet_emit; exact H|intros; apply quiet_ret]. Qed.
Lemma quiet_encode m : quiet (encode E m).
Proof. unfold encode. destruct (enc_ok E m); [apply quiet_ret|apply quiet_fail]. Qed.
Lemma other u : u_conn u <> c -> Some (u_conn u) <> Some c.
Proof. congruence. Qed.
Lemma quiet_free p : quiet (free_ue E p).
Proof.
  unfold free_ue. destruct p as [p|]; [|apply quiet_ret]. apply quiet_deref. intros u Hu. apply quiet_bind; [apply quiet_send, other, Hu|intros _].
  apply quiet_modify. intros s Hn v Hv. cbn [set_ues s_ues] in Hv. apply filter_In in Hv as [Hv _]. apply Hn, Hv.
Qed.
Lemma quiet_upd p f : (forall u, u_conn (f u) = u_conn u) -> forall s, noc s -> noc (set_ues s (upd_ue p f (s_ues s))).
Proof.
  intros Hf s Hn u Hu. cbn [set_ues s_ues] in Hu. unfold upd_ue in Hu. apply in_map_iff in Hu as (v&<-&Hv). destruct (u_ptr v =? p)%N; rewrite ?Hf; apply Hn, Hv.
Qed.
Lemma quiet_update p f : (forall u, u_conn (f u) = u_conn u) -> quiet (let! s := get in put_st (set_ues s (upd_ue p f (s_ues s)))).
Proof. intros Hf. apply quiet_modify. apply quiet_upd, Hf. Qed.
Lemma quiet_tx_release p k : quiet (tx_release E p k).
Proof. unfold tx_release. apply quiet_bind; [apply quiet_encode|intros m]. apply quiet_deref. intros u Hu. apply quiet_send, other, Hu. Qed.
Lemma quiet_ext {A} (m1 m2 : M A) : (forall w, m1 w = m2 w) -> quiet m1 -> quiet m2.
Proof. intros H H1 w. rewrite <- H. apply H1. Qed.
Lemma quiet_tx_release_free p k t : quiet (tx_release_free E p k t).
Proof.
  unfold tx_release_free. apply quiet_deref. intros _ _.
  apply (quiet_ext (let! _ := (let! s := get in put_st (set_ues s (upd_ue p (fun u => mkUe (u_ptr u) (u_rnc u) (u_conn u) (u_ra u) false true (u_timer u)) (s_ues s)))) in
    let! rc := tx_release E p k in
    let! s := get in put_st (set_ues s (upd_ue p (fun u => mkUe (u_ptr u) (u_rnc u) (u_conn u) (u_ra u) (u_notif u) (u_for u) (Some (if (rc =? 0)%Z then t else 0%Z))) (s_ues s))))).
  { intros w. rewrite !bind_assoc, !bind_get. reflexivity. }
  apply quiet_bind; [apply quiet_update; reflexivity|intros _]. apply quiet_bind; [apply quiet_tx_release|intros rc]. apply quiet_update; reflexivity.
Qed.
Lemma quiet_page_loop : forall l f imsi tmsi ps n, quiet (page_loop E l f imsi tmsi ps n).
Proof.
  induction l as [|v l IH]; intros; cbn [page_loop]; [apply quiet_ret|]. destruct (existsb f (n_areas v)); [|apply IH].
  apply quiet_bind; [|intros; apply IH]. unfold tx_paging_cmd. apply quiet_bind; [apply quiet_encode|intros]. apply quiet_send. discriminate.
Qed.
Lemma quiet_api a : quiet (run_api E a).
Proof.
  unfold run_api. apply quiet_bind; [apply quiet_emit; exact I|intros _]. apply quiet_bind; [|intros; apply quiet_emit; exact I].
  assert (Hpage : forall i t l r b, quiet (iu_page E i t l r b)).
  { intros. unfold iu_page. apply quiet_bind; [apply quiet_get|intros s]. destruct (lac_rac_find_legacy s l r); [|apply quiet_ret].
    apply quiet_bind; [|intros; apply quiet_ret]. unfold tx_paging_cmd. apply quiet_bind; [apply quiet_encode|intros]. apply quiet_send. discriminate. }
  destruct a; try apply Hpage; try apply quiet_ret.
  - destruct dst as [p|]; [|apply quiet_ret]. unfold iu_tx. apply quiet_deref. intros u Hx.
    apply quiet_bind; [apply quiet_emit; exact I|intros _]. apply quiet_bind; [apply quiet_encode|intros m]. apply quiet_send, other, Hx.
  - unfold tx_sec_mode_cmd. apply quiet_bind; [apply quiet_encode|intros m]. apply quiet_deref. intros u Hx. apply quiet_send, other, Hx.
  - unfold tx_common_id. apply quiet_deref. intros u Hx. apply quiet_bind; [apply quiet_encode|intros m]. apply quiet_send, other, Hx.
  - apply quiet_tx_release.
  - apply quiet_bind; [apply quiet_tx_release_free|intros; apply quiet_ret].
  - apply quiet_bind; [apply quiet_free|intros; apply quiet_ret].
  - unfold rab_act. apply quiet_deref. intros u Hx. apply quiet_send, other, Hx.
  - unfold page_cs2. apply quiet_bind; [apply quiet_get|intros]. apply quiet_page_loop.
  - unfold page_ps2. apply quiet_bind; [apply quiet_get|intros]. apply quiet_page_loop.
Qed.
Lemma quiet_apis : forall l, quiet (run_apis E l).
Proof. induction l as [|a l IH]; cbn [run_apis]; [apply quiet_ret|]. apply quiet_bind; [apply quiet_api|intros; exact IH]. Qed.
Lemma quiet_callback e : okq e -> quiet (callback E e).
Proof. intros He. unfold callback. apply quiet_bind; [apply quiet_emit, He|intros _]. apply quiet_bind; [apply quiet_trace|intros]. apply quiet_apis. Qed.
Lemma quiet_event p ev : quiet (global_iu_event E p ev).
Proof.
  unfold global_iu_event. destruct (negb (has_event_cb E)); [apply quiet_ret|]. apply quiet_bind.
  - destruct p as [p|]; [|apply quiet_ret]. apply quiet_deref. intros. apply quiet_ret.
  - intros okv. destruct (negb okv); [apply quiet_ret|]. apply quiet_bind; [apply quiet_callback; exact I|intros _].
    apply quiet_bind; [apply quiet_trace|intros; apply quiet_ret].
Qed.
Lemma quiet_link p : quiet (link_invalidated_free E p).
Proof.
  unfold link_invalidated_free. apply quiet_deref. intros u Hx. cbv zeta. apply quiet_bind; [apply quiet_event|intros _].
  apply quiet_bind; [apply quiet_get|intros s]. destruct (ue_conn_ctx_find s (u_conn u)) as [v|]; [|apply quiet_ret]. destruct (u_for v); [apply quiet_free|apply quiet_ret].
Qed.
Lemma quiet_new_area id r : quiet (event_new_area E id r).
Proof. unfold event_new_area. apply quiet_bind; [apply quiet_event|intros; apply quiet_ret]. Qed.
Lemma quiet_register id r a : quiet (rnc_register E id r a).
Proof.
  unfold rnc_register.
  set (tail := fun p : ptr => _ : M ptr).
  assert (Ht : forall p, quiet (tail p)).
  { intros p. unfold tail. apply quiet_get_bind. intros s Hn w Hs. destruct (lac_rac_find s r) as [o|].
    - destruct (negb (n_ptr o =? p)%N); [|subst s; exact (quiet_ret p w Hn)].
      apply quiet_put_bind; [exact Hn|]. apply quiet_bind; [apply quiet_new_area|intros; apply quiet_ret].
    - apply quiet_put_bind; [exact Hn|]. apply quiet_bind; [apply quiet_new_area|intros; apply quiet_ret]. }
  clearbody tail. apply quiet_get_bind. intros s Hn w Hs. destruct (rnc_id_find s id) as [v|].
  - rewrite bind_assoc. destruct (same_sccp_addr E (n_addr v) a).
    + rewrite !bind_ret. apply Ht. subst s. exact Hn.
    + apply quiet_put_bind; [exact Hn|]. intros w1 Hw1. rewrite bind_ret. apply Ht, Hw1.
  - unfold rnc_alloc. rewrite bind_assoc, bind_get. cbv zeta. rewrite bind_assoc. apply quiet_put_bind; [subst s; exact Hn|].
    intros w1 Hw1. rewrite bind_ret. apply Ht, Hw1.
Qed.
Lemma quiet_initial_ue c' a i : c' <> c -> quiet (handle_co_initial_ue E c' a i).
Proof.
  intros Hx. unfold handle_co_initial_ue. apply quiet_bind; [apply quiet_emit; exact I|intros _]. apply quiet_bind; [apply quiet_lift|intros [rc ra]].
  destruct (negb (rc =? 0)%Z); [apply quiet_ret|]. apply quiet_bind; [destruct (iu_rac i); [apply quiet_lift|apply quiet_ret]|intros rac].
  destruct (_ && _); [apply quiet_ret|]. cbv zeta. apply quiet_bind; [apply quiet_lift|intros [id|]]; [|apply quiet_ret].
  apply quiet_bind; [apply quiet_lift|intros sai]. apply quiet_bind; [unfold nas_put; destruct (_ <=? _); [apply quiet_ret|apply quiet_fail]|intros _].
  apply quiet_bind; [apply quiet_register|intros n]. unfold ue_conn_ctx_alloc.
  apply quiet_bind.
  - apply quiet_get_bind. intros s Hn w Hs. cbv zeta. apply quiet_put_bind; [|apply quiet_ret]. intros u [<-|Hi]; [exact Hx|apply Hn, Hi].
  - intros p. apply quiet_get_bind. intros s Hn w Hs. apply quiet_put_bind; [apply quiet_upd; [reflexivity|exact Hn]|].
    apply quiet_bind; [apply quiet_callback; exact I|intros _]. apply quiet_bind; [apply quiet_emit; exact I|intros; apply quiet_ret].
Qed.
Lemma quiet_dt p d : quiet (handle_co_dt E p d).
Proof.
  unfold handle_co_dt. apply quiet_bind; [apply quiet_emit; exact I|intros _]. apply quiet_bind.
  - destruct (dt_lai d); [|apply quiet_ret]. apply quiet_bind; [apply quiet_lift|intros [rc ra]]. destruct (negb _); [apply quiet_ret|].
    apply quiet_bind; [destruct (dt_rac d); [apply quiet_lift|apply quiet_ret]|intros rac]. apply quiet_bind; [destruct (dt_sac d); [apply quiet_bind; [apply quiet_lift|intros; apply quiet_ret]|apply quiet_ret]|intros; apply quiet_ret].
  - intros [[ra sai]|]; [|apply quiet_ret]. apply quiet_bind; [unfold nas_put; destruct (_ <=? _); [apply quiet_ret|apply quiet_fail]|intros _].
    apply quiet_bind; [apply quiet_callback; exact I|intros _]. apply quiet_bind; [apply quiet_emit; exact I|intros; apply quiet_ret].
Qed.
Lemma quiet_co p m : quiet (handle_co E p m).
Proof.
  unfold handle_co. apply quiet_bind; [|intros; apply quiet_ret].
  destruct (m_dir m =? PR_initiatingMessage)%N.
  - destruct (m_proc m =? id_InitialUE_Message)%N; [apply quiet_ret|]. destruct (m_proc m =? id_DirectTransfer)%N; [destruct (m_ies m); try apply quiet_fail; apply quiet_dt|].
    destruct (m_proc m =? id_ErrorIndication)%N; [apply quiet_ret|]. destruct (m_proc m =? id_Iu_ReleaseRequest)%N; [|apply quiet_ret].
    destruct (m_ies m); try apply quiet_fail. unfold handle_co_iu_rel_req. apply quiet_bind; [apply quiet_tx_release|intros; apply quiet_ret].
  - destruct (m_dir m =? PR_successfulOutcome)%N.
    + destruct (m_proc m =? id_SecurityModeControl)%N; [apply quiet_event|]. destruct (m_proc m =? id_Iu_Release)%N; [apply quiet_event|apply quiet_ret].
    + destruct (m_dir m =? PR_outcome)%N; [|apply quiet_ret]. destruct (m_proc m =? id_RAB_Assignment)%N; [|apply quiet_ret].
      destruct (m_ies m); try apply quiet_fail. unfold handle_co_rab_ass_resp. apply quiet_deref. intros u _. match goal with |- quiet (match ?q with _ => _ end) => destruct q as [[|y l]|] end; [apply quiet_fail| |apply quiet_ret].
      apply quiet_bind; [apply quiet_lift|intros [z|]]; [apply quiet_event|apply quiet_ret].
Qed.
Lemma quiet_initial c' a m : c' <> c -> quiet (handle_co_initial E c' a m).
Proof. intros Hx. unfold handle_co_initial. destruct (_ || _); [apply quiet_ret|]. destruct (m_ies m); try apply quiet_fail. apply quiet_bind; [apply quiet_initial_ue; exact Hx|intros; apply quiet_ret]. Qed.
Lemma quiet_rx l h : (forall m, quiet (h m)) -> quiet (rx_co E l h).
Proof. intros H. unfold rx_co. destruct (dec_co E l); [apply H|apply quiet_ret]. Qed.
Lemma quiet_cache f : quiet (let! s := get in put_st (set_cache s (f s))).
Proof. apply quiet_modify. intros s H. exact H. Qed.
Lemma quiet_loop : forall n r q, quiet (invalidate_loop E n r q).
Proof.
  induction n as [|n IH]; intros [p|] q; cbn [invalidate_loop]; try apply quiet_ret; [apply quiet_fail|].
  apply quiet_deref. intros u _. apply quiet_bind; [apply quiet_get|intros s]. cbv zeta. apply quiet_bind; [|intros _; apply IH].
  destruct (u_rnc u =? q)%N; [apply quiet_link|apply quiet_ret].
Qed.
Lemma quiet_rncs : forall l h, quiet (invalidate_rncs E l h).
Proof.
  induction l as [|n l IH]; intros h; cbn [invalidate_rncs]; [apply quiet_ret|]. apply quiet_bind; [|intros _; apply IH].
  destruct (h n); [|apply quiet_ret]. unfold invalidate_rnc. apply quiet_bind; [apply quiet_get|intros s]. apply quiet_loop.
Qed.
Lemma quiet_exec o w : noc (w_st w) -> (forall a d, o <> OConnectInd c a d) -> (forall d, o = ODataInd c d -> pending (w_st w) c = None) ->
  noc (w_st (fst (exec E o w))) /\ ext w (fst (exec E o w)).
Proof.
  intros Hn Ho Hd.
  assert (Hgen : forall (m : M unit), quiet m -> quiet (let! _ := m in emit EPrimFree)).
  { intros m Hm. apply quiet_bind; [exact Hm|intros; apply quiet_emit; exact I]. }
  destruct o; cbn [exec]; unfold sccp_sap_up.
  - assert (conn <> c) by (intros ->; exact (Ho _ _ eq_refl)).
    apply Hgen; [|exact Hn]. apply quiet_bind; [apply quiet_send; cbn [request_conn]; congruence|intros _]. destruct l2; [apply quiet_cache|]. apply quiet_rx. intros m. apply quiet_initial. assumption.
  - apply Hgen; [|exact Hn]. apply quiet_ret.
  - apply Hgen; [|exact Hn]. apply quiet_bind; [apply quiet_cache|intros _]. apply quiet_bind; [apply quiet_get|intros s].
    destruct (ue_conn_ctx_find s conn) as [u|]; [|apply quiet_ret]. apply quiet_bind; [destruct l2; [apply quiet_ret|apply quiet_rx; intros; apply quiet_co]|intros _].
    apply quiet_bind; [apply quiet_get|intros s']. destruct (ue_conn_ctx_find s' conn) as [v|]; [apply quiet_link|apply quiet_ret].
  - destruct (N.eq_dec conn c) as [->|Hne].
    + specialize (Hd _ eq_refl). rewrite bind_assoc, bind_get. destruct (ue_conn_ctx_find (w_st w) c) as [u|] eqn:Hf.
      { apply find_conn in Hf as [Hi Hc]. destruct (Hn u Hi Hc). }
      replace (sccp_addr_find (w_st w) c) with (pending (w_st w) c) by reflexivity. rewrite Hd. apply Hgen; [apply quiet_ret|exact Hn].
    + apply Hgen; [|exact Hn]. apply quiet_bind; [apply quiet_get|intros s]. destruct (ue_conn_ctx_find s conn); [apply quiet_rx; intros; apply quiet_co|].
      destruct (sccp_addr_find s conn); [|apply quiet_ret]. apply quiet_bind; [apply quiet_cache|intros _]. apply quiet_rx. intros m. apply quiet_initial, Hne.
  - apply Hgen; [|exact Hn]. unfold rx_cl, handle_cl. destruct (dec_cl E l2) as [m|]; [|apply quiet_ret]. apply quiet_bind; [|intros; apply quiet_ret].
    destruct (m_dir m =? PR_initiatingMessage)%N; [|apply quiet_ret]. destruct (m_proc m =? id_Reset)%N.
    + destruct (m_ies m); try apply quiet_fail. unfold handle_cl_reset_req. destruct (enc_ok E _); [apply quiet_send; discriminate|apply quiet_ret].
    + destruct (m_proc m =? id_ErrorIndication)%N; apply quiet_ret.
  - apply Hgen; [|exact Hn]. unfold handle_notice_ind. destruct (_ || _); [apply quiet_ret|]. apply quiet_bind; [apply quiet_get|intros s]. apply quiet_rncs.
  - apply Hgen; [|exact Hn]. unfold handle_pcstate_ind. repeat (match goal with |- quiet (let '(_, _) := ?x in _) => destruct x | |- quiet (if ?b then _ else _) => destruct b | |- quiet (bind get _) => apply quiet_bind; [apply quiet_get|intros ?] end); try apply quiet_ret; apply quiet_rncs.
  - apply Hgen; [|exact Hn]. apply quiet_ret.
  - apply Hgen; [|exact Hn]. apply quiet_ret.
  - unfold timer_fires. rewrite bind_get. destruct (live (w_st w) ue) as [u|]; [|exact (quiet_ret tt w Hn)]. destruct (u_timer u); [|exact (quiet_ret tt w Hn)].
    apply quiet_put_bind; [apply quiet_upd; [reflexivity|exact Hn]|]. apply quiet_bind; [apply quiet_event|intros; apply quiet_ret].
  - apply quiet_api. exact Hn.
Qed.
End Quiet.

Lemma remembered_pending s c : remembered s c = [] -> pending s c = None.
Proof. intros H. rewrite pending_remembered, H. reflexivity. Qed.
Lemma unused_exec E o w c : good (w_st w) -> unused (w_st w) c -> (forall a d, o <> OConnectInd c a d) ->
  unused (w_st (fst (exec E o w))) c /\ ext c w (fst (exec E o w)).
Proof.
  intros G (H1&H2) Ho. rewrite ue_on_none_iff in H1. destruct (quiet_exec E c o w H1 Ho) as (H3&H4); [intros; apply remembered_pending, H2|].
  split; [|exact H4]. split; [apply ue_on_none_iff, H3|]. rewrite exec_remembered by exact G. rewrite H2. destruct o; try reflexivity.
  - destruct l2; [|reflexivity]. destruct (N.eqb_spec conn c) as [->|]; [destruct (Ho _ _ eq_refl)|reflexivity].
  - destruct (c =? conn)%N; reflexivity.
  - destruct (c =? conn)%N; [|reflexivity]. destruct (ue_on (w_st w) conn); reflexivity.
Qed.
Lemma unused_run E c : forall l w, good (w_st w) -> unused (w_st w) c -> not_reopened c l ->
  unused (w_st (fst (run E l w))) c /\ ext c w (fst (run E l w)).
Proof.
  induction l as [|o l IH]; intros w G Hu Hl; cbn [run]; [split; [exact Hu|apply ext_refl]|].
  destruct (unused_exec E o w c G Hu) as (H1&H2); [intros a d ->; exact (Hl a d (or_introl eq_refl))|].
  pose proof (exec_good E o w G) as G'. unfold bind. destruct (exec E o w) as [w' [[]|]]; cbn [fst] in *; [|split; assumption].
  destruct (IH w' G' H1) as (H3&H4); [intros a d Hi; exact (Hl a d (or_intror Hi))|]. split; [exact H3|eapply ext_trans; eassumption].
Qed.
Lemma ext_on_conn c b a : ext c b a -> exists t, added (w_tr b) (w_tr a) t /\ on_conn c t = [].
Proof.
  intros (t&T1&T2). exists (rev t). split; [apply added_rev, T1|]. unfold on_conn. apply filter_false. intros r Hr. unfold sends in Hr. apply in_flat_map in Hr as (e&He&Hr).
  rewrite Forall_forall in T2. apply in_rev in He. specialize (T2 e He). destruct e; try contradiction. destruct Hr as [->|[]]. cbn [okq] in T2.
  destruct (request_conn r) as [c'|]; [|reflexivity]. destruct (N.eqb_spec c' c); congruence.
Qed.
Lemma rej_rx E c a d w : (match dec_co E d with Some m => acceptable m | None => None end) = None ->
  let w' := fst (rx_co E d (handle_co_initial E c a) w) in w_st w' = w_st w /\ exists t, w_tr w' = t ++ w_tr w /\ forallb rejected_eff t = true.
Proof.
  intros H. unfold rx_co. destruct (dec_co E d) as [m|]; [apply initial_rej, H|]. split; [reflexivity|]. exists []. split; reflexivity.
Qed.
Lemma sends_app' a b : sends (a ++ b) = sends a ++ sends b.
Proof. unfold sends. apply flat_map_app. Qed.
Lemma rej_sends t : forallb rejected_eff t = true -> sends t = [].
Proof. induction t as [|e t IH]; [reflexivity|]. cbn [forallb]. intros H. apply andb_prop in H as [H1 H2]. unfold sends in *. cbn [flat_map]. rewrite IH by exact H2. destruct e; try discriminate; reflexivity. Qed.
Lemma rej_rev t : forallb rejected_eff t = true -> forallb rejected_eff (rev t) = true.
Proof. rewrite !forallb_forall. intros H e He. apply H, in_rev, He. Qed.
Lemma bind_fst_prim (m : M unit) w : let w1 := fst (m w) in
  w_st (fst ((let! _ := m in emit EPrimFree) w)) = w_st w1 /\ exists t, w_tr (fst ((let! _ := m in emit EPrimFree) w)) = t ++ w_tr w1 /\ sends t = [].
Proof.
  cbv zeta. unfold bind. destruct (m w) as [w1 [[]|]]; cbn [fst emit w_st w_tr]; (split; [reflexivity|]).
  - exists [EPrimFree]. split; reflexivity.
  - exists []. split; reflexivity.
Qed.
Lemma refused_connect_l E l c a d : d <> [] -> unused (w_st (reach E l)) c -> opens E (w_st (reach E l)) (OConnectInd c a d) = None ->
  let w := reach E l in let w' := fst (exec E (OConnectInd c a d) w) in
  unused (w_st w') c /\ exists t, added (w_tr w) (w_tr w') t /\ sends t = [NConnectResp c].
Proof.
  intros Hd (H1&H2) Ho w w'.
  assert (Hs : w_st w' = w_st w /\ exists t, w_tr w' = t ++ ESccp (NConnectResp c) :: w_tr w /\ sends t = []).
  { unfold w'. cbn [exec]. unfold sccp_sap_up.
    destruct (bind_fst_prim (let! _ := sccp_send E (NConnectResp c) in match d with [] => let! s := get in put_st (set_cache s ((c, a) :: s_cache s)) | _ :: _ => rx_co E d (handle_co_initial E c a) end) w) as (B1&t1&B2&B3).
    destruct d as [|y d]; [destruct (Hd eq_refl)|].
    assert (Hw : fst ((let! _ := sccp_send E (NConnectResp c) in rx_co E (y :: d) (handle_co_initial E c a)) w) =
      fst (rx_co E (y :: d) (handle_co_initial E c a) (mkW (w_st w) (ESccp (NConnectResp c) :: w_tr w)))) by reflexivity.
    rewrite Hw in B1, B2. destruct (rej_rx E c a (y :: d) (mkW (w_st w) (ESccp (NConnectResp c) :: w_tr w))) as (R1&t2&R2&R3).
    { cbn [opens] in Ho. destruct (dec_co E (y :: d)) as [m|]; [|reflexivity]. destruct (acceptable m); [discriminate|reflexivity]. }
    cbv zeta in R1, R2. cbn [w_st w_tr] in R1, R2.
    split; [etransitivity; [exact B1|exact R1]|]. exists (t1 ++ t2). split; [etransitivity; [exact B2|]; rewrite R2, app_assoc; reflexivity|].
    rewrite sends_app', B3, rej_sends by exact R3. reflexivity. }
  destruct Hs as (S1&t&S2&S3). split; [rewrite S1; split; assumption|]. exists (rev (t ++ [ESccp (NConnectResp c)])). split.
  - apply added_rev. rewrite S2, <- app_assoc. reflexivity.
  - rewrite rev_app_distr. cbn [rev List.app]. change (ESccp (NConnectResp c) :: rev t) with ([ESccp (NConnectResp c)] ++ rev t). rewrite sends_app'.
    assert (Hr : sends (rev t) = []).
    { destruct (sends (rev t)) as [|r q] eqn:Hq; [reflexivity|]. assert (Hi : In r (sends (rev t))) by (rewrite Hq; left; reflexivity).
      unfold sends in Hi. apply in_flat_map in Hi as (e&He&Hi). apply in_rev in He. assert (Hx : In r (sends t)) by (apply in_flat_map; exists e; split; assumption). rewrite S3 in Hx. destruct Hx. }
    rewrite Hr. reflexivity.
Qed.
Lemma refused_data_l E l c d a : ue_on (w_st (reach E l)) c = None -> remembered (w_st (reach E l)) c = [a] -> opens E (w_st (reach E l)) (ODataInd c d) = None ->
  let w := reach E l in let w' := fst (exec E (ODataInd c d) w) in
  unused (w_st w') c /\ exists t, added (w_tr w) (w_tr w') t /\ sends t = [].
Proof.
  intros H1 H2 Ho w w'. assert (G := reach_good E l).
  assert (H1w : ue_on (w_st w) c = None) by exact H1.
  assert (Hp : pending (w_st w) c = Some a) by (rewrite pending_remembered; unfold w; rewrite H2; reflexivity).
  assert (Hs : s_ues (w_st w') = s_ues (w_st w) /\ exists t, w_tr w' = t ++ w_tr w /\ sends t = []).
  { unfold w'. cbn [exec]. unfold sccp_sap_up. rewrite bind_assoc, bind_get. change (ue_conn_ctx_find (w_st w) c) with (ue_on (w_st w) c).
    rewrite H1w. change (sccp_addr_find (w_st w) c) with (pending (w_st w) c). rewrite Hp.
    destruct (bind_fst_prim (let! _ := sccp_addr_del c in rx_co E d (handle_co_initial E c a)) w) as (B1&t1&B2&B3).
    assert (Hw : fst ((let! _ := sccp_addr_del c in rx_co E d (handle_co_initial E c a)) w) =
      fst (rx_co E d (handle_co_initial E c a) (mkW (set_cache (w_st w) (cache_del c (s_cache (w_st w)))) (w_tr w)))) by reflexivity.
    rewrite Hw in B1, B2. destruct (rej_rx E c a d (mkW (set_cache (w_st w) (cache_del c (s_cache (w_st w)))) (w_tr w))) as (R1&t2&R2&R3).
    { cbn [opens] in Ho. fold w in Ho. rewrite H1w, Hp in Ho. destruct (dec_co E d) as [m|]; [|reflexivity]. destruct (acceptable m); [discriminate|reflexivity]. }
    cbv zeta in R1, R2. cbn [w_st w_tr] in R1, R2.
    split; [etransitivity; [rewrite B1; reflexivity|rewrite R1; reflexivity]|]. exists (t1 ++ t2). split; [etransitivity; [exact B2|]; rewrite R2, app_assoc; reflexivity|].
    rewrite sends_app', B3, rej_sends by exact R3. reflexivity. }
  destruct Hs as (S1&t&S2&S3). split.
  - split; [unfold ue_on; rewrite S1; exact H1|]. unfold w', w. rewrite exec_remembered by exact G. rewrite N.eqb_refl, H1, H2. reflexivity.
  - exists (rev t). split; [apply added_rev, S2|]. destruct (sends (rev t)) as [|r q] eqn:Hq; [reflexivity|]. assert (Hi : In r (sends (rev t))) by (rewrite Hq; left; reflexivity).
    unfold sends in Hi. apply in_flat_map in Hi as (e&He&Hi). apply in_rev in He. assert (Hx : In r (sends t)) by (apply in_flat_map; exists e; split; assumption). rewrite S3 in Hx. destruct Hx.
Qed.
Lemma stays_unused E l l' c : unused (w_st (reach E l)) c -> not_reopened c l' ->
  let w := reach E l in let w' := fst (run E l' w) in
  unused (w_st w') c /\ exists t, added (w_tr w) (w_tr w') t /\ on_conn c t = [].
Proof.
  intros Hu Hl w w'. destruct (unused_run E c l' w (reach_good E l) Hu Hl) as (H1&H2). split; [exact H1|]. apply ext_on_conn, H2.
Qed.
Lemma dropped E l c d : unused (w_st (reach E l)) c -> let w := reach E l in
  exec E (ODataInd c d) w = (mkW (w_st w) (EPrimFree :: w_tr w), Some tt) /\
  exec E (ODisconnectInd c d) w = (mkW (w_st w) (EPrimFree :: w_tr w), Some tt).
Proof.
  intros (H1&H2) w. split.
  - cbn [exec]. unfold sccp_sap_up. rewrite bind_assoc, bind_get. change (ue_conn_ctx_find (w_st w) c) with (ue_on (w_st (reach E l)) c). rewrite H1.
    change (sccp_addr_find (w_st w) c) with (pending (w_st (reach E l)) c). rewrite (remembered_pending _ _ H2). reflexivity.
  - assert (Hc : cache_del c (s_cache (w_st w)) = s_cache (w_st w)).
    { apply cache_del_none. destruct (find _ (s_cache (w_st w))) as [e|] eqn:Hf; [|reflexivity]. apply find_some in Hf as [Hi He].
      unfold remembered in H2. apply map_eq_nil in H2. assert (Hx : In e (filter (fun e => (fst e =? c)%N) (s_cache (w_st (reach E l))))) by (apply filter_In; split; assumption). rewrite H2 in Hx. destruct Hx. }
    cbn [exec]. unfold sccp_sap_up, sccp_addr_del. repeat (first [rewrite bind_assoc|rewrite bind_get|rewrite bind_put]; cbn [w_st w_tr]). rewrite Hc.
    replace (set_cache (w_st w) (s_cache (w_st w))) with (w_st w) by (destruct (w_st w); reflexivity).
    change (ue_conn_ctx_find (w_st w) c) with (ue_on (w_st (reach E l)) c). rewrite H1. reflexivity.
Qed.
Lemma never_closed E c a d : d <> [] -> dec_co E d = None -> forall l, not_reopened c l ->
  let w := reach E (OConnectInd c a d :: l) in unused (w_st w) c /\ on_conn c (rev (w_tr w)) = [NConnectResp c].
Proof.
  intros Hd Hdec l Hl w. set (w1 := mkW init [EPrimFree; ESccp (NConnectResp c)]).
  assert (He : exec E (OConnectInd c a d) w0 = (w1, Some tt)).
  { destruct d as [|y d]; [destruct (Hd eq_refl)|]. cbn [exec]. unfold sccp_sap_up, sccp_send, rx_co. rewrite Hdec. reflexivity. }
  assert (Hw : w = fst (run E l w1)) by (unfold w, reach; cbn [run]; unfold bind; rewrite He; reflexivity).
  destruct (unused_run E c l w1 good_init) as (H1&H2); [split; reflexivity|exact Hl|]. rewrite Hw. split; [exact H1|].
  destruct (ext_on_conn c _ _ H2) as (t&T1&T2). unfold added in T1. rewrite T1, rev_app_distr, rev_involutive. unfold on_conn in *. rewrite sends_app', filter_app, T2.
  cbn. rewrite N.eqb_refl. reflexivity.
Qed.
