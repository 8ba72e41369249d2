(* Connections: routing, delivery, creation and removal of UE contexts *)
From Coq Require Import ZifyBool ZifyNat ZifyN Sorted.
From Verif Require Import Base Lai Lai_proofs IuClient IuClient_frame IuClient_spec IuClient_reg IuClient_step IuClient_inv IuClient_area.

(* ---------------- faults end everything ---------------- *)
Definition fdet {A} (m : M A) : Prop := forall w, exists t,
  w_tr (fst (m w)) = t ++ w_tr w /\
  match snd (m w) with
  | Some _ => faults t = []
  | None => exists f t', t = EFault f :: t' /\ faults t' = []
  end.
Lemma faults_app a b : faults (a ++ b) = faults a ++ faults b.
Proof. apply flat_map_app. Qed.
Lemma faults_rev t : faults (rev t) = rev (faults t).
Proof. apply flat_map_rev. intros []; cbn; lia. Qed.
Lemma fdet_ret {A} (a : A) : fdet (ret a).
Proof. intros w. exists []. split; reflexivity. Qed.
Lemma fdet_get : fdet get.
Proof. intros w. exists []. split; reflexivity. Qed.
Lemma fdet_trace : fdet trace.
Proof. intros w. exists []. split; reflexivity. Qed.
Lemma fdet_put s : fdet (put_st s).
Proof. intros w. exists []. split; reflexivity. Qed.
Lemma fdet_fail {A} f : fdet (@fail A f).
Proof. intros w. exists [EFault f]. cbn. split; [reflexivity|]. exists f, []. auto. Qed.
Lemma fdet_emit e : (forall f, e <> EFault f) -> fdet (emit e).
Proof.
  intros H w. exists [e]. cbn. split; [reflexivity|]. destruct e; try reflexivity. exfalso. eapply H; reflexivity.
Qed.
Lemma fdet_bind {A B} (m : M A) (k : A -> M B) : fdet m -> (forall a, fdet (k a)) -> fdet (bind m k).
Proof.
  intros Hm Hk w. destruct (Hm w) as (t&H1&H2). unfold bind. destruct (m w) as [w' [a|]]; cbn [fst snd] in *.
  - destruct (Hk a w') as (t'&H3&H4). exists (t' ++ t). rewrite H3, H1, app_assoc. split; [reflexivity|].
    destruct (snd (k a w')).
    + rewrite faults_app, H4, H2. reflexivity.
    + destruct H4 as (f&t''&->&H4). exists f, (t'' ++ t). split; [reflexivity|]. rewrite faults_app, H4, H2. reflexivity.
  - exists t. auto.
Qed.
Lemma fdet_lift {A} (o : outcome A) : fdet (lift o).
Proof. destruct o; [apply fdet_ret|apply fdet_fail]. Qed.
Lemma fdet_deref p : fdet (deref p).
Proof. unfold deref. apply fdet_bind; [apply fdet_get|]. intros s. destruct (live s p); [apply fdet_ret|apply fdet_fail]. Qed.

Ltac fd := repeat
  match goal with
  | |- fdet (ret _) => apply fdet_ret
  | |- fdet (fail _) => apply fdet_fail
  | |- fdet get => apply fdet_get
  | |- fdet trace => apply fdet_trace
  | |- fdet (put_st _) => apply fdet_put
  | |- fdet (lift _) => apply fdet_lift
  | |- fdet (deref _) => apply fdet_deref
  | |- fdet (emit _) => apply fdet_emit; discriminate
  | |- fdet (bind _ _) => apply fdet_bind; [|intros]
  | |- fdet (match ?x with _ => _ end) => destruct x
  end.

Section Conn.
Variable E : env.

Lemma fdet_send r : fdet (sccp_send E r).
Proof. unfold sccp_send. fd. Qed.
Lemma fdet_encode m : fdet (encode E m).
Proof. unfold encode. fd. Qed.
Lemma fdet_free p : fdet (free_ue E p).
Proof. unfold free_ue. fd. apply fdet_send. Qed.
Lemma fdet_tx_release p c : fdet (tx_release E p c).
Proof. unfold tx_release. fd; auto using fdet_encode, fdet_send. Qed.
Lemma fdet_paging a i t b c : fdet (tx_paging_cmd E a i t b c).
Proof. unfold tx_paging_cmd. fd; auto using fdet_encode, fdet_send. Qed.
Lemma fdet_page_loop l f i t b : forall n, fdet (page_loop E l f i t b n).
Proof. induction l; intros n; cbn [page_loop]; fd; auto using fdet_paging. Qed.
Lemma fdet_api a : fdet (run_api E a).
Proof.
  unfold run_api, iu_tx, tx_sec_mode_cmd, tx_common_id, tx_release_free, rab_act, iu_page, page_cs2, page_ps2.
  fd; auto using fdet_encode, fdet_send, fdet_tx_release, fdet_free, fdet_paging, fdet_page_loop.
Qed.
Lemma fdet_apis l : fdet (run_apis E l).
Proof. induction l; cbn [run_apis]; fd; auto using fdet_api. Qed.
Lemma fdet_callback e : (forall f, e <> EFault f) -> fdet (callback E e).
Proof. intros H. unfold callback. fd; auto using fdet_apis. apply fdet_emit, H. Qed.
Lemma fdet_event p ev : fdet (global_iu_event E p ev).
Proof. unfold global_iu_event. fd. apply fdet_callback. discriminate. Qed.
Lemma fdet_register id r a : fdet (rnc_register E id r a).
Proof. unfold rnc_register, rnc_alloc, event_new_area. fd; auto using fdet_event. Qed.
Lemma fdet_initial c a m : fdet (handle_co_initial E c a m).
Proof.
  unfold handle_co_initial, handle_co_initial_ue, nas_put, ue_conn_ctx_alloc.
  fd; auto using fdet_register; apply fdet_callback; discriminate.
Qed.
Lemma fdet_co p m : fdet (handle_co E p m).
Proof.
  unfold handle_co, handle_co_dt, nas_put, handle_co_iu_rel_req, handle_co_rab_ass_resp.
  fd; auto using fdet_event, fdet_tx_release; apply fdet_callback; discriminate.
Qed.
Lemma fdet_cl a m : fdet (handle_cl E a m).
Proof. unfold handle_cl, handle_cl_reset_req. fd; auto using fdet_send. Qed.
Lemma fdet_link p : fdet (link_invalidated_free E p).
Proof. unfold link_invalidated_free. fd; auto using fdet_event, fdet_free. Qed.
Lemma fdet_loop n : forall c r, fdet (invalidate_loop E n c r).
Proof. induction n; intros [p|] r; cbn [invalidate_loop]; fd; auto using fdet_link. Qed.
Lemma fdet_rncs l h : fdet (invalidate_rncs E l h).
Proof. induction l; cbn [invalidate_rncs]; unfold invalidate_rnc; fd; auto using fdet_loop. Qed.
Lemma fdet_rx l h : (forall m, fdet (h m)) -> fdet (rx_co E l h).
Proof. intros H. unfold rx_co. fd; auto. Qed.
Lemma fdet_rxcl l h : (forall m, fdet (h m)) -> fdet (rx_cl E l h).
Proof. intros H. unfold rx_cl. fd; auto. Qed.
Lemma fdet_exec o : fdet (exec E o).
Proof.
  destruct o; cbn [exec]; unfold sccp_sap_up, timer_fires, handle_notice_ind, handle_pcstate_ind,
    sccp_addr_add, sccp_addr_del; fd;
    auto using fdet_send, fdet_rx, fdet_rxcl, fdet_initial, fdet_co, fdet_cl, fdet_link, fdet_rncs, fdet_event, fdet_api.
Qed.

(* ---------------- C41, C54 ---------------- *)
Definition is_resp (e : eff) : bool := match e with ESccp (NConnectResp _) => true | _ => false end.
Definition is_prim_free (e : eff) : bool := match e with EPrimFree => true | _ => false end.
Lemma filter_false {A} (f : A -> bool) l : (forall x, In x l -> f x = false) -> filter f l = [].
Proof.
  induction l as [|x l IH]; intros H; [reflexivity|]. cbn [filter]. rewrite (H x (or_introl eq_refl)).
  apply IH. intros y Hy. apply H. right; exact Hy.
Qed.
Lemma nna_not t : forallb no_new_area t = true ->
  (forall e, In e t -> is_resp e = false) /\ (forall e, In e t -> is_prim_free e = false).
Proof.
  rewrite forallb_forall. intros H. split; intros e He; specialize (H e He);
    destruct e as [[]|?|? []|?|?| | | | |]; try reflexivity; discriminate H.
Qed.
Lemma api_not t : forallb api_eff t = true ->
  (forall e, In e t -> is_resp e = false) /\ (forall e, In e t -> is_prim_free e = false).
Proof. intros H. apply nna_not, forallb_nna, H. Qed.

(* the skeleton of every operation's trace *)
Lemma exec_skeleton l o : let w := reach E l in let res := exec E o w in
  exists t, w_tr (fst res) = fin_eff o (snd res) ++ t ++ pre_eff o ++ w_tr w /\
    (forall e, In e t -> is_resp e = false) /\ (forall e, In e t -> is_prim_free e = false).
Proof.
  cbv zeta. set (w := reach E l). pose proof (reach_good E l) as G. fold w in G.
  destruct (opens E (w_st w) o) as [x|] eqn:Ho.
  - assert (Hp : is_prim o = true) by (destruct o; try discriminate; reflexivity).
    destruct (exec_open E o x w (g_table _ G) (g_ues _ G) Ho) as (s2&t1&_&H2&H3). cbv zeta in H3.
    set (ev := if _ && _ then _ else _) in H3.
    assert (Hev : (forall e, In e ev -> is_resp e = false) /\ (forall e, In e ev -> is_prim_free e = false)).
    { unfold ev. destruct (_ && _); cbn; split; intros e He; intuition (subst; reflexivity). }
    destruct (api_not _ H2) as [Ha1 Ha2]. destruct Hev as [He1 He2].
    destruct H3 as [(_&Ht&Hs)|(s3&t2&_&Hat&_&_&Hr)].
    + rewrite Ht, Hs. cbn [fin_eff]. exists (t1 ++ ev ++ [EBufAlloc]).
      split; [rewrite <- !app_assoc; reflexivity|].
      split; intros e He; rewrite !in_app_iff in He; destruct He as [He|[He|[<-|[]]]]; auto.
    + destruct (api_not _ Hat) as [Hb1 Hb2]. destruct Hr as [(Hs&Ht)|(Hs&Ht)]; rewrite Hs, Ht; cbn [fin_eff].
      * eexists (t2 ++ [_] ++ t1 ++ ev ++ [EBufAlloc]).
        split; [rewrite <- !app_assoc; reflexivity|].
        split; intros e He; rewrite !in_app_iff in He; destruct He as [He|[[<-|[]]|[He|[He|[<-|[]]]]]]; auto.
      * rewrite Hp. eexists ([EBufFree] ++ t2 ++ [_] ++ t1 ++ ev ++ [EBufAlloc]).
        split; [rewrite <- !app_assoc; reflexivity|].
        split; intros e He; rewrite !in_app_iff in He; destruct He as [[<-|[]]|[He|[[<-|[]]|[He|[He|[<-|[]]]]]]]; auto.
  - destruct (exec_quiet E o w Ho) as (_&t&H1&H2). exists t. split; [exact H2|]. apply nna_not, H1.
Qed.
Lemma added_rev b a t : a = t ++ b -> added b a (rev t).
Proof. intros ->. unfold added. rewrite rev_involutive. reflexivity. Qed.

(* C41 *)
Lemma connect_resp_l : forall l o,
  let w := reach E l in
  exists t, added (w_tr w) (w_tr (fst (exec E o w))) t /\
    filter is_resp t = match o with OConnectInd c _ _ => [ESccp (NConnectResp c)] | _ => [] end /\
    match o with OConnectInd c _ _ => exists t', t = ESccp (NConnectResp c) :: t' | _ => True end.
Proof.
  intros l o. cbv zeta. destruct (exec_skeleton l o) as (t&H1&H2&_). cbv zeta in H1.
  eexists. split; [apply added_rev; rewrite H1, app_assoc, app_assoc; reflexivity|].
  rewrite <- app_assoc. rewrite !rev_app_distr, <- app_assoc, !filter_app.
  rewrite (filter_false is_resp (rev t)) by (intros e He; apply H2, in_rev, He).
  assert (Hf : filter is_resp (rev (fin_eff o (snd (exec E o (reach E l))))) = []).
  { unfold fin_eff. destruct (snd _), (is_prim o); reflexivity. }
  rewrite Hf, app_nil_r. split.
  - destruct o; reflexivity.
  - destruct o; auto. cbn [pre_eff rev]. eexists. reflexivity.
Qed.

(* C54 *)
Lemma prim_free_l : forall l o,
  let w := reach E l in
  let res := exec E o w in
  exists t, added (w_tr w) (w_tr (fst res)) t /\
    match snd res with
    | Some _ => faults t = [] /\ exists t',
        t = t' ++ (match o with OTimer _ | OApi _ => [] | _ => [EPrimFree] end) /\ ~ In EPrimFree t'
    | None => exists f t', t = t' ++ [EFault f] /\ faults t' = [] /\ ~ In EPrimFree t'
    end.
Proof.
  intros l o. cbv zeta. destruct (exec_skeleton l o) as (t&H1&_&H2). cbv zeta in H1.
  destruct (fdet_exec o (reach E l)) as (t0&H3&H4).
  assert (H0 : t0 = fin_eff o (snd (exec E o (reach E l))) ++ t ++ pre_eff o).
  { rewrite H3, app_assoc, app_assoc in H1. apply app_inv_tail in H1. rewrite H1, <- app_assoc. reflexivity. }
  exists (rev t0). split; [apply added_rev, H3|].
  assert (Hn : forall e, In e (t ++ pre_eff o) -> is_prim_free e = false).
  { intros e He. apply in_app_iff in He as [He|He]; [auto|]. destruct o; cbn in He; intuition (subst; reflexivity). }
  destruct (snd (exec E o (reach E l))) as [[]|].
  - split; [rewrite faults_rev, H4; reflexivity|].
    exists (rev (t ++ pre_eff o)). rewrite H0, rev_app_distr. split.
    + f_equal. destruct o; reflexivity.
    + rewrite <- in_rev. intros Hi. specialize (Hn _ Hi). discriminate Hn.
  - destruct H4 as (f&t'&Ht&Hf). exists f, (rev t'). rewrite Ht. cbn [rev]. split; [reflexivity|]. split.
    + rewrite faults_rev, Hf. reflexivity.
    + rewrite <- in_rev. intros Hi. assert (Hc : In EPrimFree t0) by (rewrite Ht; right; exact Hi).
      rewrite H0 in Hc. cbn [fin_eff] in Hc. apply Hn in Hc. discriminate Hc.
Qed.
(* ---------------- which context a handler talks about ---------------- *)
Section Subject.
Variable P : eff -> bool.
Variable p : ptr.
Hypothesis Papi : forall e, api_eff e = true -> P e = true.
Hypothesis Palloc : P EBufAlloc = true.
Hypothesis Pfree : P EBufFree = true.
Hypothesis Precv : forall n r s, P (ERecv p n r s) = true.
Hypothesis Pev : forall ev, (forall i a, ev <> EvNewArea i a) -> ev <> EvLinkInvalidated -> P (EEvent (Some p) ev) = true.

Lemma gq_callback e : P e = true -> gpres P (callback E e).
Proof.
  intros He w. destruct (callback_frame E e w) as (H1&t&H2&H3). split; [apply api_keep, H1|].
  exists (t ++ [e]). split; [rewrite H2, <- app_assoc; reflexivity|].
  rewrite forallb_app, (forallb_P P Papi) by exact H3. cbn. rewrite He. reflexivity.
Qed.
Lemma gq_event q ev : P (EEvent q ev) = true -> gpres P (global_iu_event E q ev).
Proof.
  intros He w. destruct (event_frame E q ev w) as (H1&t&H2&H3). split; [apply api_keep, H1|].
  exists t. split; [exact H2|]. destruct H3 as [H3|(_&_&t'&->&H3)]; [apply (forallb_P P Papi), H3|].
  rewrite forallb_app, (forallb_P P Papi) by exact H3. cbn. rewrite He. reflexivity.
Qed.
Ltac gq := repeat
  match goal with
  | |- gpres _ (ret _) => apply gpres_ret
  | |- gpres _ (fail _) => apply gpres_fail; exact Papi
  | |- gpres _ get => apply gpres_get; exact Papi
  | |- gpres _ trace => apply gpres_trace; exact Papi
  | |- gpres _ (lift _) => apply gpres_lift; exact Papi
  | |- gpres _ (deref _) => apply gpres_deref; exact Papi
  | |- gpres _ (bind _ _) => apply gpres_bind; [|intros]
  | |- gpres _ (match ?x with _ => _ end) => destruct x
  end.
Lemma gq_handle_co m : gpres P (handle_co E p m).
Proof.
  unfold handle_co, handle_co_dt, handle_co_iu_rel_req, handle_co_rab_ass_resp, nas_put. gq;
    try (apply gpres_emit; assumption); try (apply gq_callback, Precv);
    try (apply gq_event, Pev; discriminate).
  apply gpres_pres; [exact Papi|apply pres_tx_release].
Qed.
End Subject.

Definition about (p : ptr) (e : eff) : bool :=
  match e with
  | ERecv q _ _ _ => (q =? p)%N
  | EEvent (Some q) _ => (q =? p)%N
  | EEvent None _ => false
  | EPrimFree => false
  | _ => true
  end.
Lemma about_api p e : api_eff e = true -> about p e = true.
Proof. destruct e; cbn; congruence. Qed.
Lemma about_recvs p t q : forallb (about p) t = true -> In q (recvs t) -> fst (fst (fst q)) = p.
Proof.
  rewrite forallb_forall. intros H Hq. unfold recvs in Hq. apply in_flat_map in Hq as (e&He&Hq).
  specialize (H e He). destruct e; cbn in Hq; try tauto. destruct Hq as [<-|[]]. cbn in *. apply N.eqb_eq, H.
Qed.
Lemma about_events p t q : forallb (about p) t = true -> In q (events t) -> fst q = Some p.
Proof.
  rewrite forallb_forall. intros H Hq. unfold events in Hq. apply in_flat_map in Hq as (e&He&Hq).
  specialize (H e He). destruct e as [|?|[q0|]| | | | | | |]; cbn in Hq; try tauto; (destruct Hq as [<-|[]]); cbn in *; [|discriminate].
  f_equal. apply N.eqb_eq, H.
Qed.

Lemma find_max c l : StronglySorted (fun a b => (b < a)%N) (map u_ptr l) ->
  forall u, find (fun u => (u_conn u =? c)%N) l = Some u ->
  forall u', In u' l -> u_conn u' = c -> (u_ptr u' <= u_ptr u)%N.
Proof.
  induction l as [|x l IH]; intros Hs u Hf u' Hi Hc; [discriminate|]. cbn [find] in Hf. cbn [map] in Hs.
  inversion Hs as [|? ? Hs' Hall]; subst. rewrite Forall_forall in Hall.
  destruct (u_conn x =? u_conn u')%N eqn:Hx.
  - injection Hf as ->. destruct Hi as [->|Hi]; [lia|]. apply N.lt_le_incl, Hall, in_map, Hi.
  - destruct Hi as [->|Hi]; [lia|]. eapply IH; eauto.
Qed.

Lemma exec_data_known c d w u : ue_on (w_st w) c = Some u ->
  exec E (ODataInd c d) w = (let! _ := rx_co E d (handle_co E (u_ptr u)) in emit EPrimFree) w.
Proof.
  intros H. cbn [exec]. unfold sccp_sap_up. rewrite bind_assoc, bind_get.
  unfold ue_conn_ctx_find. unfold ue_on in H. rewrite H. reflexivity.
Qed.

(* C39 *)
Lemma routing_l : forall l c d,
  let w := reach E l in
  let s := w_st w in
  match ue_on s c with
  | Some u =>
      In u (s_ues s) /\ u_conn u = c /\
      (forall u', In u' (s_ues s) -> u_conn u' = c -> (u_ptr u' <= u_ptr u)%N) /\
      exists t, added (w_tr w) (w_tr (fst (exec E (ODataInd c d) w))) t /\
        (forall q, In q (recvs t) -> fst (fst (fst q)) = u_ptr u) /\
        (forall q, In q (events t) -> fst q = Some (u_ptr u))
  | None =>
      pending s c = None ->
      exec E (ODataInd c d) w = (mkW s (EPrimFree :: w_tr w), Some tt)
  end.
Proof.
  intros l c d. cbv zeta. set (w := reach E l). pose proof (reach_good E l) as G. fold w in G.
  destruct (ue_on (w_st w) c) as [u|] eqn:Hu.
  - pose proof (find_some _ _ Hu) as [Hi Hc]. apply N.eqb_eq in Hc.
    split; [exact Hi|]. split; [exact Hc|]. split; [apply (find_max c _ (q_sorted _ (g_ues _ G)) u Hu)|].
    rewrite (exec_data_known _ _ _ _ Hu), emit_fin. cbn [fst w_tr].
    assert (Hg : gpres (about (u_ptr u)) (rx_co E d (handle_co E (u_ptr u)))).
    { unfold rx_co. destruct (dec_co E d); [|apply gpres_ret].
      apply gq_handle_co; auto using about_api; cbn; intros; apply N.eqb_refl. }
    destruct (Hg w) as (_&t&H1&H2).
    eexists. split; [apply added_rev; rewrite H1, app_assoc; reflexivity|].
    assert (Ho : forall A (x : option A), recvs (match x with Some _ => [EPrimFree] | None => [] end) = [] /\
       events (match x with Some _ => [EPrimFree] | None => [] end) = []) by (intros A []; split; reflexivity).
    split; intros q Hq.
    + eapply about_recvs; [exact H2|]. unfold recvs in *. rewrite flat_map_rev in Hq by (intros []; cbn; lia).
      apply in_rev in Hq. rewrite flat_map_app in Hq. apply in_app_iff in Hq as [Hq|Hq]; [|exact Hq].
      destruct (snd _); destruct Hq.
    + eapply about_events; [exact H2|]. unfold events in *. rewrite flat_map_rev in Hq by (intros []; cbn; lia).
      apply in_rev in Hq. rewrite flat_map_app in Hq. apply in_app_iff in Hq as [Hq|Hq]; [|exact Hq].
      destruct (snd _); destruct Hq.
  - intros Hp. cbn [exec]. unfold sccp_sap_up. rewrite bind_assoc, bind_get.
    unfold ue_conn_ctx_find, sccp_addr_find. unfold ue_on, pending in *. rewrite Hu, Hp. reflexivity.
Qed.

(* ---------------- delivery: C40 ---------------- *)
Lemma recvs_app a b : recvs (a ++ b) = recvs a ++ recvs b.
Proof. apply flat_map_app. Qed.
Lemma recvs_rev t : recvs (rev t) = rev (recvs t).
Proof. apply flat_map_rev. intros []; cbn; lia. Qed.
Lemma recvs_api t : forallb api_eff t = true -> recvs t = [].
Proof.
  induction t as [|e t IH]; cbn [forallb]; [reflexivity|]. intros H. apply andb_prop in H as [H1 H2].
  destruct e; try discriminate; apply IH, H2.
Qed.
Definition dt_msg (d : direct_transfer) : message :=
  mkMsg PR_initiatingMessage id_DirectTransfer (I_DirectTransfer d).

Lemma handle_dt_ok p d ra sai w : dt_info d = Some (ra, sai) ->
  handle_co E p (dt_msg d) w =
  (let! _ := emit EBufAlloc in
   let! _ := nas_put (dt_nas d) in
   let! _ := callback E (ERecv p (dt_nas d) ra sai) in
   emit EBufFree) w.
Proof.
  intros H. unfold handle_co, dt_msg. cbn [m_dir m_proc m_ies].
  change (PR_initiatingMessage =? PR_initiatingMessage)%N with true.
  change (id_DirectTransfer =? id_InitialUE_Message)%N with false.
  change (id_DirectTransfer =? id_DirectTransfer)%N with true. cbv iota.
  unfold handle_co_dt. rewrite bind_assoc, !bind_emit. unfold dt_info in H.
  destruct (dt_lai d) as [l|].
  - destruct (parse_lai l) as [[rc r0]|] eqn:Hp; [|discriminate]. destruct rc; try discriminate.
    cbn [lift]. rewrite !bind_assoc, bind_ret. cbn [Z.eqb negb].
    destruct (dt_rac d) as [[|x xs]|]; try discriminate; cbn [asn1str_to_u8 lift];
    (destruct (dt_sac d) as [[|y [|z zs]]|]; try discriminate; cbn [asn1str_to_u16 lift]);
    injection H as <- <-; rewrite ?bind_assoc, ?bind_ret; rewrite ?bind_assoc, ?bind_ret, ?bind_assoc, ?bind_ret;
    unfold bind, emit, ret; destruct (nas_put (dt_nas d) _) as [v1 [[]|]]; try reflexivity;
      destruct (callback E _ v1) as [v2 [[]|]]; reflexivity.
  - injection H as <- <-. rewrite bind_assoc, bind_ret. unfold bind, emit, ret; destruct (nas_put (dt_nas d) _) as [v1 [[]|]]; try reflexivity;
      destruct (callback E _ v1) as [v2 [[]|]]; reflexivity.
Qed.

Lemma dt_delivery_l : forall l c d msg u ra sai,
  let w := reach E l in
  ue_on (w_st w) c = Some u -> dec_co E msg = Some (dt_msg d) -> dt_info d = Some (ra, sai) ->
  exists t, added (w_tr w) (w_tr (fst (exec E (ODataInd c msg) w))) t /\
    if length (dt_nas d) <=? 256
    then recvs t = [(u_ptr u, dt_nas d, ra, sai)]
    else t = [EBufAlloc; EFault Assertion].
Proof.
  intros l c d msg u ra sai. cbv zeta. set (w := reach E l). intros Hu Hd Hi.
  rewrite (exec_data_known _ _ _ _ Hu), emit_fin. cbn [fst w_tr]. unfold rx_co. rewrite Hd.
  rewrite (handle_dt_ok _ _ _ _ _ Hi), bind_emit. unfold nas_put, NAS_BUF_SIZE.
  destruct (length (dt_nas d) <=? 256).
  - rewrite bind_ret. set (v := mkW _ _).
    destruct (callback_frame E (ERecv (u_ptr u) (dt_nas d) ra sai) v) as (_&t&H2&H3).
    unfold bind. destruct (callback E _ v) as [w3 [[]|]]; cbn [fst snd emit w_tr] in *; rewrite H2;
      [exists (rev (EPrimFree :: EBufFree :: t ++ [ERecv (u_ptr u) (dt_nas d) ra sai; EBufAlloc]))
      |exists (rev (t ++ [ERecv (u_ptr u) (dt_nas d) ra sai; EBufAlloc]))];
      (split; [apply added_rev; unfold v; cbn [w_tr]; cbn; rewrite <- app_assoc; reflexivity|]);
      rewrite recvs_rev.
    + change (recvs (EPrimFree :: EBufFree :: ?x)) with (recvs x). rewrite recvs_app, recvs_api by exact H3. reflexivity.
    + rewrite recvs_app, recvs_api by exact H3. reflexivity.
  - rewrite bind_fail. cbn. exists [EBufAlloc; EFault Assertion]. split; reflexivity.
Qed.
End Conn.
