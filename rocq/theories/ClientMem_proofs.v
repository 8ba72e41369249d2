(* Proofs for C94. *)
From Coq Require Import ZifyBool ZifyNat ZifyN.
From Verif Require Import Base Lai IuClient IuClient_spec IuClient_frame IuClient_step IuClient_conn IuClient_call ClientMem ClientMem_spec.

(* ---------------- the trace only grows ---------------- *)
Definition grows {A} (m : M A) : Prop := forall w, exists t, w_tr (fst (m w)) = t ++ w_tr w.
Lemma g_ret {A} (a : A) : grows (ret a).
Proof. intros w. exists []. reflexivity. Qed.
Lemma g_fail {A} f : grows (@fail A f).
Proof. intros w. exists [EFault f]. reflexivity. Qed.
Lemma g_emit e : grows (emit e).
Proof. intros w. exists [e]. reflexivity. Qed.
Lemma g_get : grows get.
Proof. intros w. exists []. reflexivity. Qed.
Lemma g_trace : grows trace.
Proof. intros w. exists []. reflexivity. Qed.
Lemma g_put s : grows (put_st s).
Proof. intros w. exists []. reflexivity. Qed.
Lemma g_bind {A B} (m : M A) (k : A -> M B) : grows m -> (forall a, grows (k a)) -> grows (bind m k).
Proof.
  intros Hm Hk w. unfold bind. destruct (Hm w) as (t&Ht). destruct (m w) as [w' [a|]]; cbn [fst] in *; [|exists t; exact Ht].
  destruct (Hk a w') as (t'&Ht'). exists (t' ++ t). rewrite Ht', Ht, app_assoc. reflexivity.
Qed.
Lemma g_lift {A} (o : outcome A) : grows (lift o).
Proof. destruct o; [apply g_ret|apply g_fail]. Qed.
Create HintDb grow.
#[local] Hint Resolve g_ret g_fail g_emit g_get g_trace g_put g_lift : grow.
Ltac gr := repeat first
  [ solve [auto with grow nocore]
  | apply g_bind; [|intros ?]
  | match goal with
    | |- grows (match ?x with _ => _ end) => destruct x
    | |- grows (if ?x then _ else _) => destruct x
    | |- grows (let '(_, _) := ?x in _) => destruct x
    | |- grows ((fun _ => _) _) => cbv beta
    end ].
Section Proofs.
Variable E : env.
Lemma g_send r : grows (sccp_send E r).
Proof. unfold sccp_send. gr. Qed.
Lemma g_encode m : grows (encode E m).
Proof. unfold encode. gr. Qed.
Lemma g_deref p : grows (deref p).
Proof. unfold deref. gr. Qed.
#[local] Hint Resolve g_send g_encode g_deref : grow.
Lemma g_free p : grows (free_ue E p).
Proof. unfold free_ue. gr. Qed.
Lemma g_page_loop : forall l f imsi tmsi ps n, grows (page_loop E l f imsi tmsi ps n).
Proof. induction l as [|x l IH]; intros; cbn [page_loop]; unfold tx_paging_cmd; gr; try apply IH. Qed.
#[local] Hint Resolve g_free g_page_loop : grow.
Lemma g_tx_release p c : grows (tx_release E p c).
Proof. unfold tx_release. gr. Qed.
#[local] Hint Resolve g_tx_release : grow.
Lemma g_api a : grows (run_api E a).
Proof.
  unfold run_api. apply g_bind; [gr|intros _]. apply g_bind; [|intros; gr].
  destruct a; unfold iu_tx, tx_sec_mode_cmd, tx_common_id, tx_release_free, rab_act, iu_page, page_cs2, page_ps2, tx_paging_cmd; gr.
Qed.
#[local] Hint Resolve g_api : grow.
Lemma g_apis : forall l, grows (run_apis E l).
Proof. induction l as [|a l IH]; cbn [run_apis]; gr; try apply IH. Qed.
#[local] Hint Resolve g_apis : grow.
Lemma g_callback e : grows (callback E e).
Proof. unfold callback. gr. Qed.
#[local] Hint Resolve g_callback : grow.
Lemma g_event p ev : grows (global_iu_event E p ev).
Proof. unfold global_iu_event. gr. Qed.
#[local] Hint Resolve g_event : grow.
Lemma g_new_area id r : grows (event_new_area E id r).
Proof. unfold event_new_area. gr. Qed.
#[local] Hint Resolve g_new_area : grow.
Lemma g_ctx_alloc r c : grows (ue_conn_ctx_alloc r c).
Proof. unfold ue_conn_ctx_alloc. gr. Qed.
Lemma g_rnc_alloc i a : grows (rnc_alloc i a).
Proof. unfold rnc_alloc. gr. Qed.
Lemma g_nas n : grows (nas_put n).
Proof. unfold nas_put. gr. Qed.
#[local] Hint Resolve g_ctx_alloc g_rnc_alloc g_nas : grow.
Lemma g_register i r a : grows (rnc_register E i r a).
Proof. unfold rnc_register. gr. Qed.
#[local] Hint Resolve g_register : grow.
Lemma g_initial_ue c a i : grows (handle_co_initial_ue E c a i).
Proof. unfold handle_co_initial_ue. gr. Qed.
Lemma g_dt p d : grows (handle_co_dt E p d).
Proof. unfold handle_co_dt. gr. Qed.
#[local] Hint Resolve g_initial_ue g_dt : grow.
Lemma g_initial c a m : grows (handle_co_initial E c a m).
Proof. unfold handle_co_initial. gr. Qed.
Lemma g_co p m : grows (handle_co E p m).
Proof. unfold handle_co, handle_co_iu_rel_req, handle_co_rab_ass_resp. gr. Qed.
#[local] Hint Resolve g_initial g_co : grow.
Lemma g_link p : grows (link_invalidated_free E p).
Proof. unfold link_invalidated_free. gr. Qed.
#[local] Hint Resolve g_link : grow.
Lemma g_inv_loop : forall f c r, grows (invalidate_loop E f c r).
Proof. induction f as [|f IH]; intros [c|] r; cbn [invalidate_loop]; gr; try apply IH. Qed.
Lemma g_inv_rncs : forall l h, grows (invalidate_rncs E l h).
Proof. induction l as [|n l IH]; intros h; cbn [invalidate_rncs]; [gr|]. apply g_bind; [|intros; apply IH]. destruct (h n); [|gr]. unfold invalidate_rnc. apply g_bind; [gr|intros; apply g_inv_loop]. Qed.
#[local] Hint Resolve g_inv_rncs : grow.
Lemma g_up o : grows (sccp_sap_up E o).
Proof.
  unfold sccp_sap_up. apply g_bind; [|intros; gr].
  destruct o; unfold rx_co, rx_cl, handle_cl, handle_cl_reset_req, handle_notice_ind, handle_pcstate_ind, sccp_addr_add, sccp_addr_del; gr.
Qed.
#[local] Hint Resolve g_up : grow.
Lemma g_exec o : grows (exec E o).
Proof. destruct o; cbn [exec]; try apply g_up; [unfold timer_fires; gr|apply g_api]. Qed.
Lemma g_run : forall l, grows (run E l).
Proof. induction l as [|o l IH]; cbn [run]; [gr|]. apply g_bind; [apply g_exec|intros; apply IH]. Qed.

(* ---------------- the same, or an early end ---------------- *)
Variable G : N -> bool.
Definition early {A} (r : world * option A) (full : list eff) : Prop :=
  snd r = None /\ exists f before rest, (f = NullDeref \/ f = Assertion) /\
    w_tr (fst r) = EFault f :: before /\ full = rest ++ before.
Definition sim {A} (m' : MM A) (m : M A) : Prop := forall n w, let r := m' n w in
  (n <= fst r)%N /\ (snd r = m w \/ early (snd r) (w_tr (fst (m w)))) /\
  ((forall k, (n <= k < fst r)%N -> G k = true) -> snd r = m w).
Lemma sim_up {A} (m : M A) : sim (up m) m.
Proof. intros n w. cbn. split; [lia|]. split; [left; reflexivity|reflexivity]. Qed.
Lemma sim_bind {A B} (m' : MM A) (m : M A) (k' : A -> MM B) (k : A -> M B) :
  sim m' m -> (forall a, sim (k' a) (k a)) -> (forall a, grows (k a)) -> sim (mbind m' k') (bind m k).
Proof.
  intros Hm Hk Hg n w. cbn zeta. destruct (Hm n w) as (L1&S1&E1). unfold mbind, bind.
  destruct (m' n w) as [n1 [w1 o1]]. cbn [fst snd] in *.
  assert (Hrest : forall x, snd (m w) = x -> exists t, w_tr (fst (let '(w', o) := m w in match o with Some a => k a w' | None => (w', None) end)) = t ++ w_tr (fst (m w))).
  { intros x Hx. destruct (m w) as [w2 [a|]]; cbn [fst snd] in *; [destruct (Hg a w2) as (t&Ht); exists t; exact Ht|exists []; reflexivity]. }
  destruct S1 as [S1|(He&f&b&r&Hf&Ht&Hr)].
  - rewrite <- S1. destruct o1 as [a|].
    + destruct (Hk a n1 w1) as (L2&S2&E2). split; [lia|]. split; [exact S2|]. intros H. apply E2. intros q Hq. apply H. lia.
    + cbn [fst snd]. split; [lia|]. split; [left; reflexivity|reflexivity].
  - cbn [fst snd] in He. subst o1. cbn [fst snd]. split; [lia|]. split.
    + right. split; [reflexivity|]. destruct (Hrest _ eq_refl) as (t&Hx). exists f, b, (t ++ r). split; [exact Hf|]. split; [exact Ht|]. rewrite Hx, Hr, app_assoc. reflexivity.
    + intros H. specialize (E1 H). rewrite <- E1. reflexivity.
Qed.
Lemma sim_ext {A} (m' : MM A) (m1 m2 : M A) : (forall w, m1 w = m2 w) -> sim m' m1 -> sim m' m2.
Proof. intros He H n w. specialize (H n w). cbn zeta in *. rewrite <- He. exact H. Qed.
(* a request used at once, before code that has no request in front *)
Lemma sim_need {A} f (m' : MM A) (m : M A) : f = NullDeref \/ f = Assertion -> grows m -> sim m' m -> sim (let+ _ := need G f in m') m.
Proof.
  intros Hf Hg Hm n w. cbn zeta. unfold need, request, mbind, up. destruct (G n) eqn:Hn; cbn [ret fail fst snd].
  - destruct (Hm (n + 1)%N w) as (L&S&Eq). split; [lia|]. split; [exact S|]. intros H. apply Eq. intros k Hk. apply H. lia.
  - split; [lia|]. split.
    + right. split; [reflexivity|]. destruct (Hg w) as (t&Ht). exists f, (w_tr w), t. split; [exact Hf|]. split; [reflexivity|exact Ht].
    + intros H. specialize (H n ltac:(lia)). congruence.
Qed.
(* the NAS buffer: the request comes first, its result is used later *)
Definition sim0 {A} (m' : MM A) (m : M A) : Prop := forall n w, let r := m' n w in
  (n <= fst r)%N /\ (snd r = m w \/ early (snd r) (w_tr (fst (m w)))).
Lemma sim_sim0 {A} (m' : MM A) (m : M A) : sim m' m -> sim0 m' m.
Proof. intros H n w. destruct (H n w) as (H1&H2&_). split; assumption. Qed.
Lemma sim0_bind {A B} (m' : MM A) (m : M A) (k' : A -> MM B) (k : A -> M B) :
  sim0 m' m -> (forall a, sim0 (k' a) (k a)) -> (forall a, grows (k a)) -> sim0 (mbind m' k') (bind m k).
Proof.
  intros Hm Hk Hg n w. cbn zeta. destruct (Hm n w) as (L1&S1). unfold mbind, bind.
  destruct (m' n w) as [n1 [w1 o1]]. cbn [fst snd] in *.
  assert (Hrest : exists t, w_tr (fst (let '(w', o) := m w in match o with Some a => k a w' | None => (w', None) end)) = t ++ w_tr (fst (m w))).
  { destruct (m w) as [w2 [a|]]; cbn [fst snd] in *; [destruct (Hg a w2) as (t&Ht); exists t; exact Ht|exists []; reflexivity]. }
  destruct S1 as [S1|(He&f&b&r&Hf&Ht&Hr)].
  - rewrite <- S1. destruct o1 as [a|].
    + destruct (Hk a n1 w1) as (L2&S2). split; [lia|exact S2].
    + cbn [fst snd]. split; [lia|left; reflexivity].
  - cbn [fst snd] in He. subst o1. cbn [fst snd]. split; [lia|].
    right. split; [reflexivity|]. destruct Hrest as (t&Hx). exists f, b, (t ++ r). split; [exact Hf|]. split; [exact Ht|]. rewrite Hx, Hr, app_assoc. reflexivity.
Qed.
Lemma sim0_nas b nas : sim0 (m_nas_put b nas) (nas_put nas).
Proof.
  destruct b; [apply sim_sim0, sim_up|]. intros n w. cbn. split; [lia|]. right. split; [reflexivity|]. destruct (g_nas nas w) as (t&Ht).
  exists NullDeref, (w_tr w), t. split; [left; reflexivity|]. split; [reflexivity|exact Ht].
Qed.
Lemma sim_request {A} (k' : bool -> MM A) (m : M A) : sim (k' true) m -> sim0 (k' false) m -> sim (let+ b := request G in k' b) m.
Proof.
  intros Ht Hf n w. cbn zeta. unfold request, mbind. destruct (G n) eqn:Hn.
  - destruct (Ht (n + 1)%N w) as (L&S&Eq). split; [lia|]. split; [exact S|]. intros H. apply Eq. intros k Hk. apply H. lia.
  - destruct (Hf (n + 1)%N w) as (L&S). split; [lia|]. split; [exact S|]. intros H. specialize (H n ltac:(lia)). congruence.
Qed.
Ltac sm := repeat match goal with
  | |- sim (up _) _ => apply sim_up
  | |- sim0 (up _) _ => apply sim_sim0, sim_up
  | |- sim (m_nas_put true _) _ => apply sim_up
  | |- sim0 (m_nas_put _ _) _ => apply sim0_nas
  | |- sim (mbind _ _) (bind _ _) => apply sim_bind; [|intros ?|intros ?; solve [gr]]
  | |- sim0 (mbind _ _) (bind _ _) => apply sim0_bind; [|intros ?|intros ?; solve [gr]]
  | |- sim (match ?x with _ => _ end) _ => destruct x
  | |- sim0 (match ?x with _ => _ end) _ => destruct x
  | |- sim (let _ := _ in _) _ => cbv zeta
  | |- sim0 (let _ := _ in _) _ => cbv zeta
  end.
Lemma sim_register i r a : sim (m_rnc_register E G i r a) (rnc_register E i r a).
Proof.
  unfold m_rnc_register, rnc_register. apply sim_bind; [apply sim_up|intros s|intros; gr]. apply sim_bind; [|intros p|intros; gr].
  - destruct (rnc_id_find s i); [sm|]. unfold m_rnc_alloc. apply sim_need; [right; reflexivity|gr|apply sim_up].
  - apply sim_bind; [apply sim_up|intros s'|intros; gr]. destruct (lac_rac_find s' r) as [o|]; [sm|]. apply sim_need; [left; reflexivity|gr|sm].
Qed.
Lemma sim_alloc r c : sim (m_ue_conn_ctx_alloc G r c) (ue_conn_ctx_alloc r c).
Proof. unfold m_ue_conn_ctx_alloc. apply sim_need; [left; reflexivity|gr|apply sim_up]. Qed.
Lemma sim_initial_ue c a i : sim (m_handle_co_initial_ue E G c a i) (handle_co_initial_ue E c a i).
Proof.
  unfold m_handle_co_initial_ue, handle_co_initial_ue. apply sim_request.
  - sm; first [apply sim_register|apply sim_alloc].
  - sm; apply sim_sim0; first [apply sim_register|apply sim_alloc].
Qed.
Lemma sim_dt p d : sim (m_handle_co_dt E G p d) (handle_co_dt E p d).
Proof. unfold m_handle_co_dt, handle_co_dt. apply sim_request; sm. Qed.
Lemma sim_initial c a m : sim (m_handle_co_initial E G c a m) (handle_co_initial E c a m).
Proof. unfold m_handle_co_initial, handle_co_initial. destruct (_ || _); [apply sim_up|]. destruct (m_ies m); try apply sim_up. apply sim_bind; [apply sim_initial_ue|intros; apply sim_up|intros; gr]. Qed.
Lemma sim_co p m : sim (m_handle_co E G p m) (handle_co E p m).
Proof.
  unfold m_handle_co. destruct ((m_dir m =? _)%N && _) eqn:Hc; [|apply sim_up]. apply andb_true_iff in Hc as [Hd Hp]. unfold handle_co. rewrite Hd, Hp.
  apply N.eqb_eq in Hp. rewrite Hp. cbn [N.eqb]. change (id_DirectTransfer =? id_InitialUE_Message)%N with false. cbv iota.
  destruct (m_ies m); try (apply (sim_ext _ (fail OobRead)); [reflexivity|apply sim_up]). apply sim_bind; [apply sim_dt|intros; apply sim_up|intros; gr].
Qed.
Lemma sim_rx l (h' : message -> MM unit) h : (forall m, sim (h' m) (h m)) -> sim (m_rx_co E l h') (rx_co E l h).
Proof. intros H. unfold m_rx_co, rx_co. destruct (dec_co E l); [apply H|apply sim_up]. Qed.
Lemma g_rx l h : (forall m, grows (h m)) -> grows (rx_co E l h).
Proof. intros H. unfold rx_co. destruct (dec_co E l); [apply H|gr]. Qed.
Lemma sim_sap o : sim (m_sccp_sap_up E G o) (sccp_sap_up E o).
Proof.
  unfold m_sccp_sap_up, sccp_sap_up. apply sim_bind; [|intros; apply sim_up|intros; gr]. destruct o; try apply sim_up.
  - apply sim_need; [left; reflexivity| |].
    + apply g_bind; [gr|intros _]. destruct l2; [unfold sccp_addr_add; gr|apply g_rx; intros; gr].
    + apply sim_bind; [apply sim_up|intros _|intros _; destruct l2; [unfold sccp_addr_add; gr|apply g_rx; intros; gr]].
      destruct l2; [unfold m_sccp_addr_add; apply sim_need; [left; reflexivity|unfold sccp_addr_add; gr|apply sim_up]|].
      apply sim_rx. intros m. apply sim_initial.
  - assert (Hl : forall x, grows (match l2 with [] => ret tt | _ :: _ => rx_co E l2 (handle_co E x) end)) by (intros x; destruct l2; [gr|apply g_rx; intros; gr]).
    assert (Hs : forall x, sim (match l2 with [] => up (ret tt) | _ :: _ => m_rx_co E l2 (m_handle_co E G x) end) (match l2 with [] => ret tt | _ :: _ => rx_co E l2 (handle_co E x) end))
      by (intros x; destruct l2; [apply sim_up|apply sim_rx; intros; apply sim_co]).
    assert (Hg : forall s : st, grows (match ue_conn_ctx_find s conn with None => ret tt | Some u =>
       let! _ := match l2 with [] => ret tt | _ :: _ => rx_co E l2 (handle_co E (u_ptr u)) end in
       let! s := get in match ue_conn_ctx_find s conn with None => ret tt | Some u => link_invalidated_free E (u_ptr u) end end)).
    { intros s. destruct (ue_conn_ctx_find s conn); [|gr]. apply g_bind; [apply Hl|intros; gr]. }
    apply sim_bind; [apply sim_up|intros _|intros _; apply g_bind; [gr|exact Hg]].
    apply sim_bind; [apply sim_up|intros s|exact Hg].
    destruct (ue_conn_ctx_find s conn) as [u|]; [|apply sim_up]. apply sim_bind; [apply Hs|intros _; sm|intros _; gr].
  - assert (Hg : forall s : st, grows (match ue_conn_ctx_find s conn with None => match sccp_addr_find s conn with None => ret tt | Some a =>
        let! _ := sccp_addr_del conn in rx_co E l2 (handle_co_initial E conn a) end | Some u => rx_co E l2 (handle_co E (u_ptr u)) end)).
    { intros s. destruct (ue_conn_ctx_find s conn); [apply g_rx; intros; gr|]. destruct (sccp_addr_find s conn); [|gr].
      apply g_bind; [unfold sccp_addr_del; gr|intros; apply g_rx; intros; gr]. }
    apply sim_bind; [apply sim_up|intros s|exact Hg].
    destruct (ue_conn_ctx_find s conn) as [u|]; [apply sim_rx; intros; apply sim_co|]. destruct (sccp_addr_find s conn) as [a|]; [|apply sim_up].
    apply sim_bind; [apply sim_up|intros _; apply sim_rx; intros; apply sim_initial|intros _; apply g_rx; intros; gr].
Qed.
Lemma sim_exec o : sim (m_exec E G o) (exec E o).
Proof. destruct o; cbn [m_exec exec]; try apply sim_sap; apply sim_up. Qed.
Lemma sim_run : forall l, sim (m_run E G l) (run E l).
Proof. induction l as [|o l IH]; cbn [m_run run]; [apply sim_up|]. apply sim_bind; [apply sim_exec|intros; apply IH|intros; apply g_run]. Qed.

(* ---------------- denied, and still going on ---------------- *)
Definition strict {A} (m : MM A) : Prop := forall n w n' w' a, m n w = (n', (w', Some a)) ->
  (n <= n')%N /\ forall k, (n <= k < n')%N -> G k = true.
Lemma st_up {A} (m : M A) : strict (up m).
Proof. intros n w n' w' a H. unfold up in H. injection H as -> _. split; [lia|]. intros k Hk. lia. Qed.
Lemma st_bind {A B} (m : MM A) (k : A -> MM B) : strict m -> (forall a, strict (k a)) -> strict (mbind m k).
Proof.
  intros Hm Hk n w n' w' b H. unfold mbind in H. destruct (m n w) as [n1 [w1 [a|]]] eqn:E1; [|discriminate H].
  destruct (Hm _ _ _ _ _ E1) as (L1&S1). destruct (Hk _ _ _ _ _ _ H) as (L2&S2). split; [lia|].
  intros q Hq. destruct (N.ltb_spec q n1); [apply S1|apply S2]; lia.
Qed.
Lemma st_need f : strict (need G f).
Proof.
  intros n w n' w' a H. unfold need, request, mbind in H. destruct (G n) eqn:Hn; unfold up in H; cbn in H; [|discriminate H].
  injection H as <- _ _. split; [lia|]. intros k Hk. replace k with n by lia. exact Hn.
Qed.
Ltac stt := repeat match goal with
  | |- strict (up _) => apply st_up
  | |- strict (need _ _) => apply st_need
  | |- strict (mbind _ _) => apply st_bind; [|intros ?]
  | |- strict (match ?x with _ => _ end) => destruct x
  end.
Lemma st_register i r a : strict (m_rnc_register E G i r a).
Proof. unfold m_rnc_register, m_rnc_alloc. stt. Qed.
Lemma st_alloc r c : strict (m_ue_conn_ctx_alloc G r c).
Proof. unfold m_ue_conn_ctx_alloc. stt. Qed.

(* all granted, or the last one denied, a buffer, and nothing was delivered *)
Definition no_delivery (w w' : world) : Prop := exists t, w_tr w' = t ++ w_tr w /\ recvs t = [].
Definition dropped (w w' : world) : Prop := exists t, w_tr w' = t ++ w_tr w /\ recvs t = [] /\ In EBufAlloc t.
Definition loose {A} (m : MM A) : Prop := forall n w n' w' a, m n w = (n', (w', Some a)) ->
  (n <= n')%N /\ ((forall k, (n <= k < n')%N -> G k = true) \/
    exists k, (n <= k)%N /\ n' = (k + 1)%N /\ (forall q, (n <= q < k)%N -> G q = true) /\ dropped w w').
Definition silent {A} (m : M A) : Prop := forall w, no_delivery w (fst (m w)).
Lemma strict_loose {A} (m : MM A) : strict m -> loose m.
Proof. intros H n w n' w' a Hr. destruct (H _ _ _ _ _ Hr) as (L&S). split; [exact L|left; exact S]. Qed.
Lemma gpres_silent {A} (m : M A) : gpres no_recv m -> silent m.
Proof. intros H w. destruct (H w) as (_&t&Ht&Hf). exists t. split; [exact Ht|apply no_recv_recvs, Hf]. Qed.
Lemma recvs_app a b : recvs (a ++ b) = recvs a ++ recvs b.
Proof. apply flat_map_app. Qed.
(* something that neither asks nor delivers, before or after *)
Lemma lo_before {A B} (m : M A) (k : A -> MM B) : silent m -> (forall a, loose (k a)) -> loose (mbind (up m) k).
Proof.
  intros Hm Hk n w n' w' b H. unfold mbind, up in H. specialize (Hm w). destruct (m w) as [w1 [a|]]; [|discriminate H]. cbn [fst] in Hm.
  destruct (Hk _ _ _ _ _ _ H) as (L&[S|(q&Q1&Q2&Q3&t&T1&T2&T3)]); (split; [exact L|]); [left; exact S|].
  right. exists q. split; [exact Q1|]. split; [exact Q2|]. split; [exact Q3|]. destruct Hm as (u&U1&U2). exists (t ++ u).
  split; [rewrite T1, U1, app_assoc; reflexivity|]. split; [rewrite recvs_app, T2, U2; reflexivity|]. apply in_or_app. left. exact T3.
Qed.
Lemma lo_after {A B} (m : MM A) (k : A -> M B) : loose m -> (forall a, silent (k a)) -> loose (let+ a := m in up (k a)).
Proof.
  intros Hm Hk n w n' w' b H. unfold mbind, up in H. destruct (m n w) as [n1 [w1 [a|]]] eqn:E1; [|discriminate H]. injection H as <- H.
  specialize (Hk a w1). rewrite H in Hk. cbn [fst] in Hk. destruct (Hm _ _ _ _ _ E1) as (L&[S|(q&Q1&Q2&Q3&t&T1&T2&T3)]); (split; [exact L|]); [left; exact S|].
  right. exists q. split; [exact Q1|]. split; [exact Q2|]. split; [exact Q3|]. destruct Hk as (u&U1&U2). exists (u ++ t).
  split; [rewrite U1, T1, app_assoc; reflexivity|]. split; [rewrite recvs_app, T2, U2; reflexivity|]. apply in_or_app. right. exact T3.
Qed.
Lemma lo_need {A} f (m : MM A) : loose m -> loose (let+ _ := need G f in m).
Proof.
  intros Hm n w n' w' a H. unfold need, request, mbind, up in H. destruct (G n) eqn:Hn; cbn in H; [|discriminate H].
  destruct (Hm _ _ _ _ _ H) as (L&[S|(q&Q1&Q2&Q3&D)]); (split; [lia|]).
  - left. intros k Hk. destruct (N.eqb_spec k n) as [->|]; [exact Hn|apply S; lia].
  - right. exists q. split; [lia|]. split; [exact Q2|]. split; [|exact D]. intros k Hk. destruct (N.eqb_spec k n) as [->|]; [exact Hn|apply Q3; lia].
Qed.
(* the handlers: without a buffer the message is refused or the process ends *)
Definition refuses {A} (m : MM A) : Prop := forall n w n' w' a, m n w = (n', (w', Some a)) -> n' = n /\ no_delivery w w'.
Lemma re_up {A} (m : M A) : silent m -> refuses (up m).
Proof. intros H n w n' w' a Hr. unfold up in Hr. injection Hr as <- Hr. split; [reflexivity|]. specialize (H w). rewrite Hr in H. exact H. Qed.
Lemma re_bind {A B} (m : MM A) (k : A -> MM B) : refuses m -> (forall a, refuses (k a)) -> refuses (mbind m k).
Proof.
  intros Hm Hk n w n' w' b H. unfold mbind in H. destruct (m n w) as [n1 [w1 [a|]]] eqn:E1; [|discriminate H].
  destruct (Hm _ _ _ _ _ E1) as (->&t&T1&T2). destruct (Hk _ _ _ _ _ _ H) as (->&u&U1&U2). split; [reflexivity|].
  exists (u ++ t). split; [rewrite U1, T1, app_assoc; reflexivity|rewrite recvs_app, U2, T2; reflexivity].
Qed.
Lemma re_nas {B} nas (k : unit -> MM B) : refuses (mbind (m_nas_put false nas) k).
Proof. intros n w n' w' b H. discriminate H. Qed.
Lemma si_lift {A} (o : outcome A) : silent (lift o).
Proof. apply gpres_silent, gpres_lift, no_recv_api. Qed.
Lemma si_ret {A} (a : A) : silent (ret a).
Proof. apply gpres_silent, gpres_ret. Qed.
Lemma si_fail {A} f : silent (@fail A f).
Proof. apply gpres_silent, gpres_fail, no_recv_api. Qed.
Lemma si_emit e : no_recv e = true -> silent (emit e).
Proof. intros H. apply gpres_silent, gpres_emit, H. Qed.
Lemma si_bind {A B} (m : M A) (k : A -> M B) : silent m -> (forall a, silent (k a)) -> silent (bind m k).
Proof.
  intros Hm Hk w. unfold bind. destruct (Hm w) as (t&T1&T2). destruct (m w) as [w1 [a|]]; cbn [fst] in *; [|exists t; split; assumption].
  destruct (Hk a w1) as (u&U1&U2). exists (u ++ t). split; [rewrite U1, T1, app_assoc; reflexivity|rewrite recvs_app, U2, T2; reflexivity].
Qed.
Ltac si := repeat match goal with
  | |- silent (ret _) => apply si_ret
  | |- silent (fail _) => apply si_fail
  | |- silent (lift _) => apply si_lift
  | |- silent (emit _) => apply si_emit; reflexivity
  | |- silent (bind _ _) => apply si_bind; [|intros ?]
  | |- silent (match ?x with _ => _ end) => destruct x
  end.
Ltac re := repeat match goal with
  | |- refuses (mbind (m_nas_put false _) _) => apply re_nas
  | |- refuses (mbind _ _) => apply re_bind; [|intros ?]
  | |- refuses (up _) => apply re_up; solve [si]
  | |- refuses (match ?x with _ => _ end) => destruct x
  | |- refuses (let _ := _ in _) => cbv zeta
  end.
Lemma lo_buffer {A} (k : bool -> MM A) : strict (k true) -> refuses (k false) -> loose (let+ b := request G in let+ _ := up (emit EBufAlloc) in k b).
Proof.
  intros Ht Hf n w n' w' a H. unfold request, mbind, up in H. cbn [emit] in H. destruct (G n) eqn:Hn.
  - destruct (Ht _ _ _ _ _ H) as (L&S). split; [lia|]. left. intros q Hq. destruct (N.eqb_spec q n) as [->|]; [exact Hn|apply S; lia].
  - destruct (Hf _ _ _ _ _ H) as (->&t&T1&T2). split; [lia|]. right. exists n. split; [lia|]. split; [reflexivity|]. split; [intros q Hq; lia|].
    exists (t ++ [EBufAlloc]). split; [rewrite T1, <- app_assoc; reflexivity|]. split; [rewrite recvs_app, T2; reflexivity|]. apply in_or_app. right. left. reflexivity.
Qed.
Lemma lo_initial_ue c a i : loose (m_handle_co_initial_ue E G c a i).
Proof.
  unfold m_handle_co_initial_ue. apply (lo_buffer (fun buf => _)).
  - stt; unfold m_nas_put; stt; first [apply st_register|apply st_alloc].
  - re.
Qed.
Lemma lo_dt p d : loose (m_handle_co_dt E G p d).
Proof. unfold m_handle_co_dt. apply (lo_buffer (fun buf => _)); [stt; unfold m_nas_put; stt|re]. Qed.
Lemma lo_initial c a m : loose (m_handle_co_initial E G c a m).
Proof. unfold m_handle_co_initial. destruct (_ || _); [apply strict_loose, st_up|]. destruct (m_ies m); try (apply strict_loose, st_up). apply lo_after; [apply lo_initial_ue|intros; si]. Qed.
Lemma lo_co p m : loose (m_handle_co E G p m).
Proof. unfold m_handle_co. destruct (_ && _); [|apply strict_loose, st_up]. destruct (m_ies m); try (apply strict_loose, st_up). apply lo_after; [apply lo_dt|intros; si]. Qed.
Lemma lo_rx l h : (forall m, loose (h m)) -> loose (m_rx_co E l h).
Proof. intros H. unfold m_rx_co. destruct (dec_co E l); [apply H|apply strict_loose, st_up]. Qed.
Lemma si_get : silent get.
Proof. intros w. exists []. split; reflexivity. Qed.
Lemma si_send r : silent (sccp_send E r).
Proof. intros w. exists [ESccp r]. split; reflexivity. Qed.
Lemma si_del c : silent (sccp_addr_del c).
Proof. intros w. exists []. split; reflexivity. Qed.
Lemma si_link p : silent (link_invalidated_free E p).
Proof.
  unfold link_invalidated_free. apply si_bind; [apply gpres_silent, gpres_deref, no_recv_api|intros u]. cbv zeta.
  apply si_bind; [apply gpres_silent, gq_event; [exact no_recv_api|reflexivity]|intros _]. apply si_bind; [apply si_get|intros s].
  destruct (ue_conn_ctx_find s (u_conn u)) as [x|]; [|apply si_ret]. destruct (u_for x); [|apply si_ret]. apply gpres_silent, gpres_pres; [exact no_recv_api|apply pres_free_ue].
Qed.
Lemma lo_after2 {A B} (m : MM A) (k : A -> MM B) (k' : A -> M B) : (forall a n w, k a n w = up (k' a) n w) -> loose m -> (forall a, silent (k' a)) -> loose (mbind m k).
Proof.
  intros He Hm Hk n w n' w' b H. apply (lo_after m k' Hm Hk n w n' w' b). rewrite <- H. unfold mbind. destruct (m n w) as [n1 [w1 [a|]]]; [symmetry; apply He|reflexivity].
Qed.
Lemma lo_sap o : loose (m_sccp_sap_up E G o).
Proof.
  unfold m_sccp_sap_up. apply lo_after; [|intros; si]. destruct o; try (apply strict_loose, st_up).
  - apply lo_need. apply lo_before; [apply si_send|intros _]. destruct l2; [apply strict_loose; unfold m_sccp_addr_add; stt|apply lo_rx; intros; apply lo_initial].
  - apply lo_before; [apply si_del|intros _]. apply lo_before; [apply si_get|intros s]. destruct (ue_conn_ctx_find s conn) as [u|]; [|apply strict_loose, st_up].
    apply (lo_after2 _ _ (fun _ => let! s := get in match ue_conn_ctx_find s conn with None => ret tt | Some u => link_invalidated_free E (u_ptr u) end)).
    + intros a n w. unfold mbind, up, bind, get. destruct (ue_conn_ctx_find (w_st w) conn); reflexivity.
    + destruct l2; [apply strict_loose, st_up|apply lo_rx; intros; apply lo_co].
    + intros _. apply si_bind; [apply si_get|intros s']. destruct (ue_conn_ctx_find s' conn); [apply si_link|si].
  - apply lo_before; [apply si_get|intros s]. destruct (ue_conn_ctx_find s conn); [apply lo_rx; intros; apply lo_co|].
    destruct (sccp_addr_find s conn); [|apply strict_loose, st_up]. apply lo_before; [apply si_del|intros _]. apply lo_rx. intros. apply lo_initial.
Qed.
Lemma lo_exec o : loose (m_exec E G o).
Proof. destruct o; cbn [m_exec]; try apply lo_sap; apply strict_loose, st_up. Qed.

Lemma survives_iff o n w w1 t : exec E o w = (w1, Some tt) -> added (w_tr w) (w_tr w1) t -> (recvs t <> [] \/ ~ In EBufAlloc t) ->
  let r := m_exec E G o n w in snd (snd r) = Some tt <-> (forall k, (n <= k < fst r)%N -> G k = true).
Proof.
  intros Hx Ha Ht r. destruct (sim_exec o n w) as (L&S&Eq). fold r in L, S, Eq. split; [|intros H; rewrite (Eq H), Hx; reflexivity].
  intros Hs. destruct S as [S|(S&_)]; [|congruence]. destruct r as [n' [w' o']] eqn:Er. cbn [fst snd] in *. subst o'.
  destruct (lo_exec o _ _ _ _ _ Er) as (_&[H|(k&_&_&_&u&U1&U2&U3)]); [exact H|]. exfalso. rewrite Hx in S. injection S as ->.
  unfold added in Ha. rewrite Ha in U1. apply app_inv_tail in U1. subst u. destruct Ht as [Ht|Ht].
  - apply Ht. clear -U2. assert (K : forall l, recvs (rev l) = [] -> recvs l = []).
    { induction l as [|e l IH]; [reflexivity|]. cbn [rev]. rewrite recvs_app. intros H. apply app_eq_nil in H as [H1 H2]. cbn [recvs flat_map] in *. rewrite app_nil_r in H2. rewrite H2. apply IH, H1. }
    apply K, U2.
  - apply Ht. apply in_rev, U3.
Qed.
Lemma survived o n w n' w' k : m_exec E G o n w = (n', (w', Some tt)) -> (n <= k < n')%N -> G k = false ->
  n' = (k + 1)%N /\ (w', Some tt) = exec E o w /\ exists t, added (w_tr w) (w_tr w') t /\ In EBufAlloc t /\ recvs t = [].
Proof.
  intros Hr Hk Hd. destruct (lo_exec o _ _ _ _ _ Hr) as (_&[H|(q&Q1&Q2&Q3&t&T1&T2&T3)]); [rewrite (H k Hk) in Hd; discriminate|].
  assert (q = k) as -> by (destruct (N.eqb_spec q k); [assumption|rewrite (Q3 k ltac:(lia)) in Hd; discriminate]).
  split; [exact Q2|]. split.
  - destruct (sim_exec o n w) as (_&[S|(S&_)]&_); rewrite Hr in S; cbn [snd] in S; [exact S|discriminate].
  - exists (rev t). unfold added. rewrite rev_involutive. split; [exact T1|]. split; [rewrite <- in_rev; exact T3|].
    clear -T2. induction t as [|e l IH]; [reflexivity|]. cbn [recvs flat_map] in T2. apply app_eq_nil in T2 as [H1 H2]. cbn [rev]. rewrite recvs_app, (IH H2). cbn [recvs flat_map]. rewrite H1. reflexivity.
Qed.
Lemma no_request o n w : may_ask o = false -> m_exec E G o n w = (n, exec E o w).
Proof.
  intros H. destruct o; try discriminate H; try reflexivity; cbn [m_exec exec]; unfold m_sccp_sap_up, sccp_sap_up, mbind, bind, up, ret, rx_cl;
    first [reflexivity|match goal with |- context [match ?x with (_, _) => _ end] => destruct x as [w1 [[]|]]; reflexivity end].
Qed.
End Proofs.
