(* Proofs for C102 *)
From Coq Require Import ZifyBool ZifyNat ZifyN Sorted.
From Verif Require Import Base Lai Lai_proofs IuClient IuClient_frame IuClient_spec IuClient_reg IuClient_step IuClient_inv IuClient_area IuClient_conn IuClient_life IuClient_life2 IuClient_loss IuClient_loss2 IuClient_iso_spec IuClient_bound_spec.

(* ---------------- the two flags of a context are opposites ---------------- *)
Definition FL (s : st) : Prop := forall u, In u (s_ues s) -> u_notif u = negb (u_for u).
Section Flags.
Variable E : env.
Definition fl {A} (m : M A) : Prop := forall w, FL (w_st w) -> FL (w_st (fst (m w))).
Definition fls {A} (s : st) (m : M A) : Prop := forall w, w_st w = s -> FL s -> FL (w_st (fst (m w))).
Lemma fl_ret {A} (a : A) : fl (ret a).
Proof. intros w H. exact H. Qed.
Lemma fl_fail {A} f : fl (@fail A f).
Proof. intros w H. exact H. Qed.
Lemma fl_lift {A} (o : outcome A) : fl (lift o).
Proof. destruct o; intros w H; exact H. Qed.
Lemma fl_get : fl get.
Proof. intros w H. exact H. Qed.
Lemma fl_trace : fl trace.
Proof. intros w H. exact H. Qed.
Lemma fl_emit e : fl (emit e).
Proof. intros w H. exact H. Qed.
Lemma fl_bind {A B} (m : M A) (k : A -> M B) : fl m -> (forall a, fl (k a)) -> fl (bind m k).
Proof.
  intros Hm Hk w H. specialize (Hm w H). unfold bind. destruct (m w) as [w1 [a|]]; [|exact Hm]. apply Hk, Hm.
Qed.
Lemma fl_deref q : fl (deref q).
Proof. unfold deref. apply fl_bind; [apply fl_get|]. intros s. destruct (live s q); [apply fl_ret|apply fl_fail]. Qed.
Lemma fl_getb {A} (k : st -> M A) : (forall s, fls s (k s)) -> fl (bind get k).
Proof. intros H w Hw. rewrite bind_get. apply H; auto. Qed.
Lemma fls_fl {A} s (m : M A) : fl m -> fls s m.
Proof. intros H w Hw Hs. apply H. rewrite Hw. exact Hs. Qed.
Lemma fls_put s s' : (FL s -> FL s') -> fls s (put_st s').
Proof. intros H w _ Hs. apply H, Hs. Qed.
Lemma fls_putb {A} s s' (k : unit -> M A) : (FL s -> FL s') -> fls s' (k tt) -> fls s (bind (put_st s') k).
Proof. intros H Hk w _ Hs. rewrite bind_put. apply Hk; [reflexivity|auto]. Qed.
Lemma fls_bind {A B} s (m : M A) (k : A -> M B) : fls s m -> (forall a, fl (k a)) -> fls s (bind m k).
Proof.
  intros Hm Hk w Hw H. specialize (Hm w Hw H). unfold bind. destruct (m w) as [w1 [a|]]; [|exact Hm]. apply Hk, Hm.
Qed.
Lemma FL_ues s s' : s_ues s' = s_ues s -> FL s -> FL s'.
Proof. unfold FL. intros ->. auto. Qed.
Lemma FL_filter s f : FL s -> FL (set_ues s (filter f (s_ues s))).
Proof. intros H u Hu. apply filter_In in Hu. apply H, Hu. Qed.
Lemma FL_upd s q f : (forall u, u_notif u = negb (u_for u) -> u_notif (f u) = negb (u_for (f u))) ->
  FL s -> FL (set_ues s (upd_ue q f (s_ues s))).
Proof.
  intros Hf H u Hu. cbn [set_ues s_ues] in Hu. unfold upd_ue in Hu. apply in_map_iff in Hu as (v&Hv&Hi).
  destruct (u_ptr v =? q)%N; subst u; auto.
Qed.
Lemma FL_add s u n : u_notif u = negb (u_for u) -> FL s -> FL (mkSt (u :: s_ues s) (s_rncs s) (s_cache s) n).
Proof. intros Hu H v [<-|Hv]; auto. Qed.
Lemma fl_send r : fl (sccp_send E r).
Proof. unfold sccp_send. repeat (apply fl_bind; [|intros]); auto using fl_trace, fl_ret, fl_emit. Qed.
Lemma fl_encode m : fl (encode E m).
Proof. unfold encode. destruct (enc_ok E m); [apply fl_ret|apply fl_fail]. Qed.
Ltac ff := repeat
  match goal with
  | |- fl (ret _) => apply fl_ret
  | |- fl (fail _) => apply fl_fail
  | |- fl (lift _) => apply fl_lift
  | |- fl trace => apply fl_trace
  | |- fl get => apply fl_get
  | |- fl (deref _) => apply fl_deref
  | |- fl (sccp_send _ _) => apply fl_send
  | |- fl (encode _ _) => apply fl_encode
  | |- fl (emit _) => apply fl_emit
  | |- fl (bind get _) => apply fl_getb; intros
  | |- fl (bind _ _) => apply fl_bind; [|intros]
  | |- fl (match ?x with _ => _ end) => destruct x
  | |- fls _ (match ?x with _ => _ end) => destruct x
  | |- fls _ (put_st _) => apply fls_put
  | |- fls _ (bind get _) => apply fls_fl
  | |- fls _ (bind (put_st _) _) => apply fls_putb
  | |- fls _ (bind _ _) => apply fls_bind; [|intros]
  | |- fls _ _ => apply fls_fl
  end.
Lemma fl_page_loop l f i t b : forall n, fl (page_loop E l f i t b n).
Proof. induction l; intros n; cbn [page_loop]; unfold tx_paging_cmd; ff; auto. Qed.
Lemma fl_page i t l r b : fl (iu_page E i t l r b).
Proof. unfold iu_page, tx_paging_cmd. ff. Qed.
Lemma fl_free q : fl (free_ue E q).
Proof. unfold free_ue. ff. apply FL_filter. Qed.
Lemma fl_api a : fl (run_api E a).
Proof.
  unfold run_api. apply fl_bind; [apply fl_emit|]. intros _. apply fl_bind; [|intros; ff].
  unfold iu_tx, tx_sec_mode_cmd, tx_common_id, tx_release_free, tx_release, rab_act, page_cs2, page_ps2.
  destruct a as [b [q|] nas sapi|q ik ck sck nk|q imsi|q c|q c d|q|q m|q r|i t l|i t l r|i t l|i t r];
    try (ff; auto using fl_page, fl_free, fl_page_loop; fail).
  ff; apply FL_upd; auto.
Qed.
Lemma fl_apis l : fl (run_apis E l).
Proof. induction l; cbn [run_apis]; [apply fl_ret|]. apply fl_bind; auto using fl_api. Qed.
Lemma fl_callback e : fl (callback E e).
Proof. unfold callback. ff. apply fl_apis. Qed.
Lemma fl_event q ev : fl (global_iu_event E q ev).
Proof. unfold global_iu_event. ff; apply fl_callback. Qed.
Lemma fl_register id r a : fl (rnc_register E id r a).
Proof. unfold rnc_register, rnc_alloc, event_new_area. ff; auto using fl_event; apply FL_ues; reflexivity. Qed.
Lemma fl_initial c a m : fl (handle_co_initial E c a m).
Proof.
  unfold handle_co_initial, handle_co_initial_ue, nas_put, ue_conn_ctx_alloc.
  ff; auto using fl_register, fl_callback; try (apply FL_add; reflexivity); try (apply FL_upd; auto).
Qed.
Lemma fl_co q m : fl (handle_co E q m).
Proof.
  unfold handle_co, handle_co_dt, nas_put, handle_co_iu_rel_req, tx_release, handle_co_rab_ass_resp.
  ff; auto using fl_event, fl_callback.
Qed.
Lemma fl_cl a m : fl (handle_cl E a m).
Proof. unfold handle_cl, handle_cl_reset_req. ff. Qed.
Lemma fl_link q : fl (link_invalidated_free E q).
Proof. unfold link_invalidated_free. ff; auto using fl_event, fl_free. Qed.
Lemma fl_loop r : forall fuel q, fl (invalidate_loop E fuel q r).
Proof. induction fuel; intros q; cbn [invalidate_loop]; ff; auto using fl_link. Qed.
Lemma fl_rncs h : forall l, fl (invalidate_rncs E l h).
Proof. induction l; cbn [invalidate_rncs]; [ff|]. apply fl_bind; [|auto]. unfold invalidate_rnc. ff. apply fl_loop. Qed.
Lemma fl_exec o : fl (exec E o).
Proof.
  destruct o as [c a l2| |c l2|c l2|a l2|a c|pc sp rem| | |q|a]; cbn [exec]; unfold sccp_sap_up, rx_co, rx_cl, sccp_addr_add, sccp_addr_del,
    handle_notice_ind, handle_pcstate_ind, timer_fires; try (destruct (pcstate_decision sp rem));
    ff; auto using fl_initial, fl_co, fl_cl, fl_link, fl_rncs, fl_event, fl_api;
    try (apply FL_ues; reflexivity); apply FL_upd; auto.
Qed.
Lemma fl_run l : fl (run E l).
Proof. induction l; cbn [run]; [apply fl_ret|]. apply fl_bind; auto using fl_exec. Qed.
Lemma reach_FL l : FL (w_st (reach E l)).
Proof. apply fl_run. intros u []. Qed.
End Flags.

Section Bound.
Variable E : env.
(* a callback makes all the calls the application wants, unless one of them crashes *)
Lemma apis_all l : forall w, snd (run_apis E l w) <> None -> exists t, w_tr (fst (run_apis E l w)) = t ++ w_tr w /\
  forall a, In a l -> In (EApi a) t.
Proof.
  induction l as [|a l IH]; intros w; cbn [run_apis].
  - exists []. split; [reflexivity|]. intros a [].
  - destruct (run_api_trace E a w) as (t&Ht&_). unfold bind. destruct (run_api E a w) as [w1 [[]|]]; cbn [fst snd] in *; [|congruence].
    intros Hs. destruct (IH w1 Hs) as (t'&Ht'&Hn'). exists (t' ++ t ++ [EApi a]). rewrite Ht', Ht, <- !app_assoc. split; [reflexivity|].
    intros b [<-|Hb]; apply in_app_iff; [right; apply in_app_iff; right; left; reflexivity|left; auto].
Qed.
Lemma link_gone p u w : frees_when_told E -> ues_ok (w_st w) -> dist (w_st w) -> FL (w_st w) -> live (w_st w) p = Some u ->
  snd (link_invalidated_free E p w) <> None -> ue_on (w_st (fst (link_invalidated_free E p w))) (u_conn u) = None.
Proof.
  intros (Hcb&Hfr) Q D F Hl Hs. destruct (live_in _ _ _ Hl) as [Hi Hp].
  destruct (u_notif u) eqn:Hn.
  - revert Hs. unfold link_invalidated_free.
    assert (Hd : deref p w = (w, Some u)) by (unfold deref; rewrite bind_get, Hl; reflexivity).
    rewrite !(bind_eq _ _ _ _ _ Hd).
    set (e := EEvent (Some p) EvLinkInvalidated).
    pose proof (event_eq E p u EvLinkInvalidated w Hl) as He. rewrite Hcb, Hn in He. cbn [andb] in He. fold e in He.
    destruct (global_iu_event E (Some p) EvLinkInvalidated w) as [w1 [rc|]] eqn:Hg.
    2:{ rewrite !(bind_none _ _ _ _ Hg). cbn [snd]. congruence. }
    rewrite !(bind_eq _ _ _ _ _ Hg), !bind_get.
    set (w' := mkW (w_st w) (e :: w_tr w)).
    assert (Hr : exists o, run_apis E (app E (e :: w_tr w)) w' = (w1, Some o)).
    { unfold callback in He. unfold bind in He. cbn [emit trace] in He. cbn [w_tr w_st] in He. fold w' in He.
      destruct (run_apis E (app E (e :: w_tr w)) w') as [w2 [o|]]; [|discriminate]. injection He as -> _. eauto. }
    destruct Hr as (o&Hr).
    destruct (apis_all (app E (e :: w_tr w)) w') as (t&Ht&Hall); [rewrite Hr; discriminate|].
    destruct (kspec_apis E p (app E (e :: w_tr w)) w') as (t'&Ht'&Hle&Hk). rewrite Ht in Ht'. apply app_inv_tail in Ht'. subst t'.
    rewrite Hr in *. cbn [fst snd] in *. destruct (Hk ltac:(discriminate)) as (HkA&_).
    assert (Hno : ue_on (w_st w1) (u_conn u) = None).
    { apply ue_on_none_iff. intros v Hv Hc. apply (HkA (Hall _ (Hfr _ _)) v Hv).
      destruct (ues_le_in _ _ _ Hle Hv) as (v0&Hv0&(Hp0&_&Hc0&_)).
      assert (v0 = u) by (apply (nodup_inj u_conn _ _ _ D Hv0 Hi); congruence). congruence. }
    unfold ue_conn_ctx_find. fold (ue_on (w_st w1) (u_conn u)). rewrite Hno. intros _. exact Hno.
  - destruct (link_spec E p u w Q D Hl) as (t&_&Ha&_&_&_&Hok&_). cbv zeta in *. destruct (Hok Hs) as (Hfor&_).
    apply ue_on_none_iff. intros v Hv Hc. pose proof (Hfor v Hv Hc) as Hf.
    destruct Ha as (_&_&_&Hle) || assert (Hle : ues_le (s_ues (w_st w)) (s_ues (w_st (fst (link_invalidated_free E p w))))) by apply Ha.
    destruct (ues_le_in _ _ _ Hle Hv) as (v0&Hv0&(_&_&Hc0&_&_&Hff)).
    assert (v0 = u) by (apply (nodup_inj u_conn _ _ _ D Hv0 Hi); congruence). subst v0.
    pose proof (F u Hi) as Hx. rewrite Hn in Hx. destruct (u_for u); [|discriminate]. rewrite (Hff eq_refl) in Hf. discriminate.
Qed.
(* after a disconnect indication no context is left on the connection *)
Lemma disc_gone c d w : frees_when_told E -> good (w_st w) -> dist (w_st w) -> FL (w_st w) ->
  snd (exec E (ODisconnectInd c d) w) <> None -> ue_on (w_st (fst (exec E (ODisconnectInd c d) w))) c = None.
Proof.
  intros Hfr G D F. destruct (ue_on (w_st w) c) as [u|] eqn:Hu.
  2:{ intros _. rewrite (disc_none_l E _ _ _ Hu). exact Hu. }
  rewrite (disc_some E _ _ _ _ Hu). set (v := forget c w). set (m := match d with [] => ret tt | _ => _ end).
  assert (Qv : ues_ok (w_st v)) by (destruct (g_ues _ G); constructor; assumption).
  assert (Hg : gpres (fun _ => true) m).
  { unfold m. destruct d; [apply gpres_ret|]. unfold rx_co. destruct (dec_co E _); [|apply gpres_ret].
    apply gq_handle_co; auto. }
  assert (Hf : fl m).
  { unfold m. destruct d; [apply fl_ret|]. unfold rx_co. destruct (dec_co E _); [|apply fl_ret]. apply fl_co. }
  destruct (Hg v) as (K&_). specialize (Hf v F).
  destruct (m v) as [w1 [[]|]] eqn:Hmv; cbn [fst snd] in *.
  2:{ rewrite (bind_none _ _ _ _ Hmv). cbn [snd]. congruence. }
  rewrite (bind_eq _ _ _ _ _ Hmv), bind_get.
  assert (Q1 : ues_ok (w_st w1)) by (eapply keep_ues_ok; eauto).
  assert (D1 : dist (w_st w1)) by (eapply ues_le_conns; [apply K|exact D]).
  unfold ue_conn_ctx_find. fold (ue_on (w_st w1) c). destruct (ue_on (w_st w1) c) as [u1|] eqn:Hon.
  - destruct (ue_on_in _ _ _ Hon) as [Hi1 Hc1]. pose proof (live_good _ _ Q1 Hi1) as Hl1.
    pose proof (link_gone (u_ptr u1) u1 w1 Hfr Q1 D1 Hf Hl1) as Hlg.
    destruct (link_invalidated_free E (u_ptr u1) w1) as [w2 [[]|]] eqn:Hw2; cbn [fst snd] in *.
    2:{ rewrite (bind_none _ _ _ _ Hw2). cbn [snd]. congruence. }
    rewrite (bind_eq _ _ _ _ _ Hw2). cbn [emit fst snd w_st]. intros _. rewrite <- Hc1. apply Hlg. discriminate.
  - intros _. rewrite bind_ret. exact Hon.
Qed.

(* ---------------- which connections are open ---------------- *)
Lemma open_conns_app l : forall l' acc, open_conns (l ++ l') acc = open_conns l' (open_conns l acc).
Proof. induction l as [|o l IH]; intros l' acc; cbn [List.app open_conns]; [reflexivity|]. destruct o; apply IH. Qed.
Definition open_step (o : op) (c : N) (P : Prop) : Prop :=
  match o with
  | OConnectInd c' _ _ => c' = c \/ P
  | ODisconnectInd c' _ => c' <> c /\ P
  | _ => P
  end.
Lemma in_del c x l : In x (filter (fun x => negb (x =? c)%N) l) <-> x <> c /\ In x l.
Proof. rewrite filter_In, negb_true_iff, N.eqb_neq. tauto. Qed.
Lemma open_conns_snoc l o c : In c (open_conns (l ++ [o]) []) <-> open_step o c (In c (open_conns l [])).
Proof.
  rewrite open_conns_app. destruct o as [c' a l2| |c' l2|c' l2|a l2|a c'|pc sp rem| | |p|a]; cbn [open_conns open_step]; try reflexivity; cbn [In]; rewrite in_del.
  - split; [tauto|]. intros [H|H]; [auto|]. destruct (N.eq_dec c' c); auto.
  - intuition congruence.
Qed.
Lemma connected_snoc l o c : connected (l ++ [o]) c <-> open_step o c (connected l c).
Proof.
  split.
  - intros (x&a&d&y&H&Hn). destruct y as [|e y] using rev_ind.
    + apply app_inj_tail in H as [-> ->]. left. reflexivity.
    + clear IHy. change (x ++ OConnectInd c a d :: y ++ [e]) with (x ++ (OConnectInd c a d :: y) ++ [e]) in H. rewrite app_assoc in H.
      apply app_inj_tail in H as [-> ->].
      assert (Hc : connected (x ++ OConnectInd c a d :: y) c).
      { exists x, a, d, y. split; [reflexivity|]. intros d' Hi. apply (Hn d'), in_app_iff. auto. }
      destruct e; cbn [open_step]; auto. split; [|exact Hc].
      intros ->. eapply Hn. apply in_app_iff. right. left. reflexivity.
  - assert (Hx : forall (Hno : forall d', o <> ODisconnectInd c d'), connected l c -> connected (l ++ [o]) c).
    { intros Hno (x&a&d&y&->&Hn). exists x, a, d, (y ++ [o]). split; [rewrite <- app_assoc; reflexivity|].
      intros d' Hi. apply in_app_iff in Hi as [Hi|[Hi|[]]]; [eapply Hn, Hi|eapply Hno, Hi]. }
    destruct o; cbn [open_step]; try (apply Hx; discriminate).
    + intros [->|H]; [|apply Hx; [discriminate|exact H]]. exists l. do 2 eexists. exists []. split; [reflexivity|]. intros d' [].
    + intros [Hne H]. apply Hx; [congruence|exact H].
Qed.
Lemma open_conns_l l c : In c (open_conns l []) <-> connected l c.
Proof.
  induction l as [|o l IH] using rev_ind.
  - split; [intros []|]. intros (x&a&d&y&H&_). destruct x; discriminate.
  - rewrite open_conns_snoc, connected_snoc. destruct o; cbn [open_step]; tauto.
Qed.
Lemma open_conns_nodup_l l : NoDup (open_conns l []).
Proof.
  induction l as [|o l IH] using rev_ind; [constructor|]. rewrite open_conns_app.
  destruct o; cbn [open_conns]; try exact IH; try (apply NoDup_filter, IH).
  constructor; [rewrite in_del; tauto|apply NoDup_filter, IH].
Qed.

(* ---------------- the invariant ---------------- *)
Definition uses (s : st) (c : N) : nat := length (remembered s c) + match ue_on s c with Some _ => 1 | None => 0 end.
Lemma unused_uses s c : unused s c <-> uses s c = 0.
Proof.
  unfold unused, uses. split.
  - intros [-> ->]. reflexivity.
  - intros H. destruct (ue_on s c); [lia|]. split; [reflexivity|]. destruct (remembered s c); [reflexivity|cbn in H; lia].
Qed.
Lemma ue_on_step o w c : good (w_st w) -> ue_on (w_st w) c = None -> (forall x, opens E (w_st w) o = Some x -> op_conn x <> c) ->
  ue_on (w_st (fst (exec E o w))) c = None.
Proof.
  intros G Hn Hx. destruct (exec_ues E o w G) as [H|(x&s2&n&Ho&_&H1&H2)]; [eapply ue_on_le; eauto|].
  apply ue_on_none_iff. intros v Hv. destruct (ues_le_in _ _ _ H2 Hv) as (u&[<-|Hu]&(_&_&Hc&_)).
  - rewrite Hc. cbn [new_ue u_conn]. apply Hx, Ho.
  - rewrite Hc. eapply ue_on_none; [|exact Hu]. eapply ue_on_le; eauto.
Qed.
Lemma ue_on_le1 (o : option ue) : match o with Some _ => 1 | None => 0 end <= 1.
Proof. destruct o; lia. Qed.
Lemma uses_le o w c : good (w_st w) -> (forall c a d, o = OConnectInd c a d -> unused (w_st w) c) ->
  uses (w_st w) c <= 1 -> uses (w_st (fst (exec E o w))) c <= match o with OConnectInd c' _ _ => if (c' =? c)%N then 1 else uses (w_st w) c | _ => uses (w_st w) c end.
Proof.
  intros G Hu H1. unfold uses at 1. rewrite exec_remembered by exact G.
  assert (Hk : (forall x, opens E (w_st w) o = Some x -> op_conn x <> c) ->
    match ue_on (w_st (fst (exec E o w))) c with Some _ => 1 | None => 0 end <= match ue_on (w_st w) c with Some _ => 1 | None => 0 end).
  { intros Hx. destruct (ue_on (w_st w) c) eqn:Hn; [apply ue_on_le1|]. rewrite (ue_on_step o w c G Hn Hx). lia. }
  assert (Hq : opens E (w_st w) o = None ->
    match ue_on (w_st (fst (exec E o w))) c with Some _ => 1 | None => 0 end <= match ue_on (w_st w) c with Some _ => 1 | None => 0 end).
  { intros Hx. apply Hk. intros x Hx'. congruence. }
  assert (Hoth : conn_of o <> Some c ->
    match ue_on (w_st (fst (exec E o w))) c with Some _ => 1 | None => 0 end <= match ue_on (w_st w) c with Some _ => 1 | None => 0 end).
  { intros Hx. apply Hk. intros x Hx' Hc. apply Hx. rewrite (opens_conn _ _ _ _ Hx'), Hc. reflexivity. }
  unfold uses. unfold uses in H1.
  destruct o as [c' a l2| |c' l2|c' l2|a l2|a c'|pc sp rem| | |p|a]; try (pose proof (Hq eq_refl); lia).
  - destruct (c' =? c)%N eqn:Hc.
    + apply N.eqb_eq in Hc. subst c'. destruct (Hu _ _ _ eq_refl) as [Hn Hr]. destruct l2 as [|y l2].
      * rewrite Hr, (ue_on_step _ _ _ G Hn); [cbn; lia|]. discriminate.
      * rewrite Hr. pose proof (ue_on_le1 (ue_on (w_st (fst (exec E (OConnectInd c a (y :: l2)) w))) c)). cbn [length]. lia.
    + assert (Hne : conn_of (OConnectInd c' a l2) <> Some c) by (cbn [conn_of]; intros [=]; lia).
      pose proof (Hoth Hne). destruct l2; lia.
  - pose proof (Hq eq_refl). destruct (c =? c')%N; [|lia]. destruct (remembered (w_st w) c); cbn [tl length]; lia.
  - destruct (c =? c')%N eqn:Hc.
    + apply N.eqb_eq in Hc. subst c'. destruct (ue_on (w_st w) c) as [u|] eqn:Hn.
      * pose proof (ue_on_le1 (ue_on (w_st (fst (exec E (ODataInd c l2) w))) c)). lia.
      * destruct (remembered (w_st w) c) as [|r q] eqn:Hr; cbn [tl length] in *.
        -- rewrite (ue_on_step _ _ _ G Hn); [lia|]. intros x Hx. cbn [opens] in Hx. rewrite Hn in Hx.
           unfold pending in Hx. destruct (find _ _) as [e|] eqn:Hf; [|discriminate].
           unfold remembered in Hr. apply map_eq_nil in Hr. apply find_some in Hf. apply (proj2 (filter_In (fun e => (fst e =? c)%N) e (s_cache (w_st w)))) in Hf. rewrite Hr in Hf. destruct Hf.
        -- pose proof (ue_on_le1 (ue_on (w_st (fst (exec E (ODataInd c l2) w))) c)). lia.
    + assert (Hne : conn_of (ODataInd c' l2) <> Some c) by (cbn [conn_of]; intros [=]; lia). pose proof (Hoth Hne). lia.
Qed.
Lemma run_prefix l l' : snd (run E (l ++ l') w0) = Some tt -> snd (run E l w0) = Some tt.
Proof. rewrite run_app. unfold bind. destruct (run E l w0) as [w [[]|]]; cbn; congruence. Qed.
Lemma numbers_prefix l o : numbers_free E (l ++ [o]) -> numbers_free E l.
Proof. intros H x c a d y ->. apply (H x c a d (y ++ [o])). rewrite <- app_assoc. reflexivity. Qed.
Lemma bound_inv l : frees_when_told E -> numbers_free E l -> snd (run E l w0) = Some tt ->
  dist (w_st (reach E l)) /\ (forall c, uses (w_st (reach E l)) c <= 1) /\
  (forall c, ~ connected l c -> unused (w_st (reach E l)) c).
Proof.
  intros Hfr. induction l as [|o l IH] using rev_ind; intros Hf Hs.
  - split; [constructor|]. split; [intros c; cbn; lia|]. intros c _. split; reflexivity.
  - pose proof (run_prefix _ _ Hs) as Hs0. destruct (IH (numbers_prefix _ _ Hf) Hs0) as (D&H1&H2). clear IH.
    assert (Hu : forall c a d, o = OConnectInd c a d -> unused (w_st (reach E l)) c).
    { intros c a d ->. destruct (Hf l c a d [] eq_refl); auto. }
    pose proof (reach_good E l) as G. rewrite reach_snoc, Hs0.
    assert (Hso : snd (exec E o (reach E l)) <> None).
    { revert Hs. rewrite run_app. unfold reach, bind. destruct (run E l w0) as [w [[]|]]; cbn [fst snd run]; [|discriminate].
      unfold bind. destruct (exec E o w) as [w' [[]|]]; cbn [snd]; congruence. }
    split; [apply exec_dist; [exact G|exact D|]; intros c a d Ho; apply (Hu c a d Ho)|].
    assert (Hle : forall c, uses (w_st (fst (exec E o (reach E l)))) c <= match o with OConnectInd c' _ _ => if (c' =? c)%N then 1 else uses (w_st (reach E l)) c | _ => uses (w_st (reach E l)) c end).
    { intros c. apply uses_le; auto. }
    split.
    { intros c. pose proof (Hle c) as Hc. pose proof (H1 c). destruct o; try lia. destruct (_ =? _)%N; lia. }
    intros c Hc. rewrite connected_snoc in Hc. apply unused_uses. pose proof (Hle c) as Hx.
    destruct o as [c' a l2| |c' l2|c' l2|a l2|a c'|pc sp rem| | |p|a]; cbn [open_step] in Hc;
      try (pose proof (proj1 (unused_uses _ _) (H2 c Hc)); lia).
    + destruct (c' =? c)%N eqn:Hcc; [exfalso; apply Hc; left; lia|].
      assert (Hc' : ~ connected l c) by tauto. pose proof (proj1 (unused_uses _ _) (H2 c Hc')). lia.
    + destruct (N.eq_dec c' c) as [->|Hne].
      * unfold uses. rewrite (disc_gone c l2 _ Hfr G D (reach_FL E l) Hso), exec_remembered, N.eqb_refl by exact G.
        pose proof (H1 c) as Hl. unfold uses in Hl. destruct (remembered (w_st (reach E l)) c) as [|r q]; cbn [tl length] in *; lia.
      * assert (Hc' : ~ connected l c) by tauto. pose proof (proj1 (unused_uses _ _) (H2 c Hc')). lia.
Qed.
Lemma in_kept s c : In c (kept s) <-> ~ unused s c.
Proof.
  unfold kept, unused. rewrite in_app_iff. split.
  - intros [H|H] [H1 H2]; apply in_map_iff in H as (x&Hx&Hi).
    + eapply ue_on_none; eauto.
    + unfold remembered in H2. apply map_eq_nil in H2. assert (Hy : In x (filter (fun e => (fst e =? c)%N) (s_cache s))) by (apply filter_In; split; [exact Hi|lia]). rewrite H2 in Hy. destruct Hy.
  - intros H. destruct (ue_on s c) as [u|] eqn:Hu.
    + left. apply ue_on_in in Hu as [Hi <-]. apply in_map, Hi.
    + right. destruct (remembered s c) eqn:Hr; [destruct H; auto|]. unfold remembered in Hr.
      destruct (filter _ (s_cache s)) as [|e q] eqn:Hq; [discriminate|]. assert (Hy : In e (filter (fun e => (fst e =? c)%N) (s_cache s))) by (rewrite Hq; left; reflexivity).
      apply filter_In in Hy as [Hy He]. apply N.eqb_eq in He. subst c. apply in_map, Hy.
Qed.
Lemma nodup_fst {B} (l : list (N * B)) : (forall c, length (filter (fun e => (fst e =? c)%N) l) <= 1) -> NoDup (map fst l).
Proof.
  induction l as [|e l IH]; intros H; cbn [map]; constructor.
  - intros Hi. apply in_map_iff in Hi as (x&Hx&Hi). specialize (H (fst e)). cbn [filter] in H. rewrite N.eqb_refl in H. cbn [length] in H.
    assert (Hy : In x (filter (fun e0 => (fst e0 =? fst e)%N) l)) by (apply filter_In; split; [exact Hi|lia]).
    destruct (filter _ l); [destruct Hy|cbn [length] in H; lia].
  - apply IH. intros c. specialize (H c). cbn [filter] in H. destruct (fst e =? c)%N; cbn [length] in H; lia.
Qed.
Lemma nodup_app {A} (a b : list A) : NoDup a -> NoDup b -> (forall x, In x a -> ~ In x b) -> NoDup (a ++ b).
Proof.
  induction a as [|x a IH]; intros Ha Hb Hd; cbn [List.app]; [exact Hb|]. inversion Ha; subst. constructor.
  - rewrite in_app_iff. intros [Hi|Hi]; [auto|]. apply (Hd x); [left; reflexivity|exact Hi].
  - apply IH; auto. intros y Hy. apply Hd. right. exact Hy.
Qed.
Lemma kept_nodup_l l : frees_when_told E -> numbers_free E l -> snd (run E l w0) = Some tt -> NoDup (kept (w_st (reach E l))).
Proof.
  intros Hfr Hf Hs. destruct (bound_inv l Hfr Hf Hs) as (D&H1&_). set (s := w_st (reach E l)) in *.
  apply nodup_app; [exact D| |].
  - apply nodup_fst. intros c. specialize (H1 c). unfold uses, remembered in H1. rewrite map_length in H1. lia.
  - intros c Hc Hc'. specialize (H1 c). unfold uses in H1. apply in_map_iff in Hc as (u&Hu&Hi).
    destruct (ue_on s c) eqn:Hon; [|eapply ue_on_none; eauto]. apply in_map_iff in Hc' as (e&He&Hie).
    assert (Hy : In e (filter (fun e => (fst e =? c)%N) (s_cache s))) by (apply filter_In; split; [exact Hie|lia]).
    unfold remembered in H1. rewrite map_length in H1. destruct (filter _ (s_cache s)); [destruct Hy|cbn [length] in H1; lia].
Qed.
Lemma kept_open_l l c : frees_when_told E -> numbers_free E l -> snd (run E l w0) = Some tt ->
  In c (kept (w_st (reach E l))) -> connected l c.
Proof.
  intros Hfr Hf Hs Hi. destruct (bound_inv l Hfr Hf Hs) as (_&_&H2). apply in_kept in Hi.
  destruct (in_dec N.eq_dec c (open_conns l [])) as [Hc|Hc]; [apply open_conns_l, Hc|].
  exfalso. apply Hi, H2. intros Hx. apply Hc, open_conns_l, Hx.
Qed.
Lemma closed_l l c : frees_when_told E -> numbers_free E l -> snd (run E l w0) = Some tt ->
  ~ connected l c -> unused (w_st (reach E l)) c.
Proof. intros Hfr Hf Hs. destruct (bound_inv l Hfr Hf Hs) as (_&_&H2). apply H2. Qed.
Lemma count_l l : frees_when_told E -> numbers_free E l -> snd (run E l w0) = Some tt ->
  length (s_ues (w_st (reach E l))) + length (s_cache (w_st (reach E l))) <= length (open_conns l []).
Proof.
  intros Hfr Hf Hs.
  assert (Hk : length (kept (w_st (reach E l))) <= length (open_conns l [])).
  { apply NoDup_incl_length; [apply kept_nodup_l; auto|]. intros c Hc. apply open_conns_l, kept_open_l; auto. }
  unfold kept in Hk. rewrite app_length, !map_length in Hk. exact Hk.
Qed.
End Bound.
