(* No event after notifications were switched off; encoder failure *)
From Coq Require Import ZifyBool ZifyNat ZifyN Sorted.
From Verif Require Import Base Lai Lai_proofs IuClient IuClient_frame IuClient_spec IuClient_reg IuClient_step IuClient_inv IuClient_area IuClient_conn IuClient_life IuClient_life2 IuClient_loss IuClient_loss2 IuClient_rel.

Section Rel2.
Variable E : env.
Variable p : ptr.

(* no event about [p] is newer than a release-and-free of [p] *)
Definition clean (t : list eff) : Prop :=
  forall t1 ev t2, t = t1 ++ EEvent (Some p) ev :: t2 -> ~ RF p t2.
Definition off (s : st) : Prop := forall u, In u (s_ues s) -> u_ptr u = p -> u_notif u = false.
Record J (w : world) : Prop := {
  j_next : forall u, In u (s_ues (w_st w)) -> (u_ptr u < s_next (w_st w))%N;
  j_rf : RF p (w_tr w) -> (p < s_next (w_st w))%N /\ off (w_st w);
  j_clean : clean (w_tr w) }.
Definition jpat {A} (m : M A) (w : world) : Prop :=
  J w -> clean (w_tr (fst (m w))) /\ (snd (m w) <> None -> J (fst (m w))).
Definition jp {A} (m : M A) : Prop := forall w, jpat m w.
(* a change of state after which [off] still holds *)
Definition sle (s s' : st) : Prop := (s_next s <= s_next s')%N /\
  forall u', In u' (s_ues s') -> (u_ptr u' < s_next s')%N /\
    ((exists u, In u (s_ues s) /\ u_ptr u' = u_ptr u /\ (u_notif u = false -> u_notif u' = false)) \/ (s_next s <= u_ptr u')%N).
Definition jps {A} (s : st) (m : M A) : Prop := forall w, w_st w = s -> jpat m w.

Lemma RF_cons e t : (forall c d, e <> EApi (ATxReleaseFree p c d)) -> RF p (e :: t) -> RF p t.
Proof. intros H (c&d&[Hx|Hx]); [exfalso; eapply H, Hx|exists c, d; exact Hx]. Qed.
Lemma clean_cons e t : (forall ev, e <> EEvent (Some p) ev) -> clean t -> clean (e :: t).
Proof.
  intros He Hc t1 ev t2 Heq. destruct t1 as [|x t1]; cbn [List.app] in Heq; injection Heq as -> Heq; [exfalso; eapply He; reflexivity|].
  eapply Hc, Heq.
Qed.
Lemma jp_ret {A} (a : A) : jp (ret a).
Proof. intros w H. split; [apply H|]. intros _. exact H. Qed.
Lemma jp_get : jp get.
Proof. intros w H. split; [apply H|]. intros _. exact H. Qed.
Lemma jp_trace : jp trace.
Proof. intros w H. split; [apply H|]. intros _. exact H. Qed.
Lemma jp_fail {A} f : jp (@fail A f).
Proof. intros w H. split; [cbn; apply clean_cons; [discriminate|apply H]|]. intros Hx. exfalso. apply Hx. reflexivity. Qed.
Lemma jp_lift {A} (o : outcome A) : jp (lift o).
Proof. destruct o; [apply jp_ret|apply jp_fail]. Qed.
Lemma jp_emit e : (forall ev, e <> EEvent (Some p) ev) -> (forall c d, e <> EApi (ATxReleaseFree p c d)) -> jp (emit e).
Proof.
  intros H1 H2 w H. cbn [emit fst snd w_tr]. split; [apply clean_cons; [exact H1|apply H]|]. intros _.
  constructor; cbn [w_st w_tr]; [apply H| |apply clean_cons; [exact H1|apply H]].
  intros Hr. apply (j_rf _ H). eapply RF_cons; eauto.
Qed.
Lemma jpat_bind {A B} (m : M A) (k : A -> M B) w : jpat m w -> (forall a w', m w = (w', Some a) -> jpat (k a) w') -> jpat (bind m k) w.
Proof.
  intros Hm Hk H. destruct (Hm H) as [Hc Hj]. unfold bind in *. destruct (m w) as [w' [a|]]; cbn [fst snd] in *.
  - apply (Hk a w' eq_refl). apply Hj. discriminate.
  - split; [exact Hc|]. intros Hx. exfalso. apply Hx. reflexivity.
Qed.
Lemma jp_bind {A B} (m : M A) (k : A -> M B) : jp m -> (forall a, jp (k a)) -> jp (bind m k).
Proof. intros Hm Hk w. apply jpat_bind; [apply Hm|]. intros a w' _. apply Hk. Qed.
Lemma jp_getb {B} (k : st -> M B) : (forall s, jps s (k s)) -> jp (bind get k).
Proof. intros Hk w. unfold jpat. rewrite bind_get. apply Hk. reflexivity. Qed.
Lemma jps_jp {A} s (m : M A) : jp m -> jps s m.
Proof. intros H w _. apply H. Qed.
Lemma jps_put s s' : sle s s' -> jps s (put_st s').
Proof.
  intros (Hn&Hu) w <- H. cbn [put_st fst snd w_tr]. split; [apply H|]. intros _. constructor; cbn [w_st w_tr]; [|intros Hr|apply H].
  - intros u Hi. apply Hu, Hi.
  - destruct (j_rf _ H Hr) as [H1 H2]. split; [lia|]. intros u Hi Hp. destruct (Hu u Hi) as (_&[(v&Hv&Hvp&Hvn)|Hlt]); [|lia].
    apply Hvn, H2; [exact Hv|congruence].
Qed.
Lemma jps_putb {B} s s' (k : unit -> M B) : sle s s' -> jp (k tt) -> jps s (bind (put_st s') k).
Proof. intros Hs Hk w Hw. apply jpat_bind; [apply (jps_put s s' Hs w Hw)|]. intros [] w' _. apply Hk. Qed.
Lemma jps_bind {A B} s (m : M A) (k : A -> M B) : jps s m -> (forall a, jp (k a)) -> jps s (bind m k).
Proof. intros Hm Hk w Hw. apply jpat_bind; [apply Hm, Hw|]. intros a w' _. apply Hk. Qed.
Lemma jp_deref q : jp (deref q).
Proof. unfold deref. apply jp_bind; [apply jp_get|]. intros s. destruct (live s q); [apply jp_ret|apply jp_fail]. Qed.

(* [sle] of the state changes of the client, in states where contexts are older
   than the next pointer *)
Definition okn (s : st) : Prop := forall u, In u (s_ues s) -> (u_ptr u < s_next s)%N.
Lemma jps_ok {A} s (m : M A) : (okn s -> jps s m) -> jps s m.
Proof. intros H w Hw Hj. apply (H ltac:(intros u; rewrite <- Hw; apply Hj) w Hw Hj). Qed.
Lemma sle_ues s s' : okn s -> (s_next s <= s_next s')%N -> s_ues s' = s_ues s -> sle s s'.
Proof.
  intros Ho Hn Hu. split; [exact Hn|]. intros u Hi. rewrite Hu in Hi. specialize (Ho u Hi). split; [lia|].
  left. exists u. auto.
Qed.
Lemma sle_filter s f : okn s -> sle s (set_ues s (filter f (s_ues s))).
Proof.
  intros Ho. split; [apply N.le_refl|]. intros u Hi. cbn [set_ues s_ues s_next] in *. apply filter_In in Hi as [Hi _].
  split; [apply Ho, Hi|]. left. exists u. auto.
Qed.
Lemma sle_upd s q f : okn s -> (forall u, u_ptr (f u) = u_ptr u) -> (forall u, u_notif u = false -> u_notif (f u) = false) ->
  sle s (set_ues s (upd_ue q f (s_ues s))).
Proof.
  intros Ho Hp Hf. split; [apply N.le_refl|]. intros u Hi. cbn [set_ues s_ues s_next] in *. unfold upd_ue in Hi.
  apply in_map_iff in Hi as (v&Hv&Hi). pose proof (Ho v Hi).
  destruct (u_ptr v =? q)%N; subst u; (split; [rewrite ?Hp; assumption|]); left; exists v; auto.
Qed.
Lemma sle_add s u : okn s -> u_ptr u = s_next s -> sle s (mkSt (u :: s_ues s) (s_rncs s) (s_cache s) (s_next s + 1)%N).
Proof.
  intros Ho Hp. split; cbn [s_next]; [lia|]. intros v [<-|Hi]; cbn [s_next].
  - split; [lia|]. right. lia.
  - specialize (Ho v Hi). split; [lia|]. left. exists v. auto.
Qed.

Lemma jp_send r : jp (sccp_send E r).
Proof. unfold sccp_send. repeat (apply jp_bind; [|intros]); auto using jp_trace, jp_ret. apply jp_emit; discriminate. Qed.
Lemma jp_encode m : jp (encode E m).
Proof. unfold encode. destruct (enc_ok E m); [apply jp_ret|apply jp_fail]. Qed.

Ltac jj := repeat
  match goal with
  | |- jp (ret _) => apply jp_ret
  | |- jp (fail _) => apply jp_fail
  | |- jp (lift _) => apply jp_lift
  | |- jp trace => apply jp_trace
  | |- jp get => apply jp_get
  | |- jp (deref _) => apply jp_deref
  | |- jp (sccp_send _ _) => apply jp_send
  | |- jp (encode _ _) => apply jp_encode
  | |- jp (emit _) => apply jp_emit; discriminate
  | |- jp (bind get _) => apply jp_getb; intros; apply jps_ok; intros
  | |- jp (bind _ _) => apply jp_bind; [|intros]
  | |- jp (match ?x with _ => _ end) => destruct x
  | |- jps _ (match ?x with _ => _ end) => destruct x
  | |- jps _ (put_st _) => apply jps_put
  | |- jps _ (bind get _) => apply jps_jp
  | |- jps _ (bind (put_st _) _) => apply jps_putb
  | |- jps _ (bind _ _) => apply jps_bind; [|intros]
  | |- jps _ _ => apply jps_jp
  end.
Lemma jp_page_loop l f i t b : forall n, jp (page_loop E l f i t b n).
Proof. induction l; intros n; cbn [page_loop]; unfold tx_paging_cmd; jj; auto. Qed.
Lemma jp_page i t l r b : jp (iu_page E i t l r b).
Proof. unfold iu_page, tx_paging_cmd. jj. Qed.
Lemma jp_free q : jp (free_ue E q).
Proof. unfold free_ue. jj. apply sle_filter; assumption. Qed.

(* the call itself: it switches notifications off, or crashes *)
Lemma jp_rf c d : jp (run_api E (ATxReleaseFree p c d)).
Proof.
  intros w H. destruct (run_rf_eq E p c d w) as (t&o&Heq&->). cbv zeta in Heq. rewrite Heq. clear Heq.
  destruct (live (w_st w) p) as [u|] eqn:Hl.
  - assert (Hlt : (p < s_next (w_st w))%N) by (apply live_in in Hl as [Hi <-]; apply (j_next _ H), Hi).
    destruct (enc_ok E _); cbn [fst snd w_tr w_st].
    + split; [repeat (apply clean_cons; [discriminate|]); apply H|]. intros _.
      constructor; cbn [w_st w_tr]; [| |repeat (apply clean_cons; [discriminate|]); apply H].
      * apply (sle_upd (w_st w) p (rf_ue (fun _ => Some t)) (j_next _ H)); auto.
      * intros _. split; [exact Hlt|]. intros v Hv Hp. cbn [set_ues s_ues] in Hv. unfold upd_ue in Hv.
        apply in_map_iff in Hv as (x&Hx&_). destruct (u_ptr x =? p)%N eqn:Hb; subst v; [reflexivity|lia].
    + split; [repeat (apply clean_cons; [discriminate|]); apply H|]. intros Hx. exfalso. apply Hx. reflexivity.
  - cbn [fst snd w_tr]. split; [repeat (apply clean_cons; [discriminate|]); apply H|]. intros Hx. exfalso. apply Hx. reflexivity.
Qed.
Lemma jp_api a : jp (run_api E a).
Proof.
  assert (Hdec : (exists c d, a = ATxReleaseFree p c d) \/ (forall c d, a <> ATxReleaseFree p c d)).
  { destruct a as [| | | |q c d| | | | | | |]; try (right; discriminate).
    destruct (N.eq_dec q p) as [->|Hq]; [left; eauto|right; congruence]. }
  destruct Hdec as [(c&d&->)|Hne]; [apply jp_rf|].
  unfold run_api. apply jp_bind; [apply jp_emit; [discriminate|congruence]|]. intros _.
  apply jp_bind; [|intros; jj].
  unfold iu_tx, tx_sec_mode_cmd, tx_common_id, tx_release_free, tx_release, rab_act, page_cs2, page_ps2.
  destruct a as [b [q|] nas sapi|q ik ck sck nk|q imsi|q c|q c d|q|q m|q r|i t l|i t l r|i t l|i t r];
    try (jj; auto using jp_page, jp_free, jp_page_loop; fail).
  jj; apply sle_upd; auto.
Qed.
Lemma jp_apis l : jp (run_apis E l).
Proof. induction l; cbn [run_apis]; [apply jp_ret|]. apply jp_bind; auto using jp_api. Qed.
Lemma jp_callback e : (forall ev, e <> EEvent (Some p) ev) -> (forall a, e <> EApi a) -> jp (callback E e).
Proof.
  intros H1 H2. unfold callback. apply jp_bind; [apply jp_emit; [exact H1|intros c d; apply H2]|]. intros _.
  apply jp_bind; [apply jp_trace|]. intros; apply jp_apis.
Qed.
Lemma jp_event q ev : jp (global_iu_event E q ev).
Proof.
  destruct q as [q|].
  2:{ unfold global_iu_event. jj. apply jp_callback; discriminate. }
  destruct (N.eq_dec q p) as [->|Hq].
  2:{ unfold global_iu_event. jj. apply jp_callback; congruence. }
  intros w H. destruct (live (w_st w) p) as [u|] eqn:Hl.
  - rewrite (event_eq E p u ev w Hl). destruct (has_event_cb E && u_notif u) eqn:Hb; [|apply (jp_ret 0%Z w H)].
    apply andb_prop in Hb as [_ Hn].
    assert (Hnr : ~ RF p (w_tr w)).
    { intros Hr. apply live_in in Hl as [Hi Hp]. destruct (j_rf _ H Hr) as [_ Ho]. rewrite (Ho u Hi Hp) in Hn. discriminate. }
    assert (HJ : J (mkW (w_st w) (EEvent (Some p) ev :: w_tr w))).
    { constructor; cbn [w_st w_tr].
      - apply H.
      - intros Hr. exfalso. apply Hnr. eapply RF_cons; [|exact Hr]. discriminate.
      - intros t1 ev' t2 Heq. destruct t1 as [|x t1]; cbn [List.app] in Heq; injection Heq as Hx Heq.
        + subst t2. exact Hnr.
        + eapply (j_clean _ H), Heq. }
    unfold callback. rewrite bind_assoc, bind_emit. set (w1 := mkW _ _) in *.
    match goal with |- context [?m w1] => assert (Hm : jp m) end.
    { jj. apply jp_apis. }
    apply (Hm w1 HJ).
  - unfold global_iu_event. destruct (has_event_cb E); cbn [negb]; [|apply (jp_ret 0%Z w H)].
    rewrite bind_assoc. unfold deref. rewrite bind_assoc, bind_get, Hl. rewrite bind_fail. apply (jp_fail UseAfterFree w H).
Qed.

Lemma jp_register id r a : jp (rnc_register E id r a).
Proof.
  unfold rnc_register, rnc_alloc, event_new_area. jj; auto using jp_event; apply sle_ues; cbn; auto; lia.
Qed.
Lemma jp_initial c a m : jp (handle_co_initial E c a m).
Proof.
  unfold handle_co_initial, handle_co_initial_ue, nas_put, ue_conn_ctx_alloc.
  jj; auto using jp_register; try (apply sle_add; auto; fail); try (apply sle_upd; auto; fail).
  apply jp_callback; discriminate.
Qed.
Lemma jp_co q m : jp (handle_co E q m).
Proof.
  unfold handle_co, handle_co_dt, nas_put, handle_co_iu_rel_req, tx_release, handle_co_rab_ass_resp.
  jj; auto using jp_event; apply jp_callback; discriminate.
Qed.
Lemma jp_cl a m : jp (handle_cl E a m).
Proof. unfold handle_cl, handle_cl_reset_req. jj. Qed.
Lemma jp_link q : jp (link_invalidated_free E q).
Proof. unfold link_invalidated_free. jj; auto using jp_event, jp_free. Qed.
Lemma jp_loop r : forall fuel q, jp (invalidate_loop E fuel q r).
Proof. induction fuel; intros q; cbn [invalidate_loop]; jj; auto using jp_link. Qed.
Lemma jp_rncs h : forall l, jp (invalidate_rncs E l h).
Proof. induction l; cbn [invalidate_rncs]; [jj|]. apply jp_bind; [|auto]. unfold invalidate_rnc. jj. apply jp_loop. Qed.
Lemma jp_exec o : jp (exec E o).
Proof.
  destruct o as [c a l2| |c l2|c l2|a l2|a c|pc sp rem| | |q|a]; cbn [exec]; unfold sccp_sap_up, rx_co, rx_cl, sccp_addr_add, sccp_addr_del,
    handle_notice_ind, handle_pcstate_ind, timer_fires; try (destruct (pcstate_decision sp rem));
    jj; auto using jp_initial, jp_co, jp_cl, jp_link, jp_rncs, jp_event, jp_api;
    try (apply sle_ues; cbn; auto; lia); apply sle_upd; auto.
Qed.
Lemma jp_run l : jp (run E l).
Proof. induction l; cbn [run]; [apply jp_ret|]. apply jp_bind; auto using jp_exec. Qed.
Lemma J0 : J w0.
Proof.
  constructor; cbn.
  - intros u [].
  - intros (c&d&[]).
  - intros t1 ev t2 H. destruct t1; discriminate.
Qed.
Lemma no_event_l l : clean (w_tr (reach E l)).
Proof. destruct (jp_run l w0 J0) as [H _]. exact H. Qed.
End Rel2.

Lemma no_event_after_l : forall E l p c d t1 ev t2,
  w_tr (reach E l) = t1 ++ EEvent (Some p) ev :: t2 -> ~ In (EApi (ATxReleaseFree p c d)) t2.
Proof. intros E l p c d t1 ev t2 H Hi. apply (no_event_l E p l t1 ev t2 H). exists c, d. exact Hi. Qed.

(* ---------------- C56 ---------------- *)
Section Enc.
Variable E : env.
Lemma encoder_failure_l : forall a p m u w, api_msg a = Some (p, m) -> live (w_st w) p = Some u ->
  (if enc_ok E m
   then snd (run_api E a w) = Some tt /\ exists t rc, added (w_tr w) (w_tr (fst (run_api E a w))) (t ++ [ERet rc]) /\
          sends t = [NDataReq (u_conn u) m]
   else snd (run_api E a w) = None /\ exists t, w_tr (fst (run_api E a w)) = EFault NullDeref :: t).
Proof.
  intros a p m u w Ha Hl.
  assert (Hd : forall tr, deref p (mkW (w_st w) tr) = (mkW (w_st w) tr, Some u)).
  { intros tr. unfold deref. rewrite bind_get. cbn [w_st]. rewrite Hl. reflexivity. }
  destruct a as [b [q|] nas sapi|q ik ck sck nk|q imsi|q c|q c d|q|q m0|q r|i t l|i t l r|i t l|i t r]; try discriminate;
    cbn [api_msg] in Ha; injection Ha as -> <-.
  - unfold run_api. rewrite bind_emit. cbn [iu_tx]. rewrite bind_assoc, (bind_eq _ _ _ _ _ (Hd _)), bind_assoc, bind_emit. unfold encode.
    destruct (enc_ok E _).
    + split; [reflexivity|]. eexists [_; _; _], _. split; [reflexivity|reflexivity].
    + split; [reflexivity|]. eexists. reflexivity.
  - unfold run_api. rewrite bind_emit. unfold tx_sec_mode_cmd, encode.
    destruct (enc_ok E _).
    + rewrite bind_assoc, bind_ret, bind_assoc, (bind_eq _ _ _ _ _ (Hd _)). split; [reflexivity|].
      eexists [_; _], _. split; [reflexivity|reflexivity].
    + split; [reflexivity|]. eexists. reflexivity.
  - unfold run_api. rewrite bind_emit. unfold tx_common_id, encode. rewrite bind_assoc, (bind_eq _ _ _ _ _ (Hd _)).
    destruct (enc_ok E _).
    + split; [reflexivity|]. eexists [_; _], _. split; [reflexivity|reflexivity].
    + split; [reflexivity|]. eexists. reflexivity.
  - unfold run_api. rewrite bind_emit. unfold tx_release, encode, cause_normal_release.
    destruct (enc_ok E _).
    + rewrite bind_assoc, bind_ret, bind_assoc, (bind_eq _ _ _ _ _ (Hd _)). split; [reflexivity|].
      eexists [_; _], _. split; [reflexivity|reflexivity].
    + split; [reflexivity|]. eexists. reflexivity.
  - destruct (run_rf_eq E p c d w) as (t&o&Heq&->). cbv zeta in Heq. rewrite Heq, Hl. unfold cause_normal_release.
    destruct (enc_ok E _).
    + split; [reflexivity|]. eexists [_; _], _. split; [reflexivity|reflexivity].
    + split; [reflexivity|]. eexists. reflexivity.
Qed.
(* with an encoder that never fails only a dead context makes a call crash *)
Lemma encoder_ok_l : forall a w, (forall m, enc_ok E m = true) -> snd (run_api E a w) = None ->
  exists p, api_target a = Some p /\ live (w_st w) p = None.
Proof.
  intros a w He Hn. destruct (api_target a) as [p|] eqn:Ht.
  - exists p. split; [reflexivity|]. destruct (live (w_st w) p) as [u|] eqn:Hl; [exfalso|reflexivity].
    destruct (api_msg a) as [[q m]|] eqn:Hm.
    + assert (q = p).
      { destruct a as [b [q'|] nas sapi| | | | | | | | | | |]; cbn in Ht, Hm; try discriminate; injection Ht as <-; injection Hm as <- <-; reflexivity. }
      subst q. pose proof (encoder_failure_l a p m u w Hm Hl) as H. rewrite He in H. destruct H as [H _]. congruence.
    + destruct a as [b [q'|] nas sapi| | | | |[q|]|q m0| | | | |]; try discriminate; injection Ht as <-.
      * rewrite run_free_eq, Hl in Hn. discriminate.
      * unfold run_api, rab_act, deref, bind in Hn. cbn [emit get] in Hn. cbn [w_st] in Hn. rewrite Hl in Hn. discriminate.
  - exfalso.
    assert (Hp : forall x i t b c v, snd (tx_paging_cmd E x i t b c v) <> None).
    { intros. unfold tx_paging_cmd, encode. rewrite He. discriminate. }
    assert (Hpl : forall f i t b l n v, snd (page_loop E l f i t b n v) <> None).
    { intros f i t b l. induction l as [|x l IH]; intros n v; cbn [page_loop]; [discriminate|]. destruct (existsb _ _); [|apply IH].
      unfold bind. pose proof (Hp (n_addr x) i t b 0%N v) as Hx. destruct (tx_paging_cmd E _ _ _ _ _ v) as [v' [rc|]]; [apply IH|exact Hx]. }
    assert (Hpg : forall i t l r b v, snd (iu_page E i t l r b v) <> None).
    { intros. unfold iu_page. rewrite bind_get. destruct (lac_rac_find_legacy _ _ _) as [n|]; [|discriminate].
      unfold bind. pose proof (Hp (n_addr n) i t b 0%N v) as Hx. destruct (tx_paging_cmd E _ _ _ _ _ v) as [v' [rc|]]; [discriminate|exact Hx]. }
    revert Hn. unfold run_api. rewrite bind_emit. set (v := mkW _ _).
    destruct a as [b [q'|] nas sapi| | | | |[q|]|q m0|q m0|i t l|i t l r|i t l|i t r]; try discriminate.
    + unfold bind. pose proof (Hpg i t l 0%N false v) as Hx. destruct (iu_page E _ _ _ _ _ v) as [v' [rc|]]; [discriminate|auto].
    + unfold bind. pose proof (Hpg i t l r true v) as Hx. destruct (iu_page E _ _ _ _ _ v) as [v' [rc|]]; [discriminate|auto].
    + unfold page_cs2. rewrite bind_assoc, bind_get. unfold bind.
      pose proof (Hpl (fun e => lai_eqb (r_lai e) l) i t false (s_rncs (w_st v)) 0%Z v) as Hx. destruct (page_loop E _ _ _ _ _ _ v) as [v' [rc|]]; [discriminate|auto].
    + unfold page_ps2. rewrite bind_assoc, bind_get. unfold bind.
      pose proof (Hpl (fun e => rai_eqb e r) i t true (s_rncs (w_st v)) 0%Z v) as Hx. destruct (page_loop E _ _ _ _ _ _ v) as [v' [rc|]]; [discriminate|auto].
Qed.
End Enc.
