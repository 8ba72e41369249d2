(* Creation of contexts, distinct connections, remembered addresses, disconnect *)
From Coq Require Import ZifyBool ZifyNat ZifyN Sorted.
From Verif Require Import Base Lai Lai_proofs IuClient IuClient_frame IuClient_spec IuClient_reg IuClient_step IuClient_inv IuClient_area IuClient_conn IuClient_life.

Lemma ues_le_conns l l' : ues_le l l' -> NoDup (map u_conn l) -> NoDup (map u_conn l').
Proof.
  induction 1 as [|u l l' H IH|u v l l' Hu H IH]; intros Hn; cbn [map] in *; auto.
  - inversion Hn; auto.
  - inversion Hn as [|x y Hx Hy]; subst. constructor; auto.
    intros Hin. apply Hx. apply in_map_iff in Hin as [x [E Hin]].
    destruct (ues_le_in _ _ _ H Hin) as [y [Hy' Hle]].
    apply in_map_iff. exists y. split; [|exact Hy'].
    destruct Hle as (_&_&E1&_). destruct Hu as (_&_&E2&_). congruence.
Qed.
Lemma nodup_inj {A B} (f : A -> B) l x y : NoDup (map f l) -> In x l -> In y l -> f x = f y -> x = y.
Proof.
  induction l as [|z l IH]; intros Hn Hx Hy Hf; [destruct Hx|]. cbn [map] in Hn.
  inversion Hn as [|? ? Hz Hn']; subst. destruct Hx as [->|Hx], Hy as [->|Hy]; auto.
  - exfalso. apply Hz. rewrite Hf. apply in_map, Hy.
  - exfalso. apply Hz. rewrite <- Hf. apply in_map, Hx.
Qed.
Lemma ue_on_in s c u : ue_on s c = Some u -> In u (s_ues s) /\ u_conn u = c.
Proof. intros H. apply find_some in H as [H1 H2]. apply N.eqb_eq in H2. auto. Qed.
Lemma ue_on_none s c u : ue_on s c = None -> In u (s_ues s) -> u_conn u <> c.
Proof. intros H Hi Hc. pose proof (find_none _ _ H u Hi) as H1. cbn in H1. lia. Qed.
Lemma ue_on_none_iff s c : ue_on s c = None <-> (forall u, In u (s_ues s) -> u_conn u <> c).
Proof.
  split; [intros H u; apply ue_on_none, H|]. intros H. unfold ue_on.
  destruct (find _ (s_ues s)) as [u|] eqn:Hf; [|reflexivity]. apply find_some in Hf as [H1 H2].
  exfalso. apply (H u H1). apply N.eqb_eq, H2.
Qed.
Lemma ue_on_le s s' c : ues_le (s_ues s) (s_ues s') -> ue_on s c = None -> ue_on s' c = None.
Proof.
  rewrite !ue_on_none_iff. intros Hle H u Hu. destruct (ues_le_in _ _ _ Hle Hu) as (v&Hv&(_&_&Hc&_)).
  rewrite Hc. apply H, Hv.
Qed.

Section Life2.
Variable E : env.

Lemma reach_snoc l o :
  reach E (l ++ [o]) = match snd (run E l w0) with Some _ => fst (exec E o (reach E l)) | None => reach E l end.
Proof.
  unfold reach. rewrite run_app. unfold bind. destruct (run E l w0) as [w [[]|]]; cbn [fst snd]; [|reflexivity].
  cbn [run]. unfold bind. destruct (exec E o w) as [w' [[]|]]; reflexivity.
Qed.
Lemma fresh_prefix l o : fresh_conns E (l ++ [o]) -> fresh_conns E l.
Proof.
  intros H l1 c a d l2 ->. apply (H l1 c a d (l2 ++ [o])). rewrite <- app_assoc. reflexivity.
Qed.
Lemma opens_conn o s x : opens E s o = Some x -> conn_of o = Some (op_conn x).
Proof.
  destruct o as [c a l2| |c l2|c l2|a l2|a c|pc sp rem| | |p|a]; cbn [opens]; try discriminate.
  - destruct l2; [discriminate|]. destruct (dec_co E _); [|discriminate]. destruct (acceptable _); [|discriminate].
    intros H. injection H as <-. reflexivity.
  - destruct (ue_on s c); [discriminate|]. destruct (pending s c); [|discriminate].
    destruct (dec_co E _); [|discriminate]. destruct (acceptable _); [|discriminate].
    intros H. injection H as <-. reflexivity.
Qed.
Lemma opens_fresh o s x : opens E s o = Some x ->
  (forall c a d, o = OConnectInd c a d -> ue_on s c = None) -> ue_on s (op_conn x) = None.
Proof.
  intros H Hf. pose proof (opens_conn _ _ _ H) as Hc.
  destruct o as [c a l2| |c l2|c l2|a l2|a c|pc sp rem| | |p|a]; cbn [opens conn_of] in *; try discriminate.
  - injection Hc as <-. eapply Hf. reflexivity.
  - injection Hc as <-. destruct (ue_on s c); [discriminate|reflexivity].
Qed.

(* ---------------- what an operation does to the list of contexts ---------------- *)
Lemma exec_ues o w : good (w_st w) ->
  let s' := w_st (fst (exec E o w)) in
  (ues_le (s_ues (w_st w)) (s_ues s')) \/
  exists x s2 n, opens E (w_st w) o = Some x /\ (s_next (w_st w) <= s_next s2)%N /\
    ues_le (s_ues (w_st w)) (s_ues s2) /\
    ues_le (new_ue s2 n (op_conn x) (acc_ra (op_acc x)) :: s_ues s2) (s_ues s').
Proof.
  intros G. cbv zeta. destruct (opens E (w_st w) o) as [x|] eqn:Ho.
  - destruct (exec_open E o x w (g_table _ G) (g_ues _ G) Ho) as (s2&t1&H1&_&H3). cbv zeta in H3.
    destruct H1 as (_&_&Hn&Hle). unfold reg_st in Hle, Hn. cbn [s_ues s_next] in Hle, Hn. rewrite open_st_uess in Hle.
    destruct H3 as [(Ha&_)|(s3&t2&H3&_&Hs&_)].
    + left. rewrite Ha. exact Hle.
    + right. exists x, s2, (reg_ptr (open_st (w_st w) o) (g_id (reg_of x))). split; [reflexivity|].
      split; [rewrite Hn; unfold reg_next; destruct (rnc_id_find _ _); rewrite open_st_next; lia|].
      split; [exact Hle|]. rewrite Hs. apply H3.
  - left. destruct (exec_quiet E o w Ho) as ((_&_&H)&_). exact H.
Qed.

Definition dist (s : st) : Prop := NoDup (map u_conn (s_ues s)).
Lemma exec_dist o w : good (w_st w) -> dist (w_st w) ->
  (forall c a d, o = OConnectInd c a d -> ue_on (w_st w) c = None) -> dist (w_st (fst (exec E o w))).
Proof.
  intros G D Hf. destruct (exec_ues o w G) as [H|(x&s2&n&Ho&_&H1&H2)].
  - eapply ues_le_conns; eauto.
  - eapply ues_le_conns; [exact H2|]. cbn [map new_ue u_conn]. constructor; [|eapply ues_le_conns; eauto].
    intros Hi. apply in_map_iff in Hi as (v&Hv&Hi).
    pose proof (ue_on_le _ _ _ H1 (opens_fresh _ _ _ Ho Hf)) as Hnone. eapply ue_on_none; eauto.
Qed.
Lemma reach_dist l : fresh_conns E l -> dist (w_st (reach E l)).
Proof.
  induction l as [|o l IH] using rev_ind; intros Hf; [constructor|].
  rewrite reach_snoc. specialize (IH (fresh_prefix _ _ Hf)). destruct (snd _); [|exact IH].
  apply exec_dist; [apply reach_good|exact IH|]. intros c a d ->. eapply (Hf l c a d []). reflexivity.
Qed.

(* ---------------- C43 ---------------- *)
(* every context was there before, or this operation opened it *)
Lemma created_only_l : forall l o u',
  let w := reach E l in
  In u' (s_ues (w_st (fst (exec E o w)))) ->
  (exists u, In u (s_ues (w_st w)) /\ u_ptr u' = u_ptr u /\ u_conn u' = u_conn u /\ u_rnc u' = u_rnc u /\ u_ra u' = u_ra u) \/
  (exists x, opens E (w_st w) o = Some x /\ u_conn u' = op_conn x /\ u_ra u' = acc_ra (op_acc x) /\
     forall u, In u (s_ues (w_st w)) -> (u_ptr u < u_ptr u')%N).
Proof.
  intros l o u'. cbv zeta. set (w := reach E l). pose proof (reach_good E l) as G. fold w in G. intros Hu.
  destruct (exec_ues o w G) as [H|(x&s2&n&Ho&Hn&H1&H2)].
  - destruct (ues_le_in _ _ _ H Hu) as (u&Hi&(?&?&?&?&_)). left. exists u. auto.
  - destruct (ues_le_in _ _ _ H2 Hu) as (u&[<-|Hi]&(Hp&_&Hc&Hr&_)).
    + right. exists x. split; [exact Ho|]. split; [exact Hc|]. split; [exact Hr|].
      intros u Hiu. rewrite Hp. cbn [new_ue u_ptr]. pose proof (q_next _ (g_ues _ G) u Hiu). lia.
    + destruct (ues_le_in _ _ _ H1 Hi) as (v&Hv&(?&?&?&?&_)).
      destruct (ues_le_in _ _ _ H2 Hu) as (u0&_&_). left. exists v. split; [exact Hv|].
      assert (Hle : u_rnc u' = u_rnc u).
      { destruct (ues_le_in _ _ _ H2 Hu) as (y&[<-|Hy]&(Yp&Yr&_)).
        - exfalso. cbn [new_ue u_ptr] in Yp. assert (In u (s_ues s2)) by exact Hi.
          pose proof (q_next _ (g_ues _ G) v Hv). lia.
        - assert (S : NoDup (map u_ptr (s_ues s2))).
          { eapply ues_le_ptrs; [exact H1|]. apply sorted_nodup, (q_sorted _ (g_ues _ G)). }
          assert (y = u) by (eapply (nodup_inj u_ptr); eauto; congruence). subst y. exact Yr. }
      repeat split; congruence.
Qed.

(* an accepted Initial UE Message on a new connection is delivered once, with a
   new context that stays unless the application frees it in a callback *)
Lemma api_recvs_rev t : forallb api_eff t = true -> recvs (rev t) = [].
Proof. intros H. rewrite recvs_rev, recvs_api; auto. Qed.
Lemma created_l : forall l o x,
  let w := reach E l in
  let res := exec E o w in
  opens E (w_st w) o = Some x -> snd res = Some tt ->
  exists t p, added (w_tr w) (w_tr (fst res)) t /\
    recvs t = [(p, acc_nas (op_acc x), Some (acc_ra (op_acc x)), Some (acc_sai (op_acc x)))] /\
    (forall u, In u (s_ues (w_st w)) -> (u_ptr u < p)%N) /\
    (In (EApi (AFreeUe (Some p))) t \/
     exists u n, In u (s_ues (w_st (fst res))) /\ u_ptr u = p /\ u_conn u = op_conn x /\ u_ra u = acc_ra (op_acc x) /\
       In n (s_rncs (w_st (fst res))) /\ n_ptr n = u_rnc u /\ rnc_id_eqb (n_id n) (acc_id (op_acc x)) = true /\
       (touched_b p t = false -> u_notif u = true /\ u_for u = false /\ u_timer u = None)).
Proof.
  intros l o x. cbv zeta. set (w := reach E l). pose proof (reach_good E l) as G. fold w in G. intros Ho Hok.
  destruct (exec_open E o x w (g_table _ G) (g_ues _ G) Ho) as (s2&t1&H1&Ht1&H3). cbv zeta in H3.
  set (ev := if _ && _ then _ else _) in H3.
  destruct H3 as [(_&_&Hn)|(s3&t2&H3&Ht2&Hs&Hcb&Hr)]; [rewrite Hn in Hok; discriminate|].
  destruct Hr as [(Hn&_)|(_&Htr)]; [rewrite Hn in Hok; discriminate|].
  set (u := new_ue s2 (reg_ptr (open_st (w_st w) o) (g_id (reg_of x))) (op_conn x) (acc_ra (op_acc x))) in *.
  set (e := ERecv _ _ _ _) in *.
  exists (rev (EPrimFree :: EBufFree :: t2 ++ e :: t1 ++ ev ++ EBufAlloc :: pre_eff o)), (u_ptr u).
  split; [apply added_rev; rewrite Htr; unfold pre_eff; destruct o; cbn [List.app]; rewrite <- !app_assoc; cbn [List.app]; rewrite <- !app_assoc; reflexivity|].
  split; [|split].
  - assert (Hev : recvs ev = []) by (unfold ev; destruct (_ && _); reflexivity).
    assert (Hpre : recvs (pre_eff o) = []) by (destruct o; reflexivity).
    rewrite recvs_rev. change (recvs (EPrimFree :: EBufFree :: ?y)) with (recvs y). rewrite recvs_app, recvs_api by exact Ht2.
    change (recvs (e :: ?y)) with ([(u_ptr u, acc_nas (op_acc x), Some (acc_ra (op_acc x)), Some (acc_sai (op_acc x)))] ++ recvs y).
    rewrite recvs_app, recvs_api by exact Ht1. rewrite recvs_app, Hev.
    change (recvs (EBufAlloc :: ?y)) with (recvs y). rewrite Hpre. reflexivity.
  - intros v Hv. pose proof (q_next _ (g_ues _ G) v Hv). destruct H1 as (_&_&Hn&_). cbn [u new_ue u_ptr]. rewrite Hn.
    unfold reg_st, reg_next. cbn [s_next]. destruct (rnc_id_find _ _); rewrite open_st_next; lia.
  - destruct (kspec_callback E (u_ptr u) e ltac:(discriminate) (mkW (add_ue s2 u)
        (t1 ++ ev ++ EBufAlloc :: pre_eff o ++ w_tr w))) as (t'&Ht'&_&Hk).
    rewrite Hcb in Ht', Hk. cbn [fst snd w_st w_tr] in Ht', Hk. rewrite Hok in Hk. specialize (Hk ltac:(discriminate)).
    assert (t' = t2 ++ [e]).
    { change (e :: ?y) with ([e] ++ y) in Ht'. rewrite app_assoc in Ht'. apply app_inv_tail in Ht'. auto. }
    subst t'. destruct Hk as (_&_&Hk).
    destruct (in_dec (fun a b : bool => Bool.bool_dec a b) true
       (map (fun e => match e with EApi (AFreeUe (Some q)) => (q =? u_ptr u)%N | _ => false end) t2)) as [Hin|Hin].
    + left. apply in_map_iff in Hin as (e0&He0&Hin). destruct e0 as [| | |a| | | | | |]; try discriminate.
      destruct a as [| | | | |[q|]| | | | | |]; try discriminate. apply N.eqb_eq in He0. subst q.
      rewrite <- in_rev. right. right. apply in_app_iff. left. exact Hin.
    + right. destruct (Hk u (or_introl eq_refl) eq_refl) as (u'&Hu'&(Hp&Hrn&Hc&Hra&_)&Hsame).
      * intros Hf. unfold AF in Hf. apply in_app_iff in Hf as [Hf|[Hf|[]]]; [|discriminate].
        apply Hin, in_map_iff. exists (EApi (AFreeUe (Some (u_ptr u)))). split; [apply N.eqb_refl|exact Hf].
      * destruct (l0_self E (open_st (w_st w) o) (g_id (reg_of x)) (g_addr (reg_of x)) (open_st_table _ _ (g_table _ G))) as (n&Hn&Hnp&Hid).
        destruct (reg_in' E _ _ (g_area (reg_of x)) _ n (open_st_table _ _ (g_table _ G)) Hn) as (n'&Hn'&Hnp'&Hid'&_).
        exists u', n'. rewrite Hs. repeat (split; [auto; fail|]).
        split; [destruct H3 as (Hr3&_); destruct H1 as (Hr1&_); rewrite Hr3; cbn [add_ue s_rncs]; rewrite Hr1; exact Hn'|].
        split; [rewrite Hrn, Hnp', Hnp; reflexivity|]. split; [rewrite Hid'; exact Hid|].
        intros Htb. rewrite (Hsame).
        -- cbn. auto.
        -- intros (c&d&Hr). apply in_app_iff in Hr as [Hr|[Hr|[]]]; [|discriminate].
           assert (Hx : touched_b (u_ptr u) (rev (EPrimFree :: EBufFree :: t2 ++ e :: t1 ++ ev ++ EBufAlloc :: pre_eff o)) = true).
           { unfold touched_b. apply existsb_exists. exists (EApi (ATxReleaseFree (u_ptr u) c d)). split; [|apply N.eqb_refl].
             rewrite <- in_rev. right. right. apply in_app_iff. left. exact Hr. }
           congruence.
Qed.

(* ---------------- remembered addresses: C42 ---------------- *)
Definition cc {A} (m : M A) : Prop := forall w, s_cache (w_st (fst (m w))) = s_cache (w_st w).
Lemma cc_pres {A} (m : M A) : pres m -> cc m.
Proof. intros H w. destruct (H w) as ((_&Hc&_)&_). exact Hc. Qed.
Lemma cc_bind {A B} (m : M A) (k : A -> M B) : cc m -> (forall a, cc (k a)) -> cc (bind m k).
Proof.
  intros Hm Hk w. unfold bind. specialize (Hm w). destruct (m w) as [w' [a|]]; cbn [fst] in *; auto.
  rewrite Hk. exact Hm.
Qed.
Lemma cc_emit e : cc (emit e).
Proof. intros w. reflexivity. Qed.
Lemma cc_callback e : cc (callback E e).
Proof. intros w. destruct (callback_frame E e w) as ((_&Hc&_)&_). exact Hc. Qed.
Lemma cc_event p ev : cc (global_iu_event E p ev).
Proof. intros w. destruct (event_frame E p ev w) as ((_&Hc&_)&_). exact Hc. Qed.
Ltac ccs := repeat
  match goal with
  | |- cc (ret _) => apply cc_pres, pres_ret
  | |- cc (fail _) => apply cc_pres, pres_fail
  | |- cc get => apply cc_pres, pres_get
  | |- cc trace => apply cc_pres, pres_trace
  | |- cc (lift _) => apply cc_pres, pres_lift
  | |- cc (deref _) => apply cc_pres, pres_deref
  | |- cc (emit _) => apply cc_emit
  | |- cc (callback _ _) => apply cc_callback
  | |- cc (global_iu_event _ _ _) => apply cc_event
  | |- cc (bind _ _) => apply cc_bind; [|intros]
  | |- cc (match ?x with _ => _ end) => destruct x
  end.
Lemma cc_handle_co p m : cc (handle_co E p m).
Proof.
  unfold handle_co, handle_co_dt, nas_put, handle_co_iu_rel_req, handle_co_rab_ass_resp. ccs.
  apply cc_pres, pres_tx_release.
Qed.
Lemma cc_send r : cc (sccp_send E r).
Proof. intros w. reflexivity. Qed.
Lemma cc_handle_cl a m : cc (handle_cl E a m).
Proof. unfold handle_cl, handle_cl_reset_req. ccs. apply cc_send. Qed.
Lemma cc_link p : cc (link_invalidated_free E p).
Proof. unfold link_invalidated_free. ccs. apply cc_pres, pres_free_ue. Qed.
Lemma cc_loop n : forall c r, cc (invalidate_loop E n c r).
Proof. induction n; intros [p|] r; cbn [invalidate_loop]; ccs; auto using cc_link. Qed.
Lemma cc_rncs l h : cc (invalidate_rncs E l h).
Proof. induction l; cbn [invalidate_rncs]; unfold invalidate_rnc; ccs; auto using cc_loop. Qed.
Lemma cc_timer p : cc (timer_fires E p).
Proof.
  intros w. unfold timer_fires. rewrite bind_get. destruct (live (w_st w) p) as [u|]; [|reflexivity].
  destruct (u_timer u); [|reflexivity]. rewrite bind_put, fst_bind_ret, cc_event. reflexivity.
Qed.
Lemma cc_rx_co l h : (forall m, cc (h m)) -> cc (rx_co E l h).
Proof. intros H. unfold rx_co. destruct (dec_co E l); [apply H|ccs]. Qed.
Lemma cc_rej conn a m w : acceptable m = None -> s_cache (w_st (fst (handle_co_initial E conn a m w))) = s_cache (w_st w).
Proof. intros H. destruct (initial_rej E conn a m w H) as (H1&_). rewrite H1. reflexivity. Qed.

(* the remembered addresses after an operation *)
Definition cache_after (s : st) (o : op) : list (N * sccp_addr) :=
  match o with
  | OConnectInd c a [] => (c, a) :: s_cache s
  | ODisconnectInd c _ => cache_del c (s_cache s)
  | ODataInd c _ => match ue_on s c with None => cache_del c (s_cache s) | Some _ => s_cache s end
  | _ => s_cache s
  end.
Lemma cache_del_none c l : find (fun e => (fst e =? c)%N) l = None -> cache_del c l = l.
Proof.
  induction l as [|e l IH]; [reflexivity|]. cbn [find cache_del]. destruct (fst e =? c)%N; [discriminate|].
  intros H. rewrite IH; auto.
Qed.
Lemma fst_emit_st {A} (m : M A) e w : w_st (fst ((let! _ := m in emit e) w)) = w_st (fst (m w)).
Proof. unfold bind. destruct (m w) as [w' [a|]]; reflexivity. Qed.
Lemma exec_cache o w : good (w_st w) -> s_cache (w_st (fst (exec E o w))) = cache_after (w_st w) o.
Proof.
  intros G. destruct (opens E (w_st w) o) as [x|] eqn:Ho.
  - destruct (exec_open E o x w (g_table _ G) (g_ues _ G) Ho) as (s2&t1&H1&_&H3). cbv zeta in H3.
    assert (Hc : s_cache (w_st (fst (exec E o w))) = s_cache (open_st (w_st w) o)).
    { destruct H1 as (_&Hc&_). unfold reg_st in Hc. cbn [s_cache] in Hc.
      destruct H3 as [(Ha&_)|(s3&t2&H3&_&Hs&_)].
      - rewrite Ha. exact Hc.
      - rewrite Hs. destruct H3 as (_&Hc3&_). cbn [add_ue s_cache] in Hc3. congruence. }
    rewrite Hc. destruct o as [c a [|y l2]| |c l2|c l2|a l2|a c|pc sp rem| | |p|a]; try discriminate; cbn [open_st cache_after]; auto.
    cbn [opens] in Ho. destruct (ue_on (w_st w) c); [discriminate|]. reflexivity.
  - destruct o as [c a l2| |c l2|c l2|a l2|a c|pc sp rem| | |p|a]; cbn [exec cache_after]; unfold sccp_sap_up; try rewrite fst_emit_st; try reflexivity.
    + unfold sccp_send. rewrite bind_assoc, bind_trace, bind_assoc, bind_emit, bind_ret.
      destruct l2 as [|y l2]; [reflexivity|]. unfold rx_co. cbn [opens] in Ho.
      destruct (dec_co E (y :: l2)) as [m|]; [|reflexivity]. destruct (acceptable m) eqn:Ha; [discriminate|].
      rewrite cc_rej by exact Ha. reflexivity.
    + unfold sccp_addr_del. rewrite bind_assoc, bind_get, bind_put.
      match goal with |- s_cache (w_st (fst (?m ?v))) = _ => assert (Hm : cc m) end.
      { ccs; auto using cc_link. apply cc_rx_co. intros m. apply cc_handle_co. }
      rewrite Hm. reflexivity.
    + rewrite bind_get. cbn [opens] in Ho. unfold ue_conn_ctx_find, sccp_addr_find.
      unfold ue_on, pending in *. destruct (find _ (s_ues (w_st w))) as [u|].
      * rewrite cc_rx_co; [reflexivity|]. intros m. apply cc_handle_co.
      * destruct (find (fun e => (fst e =? c)%N) (s_cache (w_st w))) as [[c' a]|] eqn:Hf; cbn [option_map snd] in *.
        -- unfold sccp_addr_del. rewrite bind_assoc, bind_get, bind_put. unfold rx_co.
           destruct (dec_co E l2) as [m|]; [|reflexivity]. destruct (acceptable m) eqn:Ha; [discriminate|].
           rewrite cc_rej by exact Ha. reflexivity.
        -- cbn. symmetry. apply cache_del_none, Hf.
    + unfold rx_cl. destruct (dec_cl E l2); [apply cc_handle_cl|reflexivity].
    + match goal with |- s_cache (w_st (fst (?m ?v))) = _ => assert (Hm : cc m) end.
      { unfold handle_notice_ind. ccs. apply cc_rncs. } apply Hm.
    + match goal with |- s_cache (w_st (fst (?m ?v))) = _ => assert (Hm : cc m) end.
      { unfold handle_pcstate_ind. ccs. apply cc_rncs. } apply Hm.
    + apply cc_timer.
    + apply cc_pres, pres_run_api.
Qed.

Lemma del_other c c' l : c <> c' ->
  find (fun e : N * sccp_addr => (fst e =? c)%N) (cache_del c' l) = find (fun e => (fst e =? c)%N) l.
Proof.
  intros Hne. induction l as [|e l IH]; [reflexivity|]. cbn [cache_del find].
  destruct (fst e =? c')%N eqn:H1.
  - destruct (fst e =? c)%N eqn:H2; [lia|reflexivity].
  - cbn [find]. destruct (fst e =? c)%N; [reflexivity|exact IH].
Qed.
(* operations on other connections do not touch what is remembered for [c] *)
Lemma exec_other o w c : good (w_st w) -> conn_of o <> Some c ->
  pending (w_st (fst (exec E o w))) c = pending (w_st w) c /\
  (ue_on (w_st w) c = None -> ue_on (w_st (fst (exec E o w))) c = None).
Proof.
  intros G Hc. split.
  - unfold pending. rewrite exec_cache by exact G. f_equal.
    destruct o as [c' a [|y l2]| |c' l2|c' l2|a l2|a c'|pc sp rem| | |p|a]; cbn [cache_after conn_of] in *; try reflexivity;
      assert (Hne : c <> c') by congruence.
    + cbn [find fst]. destruct (c' =? c)%N eqn:H; [lia|reflexivity].
    + apply del_other, Hne.
    + destruct (ue_on _ _); [reflexivity|]. apply del_other, Hne.
  - intros Hn. destruct (exec_ues o w G) as [H|(x&s2&n&Ho&_&H1&H2)].
    + eapply ue_on_le; eauto.
    + rewrite ue_on_none_iff. intros u Hu. destruct (ues_le_in _ _ _ H2 Hu) as (v&[<-|Hv]&(_&_&Hcv&_)); rewrite Hcv.
      * cbn [new_ue u_conn]. rewrite (opens_conn _ _ _ Ho) in Hc. congruence.
      * eapply ue_on_none; [|exact Hv]. eapply ue_on_le; eauto.
Qed.
Lemma run_other c : forall l w, good (w_st w) -> (forall o, In o l -> conn_of o <> Some c) ->
  pending (w_st (fst (run E l w))) c = pending (w_st w) c /\
  (ue_on (w_st w) c = None -> ue_on (w_st (fst (run E l w))) c = None).
Proof.
  induction l as [|o l IH]; intros w G Hl; cbn [run]; [split; auto|].
  destruct (exec_other o w c G (Hl o (or_introl eq_refl))) as [H1 H2]. pose proof (exec_good E o w G) as G'.
  unfold bind. destruct (exec E o w) as [w' [[]|]]; cbn [fst] in *; [|split; auto].
  destruct (IH w' G' ltac:(intros; apply Hl; right; auto)) as [H3 H4]. split; [congruence|auto].
Qed.

(* an empty connect for a connection without context is remembered *)
Lemma empty_connect_l : forall l1 c a l2,
  snd (run E l1 w0) = Some tt -> ue_on (w_st (reach E l1)) c = None ->
  (forall o, In o l2 -> conn_of o <> Some c) ->
  let s := w_st (reach E (l1 ++ OConnectInd c a [] :: l2)) in
  pending s c = Some a /\ ue_on s c = None.
Proof.
  intros l1 c a l2 Hok Hn Hl. cbv zeta. pose proof (reach_good E l1) as G.
  unfold reach in *. rewrite run_app. unfold bind. destruct (run E l1 w0) as [w [[]|]]; [|discriminate]. cbn [fst snd] in *.
  assert (He : exec E (OConnectInd c a []) w =
    (mkW (set_cache (w_st w) ((c, a) :: s_cache (w_st w))) (EPrimFree :: ESccp (NConnectResp c) :: w_tr w), Some tt)) by reflexivity.
  cbn [run]. unfold bind. rewrite He. set (v := mkW _ _).
  assert (Gv : good (w_st v)).
  { replace v with (fst (exec E (OConnectInd c a []) w)) by (rewrite He; reflexivity). apply exec_good, G. }
  destruct (run_other c l2 v Gv Hl) as [H1 H2]. rewrite H1. split.
  - unfold pending, v. cbn [w_st set_cache s_cache find fst]. rewrite N.eqb_refl. reflexivity.
  - apply H2. exact Hn.
Qed.
(* the data that follows is handled like the data of a connect *)
Lemma late_data_l : forall s tr c a d, d <> [] ->
  ue_on s c = None -> pending s c = Some a ->
  exec E (ODataInd c d) (mkW s (ESccp (NConnectResp c) :: tr)) =
  exec E (OConnectInd c a d) (mkW (set_cache s (cache_del c (s_cache s))) tr).
Proof.
  intros s tr c a d Hd Hu Hp. destruct d as [|y d]; [contradiction|].
  cbn [exec]. unfold sccp_sap_up, sccp_send, sccp_addr_del, bind, get, put_st, trace, emit, ret. cbn [w_st w_tr].
  unfold ue_conn_ctx_find, sccp_addr_find. unfold ue_on, pending in *. rewrite Hu, Hp. reflexivity.
Qed.
Lemma consumed_l : forall l c a d, pending (w_st (reach E l)) c = Some a -> ue_on (w_st (reach E l)) c = None ->
  s_cache (w_st (fst (exec E (ODataInd c d) (reach E l)))) = cache_del c (s_cache (w_st (reach E l))).
Proof. intros l c a d Hp Hu. rewrite exec_cache by apply reach_good. cbn [cache_after]. rewrite Hu. reflexivity. Qed.

(* all addresses remembered for a connection, newest first *)
Lemma pending_remembered s c : pending s c = hd_error (remembered s c).
Proof.
  unfold pending, remembered. induction (s_cache s) as [|e l IH]; [reflexivity|].
  cbn [find filter]. destruct (fst e =? c)%N; [reflexivity|exact IH].
Qed.
Lemma filter_del c c' l : filter (fun e : N * sccp_addr => (fst e =? c)%N) (cache_del c' l) =
  if (c =? c')%N then tl (filter (fun e => (fst e =? c)%N) l) else filter (fun e => (fst e =? c)%N) l.
Proof.
  induction l as [|e l IH]; cbn [cache_del filter]; [destruct (c =? c')%N; reflexivity|].
  destruct (fst e =? c')%N eqn:H1.
  - destruct (c =? c')%N eqn:H2, (fst e =? c)%N eqn:H3; try lia; reflexivity.
  - cbn [filter]. rewrite IH. destruct (c =? c')%N eqn:H2, (fst e =? c)%N eqn:H3; try lia; reflexivity.
Qed.
Lemma exec_remembered o w c : good (w_st w) ->
  remembered (w_st (fst (exec E o w))) c =
  match o with
  | OConnectInd c' a [] => if (c' =? c)%N then a :: remembered (w_st w) c else remembered (w_st w) c
  | ODisconnectInd c' _ => if (c =? c')%N then tl (remembered (w_st w) c) else remembered (w_st w) c
  | ODataInd c' _ =>
      if (c =? c')%N then match ue_on (w_st w) c' with None => tl (remembered (w_st w) c) | Some _ => remembered (w_st w) c end
      else remembered (w_st w) c
  | _ => remembered (w_st w) c
  end.
Proof.
  intros G. unfold remembered. rewrite exec_cache by exact G.
  assert (Ht : forall A B (f : A -> B) l, map f (tl l) = tl (map f l)) by (intros A B f []; reflexivity).
  destruct o as [c' a [|y l2]| |c' l2|c' l2|a l2|a c'|pc sp rem| | |p|a]; cbn [cache_after]; try reflexivity.
  - cbn [filter fst]. destruct (c' =? c)%N; reflexivity.
  - rewrite filter_del. destruct (c =? c')%N; rewrite ?Ht; reflexivity.
  - destruct (ue_on (w_st w) c'); [destruct (c =? c')%N; reflexivity|].
    rewrite filter_del. destruct (c =? c')%N; rewrite ?Ht; reflexivity.
Qed.
Lemma run_remembered c : forall l w, good (w_st w) -> (forall o, In o l -> conn_of o <> Some c) ->
  remembered (w_st (fst (run E l w))) c = remembered (w_st w) c.
Proof.
  induction l as [|o l IH]; intros w G Hl; cbn [run]; [reflexivity|].
  pose proof (exec_remembered o w c G) as H1. pose proof (exec_good E o w G) as G'.
  specialize (Hl o (or_introl eq_refl)) as Ho.
  assert (H2 : remembered (w_st (fst (exec E o w))) c = remembered (w_st w) c).
  { rewrite H1. destruct o as [c' a [|y l2]| |c' l2|c' l2|a l2|a c'|pc sp rem| | |p|a]; cbn [conn_of] in Ho; try reflexivity.
    - destruct (c' =? c)%N eqn:Hc; [|reflexivity]. exfalso. apply Ho. f_equal. lia.
    - destruct (c =? c')%N eqn:Hc; [|reflexivity]. exfalso. apply Ho. f_equal. lia.
    - destruct (c =? c')%N eqn:Hc; [|reflexivity]. exfalso. apply Ho. f_equal. lia. }
  unfold bind. destruct (exec E o w) as [w' [[]|]]; cbn [fst] in *; [|exact H2].
  rewrite IH; auto. intros o' Ho'. apply Hl. right; auto.
Qed.
(* C42: remembered until the connection's next data, then as it was before the connect *)
Lemma empty_connect_use_l : forall l1 c a l2 d,
  snd (run E l1 w0) = Some tt -> ue_on (w_st (reach E l1)) c = None ->
  (forall o, In o l2 -> conn_of o <> Some c) ->
  let w := reach E (l1 ++ OConnectInd c a [] :: l2) in
  let w' := fst (exec E (ODataInd c d) w) in
  pending (w_st w') c = pending (w_st (reach E l1)) c.
Proof.
  intros l1 c a l2 d Hok Hn Hl. cbv zeta.
  destruct (empty_connect_l l1 c a l2 Hok Hn Hl) as [_ Hu]. cbv zeta in Hu.
  rewrite !pending_remembered, exec_remembered by apply reach_good. rewrite N.eqb_refl, Hu. f_equal.
  pose proof (reach_good E l1) as G. unfold reach in *. rewrite run_app. unfold bind.
  destruct (run E l1 w0) as [w [[]|]]; [|discriminate]. cbn [fst snd run] in *. unfold bind.
  pose proof (exec_remembered (OConnectInd c a []) w c G) as H1. pose proof (exec_good E (OConnectInd c a []) w G) as G'.
  cbv iota beta in H1. rewrite N.eqb_refl in H1.
  destruct (exec E (OConnectInd c a []) w) as [v [[]|]] eqn:He; cbn [fst] in *; [|discriminate].
  rewrite run_remembered by auto. rewrite H1. reflexivity.
Qed.
End Life2.
