(* Disconnect, loss of an RNC and memory safety, for histories *)
From Coq Require Import ZifyBool ZifyNat ZifyN Sorted.
From Verif Require Import Base Lai Lai_proofs IuClient IuClient_frame IuClient_spec IuClient_reg IuClient_step IuClient_inv IuClient_area IuClient_conn IuClient_life IuClient_life2 IuClient_loss.

Section Loss2.
Variable E : env.

Definition untouched (p : ptr) (t : list eff) : Prop :=
  forall a, In (EApi a) t -> a <> AFreeUe (Some p) /\ (forall c d, a <> ATxReleaseFree p c d).
Lemma untouched_iff p t : untouched p t <-> ~ AF p t /\ ~ RF p t.
Proof.
  unfold untouched, AF, RF. split.
  - intros H. split; [intros Ha; destruct (H _ Ha); congruence|]. intros (c&d&Ha). destruct (H _ Ha) as [_ Hb]. eapply Hb; reflexivity.
  - intros [H1 H2] a Ha. split; [congruence|]. intros c d ->. apply H2. eauto.
Qed.
Lemma touched_b_iff p t : touched_b p t = false <-> untouched p t.
Proof.
  unfold touched_b, untouched. split.
  - intros H a Ha. assert (Hx : forall e, In e t -> (match e with
      | EApi (AFreeUe (Some q)) => (q =? p)%N | EApi (ATxReleaseFree q _ _) => (q =? p)%N | _ => false end) = false).
    { intros e He. destruct (_ : bool) eqn:Hb in |- *; [|reflexivity]. rewrite <- H. symmetry. apply existsb_exists. eauto. }
    specialize (Hx _ Ha). cbn in Hx. split; [intros ->; lia|intros c d ->; lia].
  - intros H. destruct (existsb _ t) eqn:He; [|reflexivity]. apply existsb_exists in He as (e&Hi&He).
    destruct e as [| | |a| | | | | |]; try discriminate. destruct (H _ Hi) as [H1 H2].
    destruct a as [| | | |q c d|[q|]| | | | | |]; try discriminate; apply N.eqb_eq in He; subst q; [exfalso; eapply H2|exfalso; apply H1]; reflexivity.
Qed.

(* C44 *)
Lemma disc_none_l : forall w c d, ue_on (w_st w) c = None ->
  exec E (ODisconnectInd c d) w = (mkW (w_st (forget c w)) (EPrimFree :: w_tr w), Some tt).
Proof.
  intros w c d H. cbn [exec]. unfold sccp_sap_up, sccp_addr_del. rewrite !bind_assoc, bind_get, bind_put, bind_assoc, bind_get.
  unfold ue_conn_ctx_find. unfold ue_on in H. cbn [w_st set_cache s_ues]. rewrite H. reflexivity.
Qed.
Lemma disc_some w c d u : ue_on (w_st w) c = Some u ->
  exec E (ODisconnectInd c d) w =
  (let! _ := (match d with [] => ret tt | _ => rx_co E d (handle_co E (u_ptr u)) end) in
   let! s := get in
   let! _ := match ue_conn_ctx_find s c with None => ret tt | Some u => link_invalidated_free E (u_ptr u) end in
   emit EPrimFree) (forget c w).
Proof.
  intros H. cbn [exec]. unfold sccp_sap_up, sccp_addr_del. rewrite !bind_assoc, bind_get, bind_put, bind_assoc, bind_get.
  unfold ue_conn_ctx_find at 1. unfold ue_on in H. cbn [w_st set_cache s_ues]. rewrite H.
  rewrite bind_assoc. apply bind_ext. intros [] w'. rewrite bind_assoc. reflexivity.
Qed.
Definition about_nolink (p : ptr) (e : eff) : bool :=
  about p e && match e with EEvent _ EvLinkInvalidated => false | _ => true end.
Lemma about_nolink_api p e : api_eff e = true -> about_nolink p e = true.
Proof. destruct e; cbn; congruence. Qed.
Lemma nolink t p : forallb (about_nolink p) t = true -> link_events t = [] /\ forallb (about p) t = true.
Proof.
  induction t as [|e t IH]; cbn [forallb]; [split; reflexivity|]. intros H. apply andb_prop in H as [H1 H2].
  destruct (IH H2) as [H3 H4]. unfold about_nolink in H1. apply andb_prop in H1 as [H1 H5]. split; [|rewrite H1; exact H4].
  change (e :: t) with ([e] ++ t). rewrite link_app, H3.
  destruct e as [| |[q|] []| | | | | | |]; try discriminate; reflexivity.
Qed.

Lemma disconnect_l : forall l c d u, fresh_conns E l ->
  let w := reach E l in
  let res := exec E (ODisconnectInd c d) w in
  ue_on (w_st w) c = Some u -> snd res = Some tt ->
  exists t1 t2, added (w_tr w) (w_tr (fst res)) (t1 ++ t2 ++ [EPrimFree]) /\
    (if (length d =? 0) then t1 = [] else
       added (w_tr w) (w_tr (fst (exec E (ODataInd c d) (forget c w)))) (t1 ++ [EPrimFree])) /\
    link_events t1 = [] /\ recvs t2 = [] /\
    events t2 = (if has_event_cb E && u_notif u && negb (touched_b (u_ptr u) t1)
                 then [(Some (u_ptr u), EvLinkInvalidated)] else []) /\
    (forall v, In v (s_ues (w_st (fst res))) -> u_conn v = c -> u_for v = false).
Proof.
  intros l c d u Hf. cbv zeta. set (w := reach E l). intros Hu.
  pose proof (reach_good E l) as G. pose proof (reach_dist E l Hf) as D. fold w in G, D.
  destruct (ue_on_in _ _ _ Hu) as [Hi Hc]. rewrite (disc_some _ _ _ _ Hu).
  set (v := forget c w).
  assert (Qv : ues_ok (w_st v)) by (destruct (g_ues _ G); constructor; assumption).
  assert (Hvu : s_ues (w_st v) = s_ues (w_st w)) by reflexivity.
  set (m := match d with [] => ret tt | _ => rx_co E d (handle_co E (u_ptr u)) end).
  assert (Hm : exists t, w_tr (fst (m v)) = t ++ w_tr v /\ keep_st (w_st v) (w_st (fst (m v))) /\
     forallb (about_nolink (u_ptr u)) t = true /\
     (snd (m v) <> None -> kstep (u_ptr u) (s_ues (w_st v)) (s_ues (w_st (fst (m v)))) t) /\
     (if length d =? 0 then t = [] else snd (m v) <> None ->
        w_tr (fst (exec E (ODataInd c d) v)) = EPrimFree :: t ++ w_tr v)).
  { assert (Hg : gpres (about_nolink (u_ptr u)) m).
    { unfold m. destruct d; [apply gpres_ret|]. unfold rx_co. destruct (dec_co E _); [|apply gpres_ret].
      apply gq_handle_co; auto using about_nolink_api; unfold about_nolink; cbn; intros.
      - rewrite N.eqb_refl. reflexivity.
      - rewrite N.eqb_refl. destruct ev; try reflexivity. contradiction. }
    assert (Hk : kspec (u_ptr u) m).
    { unfold m. destruct d; [apply kspec_ret|]. unfold rx_co. destruct (dec_co E _); [|apply kspec_ret]. apply kspec_handle_co. }
    destruct (Hg v) as (K&t&Ht&Hab). destruct (Hk v) as (t'&Ht'&_&Hks). rewrite Ht in Ht'. apply app_inv_tail in Ht'. subst t'.
    exists t. split; [exact Ht|]. split; [exact K|]. split; [exact Hab|]. split; [exact Hks|].
    destruct d as [|y d]; cbn [length Nat.eqb].
    - unfold m in Ht. cbn [ret fst] in Ht. destruct t as [|x t]; [reflexivity|]. exfalso.
      assert (Hl : length (w_tr v) = length ((x :: t) ++ w_tr v)) by (rewrite <- Ht; reflexivity).
      rewrite app_length in Hl. cbn in Hl. lia.
    - intros Hs. rewrite (exec_data_known E c (y :: d) v u) by exact Hu. rewrite emit_fin. cbn [fst w_tr].
      fold m. destruct (snd (m v)); [|congruence]. rewrite Ht. reflexivity. }
  destruct Hm as (t1&Ht1&K1&Hab&Hks&Hpay).
  destruct (m v) as [w1 [[]|]] eqn:Hmv; cbn [fst snd] in *.
  2:{ rewrite (bind_none _ _ _ _ Hmv). discriminate. }
  rewrite (bind_eq _ _ _ _ _ Hmv), bind_get. specialize (Hks ltac:(discriminate)).
  destruct (nolink _ _ Hab) as [Hnl _].
  assert (Q1 : ues_ok (w_st w1)) by (eapply keep_ues_ok; eauto).
  assert (Hle1 : ues_le (s_ues (w_st v)) (s_ues (w_st w1))) by apply K1.
  assert (D1 : dist (w_st w1)) by (eapply ues_le_conns; [exact Hle1|exact D]).
  destruct Hks as (HkA&HkB&HkC).
  assert (Htb : touched_b (u_ptr u) (rev t1) = touched_b (u_ptr u) t1).
  { assert (Hx : forall a b : bool, (a = false <-> b = false) -> a = b) by (intros [] [] [H1 H2]; auto; try (symmetry; auto); auto).
    apply Hx. rewrite !touched_b_iff. unfold untouched. split; intros H a Ha; apply H; [rewrite <- in_rev|rewrite in_rev]; auto. }
  assert (Hfrom : forall x, In x (s_ues (w_st w1)) -> u_conn x = c -> u_ptr x = u_ptr u).
  { intros x Hx Hxc. destruct (ues_le_in _ _ _ Hle1 Hx) as (y&Hy&(Hp&_&Hyc&_)).
    assert (y = u) by (apply (nodup_inj u_conn _ _ _ D Hy Hi); congruence). congruence. }
  assert (Hpay' : if length d =? 0 then rev t1 = [] else
       added (w_tr w) (w_tr (fst (exec E (ODataInd c d) v))) (rev t1 ++ [EPrimFree])).
  { destruct (length d =? 0); [rewrite Hpay; reflexivity|]. unfold added. rewrite (Hpay ltac:(discriminate)), rev_app_distr, rev_involutive. reflexivity. }
  unfold ue_conn_ctx_find. fold (ue_on (w_st w1) c).
  destruct (ue_on (w_st w1) c) as [u1|] eqn:Hon.
  - destruct (ue_on_in _ _ _ Hon) as [Hi1 Hc1]. pose proof (Hfrom _ Hi1 Hc1) as Hp1.
    pose proof (live_good _ _ Q1 Hi1) as Hl1.
    destruct (link_spec E (u_ptr u1) u1 w1 Q1 D1 Hl1) as (t2&Ht2&Ha&Hev&Hrc&_&Hok&_). cbv zeta in *.
    destruct (link_invalidated_free E (u_ptr u1) w1) as [w2 [[]|]] eqn:Hw2; cbn [fst snd] in *.
    2:{ rewrite (bind_none _ _ _ _ Hw2). discriminate. }
    rewrite (bind_eq _ _ _ _ _ Hw2). cbn [emit fst snd w_st w_tr]. intros _.
    exists (rev t1), (rev t2). split.
    { unfold added. rewrite !rev_app_distr, !rev_involutive, Ht2, Ht1. cbn [rev List.app]. rewrite <- app_assoc. reflexivity. }
    split; [exact Hpay'|]. split; [rewrite link_rev, Hnl; reflexivity|]. split; [rewrite recvs_rev, Hrc; reflexivity|].
    rewrite Htb. split.
    + rewrite events_rev, Hev.
      assert (Hna : ~ AF (u_ptr u) t1).
      { intros Haf. apply (HkA Haf u1 Hi1). exact Hp1. }
      destruct (touched_b (u_ptr u) t1) eqn:Htt; cbn [negb].
      * rewrite andb_false_r.
        assert (Hn : u_notif u1 = false).
        { apply (HkB). 2:exact Hi1. 2:exact Hp1.
          unfold touched_b in Htt. apply existsb_exists in Htt as (e&He&Hb). destruct e as [| | |a| | | | | |]; try discriminate.
          destruct a as [| | | |q cc0 dd|[q|]| | | | | |]; try discriminate; apply N.eqb_eq in Hb; subst q.
          - exists cc0, dd. exact He.
          - exfalso. apply Hna. exact He. }
        rewrite Hn, andb_false_r. reflexivity.
      * apply touched_b_iff, untouched_iff in Htt as [_ Hnr].
        destruct (HkC u Hi eq_refl Hna) as (u'&Hu'&_&Heq). rewrite (Heq Hnr) in Hu'.
        assert (u1 = u) by (apply (nodup_inj u_ptr (s_ues (w_st w1))); auto; apply sorted_nodup, (q_sorted _ Q1)).
        subst u1. rewrite andb_true_r. destruct (has_event_cb E && u_notif u); reflexivity.
    + intros x Hx Hxc. destruct (Hok ltac:(discriminate)) as (Hfor&_). apply (Hfor x Hx). congruence.
  - rewrite bind_ret. cbn [emit fst snd w_st w_tr]. intros _. exists (rev t1), []. split.
    { unfold added. rewrite !rev_app_distr, rev_involutive, Ht1. reflexivity. }
    split; [exact Hpay'|]. split; [rewrite link_rev, Hnl; reflexivity|]. split; [reflexivity|].
    rewrite Htb. split.
    + destruct (touched_b (u_ptr u) t1) eqn:Htt; cbn [negb]; [rewrite andb_false_r; reflexivity|].
      exfalso. apply touched_b_iff, untouched_iff in Htt as [Hna _].
      destruct (HkC u Hi eq_refl Hna) as (u'&Hu'&Hleu&_). apply (ue_on_none _ _ _ Hon Hu'). destruct Hleu as (_&_&Hcu&_). congruence.
    + intros x Hx Hxc. exfalso. eapply ue_on_none; eauto.
Qed.

(* ---------------- C45, C46 ---------------- *)
Definition hit_b (o : op) (n : rnc) : bool :=
  match o with
  | ONoticeInd calling c => negb (c =? 2)%N && negb (c =? 6)%N && ri_match E (n_addr n) calling
  | OPcstateInd pc sp rem => snd (pcstate_decision sp rem) && pc_ssn_match pc (n_addr n)
  | _ => false
  end.
Lemma loss_iff sp rem : snd (pcstate_decision sp rem) = true <-> declares_loss sp rem.
Proof.
  unfold declares_loss. destruct sp, rem; cbn; split; intros H; try reflexivity; try discriminate;
    try (intuition discriminate); auto.
Qed.
Lemma hit_b_iff o n : hit_b o n = true <-> hits E o n.
Proof.
  destruct o; cbn [hit_b hits]; try (split; [discriminate|tauto]).
  - rewrite ?andb_true_iff. split; [intros [[H1 H2] H3]|intros (H1&H2&H3)]; repeat split; lia || assumption.
  - rewrite andb_true_iff, loss_iff. unfold pc_ssn_match, SSN_RANAP. split.
    + intros [H1 H2]. split; [exact H1|]. destruct (a_pc _), (a_ssn _); try discriminate. split; f_equal; lia.
    + intros (H1&H2&H3). split; [exact H1|]. rewrite H2, H3, !N.eqb_refl. reflexivity.
Qed.
Lemma rncs_ext h h' : forall l w, (forall n, In n l -> h n = h' n) -> invalidate_rncs E l h w = invalidate_rncs E l h' w.
Proof.
  induction l as [|n l IH]; intros w H; [reflexivity|]. cbn [invalidate_rncs]. rewrite (H n (or_introl eq_refl)).
  apply bind_ext. intros [] w'. apply IH. intros m Hm. apply H. right; auto.
Qed.
Lemma rncs_none : forall l w, invalidate_rncs E l (fun _ => false) w = (w, Some tt).
Proof. induction l as [|n l IH]; intros w; cbn [invalidate_rncs]; [reflexivity|]. rewrite bind_ret. apply IH. Qed.
Lemma rncs_none' h l w : (forall n, In n l -> h n = false) -> invalidate_rncs E l h w = (w, Some tt).
Proof. intros H. rewrite (rncs_ext h (fun _ => false)) by exact H. apply rncs_none. Qed.
Lemma loss_eq o w : is_loss_ind o = true ->
  exec E o w = (let! _ := invalidate_rncs E (s_rncs (w_st w)) (hit_b o) in emit EPrimFree) w.
Proof.
  intros Ho. destruct o as [| | | | |calling c|pc sp rem| | | |]; try discriminate; cbn [exec]; unfold sccp_sap_up.
  - unfold handle_notice_ind, CAUSE_SUBSYSTEM_CONGESTION, CAUSE_NETWORK_CONGESTION.
    destruct ((c =? 2)%N || (c =? 6)%N) eqn:Hc.
    + unfold bind. rewrite rncs_none'; [reflexivity|]. intros n _. cbn [hit_b]. destruct (c =? 2)%N; [reflexivity|].
      cbn [orb] in Hc. rewrite Hc. reflexivity.
    + rewrite bind_assoc, bind_get. unfold bind. rewrite (rncs_ext (hit_b _) (fun n => ri_match E (n_addr n) calling)); [reflexivity|].
      intros n _. cbn [hit_b]. apply orb_false_elim in Hc as [-> ->]. reflexivity.
  - unfold handle_pcstate_ind. destruct (pcstate_decision sp rem) as [con dis] eqn:Hp. destruct dis.
    + rewrite bind_assoc, bind_get. unfold bind. rewrite (rncs_ext (hit_b _) (fun n => pc_ssn_match pc (n_addr n))); [reflexivity|].
      intros n _. cbn [hit_b]. rewrite Hp. reflexivity.
    + unfold bind. rewrite rncs_none'; [reflexivity|]. intros n _. cbn [hit_b]. rewrite Hp. reflexivity.
Qed.

Lemma nodup_lost r l : NoDup (map u_ptr l) -> NoDup (lost E r l).
Proof.
  intros H. unfold lost. destruct (has_event_cb E); [|constructor]. induction l as [|u l IH]; [constructor|].
  cbn [map] in H. inversion H as [|? ? Hx Hn]; subst. cbn [filter]. destruct (_ && _); cbn [map]; [|auto].
  constructor; [|auto]. intros Hi. apply Hx. apply in_map_iff in Hi as (v&Hv&Hi). apply filter_In in Hi as [Hi _].
  rewrite <- Hv. apply in_map, Hi.
Qed.
Lemma in_lost r l p : In p (lost E r l) <-> has_event_cb E = true /\ exists u, In u l /\ u_ptr u = p /\ u_rnc u = r /\ u_notif u = true.
Proof.
  unfold lost. destruct (has_event_cb E).
  - rewrite in_map_iff. split.
    + intros (u&Hp&Hi). apply filter_In in Hi as [Hi Hb]. apply andb_prop in Hb as [Hb1 Hb2]. split; [reflexivity|].
      exists u. repeat split; auto. lia.
    + intros (_&u&Hi&Hp&Hr&Hn). exists u. split; [exact Hp|]. apply filter_In. split; [exact Hi|]. rewrite Hr, N.eqb_refl. exact Hn.
  - split; [intros []|intros [H _]; discriminate].
Qed.
Lemma in_lost_all rl hit l p : In p (lost_all E rl hit l) <->
  has_event_cb E = true /\ exists u n, In u l /\ u_ptr u = p /\ u_notif u = true /\ In n rl /\ hit n = true /\ n_ptr n = u_rnc u.
Proof.
  unfold lost_all. rewrite in_flat_map. split.
  - intros (n&Hn&Hi). destruct (hit n) eqn:Hh; [|destruct Hi]. apply in_lost in Hi as (Hc&u&H1&H2&H3&H4). split; [exact Hc|].
    exists u, n. repeat split; auto.
  - intros (Hc&u&n&H1&H2&H3&H4&H5&H6). exists n. split; [exact H4|]. rewrite H5. apply in_lost. split; [exact Hc|]. exists u. auto.
Qed.
Lemma nodup_lost_all rl hit l : NoDup (map u_ptr l) -> NoDup (map n_ptr rl) -> NoDup (lost_all E rl hit l).
Proof.
  intros Hl. induction rl as [|n rl IH]; intros Hr; [constructor|]. cbn [map] in Hr. inversion Hr as [|? ? Hx Hn]; subst.
  unfold lost_all in *. cbn [flat_map]. specialize (IH Hn).
  assert (H1 : NoDup (if hit n then lost E (n_ptr n) l else [])) by (destruct (hit n); [apply nodup_lost, Hl|constructor]).
  assert (Hd : forall p, In p (if hit n then lost E (n_ptr n) l else []) -> ~ In p (lost_all E rl hit l)).
  { intros p Hp Hq. destruct (hit n); [|destruct Hp]. apply in_lost in Hp as (_&u&A1&A2&A3&_).
    apply in_lost_all in Hq as (_&v&m&B1&B2&_&B4&_&B6).
    assert (u = v) by (apply (nodup_inj u_ptr l); auto; congruence). subst v. apply Hx. rewrite <- A3, <- B6. apply in_map, B4. }
  unfold lost_all in Hd. revert H1 Hd IH. generalize (if hit n then lost E (n_ptr n) l else []) as a,
    (flat_map (fun n0 => if hit n0 then lost E (n_ptr n0) l else []) rl) as b. clear.
  induction a as [|x a IHa]; intros b H1 Hd H2; [exact H2|]. change ((x :: a) ++ b) with (x :: (a ++ b)).
  inversion H1; subst. constructor.
  - intros Hi. apply in_app_iff in Hi as [Hi|Hi]; [contradiction|]. apply (Hd x); [left; reflexivity|exact Hi].
  - apply IHa; auto. intros p Hp. apply Hd. right. exact Hp.
Qed.

Lemma rnc_loss_l : forall l o, fresh_conns E l -> touches_only_subject E -> is_loss_ind o = true ->
  let w := reach E l in
  let s := w_st w in
  let res := exec E o w in
  snd res = Some tt ->
  exists t, added (w_tr w) (w_tr (fst res)) t /\
    NoDup (link_events t) /\
    (forall p, In p (link_events t) <-> has_event_cb E = true /\
       exists u n, In u (s_ues s) /\ u_ptr u = p /\ u_notif u = true /\
                   In n (s_rncs s) /\ n_ptr n = u_rnc u /\ hits E o n) /\
    (forall q e, In (q, e) (events t) -> e = EvLinkInvalidated) /\ recvs t = [] /\
    (forall u, In u (s_ues s) -> (forall n, In n (s_rncs s) -> n_ptr n = u_rnc u -> ~ hits E o n) ->
       In u (s_ues (w_st (fst res)))) /\
    (forall u n, In u (s_ues (w_st (fst res))) -> In n (s_rncs s) -> n_ptr n = u_rnc u -> hits E o n -> u_for u = false).
Proof.
  intros l o Hf Ht Ho. cbv zeta. set (w := reach E l). pose proof (reach_good E l) as G. pose proof (reach_dist E l Hf) as D.
  fold w in G, D. rewrite (loss_eq o w Ho), emit_fin. cbn [fst snd w_st w_tr].
  intros Hs.
  assert (Hs' : snd (invalidate_rncs E (s_rncs (w_st w)) (hit_b o) w) <> None).
  { intros Hx. rewrite Hx in Hs. discriminate. }
  destruct (rncs_spec E Ht (hit_b o) (s_rncs (w_st w)) w (g_ues _ G) D (t_ptr _ (g_table _ G)) Hs') as (t&H1&H2&H3&H4&H5&H6).
  assert (Hlink : link_events (rev t) = lost_all E (s_rncs (w_st w)) (hit_b o) (s_ues (w_st w))).
  { rewrite link_of_events, events_rev, H3, rev_involutive. generalize (lost_all E (s_rncs (w_st w)) (hit_b o) (s_ues (w_st w))).
    intros l0. induction l0 as [|x l0 IH]; [reflexivity|]. cbn. f_equal. exact IH. }
  destruct (snd (invalidate_rncs E (s_rncs (w_st w)) (hit_b o) w)) as [[]|]; [|congruence].
  exists (rev t ++ [EPrimFree]). split; [unfold added; rewrite rev_app_distr, rev_involutive, H1; reflexivity|].
  rewrite link_app. cbn [link_events flat_map]. rewrite app_nil_r, Hlink.
  split; [apply nodup_lost_all; [apply sorted_nodup, (q_sorted _ (g_ues _ G))|apply (t_ptr _ (g_table _ G))]|].
  split.
  { intros p. rewrite in_lost_all. split; intros (Hc&u&n&A1&A2&A3&A4&A5&A6); (split; [exact Hc|]); exists u, n.
    - repeat split; auto. apply hit_b_iff, A5.
    - repeat split; auto. apply hit_b_iff, A6. }
  split.
  { intros q e Hq. rewrite events_app, in_app_iff in Hq. destruct Hq as [Hq|[]]. rewrite events_rev, H3, rev_involutive in Hq.
    apply in_map_iff in Hq as (p&Hp&_). unfold li in Hp. congruence. }
  split; [rewrite recvs_app, recvs_rev, H4; reflexivity|]. split.
  - intros u Hu Hn. apply H5; [exact Hu|]. intros n Hin Hh He. apply (Hn n Hin He). apply hit_b_iff, Hh.
  - intros u n Hu Hin He Hh. apply (H6 u n Hu Hin); [apply hit_b_iff, Hh|auto].
Qed.
(* congestion only, or only good news: nothing *)
Lemma no_loss_l : forall w o, is_loss_ind o = true -> (forall n, In n (s_rncs (w_st w)) -> ~ hits E o n) ->
  exec E o w = (mkW (w_st w) (EPrimFree :: w_tr w), Some tt).
Proof.
  intros w o Ho Hn. rewrite (loss_eq o w Ho).
  assert (H : invalidate_rncs E (s_rncs (w_st w)) (hit_b o) w = (w, Some tt)).
  { rewrite (rncs_ext (hit_b o) (fun _ => false)); [apply rncs_none|].
    intros n Hi. destruct (hit_b o n) eqn:Hh; [|reflexivity]. exfalso. apply (Hn n Hi), hit_b_iff, Hh. }
  rewrite (bind_eq _ _ _ _ _ H). reflexivity.
Qed.

(* ---------------- C48 ---------------- *)
Section Safe.
Hypothesis Hfree : frees_none_older E.
Hypothesis Hitem : forall i, dec_item E i <> Fault UseAfterFree.

Ltac uu := repeat
  match goal with
  | |- us (ret _) => apply us_ret
  | |- us (fail _) => apply us_fail; discriminate
  | |- us get => apply us_get
  | |- us trace => apply us_trace
  | |- us (put_st _) => apply us_put
  | |- us (emit _) => apply us_emit
  | |- us (callback _ _) => apply us_callback
  | |- us (sccp_send _ _) => apply us_send
  | |- us (bind _ _) => apply us_bind; [|intros]
  | |- us (match ?x with _ => _ end) => destruct x
  end.
Lemma lift_ok_us {A} (o : outcome A) : (exists a, o = Ok a) -> us (lift o).
Proof. intros (a&->). apply us_ret. Qed.
Lemma u16_us l : us (lift (asn1str_to_u16 l)).
Proof. apply lift_us. destruct l as [|a [|b l]]; cbn; discriminate. Qed.
Lemma u8_us l : us (lift (asn1str_to_u8 l)).
Proof. apply lift_us. destruct l as [|a l]; cbn; discriminate. Qed.
Lemma lai_us l : us (lift (parse_lai l)).
Proof. apply lift_ok_us. destruct (lift_parse_lai l) as (rc&ra&H). eauto. Qed.
Lemma grnc_us g : us (lift (grnc_id_parse g)).
Proof. apply lift_ok_us. destruct (lift_grnc g) as (r&H). eauto. Qed.
Lemma us_register id r a : us (rnc_register E id r a).
Proof. unfold rnc_register, rnc_alloc, event_new_area. uu; apply us_event_none. Qed.
Lemma us_initial c a m : us (handle_co_initial E c a m).
Proof.
  unfold handle_co_initial, handle_co_initial_ue, nas_put, ue_conn_ctx_alloc.
  uu; auto using lai_us, grnc_us, u8_us, u16_us, us_register.
Qed.
Lemma us_dt p d : us (handle_co_dt E p d).
Proof. unfold handle_co_dt, nas_put. uu; auto using lai_us, u8_us, u16_us. Qed.
Lemma us_cl a m : us (handle_cl E a m).
Proof. unfold handle_cl, handle_cl_reset_req. uu. Qed.

Lemma usat_co p m w : live (w_st w) p <> None -> usat (handle_co E p m) w.
Proof.
  intros Hl. unfold handle_co. apply usat_bind; [|intros; apply us_ret].
  destruct (live (w_st w) p) as [u|] eqn:Hu; [|congruence].
  destruct (m_dir m =? PR_initiatingMessage)%N.
  - destruct (m_proc m =? id_InitialUE_Message)%N; [apply us_ret|].
    destruct (m_proc m =? id_DirectTransfer)%N; [destruct (m_ies m); try (apply us_fail; discriminate); apply us_dt|].
    destruct (m_proc m =? id_ErrorIndication)%N; [apply us_ret|].
    destruct (m_proc m =? id_Iu_ReleaseRequest)%N; [|apply us_ret].
    destruct (m_ies m); try (apply us_fail; discriminate). unfold handle_co_iu_rel_req.
    apply usat_bind; [|intros; apply us_ret]. unfold tx_release. apply usat_bind; [apply us_encode|].
    intros dm w1 Hm. apply usat_bind; [|intros; apply us_send]. apply usat_deref.
    unfold encode in Hm. destruct (enc_ok E _); [|discriminate]. injection Hm as <- <-. congruence.
  - destruct (m_dir m =? PR_successfulOutcome)%N.
    + destruct (m_proc m =? id_SecurityModeControl)%N; [apply usat_event with (u := u), Hu|].
      destruct (m_proc m =? id_Iu_Release)%N; [apply usat_event with (u := u), Hu|apply us_ret].
    + destruct (m_dir m =? PR_outcome)%N; [|apply us_ret].
      destruct (m_proc m =? id_RAB_Assignment)%N; [|apply us_ret].
      destruct (m_ies m) as [| | | |items| |]; try (apply us_fail; discriminate). unfold handle_co_rab_ass_resp.
      apply usat_bind; [apply usat_deref; congruence|]. intros u0 w1 Hd. unfold deref in Hd. rewrite bind_get, Hu in Hd.
      injection Hd as <- <-. destruct items as [[|item its]|]; [apply us_fail; discriminate| |apply us_ret].
      apply usat_bind; [apply lift_us, Hitem|]. intros x w1 Hx.
      destruct x as [x|]; [|apply us_ret]. apply usat_event with (u := u).
      destruct (dec_item E item); [|discriminate]. injection Hx as <- _. exact Hu.
Qed.
Lemma usat_rx l h w : (forall m, usat (h m) w) -> usat (rx_co E l h) w.
Proof. intros H. unfold rx_co. destruct (dec_co E l); [apply H|apply us_ret]. Qed.
Lemma usat_link p u w : ues_ok (w_st w) -> dist (w_st w) -> live (w_st w) p = Some u -> usat (link_invalidated_free E p) w.
Proof. intros Q D H. destruct (link_spec E p u w Q D H) as (t&_&_&_&_&_&_&Hu). exact Hu. Qed.
Lemma live_on s c u : ue_on s c = Some u -> live s (u_ptr u) <> None.
Proof. intros H. apply ue_on_in in H as [H _]. apply live_of_in, H. Qed.

Lemma exec_safe o w : good (w_st w) -> dist (w_st w) -> usat (exec E o) w.
Proof.
  intros G D. destruct (is_loss_ind o) eqn:Hlo.
  { unfold usat. rewrite (loss_eq o w Hlo).
    match goal with |- snd (?m w) = None -> _ => change (usat m w) end.
    apply usat_bind; [|intros; apply us_emit]. apply rncs_safe; auto. apply (g_ues _ G). }
  destruct o as [c a l2| |c l2|c l2|a l2|a c|pc sp rem| | |p|a]; try discriminate Hlo; cbn [exec]; unfold sccp_sap_up.
  - apply us_bind; [|intros; apply us_emit]. apply us_bind; [apply us_send|]. intros _. destruct l2.
    + unfold sccp_addr_add. uu.
    + unfold rx_co. destruct (dec_co E _); [apply us_initial|apply us_ret].
  - discriminate.
  - destruct (ue_on (w_st w) c) as [u|] eqn:Hon.
    2:{ pose proof (disc_none_l w c l2 Hon) as He. cbn [exec] in He. unfold sccp_sap_up in He. unfold usat. rewrite He. discriminate. }
    pose proof (disc_some w c l2 u Hon) as He. cbn [exec] in He. unfold sccp_sap_up in He. unfold usat. rewrite He.
    set (v := forget c w).
    assert (Qv : ues_ok (w_st v)) by (destruct (g_ues _ G); constructor; assumption).
    match goal with |- snd (?m v) = None -> _ => change (usat m v) end.
    apply usat_bind.
    + destruct l2; [apply us_ret|]. apply usat_rx. intros m. apply usat_co. apply (live_on _ c). exact Hon.
    + intros [] w1 Hw1. apply usat_bind; [apply us_get|]. intros s w1' Hs. injection Hs as <- <-.
      assert (K : keep_st (w_st v) (w_st w1)).
      { assert (Hg : gpres no_new_area (match l2 with [] => ret tt | _ :: _ => rx_co E l2 (handle_co E (u_ptr u)) end)).
        { destruct l2; [apply gpres_ret|]. apply gp_rx_co. intros; apply gp_handle_co. }
        destruct (Hg v) as (K&_). rewrite Hw1 in K. exact K. }
      apply usat_bind; [|intros; apply us_emit].
      unfold ue_conn_ctx_find. fold (ue_on (w_st w1) c). destruct (ue_on (w_st w1) c) as [u1|] eqn:Hon1; [|apply us_ret].
      assert (Q1 : ues_ok (w_st w1)) by (eapply keep_ues_ok; eauto).
      apply usat_link with (u := u1); [exact Q1| |].
      * eapply ues_le_conns; [apply K|]. exact D.
      * apply live_good; [exact Q1|]. apply ue_on_in in Hon1. apply Hon1.
  - unfold usat. rewrite bind_assoc, bind_get. unfold ue_conn_ctx_find. fold (ue_on (w_st w) c).
    destruct (ue_on (w_st w) c) as [u|] eqn:Hon.
    + match goal with |- snd (?m w) = None -> _ => change (usat m w) end.
      apply usat_bind; [|intros; apply us_emit]. apply usat_rx. intros m. apply usat_co, (live_on _ c), Hon.
    + match goal with |- snd (?m w) = None -> _ => change (usat m w) end.
      apply usat_bind; [|intros; apply us_emit]. destruct (sccp_addr_find (w_st w) c) as [a|]; [|apply us_ret].
      apply usat_bind; [unfold sccp_addr_del; apply us_bind; [apply us_get|intros; apply us_put]|].
      intros [] w1 _. apply usat_rx. intros m. apply us_initial.
  - apply us_bind; [|intros; apply us_emit]. unfold rx_cl. destruct (dec_cl E l2); [apply us_cl|apply us_ret].
  - discriminate.
  - discriminate.
  - unfold timer_fires, usat. rewrite bind_get. destruct (live (w_st w) p) as [u|] eqn:Hl; [|discriminate].
    destruct (u_timer u); [|discriminate]. rewrite bind_put. set (v := mkW _ _).
    match goal with |- snd (?m v) = None -> _ => change (usat m v) end.
    apply usat_bind; [|intros; apply us_ret].
    eapply usat_event. unfold v, live in *. cbn [w_st set_ues s_ues]. rewrite live_upd by reflexivity. rewrite Hl. reflexivity.
  - apply us_api.
Qed.
End Safe.

Lemma fdet_run l : fdet (run E l).
Proof. induction l; cbn [run]; [apply fdet_ret|]. apply fdet_bind; [apply fdet_exec|]. intros; auto. Qed.
Lemma reach_faults l : match snd (run E l w0) with
  | Some _ => faults (w_tr (reach E l)) = []
  | None => exists f t, w_tr (reach E l) = EFault f :: t /\ faults t = []
  end.
Proof.
  destruct (fdet_run l w0) as (t&H1&H2). unfold reach. rewrite H1. cbn [w0 w_tr]. rewrite app_nil_r.
  destruct (snd (run E l w0)); [exact H2|]. destruct H2 as (f&t'&->&H2). eauto.
Qed.
Lemma no_fault_in t f : faults t = [] -> ~ In (EFault f) t.
Proof. intros H Hi. assert (Hx : In f (faults t)) by (apply in_flat_map; exists (EFault f); split; [exact Hi|left; reflexivity]). rewrite H in Hx. destruct Hx. Qed.

Lemma memory_safe_l : forall l, frees_none_older E -> fresh_conns E l ->
  (forall i, dec_item E i <> Fault UseAfterFree) ->
  In (EFault UseAfterFree) (w_tr (reach E l)) ->
  exists a p rest, w_tr (reach E l) = EFault UseAfterFree :: EApi a :: rest /\ api_target a = Some p /\ live (w_st (reach E l)) p = None.
Proof.
  intros l Hfree Hf Hitem Hin. pose proof (reach_faults l) as Hft.
  destruct (snd (run E l w0)) as [[]|] eqn:Hs; [exfalso; eapply no_fault_in; eauto|].
  destruct Hft as (f&t&Ht&Hnf).
  assert (f = UseAfterFree).
  { rewrite Ht in Hin. destruct Hin as [H|H]; [congruence|]. exfalso. eapply no_fault_in; eauto. }
  subst f.
  assert (Hb : snd (run E l w0) = None -> bad_ok (reach E l)).
  { clear Ht Hs Hin Hnf. induction l as [|o l IH] using rev_ind; [discriminate|].
    pose proof (fresh_prefix _ _ _ Hf) as Hf'. specialize (IH Hf'). rewrite reach_snoc. rewrite run_app. unfold bind.
    pose proof (reach_good E l) as G. pose proof (reach_dist E l Hf') as D. unfold reach in *.
    destruct (run E l w0) as [w [[]|]]; cbn [fst snd] in *; [|auto].
    intros Hn. pose proof (exec_safe Hfree Hitem o w G D) as Hu. unfold usat in Hu.
    cbn [run] in Hn. unfold bind in Hn. destruct (exec E o w) as [w' [[]|]]; cbn [fst snd] in *; [discriminate|auto]. }
  destruct (Hb Hs t Ht) as (a&p&rest&->&H1&H2). exists a, p, rest. auto.
Qed.
End Loss2.
