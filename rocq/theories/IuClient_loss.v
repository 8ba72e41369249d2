(* Loss of connections and RNCs *)
From Coq Require Import ZifyBool ZifyNat ZifyN Sorted.
From Verif Require Import Base Lai Lai_proofs IuClient IuClient_frame IuClient_spec IuClient_reg IuClient_step IuClient_inv IuClient_area IuClient_conn IuClient_life IuClient_life2.

Lemma link_app a b : link_events (a ++ b) = link_events a ++ link_events b.
Proof. apply flat_map_app. Qed.
Lemma link_rev t : link_events (rev t) = rev (link_events t).
Proof. apply flat_map_rev. intros [| |[p|] []| | | | | | |]; cbn; lia. Qed.
Lemma events_app a b : events (a ++ b) = events a ++ events b.
Proof. apply flat_map_app. Qed.
Lemma events_rev t : events (rev t) = rev (events t).
Proof. apply flat_map_rev. intros []; cbn; lia. Qed.
Lemma events_api t : forallb api_eff t = true -> events t = [].
Proof.
  induction t as [|e t IH]; cbn [forallb]; [reflexivity|]. intros H. apply andb_prop in H as [H1 H2].
  destruct e; try discriminate; apply IH, H2.
Qed.
Lemma link_of_events t : link_events t =
  flat_map (fun x => match x with (Some p, EvLinkInvalidated) => [p] | _ => [] end) (events t).
Proof.
  induction t as [|e t IH]; [reflexivity|]. unfold events in *. cbn [flat_map]. rewrite flat_map_app, <- IH.
  destruct e as [| |[p|] []| | | | | | |]; reflexivity.
Qed.

(* sublists that keep some elements *)
Lemma ues_le_keep l l' : ues_le l l' -> NoDup (map u_ptr l) -> forall f,
  (forall u u', ue_le u u' -> f u' = f u) ->
  (forall u, In u l -> f u = true -> In u l') -> filter f l' = filter f l.
Proof.
  induction 1 as [|u l l' H IH|u v l l' Hu H IH]; intros Hn f Hf Hk; cbn [map] in Hn; [reflexivity| |];
    inversion Hn as [|? ? Hx Hn']; subst.
  - cbn [filter]. destruct (f u) eqn:Hfu.
    + exfalso. apply Hx. specialize (Hk u (or_introl eq_refl) Hfu).
      destruct (ues_le_in _ _ _ H Hk) as (y&Hy&(Hp&_)). rewrite Hp. apply in_map, Hy.
    + apply IH; auto. intros x Hix Hfx. apply Hk; auto. right; auto.
  - assert (Hrest : filter f l' = filter f l).
    { apply IH; auto. intros x Hix Hfx. destruct (Hk x (or_intror Hix) Hfx) as [<-|Hk']; auto.
      exfalso. apply Hx. destruct Hu as [Hp _]. rewrite <- Hp. apply in_map, Hix. }
    cbn [filter]. rewrite (Hf _ _ Hu), Hrest. destruct (f u) eqn:Hfu; [|reflexivity]. f_equal.
    destruct (Hk u (or_introl eq_refl) Hfu) as [Hk'|Hk']; [congruence|].
    exfalso. apply Hx. destruct (ues_le_in _ _ _ H Hk') as (y&Hy&(Hp&_)). rewrite Hp. apply in_map, Hy.
Qed.
Lemma ues_le_app a : forall b l', ues_le (a ++ b) l' -> exists a' b', l' = a' ++ b' /\ ues_le a a' /\ ues_le b b'.
Proof.
  induction a as [|u a IH]; intros b l' H.
  - exists [], l'. split; [reflexivity|]. split; [apply le_nil|exact H].
  - change ((u :: a) ++ b) with (u :: (a ++ b)) in H. inversion H as [|? ? ? H1|? v ? ? Hu H1]; subst.
    + destruct (IH _ _ H1) as (a'&b'&->&Ha&Hb). exists a', b'. split; [reflexivity|]. split; [apply le_drop, Ha|exact Hb].
    + destruct (IH _ _ H1) as (a'&b'&->&Ha&Hb). exists (v :: a'), b'. split; [reflexivity|]. split; [apply le_keep; auto|exact Hb].
Qed.
Lemma filter_true {A} (l : list A) : filter (fun _ => true) l = l.
Proof. induction l; cbn; congruence. Qed.
Lemma ues_le_all l l' : ues_le l l' -> NoDup (map u_ptr l) -> (forall u, In u l -> In u l') -> l' = l.
Proof.
  intros H Hn Hk. pose proof (ues_le_keep _ _ H Hn (fun _ => true) (fun _ _ _ => eq_refl) (fun u Hu _ => Hk u Hu)) as Hf.
  rewrite !filter_true in Hf. exact Hf.
Qed.
Lemma ues_le_suffix a b l' : ues_le (a ++ b) l' -> NoDup (map u_ptr (a ++ b)) ->
  (forall u, In u b -> In u l') -> exists a', l' = a' ++ b /\ ues_le a a'.
Proof.
  intros H Hn Hk. destruct (ues_le_app _ _ _ H) as (a'&b'&->&Ha&Hb). exists a'. split; [|exact Ha]. f_equal.
  rewrite map_app in Hn.
  assert (Hnb : NoDup (map u_ptr b)).
  { revert Hn. generalize (map u_ptr a), (map u_ptr b). clear. intros p q. induction p; [auto|].
    intros Hn. inversion Hn; auto. }
  apply ues_le_all; auto. intros u Hu. specialize (Hk u Hu). apply in_app_iff in Hk as [Hk|Hk]; [|exact Hk].
  exfalso. destruct (ues_le_in _ _ _ Ha Hk) as (y&Hy&(Hp&_)).
  assert (HH : forall (x : N) p q, NoDup (p ++ q) -> In x p -> In x q -> False).
  { clear. induction p as [|z p IH]; intros q Hn Hp Hq; [destruct Hp|]. cbn in Hn. inversion Hn; subst.
    destruct Hp as [->|Hp]; [apply H1, in_app_iff; auto|eauto]. }
  apply (HH (u_ptr u) _ _ Hn); [rewrite Hp|]; apply in_map; assumption.
Qed.

(* a crash by use after free happens in an API call given a dead context *)
Definition bad_ok (w : world) : Prop := forall rest, w_tr w = EFault UseAfterFree :: rest ->
  exists a p rest', rest = EApi a :: rest' /\ api_target a = Some p /\ live (w_st w) p = None.
Definition usat {A} (m : M A) (w : world) : Prop := snd (m w) = None -> bad_ok (fst (m w)).
Definition us {A} (m : M A) : Prop := forall w, usat m w.

Lemma us_ret {A} (a : A) : us (ret a).
Proof. intros w H. discriminate. Qed.
Lemma us_get : us get.
Proof. intros w H. discriminate. Qed.
Lemma us_trace : us trace.
Proof. intros w H. discriminate. Qed.
Lemma us_put s : us (put_st s).
Proof. intros w H. discriminate. Qed.
Lemma us_emit e : us (emit e).
Proof. intros w H. discriminate. Qed.
Lemma us_fail {A} f : f <> UseAfterFree -> us (@fail A f).
Proof. intros Hf w _ rest H. cbn in H. congruence. Qed.
Lemma usat_bind {A B} (m : M A) (k : A -> M B) w : usat m w ->
  (forall a w', m w = (w', Some a) -> usat (k a) w') -> usat (bind m k) w.
Proof.
  intros Hm Hk. unfold usat, bind in *. destruct (m w) as [w' [a|]]; cbn [fst snd] in *; auto.

Qed.
Lemma us_bind {A B} (m : M A) (k : A -> M B) : us m -> (forall a, us (k a)) -> us (bind m k).
Proof. intros Hm Hk w. apply usat_bind; [apply Hm|]. intros a w' _. apply Hk. Qed.
Lemma usat_deref p w : live (w_st w) p <> None -> usat (deref p) w.
Proof. intros H. unfold usat, deref. rewrite bind_get. destruct (live (w_st w) p); [discriminate|congruence]. Qed.
Lemma lift_us {A} (o : outcome A) : o <> Fault UseAfterFree -> us (lift o).
Proof. destruct o; intros H; [apply us_ret|apply us_fail; congruence]. Qed.

Section Loss.
Variable E : env.

Lemma us_send r : us (sccp_send E r).
Proof. unfold sccp_send. repeat (apply us_bind; [|intros]); auto using us_trace, us_emit, us_ret. Qed.
Lemma us_encode m : us (encode E m).
Proof. unfold encode. destruct (enc_ok E m); [apply us_ret|apply us_fail; discriminate]. Qed.
Lemma us_paging a i t b c : us (tx_paging_cmd E a i t b c).
Proof. unfold tx_paging_cmd. apply us_bind; auto using us_encode, us_send. Qed.
Lemma us_page_loop l f i t b : forall n, us (page_loop E l f i t b n).
Proof. induction l; intros n; cbn [page_loop]; [apply us_ret|]. destruct (existsb _ _); auto. apply us_bind; auto using us_paging. Qed.
Lemma us_page i t l r b : us (iu_page E i t l r b).
Proof.
  unfold iu_page. apply us_bind; [apply us_get|]. intros s. destruct (lac_rac_find_legacy _ _ _); [|apply us_ret].
  apply us_bind; auto using us_paging, us_ret.
Qed.
(* dereference directly after the API call was recorded *)
Lemma usat_deref_api a p s tr : api_target a = Some p -> usat (deref p) (mkW s (EApi a :: tr)).
Proof.
  intros Ha Hn rest. unfold deref in *. rewrite bind_get in *. cbn [w_st] in *.
  destruct (live s p) eqn:Hl; [discriminate|]. cbn. intros H. injection H as <-. exists a, p, tr. auto.
Qed.
Lemma us_api a : us (run_api E a).
Proof.
  intros w. unfold run_api. apply usat_bind; [apply us_emit|]. intros [] w' H. injection H as <-.
  apply usat_bind; [|intros rc w' _; apply us_emit].
  destruct a as [b [p|] nas sapi|p ik ck sck nk|p imsi|p c|p c d|[p|]|p m|p r|i t l|i t l r|i t l|i t r]; try apply us_ret.
  - cbn [iu_tx]. apply usat_bind; [apply usat_deref_api; reflexivity|]. intros u w1 _.
    apply us_bind; [apply us_emit|]. intros _. apply us_bind; [apply us_encode|]. intros m. apply us_send.
  - unfold tx_sec_mode_cmd. apply usat_bind; [apply us_encode|]. intros m w1 Hm.
    apply usat_bind; [|intros; apply us_send].
    unfold encode in Hm. destruct (enc_ok E _); [|discriminate]. injection Hm as <- <-. apply usat_deref_api; reflexivity.
  - unfold tx_common_id. apply usat_bind; [apply usat_deref_api; reflexivity|]. intros u w1 _.
    apply us_bind; auto using us_encode, us_send.
  - unfold tx_release. apply usat_bind; [apply us_encode|]. intros m w1 Hm.
    apply usat_bind; [|intros; apply us_send].
    unfold encode in Hm. destruct (enc_ok E _); [|discriminate]. injection Hm as <- <-. apply usat_deref_api; reflexivity.
  - unfold tx_release_free. apply usat_bind; [|intros; apply us_ret]. apply usat_bind; [apply usat_deref_api; reflexivity|]. intros u w1 Hu.
    unfold deref in Hu. rewrite bind_get in Hu. cbn [w_st] in Hu. destruct (live (w_st w) p) as [u0|] eqn:Hl; [|discriminate].
    injection Hu as <- <-.
    apply usat_bind; [apply us_get|]. intros s w1 Hs. injection Hs as <- <-.
    apply usat_bind; [apply us_put|]. intros [] w1 Hs. injection Hs as <-. cbn [w_st w_tr].
    apply usat_bind.
    + unfold tx_release. apply usat_bind; [apply us_encode|]. intros m w1 Hm.
      apply usat_bind; [|intros; apply us_send]. apply usat_deref.
      unfold encode in Hm. destruct (enc_ok E _); [|discriminate]. injection Hm as <- <-.
      cbn [w_st]. unfold live in *. cbn [set_ues s_ues]. rewrite live_upd by reflexivity. rewrite Hl. discriminate.
    + intros rc w1 _. apply us_bind; [apply us_get|]. intros; apply us_put.
  - apply usat_bind; [|intros; apply us_ret]. cbn [free_ue]. apply usat_bind; [apply usat_deref_api; reflexivity|].
    intros u w1 _. apply us_bind; [apply us_send|]. intros _. apply us_bind; [apply us_get|]. intros; apply us_put.
  - unfold rab_act. apply usat_bind; [apply usat_deref_api; reflexivity|]. intros; apply us_send.
  - apply us_page.
  - apply us_page.
  - unfold page_cs2. apply us_bind; [apply us_get|]. intros; apply us_page_loop.
  - unfold page_ps2. apply us_bind; [apply us_get|]. intros; apply us_page_loop.
Qed.
Lemma us_apis l : us (run_apis E l).
Proof. induction l; cbn [run_apis]; [apply us_ret|]. apply us_bind; auto using us_api. Qed.
Lemma us_callback e : us (callback E e).
Proof. unfold callback. apply us_bind; [apply us_emit|]. intros _. apply us_bind; [apply us_trace|]. intros; apply us_apis. Qed.

(* an event about a live context *)
Lemma event_eq p u ev w : live (w_st w) p = Some u ->
  global_iu_event E (Some p) ev w =
  if has_event_cb E && u_notif u
  then (let! _ := callback E (EEvent (Some p) ev) in let! t := trace in ret (app_rc E t)) w
  else (w, Some 0%Z).
Proof.
  intros H. unfold global_iu_event. destruct (has_event_cb E); cbn [negb andb]; [|reflexivity].
  rewrite bind_assoc. unfold deref. rewrite bind_assoc, bind_get, H, !bind_ret. destruct (u_notif u); reflexivity.
Qed.
Lemma usat_event p u ev w : live (w_st w) p = Some u -> usat (global_iu_event E (Some p) ev) w.
Proof.
  intros H. unfold usat. rewrite (event_eq _ _ _ _ H). destruct (_ && _); [|discriminate].
  match goal with |- snd (?m w) = None -> _ => assert (Hm : us m); [|apply Hm] end.
  apply us_bind; [apply us_callback|]. intros _. apply us_bind; [apply us_trace|]. intros; apply us_ret.
Qed.
Lemma us_event_none ev : us (global_iu_event E None ev).
Proof.
  unfold global_iu_event. destruct (has_event_cb E); cbn [negb]; [|apply us_ret].
  apply us_bind; [apply us_ret|]. intros ok. destruct (negb ok); [apply us_ret|].
  apply us_bind; [apply us_callback|]. intros _. apply us_bind; [apply us_trace|]. intros; apply us_ret.
Qed.
Lemma usat_free p w : live (w_st w) p <> None -> usat (free_ue E (Some p)) w.
Proof.
  intros H. cbn [free_ue]. apply usat_bind; [apply usat_deref, H|]. intros u w1 _.
  apply us_bind; [apply us_send|]. intros _. apply us_bind; [apply us_get|]. intros; apply us_put.
Qed.
Lemma live_of_in s u : In u (s_ues s) -> live s (u_ptr u) <> None.
Proof.
  intros Hi Hn. pose proof (find_none _ _ Hn u Hi) as H. cbn in H. rewrite N.eqb_refl in H. discriminate.
Qed.
Lemma live_good s u : ues_ok s -> In u (s_ues s) -> live s (u_ptr u) = Some u.
Proof.
  intros Q Hi. destruct (live s (u_ptr u)) as [v|] eqn:Hl; [|exfalso; eapply live_of_in; eauto].
  apply live_in in Hl as [H1 H2]. f_equal. eapply (nodup_inj u_ptr); eauto.
  apply sorted_nodup, (q_sorted _ Q).
Qed.

(* API calls in a callback are those the application makes *)
Lemma apis_calls l : forall w, exists t, w_tr (fst (run_apis E l w)) = t ++ w_tr w /\
  forall a, In (EApi a) t -> In a l.
Proof.
  induction l as [|a l IH]; intros w; cbn [run_apis].
  - exists []. split; [reflexivity|]. intros a [].
  - destruct (run_api_trace E a w) as (t&Ht&Hn). unfold bind. destruct (run_api E a w) as [w1 [[]|]]; cbn [fst] in *.
    + destruct (IH w1) as (t'&Ht'&Hn'). exists (t' ++ t ++ [EApi a]). rewrite Ht', Ht, <- !app_assoc. split; [reflexivity|].
      intros b Hb. apply in_app_iff in Hb as [Hb|Hb]; [right; auto|].
      apply in_app_iff in Hb as [Hb|[Hb|[]]]; [destruct (Hn _ Hb)|left; congruence].
    + exists (t ++ [EApi a]). rewrite Ht, <- app_assoc. split; [reflexivity|].
      intros b Hb. apply in_app_iff in Hb as [Hb|[Hb|[]]]; [destruct (Hn _ Hb)|left; congruence].
Qed.

(* ---------------- one context loses its link ---------------- *)
Definition dead (p : ptr) (l : list ue) : Prop := forall u, In u l -> u_ptr u <> p.
Lemma link_spec p u w : ues_ok (w_st w) -> dist (w_st w) -> live (w_st w) p = Some u ->
  let res := link_invalidated_free E p w in
  exists t, w_tr (fst res) = t ++ w_tr w /\ api_st (w_st w) (w_st (fst res)) /\
    events t = (if has_event_cb E && u_notif u then [(Some p, EvLinkInvalidated)] else []) /\ recvs t = [] /\
    (forall a, In (EApi a) t -> In a (app E (EEvent (Some p) EvLinkInvalidated :: w_tr w))) /\
    (snd res <> None ->
      (forall v, In v (s_ues (w_st (fst res))) -> u_conn v = u_conn u -> u_for v = false) /\
      (forall v, In v (s_ues (w_st w)) -> u_ptr v <> p -> ~ AF (u_ptr v) t ->
         exists v', In v' (s_ues (w_st (fst res))) /\ ue_le v v' /\ (~ RF (u_ptr v) t -> v' = v)) /\
      (~ AF p t -> u_for u = true \/ RF p t -> dead p (s_ues (w_st (fst res))))) /\
    usat (link_invalidated_free E p) w.
Proof.
  intros Q D Hl. cbv zeta. destruct (live_in _ _ _ Hl) as [Hi Hp].
  set (e := EEvent (Some p) EvLinkInvalidated).
  (* the event *)
  assert (Hev : exists t1, let r1 := global_iu_event E (Some p) EvLinkInvalidated w in
     w_tr (fst r1) = t1 ++ w_tr w /\ api_st (w_st w) (w_st (fst r1)) /\
     events t1 = (if has_event_cb E && u_notif u then [(Some p, EvLinkInvalidated)] else []) /\ recvs t1 = [] /\
     (forall a, In (EApi a) t1 -> In a (app E (e :: w_tr w))) /\
     (snd r1 <> None -> forall q, kstep q (s_ues (w_st w)) (s_ues (w_st (fst r1))) t1) /\
     usat (global_iu_event E (Some p) EvLinkInvalidated) w).
  { destruct (event_some_frame E p u EvLinkInvalidated w Hl) as (Ha&t&Ht&Heff). cbv zeta in *.
    set (ev := if _ && _ then _ else _) in Ht. exists (t ++ ev). cbv zeta.
    split; [rewrite Ht, app_assoc; reflexivity|]. split; [exact Ha|].
    split; [rewrite events_app, events_api by exact Heff; unfold ev; destruct (_ && _); reflexivity|].
    split; [rewrite recvs_app, recvs_api by exact Heff; unfold ev; destruct (_ && _); reflexivity|].
    split.
    { intros a Hin. rewrite (event_eq _ _ _ _ Hl) in Ht. unfold ev in *. destruct (has_event_cb E && u_notif u).
      - rewrite fst_bind_trace_ret in Ht. unfold callback in Ht. rewrite bind_emit, bind_trace in Ht. cbn [w_st w_tr] in Ht.
        fold e in Ht. destruct (apis_calls (app E (e :: w_tr w)) (mkW (w_st w) (e :: w_tr w))) as (t'&Ht'&Hc).
        rewrite Ht' in Ht. cbn [w_tr] in Ht. change ([e] ++ w_tr w) with (e :: w_tr w) in Ht. apply app_inv_tail in Ht. subst t'.
        apply in_app_iff in Hin as [Hin|[Hin|[]]]; [auto|discriminate].
      - cbn in Ht. assert (t = []) by (destruct t as [|x t]; [reflexivity|]; exfalso;
          assert (length (w_tr w) = length ((x :: t) ++ w_tr w)) by (rewrite <- Ht; reflexivity);
          rewrite app_length in H; cbn in H; lia).
        subst t. destruct Hin. }
    split.
    { intros Hs q. destruct (kspec_event E q (Some p) EvLinkInvalidated w) as (t'&Ht'&_&Hk).
      rewrite Ht, app_assoc in Ht'. apply app_inv_tail in Ht'. subst t'. auto. }
    apply usat_event with (u := u). exact Hl. }
  destruct Hev as (t1&H1&H2&H3&H4&H5&H6&H7). cbv zeta in *.
  unfold link_invalidated_free. unfold usat.
  assert (Hd : deref p w = (w, Some u)) by (unfold deref; rewrite bind_get, Hl; reflexivity).
  rewrite !(bind_eq _ _ _ _ _ Hd). unfold usat in H7.
  destruct (global_iu_event E (Some p) EvLinkInvalidated w) as [w1 [rc|]] eqn:Hg; cbn [fst snd] in *.
  2:{ rewrite !(bind_none _ _ _ _ Hg). cbn [fst snd]. exists t1. split; [exact H1|]. split; [exact H2|]. split; [exact H3|].
      split; [exact H4|]. split; [exact H5|]. split; [intros Hs; exfalso; apply Hs; reflexivity|intros _; apply H7; reflexivity]. }
  rewrite !(bind_eq _ _ _ _ _ Hg), !bind_get. specialize (H6 ltac:(discriminate)).
  assert (Q1 : ues_ok (w_st w1)) by (eapply keep_ues_ok; [apply api_keep, H2|exact Q]).
  assert (Hle : ues_le (s_ues (w_st w)) (s_ues (w_st w1))) by apply H2.
  assert (D1 : dist (w_st w1)) by (eapply ues_le_conns; eauto).
  assert (Hptr : forall v, In v (s_ues (w_st w1)) -> u_conn v = u_conn u -> u_ptr v = p).
  { intros v Hv Hc. destruct (ues_le_in _ _ _ Hle Hv) as (v0&Hv0&(Hp0&_&Hc0&_)).
    assert (v0 = u) by (apply (nodup_inj u_conn _ _ _ D Hv0 Hi); congruence). congruence. }
  assert (Hother : forall v, In v (s_ues (w_st w)) -> u_ptr v <> p -> ~ AF (u_ptr v) t1 ->
     exists v', In v' (s_ues (w_st w1)) /\ ue_le v v' /\ (~ RF (u_ptr v) t1 -> v' = v)).
  { intros v Hv _ Hna. destruct (H6 (u_ptr v)) as (_&_&K). apply K; auto. }
  unfold ue_conn_ctx_find. fold (ue_on (w_st w1) (u_conn u)).
  destruct (ue_on (w_st w1) (u_conn u)) as [v|] eqn:Hon.
  - apply ue_on_in in Hon as [Hv Hvc]. pose proof (Hptr v Hv Hvc) as Hvp.
    assert (Huniq : forall x, In x (s_ues (w_st w1)) -> u_conn x = u_conn u -> x = v).
    { intros x Hx Hxc. apply (nodup_inj u_conn _ _ _ D1 Hx Hv). congruence. }
    destruct (u_for v) eqn:Hfor.
    + assert (Hlv : live (w_st w1) (u_ptr v) = Some v) by (apply live_good; auto).
      cbn [free_ue]. unfold deref. rewrite !bind_assoc, !bind_get, !Hlv, !bind_ret.
      cbn [fst snd w_st w_tr sccp_send bind trace emit ret get put_st].
      exists (ESccp (NDisconnectReq (u_conn v)) :: t1). split; [rewrite H1; reflexivity|].
      split; [eapply api_st_trans; [exact H2|]; unfold api_st, set_ues; cbn; auto using ues_le_filter|].
      split; [exact H3|]. split; [exact H4|].
      split; [intros a [Ha|Ha]; [discriminate|auto]|].
      split; [|intros Hs; discriminate].
      intros _. cbn [set_ues s_ues]. split; [|split].
      * intros x Hx Hxc. apply filter_In in Hx as [Hx Hxp]. rewrite (Huniq x Hx Hxc) in Hxp. lia.
      * intros x Hx Hxp Hna. destruct (Hother x Hx Hxp) as (x'&Hx'&Hle'&Heq).
        { intros Ha. apply Hna. right. exact Ha. }
        exists x'. split; [|split; [exact Hle'|]].
        -- apply filter_In. split; [exact Hx'|]. destruct Hle' as [Hpx _]. destruct (u_ptr x' =? u_ptr v)%N eqn:Hb; [lia|reflexivity].
        -- intros Hr. apply Heq. intros (c&d&Hr'). apply Hr. exists c, d. right. exact Hr'.
      * intros _ _ x Hx Hxp. apply filter_In in Hx as [_ Hx]. lia.
    + cbn [ret fst snd]. exists t1. split; [exact H1|]. split; [exact H2|]. split; [exact H3|]. split; [exact H4|].
      split; [exact H5|]. split; [|intros Hs; discriminate]. intros _. split; [|split; [exact Hother|]].
      * intros x Hx Hxc. rewrite (Huniq x Hx Hxc). exact Hfor.
      * intros Hna Hor x Hx Hxp. exfalso.
        assert (x = v) by (eapply (nodup_inj u_ptr); [apply sorted_nodup, (q_sorted _ Q1)| | |]; auto; congruence). subst x.
        destruct Hor as [Hf|Hr].
        -- destruct (H6 p) as (_&_&K). destruct (K u Hi Hp Hna) as (u'&Hu'&Hleu&_).
           assert (u' = v) by (eapply (nodup_inj u_ptr); [apply sorted_nodup, (q_sorted _ Q1)| | |]; auto; destruct Hleu; congruence).
           subst u'. destruct Hleu as (_&_&_&_&_&Hff). rewrite (Hff Hf) in Hfor. discriminate.
        -- destruct (H6 p) as (_&K&_). destruct (K Hr v Hx Hxp). congruence.
  - cbn [ret fst snd]. exists t1. split; [exact H1|]. split; [exact H2|]. split; [exact H3|]. split; [exact H4|].
    split; [exact H5|]. split; [|intros Hs; discriminate]. intros _. split; [|split; [exact Hother|]].
    + intros x Hx Hxc. exfalso. eapply ue_on_none; eauto.
    + intros _ _ x Hx Hxp. apply (ue_on_none _ _ _ Hon Hx). destruct (ues_le_in _ _ _ Hle Hx) as (y&Hy&(Hyp&_&Hyc&_)).
      assert (y = u) by (eapply (nodup_inj u_ptr); [apply sorted_nodup, (q_sorted _ Q)| | |]; auto; congruence). congruence.
Qed.

(* ---------------- walking the list of contexts ---------------- *)
Definition head_ptr (l : list ue) : option ptr := match l with [] => None | u :: _ => Some (u_ptr u) end.
Lemma succ_app pre u l : NoDup (map u_ptr (pre ++ u :: l)) -> succ_of (u_ptr u) (pre ++ u :: l) = head_ptr l.
Proof.
  induction pre as [|x pre IH]; intros Hn.
  - change ([] ++ u :: l) with (u :: l). cbn [succ_of]. rewrite N.eqb_refl. destruct l; reflexivity.
  - change ((x :: pre) ++ u :: l) with (x :: (pre ++ u :: l)) in *. cbn [map] in Hn. inversion Hn as [|? ? Hx Hn']; subst.
    cbn [succ_of]. destruct (u_ptr x =? u_ptr u)%N eqn:Hp.
    + exfalso. apply Hx. apply N.eqb_eq in Hp. rewrite Hp, map_app. apply in_app_iff. right. left. reflexivity.
    + apply IH, Hn'.
Qed.
Lemma head_ptr_map l l' : map u_ptr l = map u_ptr l' -> head_ptr l = head_ptr l'.
Proof. destruct l, l'; cbn; congruence. Qed.
Lemma ues_le_ptrs_all l l' : ues_le l l' -> NoDup (map u_ptr l) ->
  (forall u, In u l -> exists u', In u' l' /\ u_ptr u' = u_ptr u) -> map u_ptr l' = map u_ptr l.
Proof.
  induction 1 as [|u l l' H IH|u v l l' Hu H IH]; intros Hn Hk; cbn [map] in *; [reflexivity| |];
    inversion Hn as [|? ? Hx Hn']; subst.
  - exfalso. destruct (Hk u (or_introl eq_refl)) as (u'&Hu'&Hp).
    destruct (ues_le_in _ _ _ H Hu') as (y&Hy&(Hpy&_)). apply Hx. rewrite <- Hp, Hpy. apply in_map, Hy.
  - f_equal; [apply Hu|]. apply IH; auto. intros x Hix.
    destruct (Hk x (or_intror Hix)) as (x'&[<-|Hx']&Hp); [|eauto].
    exfalso. apply Hx. destruct Hu as [Hp' _]. rewrite <- Hp', Hp. apply in_map, Hix.
Qed.
Lemma ues_le_suffix_ptrs a b l' : ues_le (a ++ b) l' -> NoDup (map u_ptr (a ++ b)) ->
  (forall u, In u b -> exists u', In u' l' /\ u_ptr u' = u_ptr u) ->
  exists a' b', l' = a' ++ b' /\ map u_ptr b' = map u_ptr b.
Proof.
  intros H Hn Hk. destruct (ues_le_app _ _ _ H) as (a'&b'&->&Ha&Hb). exists a', b'. split; [reflexivity|].
  rewrite map_app in Hn.
  assert (Hnb : NoDup (map u_ptr b)).
  { revert Hn. generalize (map u_ptr a), (map u_ptr b). clear. intros p q. induction p; [auto|].
    intros Hn. inversion Hn; auto. }
  apply ues_le_ptrs_all; auto. intros u Hu. destruct (Hk u Hu) as (u'&Hu'&Hp). exists u'. split; [|exact Hp].
  apply in_app_iff in Hu' as [Hu'|Hu']; [|exact Hu'].
  exfalso. destruct (ues_le_in _ _ _ Ha Hu') as (y&Hy&(Hpy&_)).
  assert (HH : forall (x : N) p q, NoDup (p ++ q) -> In x p -> In x q -> False).
  { clear. induction p as [|z p IH]; intros q Hn Hp Hq; [destruct Hp|]. cbn in Hn. inversion Hn; subst.
    destruct Hp as [->|Hp]; [apply H1, in_app_iff; auto|eauto]. }
  apply (HH (u_ptr u) _ _ Hn); [rewrite <- Hp, Hpy|]; apply in_map; assumption.
Qed.

Lemma loop_step p u fuel r w : live (w_st w) p = Some u ->
  invalidate_loop E (S fuel) (Some p) r w =
  (let! _ := (if (u_rnc u =? r)%N then link_invalidated_free E p else ret tt) in
   invalidate_loop E fuel (succ_of p (s_ues (w_st w))) r) w.
Proof.
  intros Hl. cbn [invalidate_loop]. unfold deref. rewrite bind_assoc, bind_get, Hl, bind_ret, bind_get. reflexivity.
Qed.

Lemma sorted_older (u v : ue) pre suf :
  StronglySorted (fun a b => (b < a)%N) (map u_ptr (pre ++ u :: suf)) -> In v suf -> (u_ptr v < u_ptr u)%N.
Proof.
  induction pre as [|x pre IH]; cbn [app map]; intros H Hv; inversion H as [|? ? H1 H2]; subst; [|auto].
  rewrite Forall_forall in H2. apply H2, in_map, Hv.
Qed.
Lemma loop_safe (Hfree : frees_none_older E) r : forall fuel suf pre w,
  ues_ok (w_st w) -> dist (w_st w) -> s_ues (w_st w) = pre ++ suf -> length suf <= fuel ->
  usat (invalidate_loop E fuel (head_ptr suf) r) w.
Proof.
  induction fuel as [|fuel IH]; intros suf pre w Q D Hs Hlen.
  { destruct suf; [|cbn in Hlen; lia]. cbn [head_ptr invalidate_loop]. apply us_ret. }
  destruct suf as [|u suf]; [cbn [head_ptr invalidate_loop]; apply us_ret|]. cbn [head_ptr].
  assert (Hi : In u (s_ues (w_st w))) by (rewrite Hs; apply in_app_iff; right; left; reflexivity).
  pose proof (live_good _ _ Q Hi) as Hl. unfold usat. rewrite (loop_step _ _ _ _ _ Hl).
  match goal with |- snd (?m w) = None -> _ => change (usat m w) end.
  assert (Hn : NoDup (map u_ptr (pre ++ u :: suf))) by (rewrite <- Hs; apply sorted_nodup, (q_sorted _ Q)).
  cbn [length] in Hlen. assert (Hs2 : pre ++ u :: suf = (pre ++ [u]) ++ suf) by (rewrite <- app_assoc; reflexivity).
  rewrite Hs. rewrite (succ_app _ _ _ Hn). destruct (u_rnc u =? r)%N.
  - destruct (link_spec (u_ptr u) u w Q D Hl) as (t&Ht&Ha&_&_&Happ&Hok&Hus). cbv zeta in *.
    apply usat_bind; [exact Hus|]. intros [] w1 Hw1. rewrite Hw1 in *. cbn [fst snd] in *.
    destruct (Hok ltac:(discriminate)) as (_&Hoth&_).
    assert (Q1 : ues_ok (w_st w1)) by (eapply keep_ues_ok; [apply api_keep, Ha|exact Q]).
    assert (Hle : ues_le (s_ues (w_st w)) (s_ues (w_st w1))) by apply Ha.
    assert (D1 : dist (w_st w1)) by (eapply ues_le_conns; eauto).
    rewrite Hs, Hs2 in Hle. rewrite Hs2 in Hn.
    destruct (ues_le_suffix_ptrs _ _ _ Hle Hn) as (a'&b'&Hs1&Hb').
    { intros v Hv.
      assert (Hvu : u_ptr v <> u_ptr u).
      { intros He. rewrite <- Hs2, map_app in Hn. cbn [map] in Hn. apply NoDup_remove_2 in Hn.
        apply Hn, in_app_iff. right. rewrite <- He. apply in_map, Hv. }
      destruct (Hoth v) as (v'&Hv'&Hlev&_); auto.
      - rewrite Hs. apply in_app_iff. right. right. exact Hv.
      - intros Hf. apply Happ in Hf. apply Hfree in Hf.
        pose proof (q_sorted _ Q) as Hso. rewrite Hs in Hso. pose proof (sorted_older _ _ _ _ Hso Hv). lia.
      - exists v'. split; [exact Hv'|apply Hlev]. }
    rewrite (head_ptr_map _ _ (eq_sym Hb')). apply IH with (pre := a'); auto.
    rewrite <- (map_length u_ptr), Hb', map_length. lia.
  - apply usat_bind; [apply us_ret|]. intros [] w1 Hw1. injection Hw1 as <-.
    apply IH with (pre := pre ++ [u]); auto; [rewrite Hs; exact Hs2|lia].
Qed.

Definition lost (r : ptr) (l : list ue) : list ptr :=
  if has_event_cb E then map u_ptr (filter (fun u => (u_rnc u =? r)%N && u_notif u) l) else [].
Lemma lost_cons r u l : lost r (u :: l) =
  (if has_event_cb E && ((u_rnc u =? r)%N && u_notif u) then [u_ptr u] else []) ++ lost r l.
Proof.
  unfold lost. cbn [filter]. destruct (has_event_cb E); cbn [andb]; [|reflexivity].
  destruct ((u_rnc u =? r)%N && u_notif u); reflexivity.
Qed.
Definition li (p : ptr) : option ptr * event := (Some p, EvLinkInvalidated).

Lemma loop_spec (Ht : touches_only_subject E) r : forall fuel suf pre w,
  ues_ok (w_st w) -> dist (w_st w) -> s_ues (w_st w) = pre ++ suf -> length suf <= fuel ->
  let res := invalidate_loop E fuel (head_ptr suf) r w in
  snd res <> None ->
  exists t, w_tr (fst res) = t ++ w_tr w /\ api_st (w_st w) (w_st (fst res)) /\
    events t = rev (map li (lost r suf)) /\ recvs t = [] /\
    (forall u, In u (s_ues (w_st w)) -> u_rnc u <> r -> In u (s_ues (w_st (fst res)))) /\
    (forall v, In v (s_ues (w_st (fst res))) -> u_rnc v = r -> In v pre \/ u_for v = false).
Proof.
  assert (Hnil : forall w pre, s_ues (w_st w) = pre ++ [] ->
    exists t, w_tr w = t ++ w_tr w /\ api_st (w_st w) (w_st w) /\ events t = rev (map li (lost r [])) /\ recvs t = [] /\
    (forall u, In u (s_ues (w_st w)) -> u_rnc u <> r -> In u (s_ues (w_st w))) /\
    (forall v, In v (s_ues (w_st w)) -> u_rnc v = r -> In v pre \/ u_for v = false)).
  { intros w pre Hs. exists []. split; [reflexivity|]. split; [apply api_st_refl|].
    split; [unfold lost; destruct (has_event_cb E); reflexivity|]. split; [reflexivity|]. split; [auto|].
    intros v Hv _. left. rewrite Hs, app_nil_r in Hv. exact Hv. }
  induction fuel as [|fuel IH]; intros suf pre w Q D Hs Hlen; cbv zeta.
  { destruct suf; [|cbn in Hlen; lia]. cbn [head_ptr invalidate_loop ret fst]. intros _. apply Hnil, Hs. }
  destruct suf as [|u suf]; [cbn [head_ptr invalidate_loop ret fst]; intros _; apply Hnil, Hs|]. cbn [head_ptr].
  assert (Hi : In u (s_ues (w_st w))) by (rewrite Hs; apply in_app_iff; right; left; reflexivity).
  pose proof (live_good _ _ Q Hi) as Hl. rewrite (loop_step _ _ _ _ _ Hl).
  assert (Hn : NoDup (map u_ptr (pre ++ u :: suf))) by (rewrite <- Hs; apply sorted_nodup, (q_sorted _ Q)).
  cbn [length] in Hlen. assert (Hs2 : pre ++ u :: suf = (pre ++ [u]) ++ suf) by (rewrite <- app_assoc; reflexivity).
  replace (succ_of (u_ptr u) (s_ues (w_st w))) with (head_ptr suf) by (rewrite Hs; symmetry; apply succ_app, Hn).
  rewrite lost_cons. destruct (u_rnc u =? r)%N eqn:Hr.
  - cbn [andb]. apply N.eqb_eq in Hr.
    destruct (link_spec (u_ptr u) u w Q D Hl) as (t&Htr&Ha&Hev&Hrc&Happ&Hok&_). cbv zeta in *.
    destruct (link_invalidated_free E (u_ptr u) w) as [w1 [[]|]] eqn:Hw1; cbn [fst snd] in *.
    2:{ rewrite (bind_none _ _ _ _ Hw1). intros Hx. exfalso. apply Hx. reflexivity. }
    rewrite (bind_eq _ _ _ _ _ Hw1). intros Hsome.
    destruct (Hok ltac:(discriminate)) as (Hfor&Hoth&_).
    assert (Q1 : ues_ok (w_st w1)) by (eapply keep_ues_ok; [apply api_keep, Ha|exact Q]).
    assert (Hle : ues_le (s_ues (w_st w)) (s_ues (w_st w1))) by apply Ha.
    assert (D1 : dist (w_st w1)) by (eapply ues_le_conns; eauto).
    assert (Hkeep : forall v, In v (s_ues (w_st w)) -> u_ptr v <> u_ptr u -> In v (s_ues (w_st w1))).
    { intros v Hv Hvu. destruct (Hoth v Hv Hvu) as (v'&Hv'&_&Heq).
      - intros Hf. apply Happ in Hf. apply (proj1 Ht) in Hf. contradiction.
      - rewrite <- Heq; [exact Hv'|]. intros (c&d&Hf). apply Happ in Hf. apply (proj2 Ht) in Hf. contradiction. }
    pose proof Hle as Hle'. rewrite Hs, Hs2 in Hle'. pose proof Hn as Hn2. rewrite Hs2 in Hn2.
    destruct (ues_le_suffix _ _ _ Hle' Hn2) as (a'&Hs1&Hpre).
    { intros v Hv. apply Hkeep; [rewrite Hs; apply in_app_iff; right; right; exact Hv|].
      intros He. rewrite map_app in Hn. cbn [map] in Hn. apply NoDup_remove_2 in Hn.
      apply Hn, in_app_iff. right. rewrite <- He. apply in_map, Hv. }
    destruct (IH suf a' w1 Q1 D1 Hs1 ltac:(lia) Hsome) as (t'&Htr'&Ha'&Hev'&Hrc'&Hk'&Hf').
    exists (t' ++ t). split; [rewrite Htr', Htr, app_assoc; reflexivity|].
    split; [eapply api_st_trans; eauto|]. 
    split; [rewrite events_app, Hev', Hev, map_app, rev_app_distr; f_equal; destruct (_ && _); reflexivity|].
    split; [rewrite recvs_app, Hrc', Hrc; reflexivity|]. split.
    + intros v Hv Hvr. apply Hk'; [|exact Hvr]. apply Hkeep; [exact Hv|]. intros He.
      apply Hvr. rewrite <- Hr. f_equal.
      apply (nodup_inj u_ptr (s_ues (w_st w))); auto. apply sorted_nodup, (q_sorted _ Q).
    + intros v Hv Hvr. destruct (Hf' v Hv Hvr) as [Hva|]; [|auto].
      assert (Hv1 : In v (s_ues (w_st w1))) by (rewrite Hs1; apply in_app_iff; auto).
      destruct (ues_le_in _ _ _ Hpre Hva) as (x&Hx&Hlex). apply in_app_iff in Hx as [Hx|[<-|[]]].
      * assert (Hxw : In x (s_ues (w_st w))) by (rewrite Hs; apply in_app_iff; auto).
        assert (Hxu : u_ptr x <> u_ptr u).
        { intros He. rewrite map_app in Hn. cbn [map] in Hn. apply NoDup_remove_2 in Hn. apply Hn, in_app_iff. left.
          rewrite <- He. apply in_map, Hx. }
        left. replace v with x; [exact Hx|].
        apply (nodup_inj u_ptr (s_ues (w_st w1))); [apply sorted_nodup, (q_sorted _ Q1)|auto|exact Hv1|].
        symmetry. apply Hlex.
      * right. apply (Hfor v Hv1). apply Hlex.
  - rewrite bind_ret. intros Hsome.
    destruct (IH suf (pre ++ [u]) w Q D ltac:(rewrite Hs; exact Hs2) ltac:(lia) Hsome) as (t'&Htr'&Ha'&Hev'&Hrc'&Hk'&Hf').
    exists t'. split; [exact Htr'|]. split; [exact Ha'|]. cbn [andb]. rewrite andb_false_r. split; [exact Hev'|].
    split; [exact Hrc'|]. split; [exact Hk'|]. intros v Hv Hvr. destruct (Hf' v Hv Hvr) as [Hva|]; [|auto].
    apply in_app_iff in Hva as [Hva|[<-|[]]]; auto. lia.
Qed.

Lemma first_head s : first_ue s = head_ptr (s_ues s).
Proof. reflexivity. Qed.
(* all RNCs that are hit *)
Lemma rncs_safe (Hfree : frees_none_older E) hit : forall l w,
  ues_ok (w_st w) -> dist (w_st w) -> usat (invalidate_rncs E l hit) w.
Proof.
  induction l as [|n l IH]; intros w Q D; cbn [invalidate_rncs]; [apply us_ret|].
  apply usat_bind.
  - destruct (hit n); [|apply us_ret]. unfold invalidate_rnc, usat. rewrite bind_get, first_head.
    apply (loop_safe Hfree (n_ptr n) _ (s_ues (w_st w)) []); auto.
  - intros [] w1 Hw1.
    assert (G : gpres no_new_area (if hit n then invalidate_rnc E (n_ptr n) else ret tt)).
    { destruct (hit n); [|apply gpres_ret]. unfold invalidate_rnc. apply gpres_bind; [apply gpres_get, nna_api|].
      intros s. apply gp_invalidate_loop. }
    destruct (G w) as (K&_). rewrite Hw1 in K. cbn [fst] in K.
    apply IH; [eapply keep_ues_ok; eauto|eapply ues_le_conns; [apply K|exact D]].
Qed.

Definition lost_all (rl : list rnc) (hit : rnc -> bool) (l : list ue) : list ptr :=
  flat_map (fun n => if hit n then lost (n_ptr n) l else []) rl.
Lemma lost_keep r l l' : ues_le l l' -> NoDup (map u_ptr l) ->
  (forall u, In u l -> u_rnc u = r -> In u l') -> lost r l' = lost r l.
Proof.
  intros H Hn Hk. unfold lost. destruct (has_event_cb E); [|reflexivity].
  assert (Hf : filter (fun u => (u_rnc u =? r)%N) l' = filter (fun u => (u_rnc u =? r)%N) l).
  { apply ues_le_keep; auto.
    - intros u u' (_&Hr&_). rewrite Hr. reflexivity.
    - intros u Hu Hr. apply Hk; auto. lia. }
  assert (Hff : forall (x : list ue), filter (fun u => (u_rnc u =? r)%N && u_notif u) x =
     filter u_notif (filter (fun u => (u_rnc u =? r)%N) x)).
  { induction x as [|a x IHx]; [reflexivity|]. cbn [filter]. destruct (u_rnc a =? r)%N; cbn [andb filter]; rewrite IHx; reflexivity. }
  rewrite !Hff, Hf. reflexivity.
Qed.
Lemma rncs_spec (Ht : touches_only_subject E) hit : forall l w,
  ues_ok (w_st w) -> dist (w_st w) -> NoDup (map n_ptr l) ->
  let res := invalidate_rncs E l hit w in
  snd res <> None ->
  exists t, w_tr (fst res) = t ++ w_tr w /\ api_st (w_st w) (w_st (fst res)) /\
    events t = rev (map li (lost_all l hit (s_ues (w_st w)))) /\ recvs t = [] /\
    (forall u, In u (s_ues (w_st w)) -> (forall n, In n l -> hit n = true -> n_ptr n <> u_rnc u) -> In u (s_ues (w_st (fst res)))) /\
    (forall v n, In v (s_ues (w_st (fst res))) -> In n l -> hit n = true -> u_rnc v = n_ptr n -> u_for v = false).
Proof.
  induction l as [|n l IH]; intros w Q D Hn; cbv zeta; cbn [invalidate_rncs].
  { intros _. exists []. split; [reflexivity|]. split; [apply api_st_refl|]. split; [reflexivity|]. split; [reflexivity|].
    split; [auto|]. intros v n _ []. }
  cbn [map] in Hn. inversion Hn as [|? ? Hx Hn']; subst.
  assert (Hone : snd ((if hit n then invalidate_rnc E (n_ptr n) else ret tt) w) <> None ->
    let res := (if hit n then invalidate_rnc E (n_ptr n) else ret tt) w in
    exists t, w_tr (fst res) = t ++ w_tr w /\ api_st (w_st w) (w_st (fst res)) /\
    events t = rev (map li (if hit n then lost (n_ptr n) (s_ues (w_st w)) else [])) /\ recvs t = [] /\
    (forall u, In u (s_ues (w_st w)) -> (hit n = true -> n_ptr n <> u_rnc u) -> In u (s_ues (w_st (fst res)))) /\
    (forall v, In v (s_ues (w_st (fst res))) -> hit n = true -> u_rnc v = n_ptr n -> u_for v = false)).
  { destruct (hit n).
    - unfold invalidate_rnc. rewrite bind_get, first_head. intros Hs.
      destruct (loop_spec Ht (n_ptr n) _ (s_ues (w_st w)) [] w Q D eq_refl (le_n _) Hs) as (t&H1&H2&H3&H4&H5&H6).
      exists t. split; [exact H1|]. split; [exact H2|]. split; [exact H3|]. split; [exact H4|]. split.
      + intros u Hu Hr. apply H5; auto. intros He. apply (Hr eq_refl). auto.
      + intros v Hv _ Hr. destruct (H6 v Hv Hr) as [[]|]. assumption.
    - intros _. cbv zeta. cbn [ret fst]. exists []. split; [reflexivity|]. split; [apply api_st_refl|]. split; [reflexivity|].
      split; [reflexivity|]. split; [auto|]. intros; discriminate. }
  destruct ((if hit n then invalidate_rnc E (n_ptr n) else ret tt) w) as [w1 [[]|]] eqn:Hw1; cbn [fst snd] in *.
  2:{ rewrite (bind_none _ _ _ _ Hw1). intros Hs. exfalso. apply Hs. reflexivity. }
  rewrite (bind_eq _ _ _ _ _ Hw1). intros Hs.
  destruct (Hone ltac:(discriminate)) as (t&H1&H2&H3&H4&H5&H6). clear Hone.
  assert (Q1 : ues_ok (w_st w1)) by (eapply keep_ues_ok; [apply api_keep, H2|exact Q]).
  assert (Hle : ues_le (s_ues (w_st w)) (s_ues (w_st w1))) by apply H2.
  assert (D1 : dist (w_st w1)) by (eapply ues_le_conns; eauto).
  assert (Hnd : NoDup (map u_ptr (s_ues (w_st w)))) by apply sorted_nodup, (q_sorted _ Q).
  destruct (IH w1 Q1 D1 Hn' Hs) as (t'&G1&G2&G3&G4&G5&G6).
  exists (t' ++ t). split; [rewrite G1, H1, app_assoc; reflexivity|]. split; [eapply api_st_trans; eauto|].
  split.
  { rewrite events_app, G3, H3. unfold lost_all. cbn [flat_map]. rewrite map_app, rev_app_distr. f_equal. f_equal. f_equal.
    assert (Hfm : forall l0, (forall m, In m l0 -> In m l) -> flat_map (fun m => if hit m then lost (n_ptr m) (s_ues (w_st w1)) else []) l0 =
      flat_map (fun m => if hit m then lost (n_ptr m) (s_ues (w_st w)) else []) l0).
    { induction l0 as [|m l0 IHl]; intros Hin; [reflexivity|]. cbn [flat_map].
      rewrite IHl by (intros; apply Hin; right; auto). f_equal.
      destruct (hit m); [|reflexivity]. apply lost_keep; auto. intros u Hu Hr. apply H5; auto.
      intros _ He. apply Hx. rewrite He, Hr. apply in_map, Hin. left. reflexivity. }
    apply Hfm. auto. }
  split; [rewrite recvs_app, G4, H4; reflexivity|]. split.
  - intros u Hu Hr. apply G5.
    + apply H5; [exact Hu|]. apply (Hr n). left. reflexivity.
    + intros m Hm. apply Hr. right. exact Hm.
  - intros v m Hv [<-|Hm] Hh Hr; [|eapply G6; eauto].
    assert (Hle1 : ues_le (s_ues (w_st w1)) (s_ues (w_st (fst (invalidate_rncs E l hit w1))))) by apply G2.
    destruct (ues_le_in _ _ _ Hle1 Hv) as (v1&Hv1&Hlev). pose proof Hlev as (Hp1&Hr1&_).
    destruct (existsb (fun m => hit m && (n_ptr m =? u_rnc v)%N) l) eqn:Hex.
    + apply existsb_exists in Hex as (m&Hm&Hb). apply andb_prop in Hb as [Hb1 Hb2]. apply (G6 v m Hv Hm Hb1). lia.
    + assert (Hin : In v1 (s_ues (w_st (fst (invalidate_rncs E l hit w1))))).
      { apply G5; [exact Hv1|]. intros m Hm Hh' He. assert (Hex' : existsb (fun m => hit m && (n_ptr m =? u_rnc v)%N) l = true).
        { apply existsb_exists. exists m. split; [exact Hm|]. rewrite Hh'. cbn [andb]. rewrite Hr1, He. apply N.eqb_refl. }
        congruence. }
      assert (Hnd1 : NoDup (map u_ptr (s_ues (w_st (fst (invalidate_rncs E l hit w1)))))).
      { eapply ues_le_ptrs; [exact Hle1|]. apply sorted_nodup, (q_sorted _ Q1). }
      assert (v = v1) by (apply (nodup_inj u_ptr _ _ _ Hnd1 Hv Hin); exact Hp1).
      subst v1. apply (H6 v Hv1 Hh). congruence.
Qed.
End Loss.
