(* What one operation does to the state and the trace *)
From Coq Require Import ZifyBool ZifyNat ZifyN Sorted.
From Verif Require Import Base Lai Lai_proofs IuClient IuClient_frame IuClient_spec IuClient_reg.

(* ---------------- frame of everything but an accepted Initial UE ---------------- *)
Definition keep_st (s s' : st) : Prop :=
  s_rncs s' = s_rncs s /\ s_next s' = s_next s /\ ues_le (s_ues s) (s_ues s').
Lemma keep_st_refl s : keep_st s s.
Proof. unfold keep_st. auto using ues_le_refl. Qed.
Lemma keep_st_trans a b c : keep_st a b -> keep_st b c -> keep_st a c.
Proof. unfold keep_st. intros (?&?&?) (?&?&?). repeat split; try congruence. eapply ues_le_trans; eauto. Qed.
Lemma api_keep s s' : api_st s s' -> keep_st s s'.
Proof. unfold api_st, keep_st. tauto. Qed.

Definition gstep (P : eff -> bool) (w w' : world) : Prop :=
  keep_st (w_st w) (w_st w') /\ exists t, w_tr w' = t ++ w_tr w /\ forallb P t = true.
Lemma gstep_refl P w : gstep P w w.
Proof. split; [apply keep_st_refl|]. exists []. auto. Qed.
Lemma gstep_trans P a b c : gstep P a b -> gstep P b c -> gstep P a c.
Proof.
  intros (H1&t1&E1&F1) (H2&t2&E2&F2). split; [eapply keep_st_trans; eauto|].
  exists (t2 ++ t1). split; [rewrite E2, E1, app_assoc; reflexivity|].
  rewrite forallb_app, F1, F2. reflexivity.
Qed.
Definition gpres {A} (P : eff -> bool) (m : M A) : Prop := forall w, gstep P w (fst (m w)).

Section G.
Variable P : eff -> bool.
Hypothesis Papi : forall e, api_eff e = true -> P e = true.
Lemma forallb_P t : forallb api_eff t = true -> forallb P t = true.
Proof. rewrite !forallb_forall. intros H x Hx. auto. Qed.
Lemma gpres_pres {A} (m : M A) : pres m -> gpres P m.
Proof.
  intros H w. destruct (H w) as (H1&t&H2&H3). split; [apply api_keep, H1|].
  exists t. split; [exact H2|apply forallb_P, H3].
Qed.
Lemma gpres_ret {A} (a : A) : gpres P (ret a).
Proof. intros w. apply gstep_refl. Qed.
Lemma gpres_bind {A B} (m : M A) (k : A -> M B) : gpres P m -> (forall a, gpres P (k a)) -> gpres P (bind m k).
Proof.
  intros Hm Hk w. unfold bind. specialize (Hm w). destruct (m w) as [w' [a|]]; cbn [fst] in *; auto.
  eapply gstep_trans; [exact Hm|apply Hk].
Qed.
Lemma gpres_emit e : P e = true -> gpres P (emit e).
Proof.
  intros He w. cbn [emit fst]. split; cbn [w_st w_tr]; [apply keep_st_refl|].
  exists [e]. split; [reflexivity|]. cbn [forallb]. rewrite He. reflexivity.
Qed.
Lemma gpres_fail {A} f : gpres P (@fail A f).
Proof. apply gpres_pres, pres_fail. Qed.
Lemma gpres_get : gpres P get.
Proof. apply gpres_pres, pres_get. Qed.
Lemma gpres_trace : gpres P trace.
Proof. apply gpres_pres, pres_trace. Qed.
Lemma gpres_lift {A} (o : outcome A) : gpres P (lift o).
Proof. apply gpres_pres, pres_lift. Qed.
Lemma gpres_modify (f : st -> st) : (forall s, keep_st s (f s)) -> gpres P (let! s := get in put_st (f s)).
Proof.
  intros Hf w. rewrite bind_get. cbn [put_st fst]. split; cbn [w_st w_tr]; [apply Hf|].
  exists []. split; reflexivity.
Qed.
Lemma gpres_deref p : gpres P (deref p).
Proof. apply gpres_pres, pres_deref. Qed.
End G.

(* ---------------- handlers that never register ---------------- *)
Definition no_new_area (e : eff) : bool :=
  match e with
  | EEvent _ (EvNewArea _ _) => false
  | ESccp (NConnectResp _) => false
  | EPrimFree => false
  | _ => true
  end.
Lemma nna_api e : api_eff e = true -> no_new_area e = true.
Proof. destruct e as [[]| | | | | | | | |]; cbn; congruence. Qed.
Lemma forallb_nna t : forallb api_eff t = true -> forallb no_new_area t = true.
Proof. apply forallb_P, nna_api. Qed.

Ltac gp := repeat
  match goal with
  | |- gpres _ (ret _) => apply gpres_ret
  | |- gpres _ (fail _) => apply gpres_fail; exact nna_api
  | |- gpres _ get => apply gpres_get; exact nna_api
  | |- gpres _ trace => apply gpres_trace; exact nna_api
  | |- gpres _ (lift _) => apply gpres_lift; exact nna_api
  | |- gpres _ (deref _) => apply gpres_deref; exact nna_api
  | |- gpres _ (bind _ _) => apply gpres_bind; [|intros]
  | |- gpres _ (match ?x with _ => _ end) => destruct x
  end.

(* ---------------- callbacks and events, exactly ---------------- *)
Section Step.
Variable E : env.

Lemma event_none_frame ev w :
  let w' := fst (global_iu_event E None ev w) in
  api_st (w_st w) (w_st w') /\
  exists t, w_tr w' = t ++ (if has_event_cb E then [EEvent None ev] else []) ++ w_tr w /\
            forallb api_eff t = true.
Proof.
  cbv zeta. unfold global_iu_event. destruct (has_event_cb E); cbn [negb].
  - rewrite bind_ret. cbn [negb]. rewrite fst_bind_trace_ret.
    destruct (callback_frame E (EEvent None ev) w) as (H1&t&H2&H3). split; [exact H1|].
    exists t. split; [exact H2|exact H3].
  - cbn. split; [apply api_st_refl|]. exists []. auto.
Qed.
Lemma event_some_frame p u ev w : live (w_st w) p = Some u ->
  let w' := fst (global_iu_event E (Some p) ev w) in
  api_st (w_st w) (w_st w') /\
  exists t, w_tr w' = t ++ (if has_event_cb E && u_notif u then [EEvent (Some p) ev] else []) ++ w_tr w /\
            forallb api_eff t = true.
Proof.
  intros Hl. cbv zeta. unfold global_iu_event. destruct (has_event_cb E); cbn [negb andb].
  - rewrite bind_assoc. unfold deref. rewrite bind_assoc, bind_get, Hl. rewrite bind_ret, bind_ret.
    destruct (u_notif u); cbn [negb].
    + rewrite fst_bind_trace_ret.
      destruct (callback_frame E (EEvent (Some p) ev) w) as (H1&t&H2&H3). split; [exact H1|].
      exists t. split; [exact H2|exact H3].
    + cbn. split; [apply api_st_refl|]. exists []. auto.
  - cbn. split; [apply api_st_refl|]. exists []. auto.
Qed.

Lemma gp_callback e : no_new_area e = true -> gpres no_new_area (callback E e).
Proof.
  intros He w. destruct (callback_frame E e w) as (H1&t&H2&H3). split; [apply api_keep, H1|].
  exists (t ++ [e]). split; [rewrite H2, <- app_assoc; reflexivity|].
  rewrite forallb_app, forallb_nna by exact H3. cbn. rewrite He. reflexivity.
Qed.
Lemma gp_event p ev : (forall i a, ev <> EvNewArea i a) -> gpres no_new_area (global_iu_event E p ev).
Proof.
  intros He w. destruct (event_frame E p ev w) as (H1&t&H2&H3). split; [apply api_keep, H1|].
  exists t. split; [exact H2|]. destruct H3 as [H3|(_&_&t'&->&H3)]; [apply forallb_nna, H3|].
  rewrite forallb_app, forallb_nna by exact H3. cbn. destruct ev; try reflexivity.
  exfalso. eapply He. reflexivity.
Qed.
Lemma gp_send r : (forall c, r <> NConnectResp c) -> gpres no_new_area (sccp_send E r).
Proof.
  intros H. apply gpres_pres; [exact nna_api|]. apply pres_sccp_send.
  destruct r; try reflexivity. exfalso. eapply H. reflexivity.
Qed.

Lemma gp_handle_co_dt p d : gpres no_new_area (handle_co_dt E p d).
Proof.
  unfold handle_co_dt, nas_put. gp; auto using nna_api; try (apply gpres_emit; reflexivity).
  apply gp_callback. reflexivity.
Qed.
Lemma gp_tx_release p c : gpres no_new_area (tx_release E p c).
Proof. apply gpres_pres; [exact nna_api|apply pres_tx_release]. Qed.
Lemma gp_handle_co p m : gpres no_new_area (handle_co E p m).
Proof.
  unfold handle_co, handle_co_iu_rel_req, handle_co_rab_ass_resp. gp; auto using nna_api;
    try (apply gp_event; discriminate).
  - apply gp_handle_co_dt.
  - apply gp_tx_release.
Qed.
Lemma gp_handle_cl a m : gpres no_new_area (handle_cl E a m).
Proof.
  unfold handle_cl, handle_cl_reset_req. gp; auto using nna_api. apply gp_send; discriminate.
Qed.
Lemma gp_free_ue p : gpres no_new_area (free_ue E p).
Proof. apply gpres_pres; [exact nna_api|apply pres_free_ue]. Qed.
Lemma gp_link_invalidated p : gpres no_new_area (link_invalidated_free E p).
Proof.
  unfold link_invalidated_free. gp; auto using nna_api.
  - apply gp_event; discriminate.
  - apply gp_free_ue.
Qed.
Lemma gp_invalidate_loop fuel : forall cur r, gpres no_new_area (invalidate_loop E fuel cur r).
Proof.
  induction fuel as [|fuel IH]; intros cur r; destruct cur as [p|]; cbn [invalidate_loop]; gp; auto using nna_api.
  apply gp_link_invalidated.
Qed.
Lemma gp_invalidate_rncs l hit : gpres no_new_area (invalidate_rncs E l hit).
Proof.
  induction l as [|n l IH]; cbn [invalidate_rncs]; unfold invalidate_rnc; gp; auto using nna_api.
  apply gp_invalidate_loop.
Qed.
Lemma gp_rx_co l2 h : (forall m, gpres no_new_area (h m)) -> gpres no_new_area (rx_co E l2 h).
Proof. intros H. unfold rx_co. destruct (dec_co E l2); [apply H|gp]. Qed.
Lemma gp_timer p : gpres no_new_area (timer_fires E p).
Proof.
  intros w. unfold timer_fires. rewrite bind_get. destruct (live (w_st w) p) as [u|]; [|apply gstep_refl].
  destruct (u_timer u); [|apply gstep_refl]. rewrite bind_put.
  eapply gstep_trans with (b := mkW _ (w_tr w)).
  2:{ match goal with |- gstep _ _ (fst (?m ?x)) =>
        assert (Hm : gpres no_new_area m); [|apply Hm] end. gp; auto. apply gp_event; discriminate. }
  split; [|exists []; auto]. unfold keep_st, set_ues. cbn. repeat split; auto.
  apply ues_le_upd. intros x. unfold ue_le. cbn. tauto.
Qed.

(* ---------------- Initial UE Message ---------------- *)
Lemma lift_parse_lai l : exists rc ra, parse_lai l = Ok (rc, ra).
Proof. destruct (parse_lai_total_l l) as (rc&r&H&_). eauto. Qed.
Lemma lift_grnc g : exists r, grnc_id_parse g = Ok r.
Proof. destruct (grnc_total_l g) as (r&H&_). eauto. Qed.

Definition take_initial (conn : N) (a : sccp_addr) (x : accepted) : M unit :=
  let! _ := emit EBufAlloc in
  let! n := rnc_register E (acc_id x) (gprs_rai_to_osmo (acc_ra x)) a in
  let! p := ue_conn_ctx_alloc n conn in
  let! s := get in
  let! _ := put_st (set_ues s (upd_ue p
     (fun u => mkUe (u_ptr u) (u_rnc u) (u_conn u) (acc_ra x) (u_notif u) (u_for u) (u_timer u))
     (s_ues s))) in
  let! _ := callback E (ERecv p (acc_nas x) (Some (acc_ra x)) (Some (acc_sai x))) in
  emit EBufFree.

Lemma bind_ext {A B} (m : M A) (k k' : A -> M B) w :
  (forall a w', k a w' = k' a w') -> bind m k w = bind m k' w.
Proof. intros H. unfold bind. destruct (m w) as [w' [a|]]; auto. Qed.

Lemma bind_ret_ret {A B} (m : M A) (v : B) w :
  (let! _ := m in let! _ := ret tt in ret v) w =
  (fst (m w), match snd (m w) with Some _ => Some v | None => None end).
Proof. unfold bind. destruct (m w) as [w' [a|]]; reflexivity. Qed.

Lemma initial_acc conn a m x w : acceptable m = Some x ->
  handle_co_initial E conn a m w = take_initial conn a x w.
Proof.
  unfold acceptable, handle_co_initial. destruct (m_ies m) as [i| | | | | |]; try discriminate.
  destruct (m_dir m =? PR_initiatingMessage)%N; cbn [andb negb orb]; [|discriminate].
  destruct (m_proc m =? id_InitialUE_Message)%N; cbn [andb negb orb]; [|discriminate].
  destruct (length (iu_nas i) <=? 256) eqn:Hlen; [|discriminate].
  destruct (lift_parse_lai (iu_lai i)) as (rc&ra&Hp). rewrite Hp.
  destruct (lift_grnc (iu_grnc i)) as (g&Hg). rewrite Hg.
  destruct rc; try discriminate. destruct g as [id|]; [|discriminate].
  destruct (rac_of (iu_rac i)) as [rac|] eqn:Hrac; [|discriminate].
  destruct (iu_sac i) as [|s0 [|s1 sr]] eqn:Hsac; try discriminate.
  intros H. injection H as <-. cbn [acc_id acc_ra acc_sai acc_nas].
  unfold handle_co_initial_ue, take_initial. cbn [acc_id acc_ra acc_sai acc_nas].
  rewrite bind_assoc, !bind_emit. rewrite Hp. cbn [lift]. rewrite bind_assoc, bind_ret.
  cbn [Z.eqb negb]. rewrite Hg, Hsac. cbn [asn1str_to_u16 lift].
  unfold nas_put, NAS_BUF_SIZE. rewrite Hlen.
  destruct (iu_rac i) as [[|o ol]|]; cbn [rac_of] in Hrac; try discriminate.
  - cbn [asn1str_to_u8 lift]. rewrite bind_assoc, bind_ret.
    unfold OSMO_RESERVED_RAC. destruct (o =? 255)%N eqn:Ho; [discriminate|]. injection Hrac as <-.
    cbn [andb]. rewrite bind_assoc, bind_ret, bind_assoc, bind_ret, bind_assoc, bind_ret.
    rewrite bind_assoc. apply bind_ext. intros n w1.
    rewrite bind_assoc. apply bind_ext. intros p w2.
    rewrite bind_assoc. apply bind_ext. intros s w3.
    rewrite bind_assoc. apply bind_ext. intros [] w4.
    rewrite bind_assoc. apply bind_ext. intros [] w5. reflexivity.
  - rewrite bind_assoc, bind_ret. injection Hrac as <-. cbn [andb]. unfold OSMO_RESERVED_RAC.
    rewrite bind_assoc, bind_ret, bind_assoc, bind_ret, bind_assoc, bind_ret.
    rewrite bind_assoc. apply bind_ext. intros n w1.
    rewrite bind_assoc. apply bind_ext. intros p w2.
    rewrite bind_assoc. apply bind_ext. intros s w3.
    rewrite bind_assoc. apply bind_ext. intros [] w4.
    rewrite bind_assoc. apply bind_ext. intros [] w5. reflexivity.
Qed.

(* Not accepted: nothing but possibly a buffer allocation or an abort *)
Definition rejected_eff (e : eff) : bool :=
  match e with EBufAlloc => true | EFault (Assertion | OobRead) => true | _ => false end.
Lemma initial_rej conn a m w : acceptable m = None ->
  let w' := fst (handle_co_initial E conn a m w) in
  w_st w' = w_st w /\ exists t, w_tr w' = t ++ w_tr w /\ forallb rejected_eff t = true.
Proof.
  cbv zeta. unfold acceptable, handle_co_initial.
  assert (Hret : forall w : world, w_st w = w_st w /\ exists t, w_tr w = t ++ w_tr w /\ forallb rejected_eff t = true).
  { intros v. split; [reflexivity|]. exists []. auto. }
  assert (Hfail : forall f (w : world), rejected_eff (EFault f) = true ->
     w_st (mkW (w_st w) (EFault f :: EBufAlloc :: w_tr w)) = w_st w /\
     exists t, w_tr (mkW (w_st w) (EFault f :: EBufAlloc :: w_tr w)) = t ++ w_tr w /\ forallb rejected_eff t = true).
  { intros f v Hf. split; [reflexivity|]. exists [EFault f; EBufAlloc]. cbn in *. rewrite Hf. auto. }
  assert (Hbuf : forall (w : world),
     w_st (mkW (w_st w) (EBufAlloc :: w_tr w)) = w_st w /\
     exists t, w_tr (mkW (w_st w) (EBufAlloc :: w_tr w)) = t ++ w_tr w /\ forallb rejected_eff t = true).
  { intros v. split; [reflexivity|]. exists [EBufAlloc]. auto. }
  destruct (m_dir m =? PR_initiatingMessage)%N; cbn [andb negb orb]; [|intros _; apply Hret].
  destruct (m_proc m =? id_InitialUE_Message)%N; cbn [andb negb orb]; [|intros _; apply Hret].
  destruct (m_ies m) as [i| | | | | |]; try (intros _; split; [reflexivity|]; exists [EFault OobRead]; split; reflexivity).
  intros H. unfold handle_co_initial_ue. rewrite bind_assoc, bind_emit.
  destruct (lift_parse_lai (iu_lai i)) as (rc&ra&Hp). rewrite Hp in *. cbn [lift]. rewrite bind_assoc, bind_ret.
  destruct (lift_grnc (iu_grnc i)) as (g&Hg). rewrite Hg in *. cbn [lift].
  destruct (negb (rc =? 0)%Z) eqn:Hrc.
  { rewrite bind_ret. apply Hbuf. }
  assert (rc = 0%Z) by lia. subst rc.
  destruct (iu_rac i) as [[|o ol]|]; cbn [rac_of asn1str_to_u8 lift] in *.
  - rewrite bind_assoc, bind_fail. apply Hfail. reflexivity.
  - rewrite bind_assoc, bind_ret. unfold OSMO_RESERVED_RAC in *. destruct (o =? 255)%N eqn:Ho; cbn [andb].
    { rewrite bind_ret. apply Hbuf. }
    rewrite bind_assoc, bind_ret. destruct g as [id|]; [|rewrite bind_ret; apply Hbuf].
    destruct (iu_sac i) as [|s0 [|s1 sr]] eqn:Hsac; cbn [asn1str_to_u16 lift].
    1,2: rewrite bind_assoc, bind_fail; apply Hfail; reflexivity.
    rewrite bind_assoc, bind_ret, bind_assoc. unfold nas_put, NAS_BUF_SIZE.
    destruct (length (iu_nas i) <=? 256); [discriminate|]. rewrite bind_fail. apply Hfail. reflexivity.
  - rewrite bind_assoc, bind_ret. cbn [andb].
    rewrite bind_assoc, bind_ret. destruct g as [id|]; [|rewrite bind_ret; apply Hbuf].
    destruct (iu_sac i) as [|s0 [|s1 sr]] eqn:Hsac; cbn [asn1str_to_u16 lift].
    1,2: rewrite bind_assoc, bind_fail; apply Hfail; reflexivity.
    rewrite bind_assoc, bind_ret, bind_assoc. unfold nas_put, NAS_BUF_SIZE.
    destruct (length (iu_nas i) <=? 256); [discriminate|]. rewrite bind_fail. apply Hfail. reflexivity.
Qed.

(* ---------------- UE list invariant ---------------- *)
Record ues_ok (s : st) : Prop := {
  q_sorted : StronglySorted (fun a b => (b < a)%N) (map u_ptr (s_ues s));
  q_next : forall u, In u (s_ues s) -> (u_ptr u < s_next s)%N;
  q_rnc : forall u, In u (s_ues s) -> In (u_rnc u) (map n_ptr (s_rncs s)) }.
Lemma ues_ok_init : ues_ok init.
Proof. constructor; cbn; try tauto. constructor. Qed.
Lemma sorted_le l l' : ues_le l l' -> StronglySorted (fun a b => (b < a)%N) (map u_ptr l) ->
  StronglySorted (fun a b => (b < a)%N) (map u_ptr l').
Proof.
  induction 1 as [|u l l' H IH|u v l l' Hu H IH]; intros Hs; cbn [map] in *; auto.
  - inversion Hs; auto.
  - inversion Hs as [|? ? Hs' Hf]; subst. constructor; auto.
    rewrite Forall_forall in *. intros x Hx. apply in_map_iff in Hx as (y & <- & Hy).
    destruct (ues_le_in _ _ _ H Hy) as (z & Hz & Hle).
    destruct Hle as [E1 _]. destruct Hu as [E2 _]. rewrite E1, E2. apply Hf. apply in_map; auto.
Qed.
Lemma keep_ues_ok s s' : keep_st s s' -> ues_ok s -> ues_ok s'.
Proof.
  intros (H1&H2&H3) Q. constructor.
  - eapply sorted_le; eauto using q_sorted.
  - intros u Hu. destruct (ues_le_in _ _ _ H3 Hu) as (z & Hz & E1 & _). rewrite E1, H2. apply (q_next _ Q); auto.
  - intros u Hu. destruct (ues_le_in _ _ _ H3 Hu) as (z & Hz & _ & E1 & _). rewrite E1, H1. apply (q_rnc _ Q); auto.
Qed.
Lemma keep_table_ok s s' : keep_st s s' -> table_ok s -> table_ok s'.
Proof.
  intros (H1&H2&H3) T. destruct T. constructor; rewrite ?H1, ?H2; auto.
Qed.
Lemma upd_ue_fresh p f l : (forall u, In u l -> u_ptr u <> p) -> upd_ue p f l = l.
Proof.
  intros H. unfold upd_ue. rewrite <- (map_id l) at 2. apply map_ext_in. intros u Hu.
  destruct (u_ptr u =? p)%N eqn:Hp; auto. apply N.eqb_eq in Hp. exfalso. eapply H; eauto.
Qed.
Lemma sorted_nodup (l : list N) : StronglySorted (fun a b => (b < a)%N) l -> NoDup l.
Proof.
  induction 1 as [|x l H IH Hf]; constructor; auto. intros Hi. rewrite Forall_forall in Hf. specialize (Hf _ Hi). lia.
Qed.

Definition add_ue (s : st) (u : ue) : st :=
  mkSt (u :: s_ues s) (s_rncs s) (s_cache s) (s_next s + 1)%N.
Definition new_ue (s : st) (n : ptr) (conn : N) (ra : ra_id) : ue :=
  mkUe (s_next s) n conn ra true false None.
Definition new_area_of (r : rai) : area :=
  if (r_rac r =? 255)%N then NewLac (r_lai r) else NewRac r.

(* An accepted Initial UE Message: register, announce, create, deliver *)
Lemma take_initial_shape conn a x w :
  table_ok (w_st w) -> ues_ok (w_st w) ->
  let s := w_st w in
  let r := gprs_rai_to_osmo (acc_ra x) in
  let res := take_initial conn a x w in
  exists s2 t1,
    api_st (reg_st E s (acc_id x) r a) s2 /\ forallb api_eff t1 = true /\
    let tr1 := t1 ++ (if reg_new E s (acc_id x) r a && has_event_cb E
                      then [EEvent None (EvNewArea (acc_id x) (new_area_of r))] else [])
                  ++ EBufAlloc :: w_tr w in
    ((w_st (fst res) = s2 /\ w_tr (fst res) = tr1 /\ snd res = None) \/
     exists s3 t2,
       let u := new_ue s2 (reg_ptr s (acc_id x)) conn (acc_ra x) in
       api_st (add_ue s2 u) s3 /\ forallb api_eff t2 = true /\
       w_st (fst res) = s3 /\
       callback E (ERecv (u_ptr u) (acc_nas x) (Some (acc_ra x)) (Some (acc_sai x))) (mkW (add_ue s2 u) tr1) =
         (mkW s3 (t2 ++ ERecv (u_ptr u) (acc_nas x) (Some (acc_ra x)) (Some (acc_sai x)) :: tr1), snd res) /\
       ((snd res = None /\
         w_tr (fst res) = t2 ++ ERecv (u_ptr u) (acc_nas x) (Some (acc_ra x)) (Some (acc_sai x)) :: tr1) \/
        (snd res = Some tt /\
         w_tr (fst res) = EBufFree :: t2 ++ ERecv (u_ptr u) (acc_nas x) (Some (acc_ra x)) (Some (acc_sai x)) :: tr1))).
Proof.
  intros T Q. cbv zeta. unfold take_initial. rewrite bind_emit.
  set (r := gprs_rai_to_osmo (acc_ra x)). set (s := w_st w) in *.
  set (w1 := mkW s (EBufAlloc :: w_tr w)).
  assert (Hreg : exists s2 t1, api_st (reg_st E s (acc_id x) r a) s2 /\ forallb api_eff t1 = true /\
     w_st (fst (rnc_register E (acc_id x) r a w1)) = s2 /\
     w_tr (fst (rnc_register E (acc_id x) r a w1)) =
       t1 ++ (if reg_new E s (acc_id x) r a && has_event_cb E
              then [EEvent None (EvNewArea (acc_id x) (new_area_of r))] else []) ++ EBufAlloc :: w_tr w /\
     (snd (rnc_register E (acc_id x) r a w1) = None \/
      snd (rnc_register E (acc_id x) r a w1) = Some (reg_ptr s (acc_id x)))).
  { rewrite rnc_register_eq. cbn [w1 w_st]. rewrite bind_put. cbn [w_tr].
    destruct (reg_new E s (acc_id x) r a); cbn [andb].
    - unfold event_new_area. rewrite bind_assoc.
      pose proof (event_none_frame (EvNewArea (acc_id x) (new_area_of r))
         (mkW (reg_st E s (acc_id x) r a) (EBufAlloc :: w_tr w))) as H. cbv zeta in H.
      change (if (r_rac r =? OSMO_RESERVED_RAC)%N then NewLac (r_lai r) else NewRac r) with (new_area_of r).
      rewrite bind_ret_ret. destruct H as (H1&t&H2&H3).
      destruct (global_iu_event _ _ _ _) as [w2 o]; cbn [fst snd] in *. exists (w_st w2), t.
      repeat split; auto; try apply H1. destruct o; auto.
    - rewrite bind_ret. exists (reg_st E s (acc_id x) r a), []. cbn. repeat split; auto using ues_le_refl. }
  destruct Hreg as (s2 & t1 & Ha & Ht & Hs & Htr & Hr). exists s2, t1. split; [exact Ha|]. split; [exact Ht|].
  destruct (rnc_register E (acc_id x) r a w1) as [w2 o] eqn:Hrr. cbn [fst snd] in *.
  destruct Hr as [-> | ->].
  { left. unfold bind. rewrite Hrr. cbn. auto. }
  right.
  rewrite (bind_eq _ _ _ _ _ Hrr). unfold ue_conn_ctx_alloc. rewrite bind_assoc, bind_get, bind_assoc, bind_put, bind_ret, bind_get, bind_put.
  cbn [w_st w_tr set_ues s_ues s_rncs s_cache s_next]. rewrite Hs.
  assert (Q2 : ues_ok s2).
  { eapply keep_ues_ok; [apply api_keep, Ha|]. constructor; cbn.
    - apply (q_sorted _ Q).
    - intros u Hu. pose proof (q_next _ Q u Hu). fold s in H. unfold reg_next. destruct (rnc_id_find s (acc_id x)); lia.
    - intros u Hu. pose proof (q_rnc _ Q u Hu) as Hin. fold s in Hin.
      destruct (reg_map E s (acc_id x) r a T) as (g & Hg & Hn). rewrite Hg, map_map.
      apply in_map_iff in Hin as (n & Hp & Hin).
      assert (exists n0, In n0 (reg_l0 E s (acc_id x) a) /\ n_ptr n0 = n_ptr n) as (n0 & H0 & Hp0).
      { eexists (mkRnc (n_ptr n) (n_id n) _ (n_areas n)). split; [|reflexivity].
        apply l0_in; auto. left. exists n. cbn. repeat split; auto. }
      apply in_map_iff. exists n0. split; [|exact H0]. rewrite (proj1 (Hn n0 H0)). congruence. }
  cbn [upd_ue map u_ptr]. rewrite N.eqb_refl. cbn [u_ptr u_rnc u_conn u_ra u_notif u_for u_timer].
  fold (upd_ue (s_next s2) (fun u => mkUe (u_ptr u) (u_rnc u) (u_conn u) (acc_ra x) (u_notif u) (u_for u) (u_timer u)) (s_ues s2)).
  rewrite upd_ue_fresh.
  2:{ intros u Hu. pose proof (q_next _ Q2 u Hu). lia. }
  set (s2' := set_ues _ _). set (e := ERecv _ _ _ _).
  destruct (callback_frame E e (mkW s2' (w_tr w2))) as (H1&t2&H2&H3). cbn [w_st w_tr] in *.
  set (tr1 := t1 ++ _) in *.
  assert (Hv : mkW s2' (w_tr w2) = mkW (add_ue s2 (new_ue s2 (reg_ptr s (acc_id x)) conn (acc_ra x))) tr1).
  { rewrite Htr. reflexivity. }
  unfold bind. destruct (callback E e (mkW s2' (w_tr w2))) as [w3 [[]|]] eqn:Hcb; cbn [fst snd emit w_st w_tr] in *.
  - exists (w_st w3), t2. split; [exact H1|]. split; [exact H3|]. split; [reflexivity|].
    split; [rewrite Hv in Hcb; etransitivity; [exact Hcb|]; rewrite <- (world_eta w3) at 1; rewrite H2, Htr; reflexivity|]. right.
    split; [reflexivity|]. rewrite H2, Htr. reflexivity.
  - exists (w_st w3), t2. split; [exact H1|]. split; [exact H3|]. split; [reflexivity|].
    split; [rewrite Hv in Hcb; etransitivity; [exact Hcb|]; rewrite <- (world_eta w3) at 1; rewrite H2, Htr; reflexivity|]. left.
    split; [reflexivity|]. rewrite H2, Htr. reflexivity.
Qed.
End Step.
