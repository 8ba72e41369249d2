(* What an application callback or API call can and cannot change. *)
From Coq Require Import ZifyBool ZifyNat ZifyN.
From Verif Require Import Base Lai IuClient.

(* ---------------- monad ---------------- *)
Lemma bind_ret {A B} (a : A) (k : A -> M B) w : bind (ret a) k w = k a w.
Proof. reflexivity. Qed.
Lemma bind_get {B} (k : st -> M B) w : bind get k w = k (w_st w) w.
Proof. reflexivity. Qed.
Lemma bind_trace {B} (k : list eff -> M B) w : bind trace k w = k (w_tr w) w.
Proof. reflexivity. Qed.
Lemma bind_put {B} s (k : unit -> M B) w : bind (put_st s) k w = k tt (mkW s (w_tr w)).
Proof. reflexivity. Qed.
Lemma bind_emit {B} e (k : unit -> M B) w : bind (emit e) k w = k tt (mkW (w_st w) (e :: w_tr w)).
Proof. reflexivity. Qed.
Lemma bind_fail {A B} f (k : A -> M B) w : bind (fail f) k w = (mkW (w_st w) (EFault f :: w_tr w), None).
Proof. reflexivity. Qed.
Lemma bind_assoc {A B C} (m : M A) (k : A -> M B) (h : B -> M C) w :
  bind (bind m k) h w = bind m (fun a => bind (k a) h) w.
Proof. unfold bind. destruct (m w) as [w' [a|]]; reflexivity. Qed.
Lemma bind_eq {A B} (m : M A) (k : A -> M B) w w' a :
  m w = (w', Some a) -> bind m k w = k a w'.
Proof. intros H. unfold bind. rewrite H. reflexivity. Qed.
Lemma bind_none {A B} (m : M A) (k : A -> M B) w w' :
  m w = (w', None) -> bind m k w = (w', None).
Proof. intros H. unfold bind. rewrite H. reflexivity. Qed.
Lemma fst_bind_trace_ret {A B} (m : M A) (f : list eff -> B) w :
  fst ((let! _ := m in let! t := trace in ret (f t)) w) = fst (m w).
Proof. unfold bind. destruct (m w) as [w1 [x|]]; reflexivity. Qed.
Lemma fst_bind_ret {A B} (m : M A) (f : A -> B) w :
  fst ((let! x := m in ret (f x)) w) = fst (m w).
Proof. unfold bind. destruct (m w) as [w1 [x|]]; reflexivity. Qed.
Lemma world_eta w : mkW (w_st w) (w_tr w) = w.
Proof. destruct w; reflexivity. Qed.
Lemma st_eta s : mkSt (s_ues s) (s_rncs s) (s_cache s) (s_next s) = s.
Proof. destruct s; reflexivity. Qed.

(* ---------------- frame of API calls ---------------- *)
Definition ue_le (u u' : ue) : Prop :=
  u_ptr u' = u_ptr u /\ u_rnc u' = u_rnc u /\ u_conn u' = u_conn u /\ u_ra u' = u_ra u /\
  (u_notif u' = true -> u_notif u = true) /\ (u_for u = true -> u_for u' = true).
Inductive ues_le : list ue -> list ue -> Prop :=
| le_nil : ues_le [] []
| le_drop u l l' : ues_le l l' -> ues_le (u :: l) l'
| le_keep u u' l l' : ue_le u u' -> ues_le l l' -> ues_le (u :: l) (u' :: l').

Lemma ue_le_refl u : ue_le u u.
Proof. unfold ue_le. tauto. Qed.
Lemma ue_le_trans a b c : ue_le a b -> ue_le b c -> ue_le a c.
Proof. unfold ue_le. intuition congruence. Qed.
Lemma ues_le_refl l : ues_le l l.
Proof. induction l; [apply le_nil|apply le_keep; auto using ue_le_refl]. Qed.
Lemma ues_le_trans a b c : ues_le a b -> ues_le b c -> ues_le a c.
Proof.
  intros H. revert c. induction H as [|u l l' H IH|u u' l l' Hu H IH]; intros c Hc.
  - exact Hc.
  - apply le_drop. auto.
  - inversion Hc; subst.
    + apply le_drop. auto.
    + apply le_keep; [eapply ue_le_trans; eauto|auto].
Qed.
Lemma ues_le_in l l' u' : ues_le l l' -> In u' l' -> exists u, In u l /\ ue_le u u'.
Proof.
  induction 1 as [|u l l' H IH|u v l l' Hu H IH]; intros Hin.
  - destruct Hin.
  - destruct (IH Hin) as [x [Hx Hl]]. exists x. split; [right; auto|auto].
  - destruct Hin as [<-|Hin].
    + exists u. split; [left; auto|auto].
    + destruct (IH Hin) as [x [Hx Hl]]. exists x. split; [right; auto|auto].
Qed.
Lemma ues_le_filter l f : ues_le l (filter f l).
Proof.
  induction l as [|u l IH]; cbn [filter]; [constructor|].
  destruct (f u); [apply le_keep|apply le_drop]; auto using ue_le_refl.
Qed.
Lemma ues_le_upd l p f : (forall u, ue_le u (f u)) -> ues_le l (upd_ue p f l).
Proof.
  intros Hf. induction l as [|u l IH]; cbn [upd_ue map]; [constructor|].
  apply le_keep; [|exact IH]. destruct (u_ptr u =? p)%N; auto using ue_le_refl.
Qed.
Lemma ues_le_length l l' : ues_le l l' -> length l' <= length l.
Proof. induction 1; cbn [length]; lia. Qed.
Lemma ues_le_ptrs l l' : ues_le l l' -> NoDup (map u_ptr l) -> NoDup (map u_ptr l').
Proof.
  induction 1 as [|u l l' H IH|u v l l' Hu H IH]; intros Hn; cbn [map] in *; auto.
  - inversion Hn; auto.
  - inversion Hn as [|x y Hx Hy]; subst. constructor; auto.
    intros Hin. apply Hx. apply in_map_iff in Hin as [x [E Hin]].
    destruct (ues_le_in _ _ _ H Hin) as [y [Hy' Hle]].
    apply in_map_iff. exists y. split; [|exact Hy'].
    destruct Hle as [E1 _]. destruct Hu as [E2 _]. congruence.
Qed.

Definition api_st (s s' : st) : Prop :=
  s_rncs s' = s_rncs s /\ s_cache s' = s_cache s /\ s_next s' = s_next s /\
  ues_le (s_ues s) (s_ues s').
Lemma api_st_refl s : api_st s s.
Proof. unfold api_st. auto using ues_le_refl. Qed.
Lemma api_st_trans a b c : api_st a b -> api_st b c -> api_st a c.
Proof.
  unfold api_st. intros (H1&H2&H3&H4) (G1&G2&G3&G4).
  repeat split; try congruence. eapply ues_le_trans; eauto.
Qed.

(* effects API calls can have *)
Definition api_eff (e : eff) : bool :=
  match e with
  | ESccp (NConnectResp _) => false
  | ESccp _ | EApi _ | ERet _ | ENasFree _ | EFault _ => true
  | _ => false
  end.

Definition step_rel (w w' : world) : Prop :=
  api_st (w_st w) (w_st w') /\ exists t, w_tr w' = t ++ w_tr w /\ forallb api_eff t = true.
Lemma step_rel_refl w : step_rel w w.
Proof. split; [apply api_st_refl|]. exists []. split; reflexivity. Qed.
Lemma step_rel_trans a b c : step_rel a b -> step_rel b c -> step_rel a c.
Proof.
  intros (H1&t1&E1&F1) (H2&t2&E2&F2). split; [eapply api_st_trans; eauto|].
  exists (t2 ++ t1). split; [rewrite E2, E1, app_assoc; reflexivity|].
  rewrite forallb_app, F1, F2. reflexivity.
Qed.

Definition pres {A} (m : M A) : Prop := forall w, step_rel w (fst (m w)).
Lemma pres_ret {A} (a : A) : pres (ret a).
Proof. intros w. apply step_rel_refl. Qed.
Lemma pres_bind {A B} (m : M A) (k : A -> M B) : pres m -> (forall a, pres (k a)) -> pres (bind m k).
Proof.
  intros Hm Hk w. unfold bind. specialize (Hm w). destruct (m w) as [w' [a|]]; cbn [fst] in *; auto.
  eapply step_rel_trans; [exact Hm|apply Hk].
Qed.
Lemma pres_emit e : api_eff e = true -> pres (emit e).
Proof.
  intros He w. cbn [emit fst]. split; cbn [w_st w_tr]; [apply api_st_refl|].
  exists [e]. split; [reflexivity|]. cbn [forallb]. rewrite He. reflexivity.
Qed.
Lemma pres_fail {A} f : pres (@fail A f).
Proof.
  intros w. cbn [fail fst]. split; cbn [w_st w_tr]; [apply api_st_refl|].
  exists [EFault f]. split; reflexivity.
Qed.
Lemma pres_get : pres get.
Proof. intros w. apply step_rel_refl. Qed.
Lemma pres_trace : pres trace.
Proof. intros w. apply step_rel_refl. Qed.
Lemma pres_lift {A} (o : outcome A) : pres (lift o).
Proof. destruct o; [apply pres_ret|apply pres_fail]. Qed.
Lemma pres_modify (f : st -> st) : (forall s, api_st s (f s)) -> pres (let! s := get in put_st (f s)).
Proof.
  intros Hf w. rewrite bind_get. cbn [put_st fst]. split; cbn [w_st w_tr]; [apply Hf|].
  exists []. split; reflexivity.
Qed.
Lemma pres_deref p : pres (deref p).
Proof. unfold deref. apply pres_bind; [apply pres_get|]. intros s. destruct (live s p); [apply pres_ret|apply pres_fail]. Qed.

Section Frame.
Variable E : env.

Lemma pres_sccp_send r : api_eff (ESccp r) = true -> pres (sccp_send E r).
Proof.
  intros H. unfold sccp_send. apply pres_bind; [apply pres_trace|]. intros t.
  apply pres_bind; [apply pres_emit, H|]. intros _. apply pres_ret.
Qed.
Lemma pres_encode m : pres (encode E m).
Proof. unfold encode. destruct (enc_ok E m); [apply pres_ret|apply pres_fail]. Qed.

Lemma pres_free_ue p : pres (free_ue E p).
Proof.
  destruct p as [p|]; cbn [free_ue]; [|apply pres_ret].
  apply pres_bind; [apply pres_deref|]. intros u.
  apply pres_bind; [apply pres_sccp_send; reflexivity|]. intros _.
  apply pres_modify. intros s. unfold api_st, set_ues. cbn. auto using ues_le_filter.
Qed.
Lemma pres_tx_release p c : pres (tx_release E p c).
Proof.
  unfold tx_release. apply pres_bind; [apply pres_encode|]. intros m.
  apply pres_bind; [apply pres_deref|]. intros u. apply pres_sccp_send; reflexivity.
Qed.
Lemma pres_tx_release_free p c t : pres (tx_release_free E p c t).
Proof.
  unfold tx_release_free. apply pres_bind; [apply pres_deref|]. intros _.
  intros w. rewrite bind_get, bind_put.
  set (w1 := mkW _ _).
  assert (H1 : step_rel w w1).
  { split; [|exists []; split; reflexivity]. unfold w1, api_st, set_ues. cbn.
    repeat split; auto. apply ues_le_upd. intros u. unfold ue_le. cbn. intuition discriminate. }
  eapply step_rel_trans; [exact H1|].
  revert w1 H1. generalize dependent w. intros w w1 H1.
  assert (H : pres (let! rc := tx_release E p c in
     let! s := get in
     put_st (set_ues s (upd_ue p (fun u => mkUe (u_ptr u) (u_rnc u) (u_conn u) (u_ra u) (u_notif u) (u_for u)
        (Some (if (rc =? 0)%Z then t else 0%Z))) (s_ues s))))).
  { apply pres_bind; [apply pres_tx_release|]. intros rc. apply pres_modify. intros s.
    unfold api_st, set_ues. cbn. repeat split; auto. apply ues_le_upd. intros u. unfold ue_le. cbn. tauto. }
  apply H.
Qed.
Lemma pres_tx_paging a imsi tmsi ps c : pres (tx_paging_cmd E a imsi tmsi ps c).
Proof.
  unfold tx_paging_cmd. apply pres_bind; [apply pres_encode|]. intros m. apply pres_sccp_send; reflexivity.
Qed.
Lemma pres_page_loop l f imsi tmsi ps : forall n, pres (page_loop E l f imsi tmsi ps n).
Proof.
  induction l as [|x l IH]; intros n; cbn [page_loop]; [apply pres_ret|].
  destruct (existsb f (n_areas x)); [|apply IH].
  apply pres_bind; [apply pres_tx_paging|]. intros _. apply IH.
Qed.
Lemma pres_iu_page imsi tmsi lac rac ps : pres (iu_page E imsi tmsi lac rac ps).
Proof.
  unfold iu_page. apply pres_bind; [apply pres_get|]. intros s.
  destruct (lac_rac_find_legacy s lac rac); [|apply pres_ret].
  apply pres_bind; [apply pres_tx_paging|]. intros rc. apply pres_ret.
Qed.
Lemma pres_iu_tx b d nas sapi : pres (iu_tx E b d nas sapi).
Proof.
  destruct d as [p|]; cbn [iu_tx]; [|apply pres_ret].
  apply pres_bind; [apply pres_deref|]. intros u.
  apply pres_bind; [apply pres_emit; reflexivity|]. intros _.
  apply pres_bind; [apply pres_encode|]. intros m. apply pres_sccp_send; reflexivity.
Qed.

Lemma pres_run_api a : pres (run_api E a).
Proof.
  unfold run_api. apply pres_bind; [apply pres_emit; reflexivity|]. intros _.
  apply pres_bind; [|intros rc; apply pres_emit; reflexivity].
  destruct a; try apply pres_ret.
  - apply pres_iu_tx.
  - unfold tx_sec_mode_cmd. apply pres_bind; [apply pres_encode|]. intros m.
    apply pres_bind; [apply pres_deref|]. intros u. apply pres_sccp_send; reflexivity.
  - unfold tx_common_id. apply pres_bind; [apply pres_deref|]. intros u.
    apply pres_bind; [apply pres_encode|]. intros m. apply pres_sccp_send; reflexivity.
  - apply pres_tx_release.
  - apply pres_bind; [apply pres_tx_release_free|]. intros _. apply pres_ret.
  - apply pres_bind; [apply pres_free_ue|]. intros _. apply pres_ret.
  - unfold rab_act. apply pres_bind; [apply pres_deref|]. intros u. apply pres_sccp_send; reflexivity.
  - apply pres_iu_page.
  - apply pres_iu_page.
  - unfold page_cs2. apply pres_bind; [apply pres_get|]. intros s. apply pres_page_loop.
  - unfold page_ps2. apply pres_bind; [apply pres_get|]. intros s. apply pres_page_loop.
Qed.
Lemma pres_run_apis l : pres (run_apis E l).
Proof.
  induction l as [|a l IH]; cbn [run_apis]; [apply pres_ret|].
  apply pres_bind; [apply pres_run_api|]. intros _. exact IH.
Qed.

(* A callback: the invocation, then only API effects. *)
Lemma callback_frame e w :
  let w' := fst (callback E e w) in
  api_st (w_st w) (w_st w') /\
  exists t, w_tr w' = t ++ e :: w_tr w /\ forallb api_eff t = true.
Proof.
  cbv zeta. unfold callback. rewrite bind_emit, bind_trace. cbn [w_tr].
  destruct (pres_run_apis (app E (e :: w_tr w)) (mkW (w_st w) (e :: w_tr w))) as (H&t&H1&H2).
  cbn [w_st w_tr] in *. split; [exact H|]. exists t. split; assumption.
Qed.

(* An event: nothing, or exactly one invocation followed by API effects. *)
Lemma event_frame p ev w :
  let w' := fst (global_iu_event E p ev w) in
  api_st (w_st w) (w_st w') /\
  exists t, w_tr w' = t ++ w_tr w /\
    (forallb api_eff t = true \/
     has_event_cb E = true /\
     (match p with Some p => exists u, live (w_st w) p = Some u /\ u_notif u = true | None => True end) /\
     exists t', t = t' ++ [EEvent p ev] /\ forallb api_eff t' = true).
Proof.
  cbv zeta. unfold global_iu_event.
  destruct (has_event_cb E) eqn:Hcb; cbn [negb].
  2:{ cbn. split; [apply api_st_refl|]. exists []. split; [reflexivity|]. left; reflexivity. }
  assert (Hcallback : forall q,
    let w' := fst ((let! _ := callback E (EEvent q ev) in let! t := trace in ret (app_rc E t)) w) in
    api_st (w_st w) (w_st w') /\
    exists t, w_tr w' = (t ++ [EEvent q ev]) ++ w_tr w /\ forallb api_eff t = true).
  { intros q. pose proof (callback_frame (EEvent q ev) w) as Hc. cbv zeta in *.
    rewrite fst_bind_trace_ret. destruct Hc as (H1&t&H2&H3). split; [exact H1|]. exists t.
    split; [rewrite H2, <- app_assoc; reflexivity|exact H3]. }
  destruct p as [p|].
  - rewrite bind_assoc. unfold deref. rewrite bind_assoc, bind_get.
    destruct (live (w_st w) p) as [u|] eqn:Hl.
    + rewrite bind_ret, bind_ret. destruct (u_notif u) eqn:Hn; cbn [negb].
      * destruct (Hcallback (Some p)) as (H1&t&H2&H3). split; [exact H1|].
        exists (t ++ [EEvent (Some p) ev]). split; [exact H2|].
        right. repeat split; eauto.
      * cbn. split; [apply api_st_refl|]. exists []. split; [reflexivity|]. left; reflexivity.
    + rewrite bind_fail. cbn. split; [apply api_st_refl|]. exists [EFault UseAfterFree]. split; [reflexivity|]. left; reflexivity.
  - rewrite bind_ret. cbn [negb].
    destruct (Hcallback None) as (H1&t&H2&H3). split; [exact H1|].
    exists (t ++ [EEvent None ev]). split; [exact H2|].
    right. repeat split; eauto.
Qed.
End Frame.
