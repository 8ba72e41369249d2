(* What kills a client whose application calls it from its callbacks *)
From Verif Require Import Base Lai Lai_proofs Aper Aper_spec Container RanapTypes RanapTab Dispatch Helpers Helpers_spec
  Factory_spec Factory Factory_msgs E2e_spec IuClient IuClient_frame IuClient_spec IuClient_reg IuClient_step IuClient_inv IuClient_area
  IuClient_conn IuClient_life IuClient_life2 IuClient_loss IuClient_loss2 Stack Stack_spec Stack_safe Stack_proofs Stack_msgs.
From Coq Require Import String List Lia.
Local Open Scope list_scope.

(* ---------------- the arguments decide whether there is a message ---------------- *)
Lemma args_octets a : args_ok a ->
  match a with
  | ATx _ _ nas sapi => has_octets (DL_DirectTransfer sapi nas) = true
  | ATxSecModeCmd _ ik ck send_ck nk => has_octets (DL_SecModeCmd ik (if send_ck then Some ck else None) nk) = true
  | ATxCommonId _ imsi => has_octets (DL_CommonId imsi) = true
  | ATxRelease _ c | ATxReleaseFree _ c _ => has_octets (DL_IuReleaseCmd (match c with Some c => c | None => cause_normal_release end)) = true
  | APageCs i t _ | APageCs2 i t _ => has_octets (DL_Paging i t false 0) = true
  | APagePs i t _ _ | APagePs2 i t _ => has_octets (DL_Paging i t true 0) = true
  | _ => True
  end.
Proof.
  assert (Hp : forall i t ps, forallb is_digit i = true /\ 5 <= List.length i <= 16 /\ opt_ok (fun t => (t < 2 ^ 32)%N) t ->
    has_octets (DL_Paging i t ps 0) = true).
  { intros i t ps (H1&H2&H3). destruct (Factory_msgs.paging_msg i t ps 0 H1 H2 H3 ltac:(lia)) as (m&b&o&Hm&Hb&_).
    unfold has_octets. cbn [octets_of]. rewrite Hm. cbn [made_msg]. rewrite Hb. reflexivity. }
  destruct a as [b p nas sapi|p ik ck send_ck nk|p i|p c|p c n|p|p m|p r|i t l|i t l r|i t l|i t r]; cbn [args_ok]; intros H; try exact I; try (apply Hp, H).
  - destruct (Factory_msgs.dt_msg sapi nas H) as (o&Ho&_). unfold has_octets. cbn [octets_of]. rewrite Ho. reflexivity.
  - destruct H as [H1 H2]. set (o := if send_ck then Some ck else None). set (st := if nk then 1%Z else 0%Z).
    assert (Ho : opt_ok key_ok o) by (unfold o; destruct send_ck; [exact (H2 eq_refl)|exact I]).
    pose proof (sec_mod_cmd_msg ik o st 6 6 H1 Ho ltac:(unfold st, dom_ok; destruct nk; auto) ltac:(lia) ltac:(lia)) as Hs.
    replace (sound_mask 6 && match o with Some _ => sound_mask 6 | None => true end) with true in Hs by (destruct o; reflexivity).
    destruct Hs as (b&Hb&_). unfold has_octets. cbn [octets_of]. unfold new_msg_sec_mod_cmd. fold st. rewrite Hb. reflexivity.
  - destruct H as [H1 H2]. destruct (common_id_msg i H1 H2) as (m&b&o&Hm&Hb&_). unfold has_octets. cbn [octets_of]. rewrite Hm. cbn [made_msg]. rewrite Hb. reflexivity.
  - apply has_release. destruct c; exact H.
  - apply has_release. destruct c; exact H.
Qed.

(* ---------------- where a crash happens ---------------- *)
Definition in_call (w : world) : Prop :=
  exists f r, w_tr w = EFault f :: r /\
    (f = UseAfterFree \/ exists t a t', r = t ++ EApi a :: t' /\ (t = [] \/ exists b, t = [ENasFree b]) /\ ~ args_ok a).
Definition lsat (P : Prop) {A} (m : M A) (w : world) : Prop := snd (m w) = None -> P \/ in_call (fst (m w)).
Definition ls (P : Prop) {A} (m : M A) : Prop := forall w, lsat P m w.

Section Crash.
Variable E : env.
Variable P : Prop.

Lemma lsat_bind {A B} (m : M A) (k : A -> M B) w : lsat P m w ->
  (forall a w', m w = (w', Some a) -> lsat P (k a) w') -> lsat P (bind m k) w.
Proof. intros Hm Hk. unfold lsat, bind in *. destruct (m w) as [w' [a|]]; cbn [fst snd] in *; auto. Qed.
Lemma ls_bind {A B} (m : M A) (k : A -> M B) : ls P m -> (forall a, ls P (k a)) -> ls P (bind m k).
Proof. intros Hm Hk w. apply lsat_bind; [apply Hm|]. intros a w' _. apply Hk. Qed.
Lemma ls_ret {A} (a : A) : ls P (ret a). Proof. intros w H. discriminate. Qed.
Lemma ls_get : ls P IuClient.get. Proof. intros w H. discriminate. Qed.
Lemma ls_trace : ls P trace. Proof. intros w H. discriminate. Qed.
Lemma ls_put s : ls P (put_st s). Proof. intros w H. discriminate. Qed.
Lemma ls_emit e : ls P (emit e). Proof. intros w H. discriminate. Qed.
Lemma ls_deref p : ls P (deref p).
Proof.
  intros w. unfold lsat, deref. rewrite bind_get. destruct (live (w_st w) p); [discriminate|]. intros _. right. cbn. do 2 eexists. split; [reflexivity|left; reflexivity].
Qed.
Lemma ls_send r : ls P (sccp_send (stack E) r).
Proof. unfold sccp_send. repeat (apply ls_bind; [|intros]); auto using ls_trace, ls_emit, ls_ret. Qed.
Lemma lsat_encode m a s t tr : (t = [] \/ exists b, t = [ENasFree b]) -> (args_ok a -> has_octets m = true) ->
  lsat P (encode (stack E) m) (mkW s (t ++ EApi a :: tr)).
Proof.
  intros Ht Ha. unfold lsat, encode. cbn [stack enc_ok]. destruct (has_octets m) eqn:Eh; [discriminate|]. intros _. right. cbn. do 2 eexists. split; [reflexivity|].
  right. exists t, a, tr. split; [reflexivity|]. split; [exact Ht|]. intros H. apply Ha in H. congruence.
Qed.
Lemma encode_keeps m w w' x : encode (stack E) m w = (w', Some x) -> w' = w.
Proof. unfold encode. destruct (enc_ok _ m); [|discriminate]. intros H. injection H as -> _. reflexivity. Qed.
Lemma deref_keeps p w w' x : deref p w = (w', Some x) -> w' = w.
Proof. unfold deref. rewrite bind_get. destruct (live (w_st w) p); [|discriminate]. intros H. injection H as -> _. reflexivity. Qed.
Lemma lsat_release p c a s tr : (args_ok a -> has_octets (DL_IuReleaseCmd (match c with Some c => c | None => cause_normal_release end)) = true) ->
  lsat P (tx_release (stack E) p c) (mkW s (EApi a :: tr)).
Proof.
  intros H. unfold tx_release. apply lsat_bind; [apply (lsat_encode _ a s [] tr (or_introl eq_refl) H)|].
  intros m w _. apply ls_bind; [apply ls_deref|intros; apply ls_send].
Qed.
Lemma lsat_paging x i t b a s tr : (args_ok a -> has_octets (DL_Paging i t b 0) = true) -> lsat P (tx_paging_cmd (stack E) x i t b 0) (mkW s (EApi a :: tr)).
Proof.
  intros H. unfold tx_paging_cmd. apply lsat_bind; [apply (lsat_encode _ a s [] tr (or_introl eq_refl) H)|intros; apply ls_send].
Qed.
Lemma ls_paging x i t b : has_octets (DL_Paging i t b 0) = true -> ls P (tx_paging_cmd (stack E) x i t b 0).
Proof. intros H. unfold tx_paging_cmd. apply ls_bind; [|intros; apply ls_send]. unfold encode. cbn [stack enc_ok]. rewrite H. apply ls_ret. Qed.
Lemma ls_loop f i t b : has_octets (DL_Paging i t b 0) = true -> forall l n, ls P (page_loop (stack E) l f i t b n).
Proof.
  intros H. induction l as [|x l IH]; intros n; cbn [page_loop]; [apply ls_ret|]. destruct (existsb f (n_areas x)); [|apply IH].
  apply ls_bind; [apply ls_paging, H|intros; apply IH].
Qed.
Lemma lsat_loop f i t b a s tr : (args_ok a -> has_octets (DL_Paging i t b 0) = true) ->
  forall l n, lsat P (page_loop (stack E) l f i t b n) (mkW s (EApi a :: tr)).
Proof.
  intros H. destruct (has_octets (DL_Paging i t b 0)) eqn:Eh; [intros l n; apply ls_loop, Eh|].
  induction l as [|x l IH]; intros n; cbn [page_loop]; [apply ls_ret|]. destruct (existsb f (n_areas x)); [|apply IH].
  apply lsat_bind; [apply lsat_paging; intros Ha; apply H in Ha; discriminate|].
  intros z w Hw. exfalso. unfold tx_paging_cmd, bind, encode in Hw. cbn [stack enc_ok] in Hw. rewrite Eh in Hw. discriminate.
Qed.
Lemma ls_api a : ls P (run_api (stack E) a).
Proof.
  intros w. unfold run_api. apply lsat_bind; [apply ls_emit|]. intros [] w' H. injection H as <-.
  apply lsat_bind; [|intros; apply ls_emit]. pose proof (args_octets a) as Ho.
  assert (Hpage : forall i t l r b, (args_ok a -> has_octets (DL_Paging i t b 0) = true) -> lsat P (iu_page (stack E) i t l r b) (mkW (w_st w) (EApi a :: w_tr w))).
  { intros i t l r b H. unfold iu_page, lsat. rewrite bind_get. destruct (lac_rac_find_legacy _ _ _) as [n|]; [|apply ls_ret].
    apply (lsat_bind (tx_paging_cmd (stack E) (n_addr n) i t b 0)); [apply lsat_paging, H|intros; apply ls_ret]. }
  destruct a as [b p nas sapi|p ik ck send_ck nk|p i|p c|p c n|p|p m|p r|i t l|i t l r|i t l|i t r]; cbv beta iota in *.
  - destruct p as [p|]; cbn [iu_tx]; [|apply ls_ret]. apply lsat_bind; [apply ls_deref|]. intros u w1 Hw. apply deref_keeps in Hw. subst w1.
    apply lsat_bind; [apply ls_emit|]. intros [] w1 Hw. injection Hw as <-. cbn [w_st w_tr].
    apply lsat_bind; [|intros; apply ls_send]. apply (lsat_encode _ _ (w_st w) [ENasFree b] (w_tr w)); [eauto|exact Ho].
  - unfold tx_sec_mode_cmd. apply lsat_bind; [apply (lsat_encode _ _ (w_st w) [] (w_tr w)); auto|]. intros m w1 _. apply ls_bind; [apply ls_deref|intros; apply ls_send].
  - unfold tx_common_id. apply lsat_bind; [apply ls_deref|]. intros u w1 Hw. apply deref_keeps in Hw. subst w1.
    apply lsat_bind; [apply (lsat_encode _ _ (w_st w) [] (w_tr w)); auto|intros; apply ls_send].
  - apply lsat_release, Ho.
  - apply lsat_bind; [|intros; apply ls_ret]. unfold tx_release_free. apply lsat_bind; [apply ls_deref|]. intros u w1 Hw. apply deref_keeps in Hw. subst w1.
    unfold lsat. rewrite bind_get, bind_put.
    match goal with |- snd (?m ?v) = None -> _ => change (lsat P m v) end.
    apply lsat_bind; [apply lsat_release, Ho|]. intros rc w1 _. apply ls_bind; [apply ls_get|intros; apply ls_put].
  - apply lsat_bind; [|intros; apply ls_ret]. destruct p as [p|]; cbn [free_ue]; [|apply ls_ret].
    apply ls_bind; [apply ls_deref|]. intros u. apply ls_bind; [apply ls_send|]. intros z. apply ls_bind; [apply ls_get|intros; apply ls_put].
  - unfold rab_act. apply ls_bind; [apply ls_deref|intros; apply ls_send].
  - apply ls_ret.
  - apply Hpage, Ho.
  - apply Hpage, Ho.
  - unfold page_cs2, lsat. rewrite bind_get. apply lsat_loop, Ho.
  - unfold page_ps2, lsat. rewrite bind_get. apply lsat_loop, Ho.
Qed.
Lemma ls_apis l : ls P (run_apis (stack E) l).
Proof. induction l; cbn [run_apis]; [apply ls_ret|]. apply ls_bind; [apply ls_api|intros; assumption]. Qed.
Lemma ls_callback e : ls P (callback (stack E) e).
Proof. unfold callback. apply ls_bind; [apply ls_emit|]. intros _. apply ls_bind; [apply ls_trace|]. intros t. apply ls_apis. Qed.
Lemma ls_event p ev : ls P (global_iu_event (stack E) p ev).
Proof.
  unfold global_iu_event. destruct (negb _); [apply ls_ret|]. apply ls_bind.
  - destruct p; [|apply ls_ret]. apply ls_bind; [apply ls_deref|intros; apply ls_ret].
  - intros ok. destruct (negb ok); [apply ls_ret|]. apply ls_bind; [apply ls_callback|]. intros _. apply ls_bind; [apply ls_trace|intros; apply ls_ret].
Qed.
Lemma ls_register id r a : ls P (rnc_register (stack E) id r a).
Proof.
  assert (Hn : forall i x, ls P (event_new_area (stack E) i x)).
  { intros i x. unfold event_new_area. apply ls_bind; [apply ls_event|intros; apply ls_ret]. }
  unfold rnc_register. apply ls_bind; [apply ls_get|]. intros s. apply ls_bind.
  - destruct (rnc_id_find s id); [|unfold rnc_alloc; apply ls_bind; [apply ls_get|intros; apply ls_bind; [apply ls_put|intros; apply ls_ret]]].
    apply ls_bind; [|intros; apply ls_ret]. destruct (same_sccp_addr _ _ _); [apply ls_ret|apply ls_put].
  - intros p. apply ls_bind; [apply ls_get|]. intros s'. destruct (lac_rac_find s' r) as [old|].
    + destruct (negb _); [|apply ls_ret]. apply ls_bind; [apply ls_put|]. intros _. apply ls_bind; [apply Hn|intros; apply ls_ret].
    + apply ls_bind; [apply ls_put|]. intros _. apply ls_bind; [apply Hn|intros; apply ls_ret].
Qed.
Lemma ls_free p : ls P (free_ue (stack E) p).
Proof.
  destruct p as [p|]; cbn [free_ue]; [|apply ls_ret].
  apply ls_bind; [apply ls_deref|]. intros u. apply ls_bind; [apply ls_send|]. intros z. apply ls_bind; [apply ls_get|intros; apply ls_put].
Qed.
Lemma ls_link p : ls P (link_invalidated_free (stack E) p).
Proof.
  unfold link_invalidated_free. apply ls_bind; [apply ls_deref|]. intros u. apply ls_bind; [apply ls_event|]. intros z. apply ls_bind; [apply ls_get|].
  intros s. destruct (ue_conn_ctx_find s (u_conn u)) as [v|]; [|apply ls_ret]. destruct (u_for v); [apply ls_free|apply ls_ret].
Qed.

(* the walk over the contexts does not run away *)
Lemma loop_located (Hfree : frees_none_older (stack E)) r : forall fuel suf pre w,
  ues_ok (w_st w) -> dist (w_st w) -> s_ues (w_st w) = pre ++ suf -> List.length suf <= fuel ->
  lsat P (invalidate_loop (stack E) fuel (head_ptr suf) r) w.
Proof.
  induction fuel as [|fuel IH]; intros suf pre w Q D Hs Hlen.
  { destruct suf; [|cbn in Hlen; lia]. cbn [head_ptr invalidate_loop]. apply ls_ret. }
  destruct suf as [|u suf]; [cbn [head_ptr invalidate_loop]; apply ls_ret|]. cbn [head_ptr].
  assert (Hi : In u (s_ues (w_st w))) by (rewrite Hs; apply in_app_iff; right; left; reflexivity).
  pose proof (live_good _ _ Q Hi) as Hl. unfold lsat. rewrite (loop_step _ _ _ _ _ _ Hl).
  match goal with |- snd (?m w) = None -> _ => change (lsat P m w) end.
  assert (Hn : NoDup (map u_ptr (pre ++ u :: suf))) by (rewrite <- Hs; apply sorted_nodup, (q_sorted _ Q)).
  cbn [List.length] in Hlen. assert (Hs2 : pre ++ u :: suf = (pre ++ [u]) ++ suf) by (rewrite <- app_assoc; reflexivity).
  rewrite Hs. rewrite (succ_app _ _ _ Hn). destruct (u_rnc u =? r)%N.
  - destruct (link_spec (stack E) (u_ptr u) u w Q D Hl) as (t&Ht&Ha&_&_&Happ&Hok&_). cbv zeta in *.
    apply lsat_bind; [apply ls_link|]. intros [] w1 Hw1. rewrite Hw1 in *. cbn [fst snd] in *.
    destruct (Hok ltac:(discriminate)) as (_&Hoth&_).
    assert (Q1 : ues_ok (w_st w1)) by (eapply keep_ues_ok; [apply api_keep, Ha|exact Q]).
    assert (Hle : ues_le (s_ues (w_st w)) (s_ues (w_st w1))) by apply Ha.
    assert (D1 : dist (w_st w1)) by (eapply ues_le_conns; eauto).
    rewrite Hs, Hs2 in Hle. rewrite Hs2 in Hn.
    destruct (ues_le_suffix_ptrs _ _ _ Hle Hn) as (a'&b'&Hs1&Hb').
    { intros v Hv.
      assert (Hvu : u_ptr v <> u_ptr u).
      { intros He. rewrite <- Hs2, map_app in Hn. cbn [map] in Hn. apply NoDup_remove_2 in Hn.
        apply Hn, in_app_iff. right. rewrite <- He. apply in_map, Hv. }
      destruct (Hoth v) as (v'&Hv'&Hlev&_); auto.
      - rewrite Hs. apply in_app_iff. right. right. exact Hv.
      - intros Hf. apply Happ in Hf. apply Hfree in Hf.
        pose proof (q_sorted _ Q) as Hso. rewrite Hs in Hso. pose proof (sorted_older _ _ _ _ Hso Hv). lia.
      - exists v'. split; [exact Hv'|apply Hlev]. }
    rewrite (head_ptr_map _ _ (eq_sym Hb')). apply IH with (pre := a'); auto.
    rewrite <- (map_length u_ptr), Hb', map_length. lia.
  - apply lsat_bind; [apply ls_ret|]. intros [] w1 Hw1. injection Hw1 as <-.
    apply IH with (pre := pre ++ [u]); auto; [rewrite Hs; exact Hs2|lia].
Qed.
Lemma rncs_located (Hfree : frees_none_older (stack E)) hit : forall l w,
  ues_ok (w_st w) -> dist (w_st w) -> lsat P (invalidate_rncs (stack E) l hit) w.
Proof.
  induction l as [|n l IH]; intros w Q D; cbn [invalidate_rncs]; [apply ls_ret|].
  apply lsat_bind.
  - destruct (hit n); [|apply ls_ret]. unfold invalidate_rnc, lsat. rewrite bind_get, first_head.
    apply (loop_located Hfree (n_ptr n) _ (s_ues (w_st w)) []); auto.
  - intros [] w1 Hw1.
    assert (G : gpres no_new_area (if hit n then invalidate_rnc (stack E) (n_ptr n) else ret tt)).
    { destruct (hit n); [|apply gpres_ret]. unfold invalidate_rnc. apply gpres_bind; [apply gpres_get, nna_api|].
      intros s. apply gp_invalidate_loop. }
    destruct (G w) as (K&_). rewrite Hw1 in K. cbn [fst] in K.
    apply IH; [eapply keep_ues_ok; eauto|eapply ues_le_conns; [apply K|exact D]].
Qed.

(* ---------------- the handlers ---------------- *)
(* the same client under an application that calls nothing *)
Definition hushed : env :=
  mkEnv (dec_co E) (dec_cl E) (dec_item E) (enc_ok E) (send E) (fun _ => []) (app_rc E) (has_event_cb E) (addr_dump E) (ri_match E).
Lemma hushed_quiet : quiet hushed. Proof. intros t. reflexivity. Qed.
Definition lq {A} (m mq : M A) (w : world) : Prop := snd (m w) = None -> snd (mq w) = None \/ in_call (fst (m w)).
Lemma lq_of {A} (m mq : M A) w : (snd (mq w) = None -> P) -> lq m mq w -> lsat P m w.
Proof. intros H Hl Hc. destruct (Hl Hc); auto. Qed.
End Crash.

Section Handlers.
Variable E : env.
Lemma lq_same {A} (m : M A) w : lq m m w. Proof. intros H. left. exact H. Qed.
Lemma lq_ls {A} (m mq : M A) w : ls False m -> lq m mq w. Proof. intros H Hc. right. destruct (H w Hc) as [[]|H']. exact H'. Qed.
Lemma lq_bind {A B} (m : M A) (k kq : A -> M B) w : (forall a w', m w = (w', Some a) -> lq (k a) (kq a) w') -> lq (bind m k) (bind m kq) w.
Proof. intros Hk. unfold lq, bind in *. destruct (m w) as [w' [a|]]; cbn [fst snd] in *; auto. Qed.
Lemma lq_fin {A B} (m mq : M A) (b : B) w : lq m mq w -> lq (bind m (fun _ => ret b)) (bind mq (fun _ => ret b)) w.
Proof.
  unfold lq, bind. intros H. destruct (m w) as [w' [a|]]; cbn [fst snd ret] in *; [discriminate|]. intros _. specialize (H eq_refl).
  destruct H as [H|H]; [left|right; exact H]. destruct (mq w) as [w2 [x|]]; [discriminate|reflexivity].
Qed.
Lemma lq_initial_ue conn a i w : lq (handle_co_initial_ue (stack E) conn a i) (handle_co_initial_ue (stack (hushed E)) conn a i) w.
Proof.
  unfold handle_co_initial_ue. apply lq_bind. intros _ w1 _. apply lq_bind. intros [rc ra] w2 _. destruct (negb _); [apply lq_same|].
  apply lq_bind. intros rac w3 _. destruct (_ && _)%bool; [apply lq_same|]. apply lq_bind. intros [id|] w4 _; [|apply lq_same].
  apply lq_bind. intros sai w5 _. apply lq_bind. intros _ w6 _. apply lq_ls.
  apply ls_bind; [apply ls_register|]. intros n. apply ls_bind.
  { unfold ue_conn_ctx_alloc. apply ls_bind; [apply ls_get|intros; apply ls_bind; [apply ls_put|intros; apply ls_ret]]. }
  intros p. apply ls_bind; [apply ls_get|]. intros s. apply ls_bind; [apply ls_put|]. intros _. apply ls_bind; [apply ls_callback|]. intros _.
  apply ls_bind; [apply ls_emit|intros; apply ls_ret].
Qed.
Lemma lq_dt p d w : lq (handle_co_dt (stack E) p d) (handle_co_dt (stack (hushed E)) p d) w.
Proof.
  unfold handle_co_dt. apply lq_bind. intros _ w1 _. apply lq_bind. intros [[ra sai]|] w2 _; [|apply lq_same].
  apply lq_bind. intros _ w3 _. apply lq_ls. apply ls_bind; [apply ls_callback|]. intros _. apply ls_bind; [apply ls_emit|intros; apply ls_ret].
Qed.
Lemma lq_initial conn a m w : lq (handle_co_initial (stack E) conn a m) (handle_co_initial (stack (hushed E)) conn a m) w.
Proof.
  unfold handle_co_initial. destruct (_ || _)%bool; [apply lq_same|]. destruct (m_ies m); try apply lq_same. apply lq_fin, lq_initial_ue.
Qed.
Lemma lq_co p m w : lq (handle_co (stack E) p m) (handle_co (stack (hushed E)) p m) w.
Proof.
  unfold handle_co. apply lq_fin.
  destruct (_ =? PR_initiatingMessage)%N.
  - destruct (_ =? id_InitialUE_Message)%N; [apply lq_same|].
    destruct (_ =? id_DirectTransfer)%N; [destruct (m_ies m); try apply lq_same; apply lq_dt|].
    destruct (_ =? id_ErrorIndication)%N; [apply lq_same|].
    destruct (_ =? id_Iu_ReleaseRequest)%N; [|apply lq_same]. destruct (m_ies m); try apply lq_same.
  - destruct (_ =? PR_successfulOutcome)%N.
    + destruct (_ =? id_SecurityModeControl)%N; [apply lq_ls, ls_event|]. destruct (_ =? id_Iu_Release)%N; [apply lq_ls, ls_event|apply lq_same].
    + destruct (_ =? PR_outcome)%N; [|apply lq_same]. destruct (_ =? id_RAB_Assignment)%N; [|apply lq_same].
      destruct (m_ies m) as [| | | |items| |]; try apply lq_same. unfold handle_co_rab_ass_resp. apply lq_bind. intros u w1 _.
      destruct items as [[|item its]|]; try apply lq_same. apply lq_bind. intros [x|] w2 _; [apply lq_ls, ls_event|apply lq_same].
Qed.
Lemma first_located (P : Prop) conn a data w : (fatal_first (rx_cn_co data) -> P) -> lsat P (rx_co (stack E) data (handle_co_initial (stack E) conn a)) w.
Proof.
  intros H. apply (lq_of P _ (rx_co (stack (hushed E)) data (handle_co_initial (stack (hushed E)) conn a))).
  - intros Hc. apply H. apply (first_crash (hushed E) conn a data w (hushed_quiet E)). exact Hc.
  - unfold rx_co. cbn [stack dec_co]. destruct (shown_to_handler _); [apply lq_initial|apply lq_same].
Qed.
Lemma later_located (P : Prop) p data w : live (w_st w) p <> None -> (fatal_later (rx_cn_co data) -> P) -> lsat P (rx_co (stack E) data (handle_co (stack E) p)) w.
Proof.
  intros Hl H. destruct (live (w_st w) p) as [u|] eqn:Hu; [|destruct (Hl eq_refl)].
  apply (lq_of P _ (rx_co (stack (hushed E)) data (handle_co (stack (hushed E)) p))).
  - intros Hc. apply H. apply (later_crash (hushed E) p u data w (hushed_quiet E) Hu). exact Hc.
  - unfold rx_co. cbn [stack dec_co]. destruct (shown_to_handler _); [apply lq_co|apply lq_same].
Qed.

Lemma exec_located (Hfree : frees_none_older (stack E)) o w : good (w_st w) -> dist (w_st w) -> lsat (kills (w_st w) o) (exec (stack E) o) w.
Proof.
  intros G D. destruct (is_loss_ind o) eqn:Hlo.
  { unfold lsat. rewrite (loss_eq (stack E) o w Hlo).
    match goal with |- snd (?m w) = None -> _ => change (lsat (kills (w_st w) o) m w) end.
    apply lsat_bind; [|intros; apply ls_emit]. apply rncs_located; auto. apply (g_ues _ G). }
  set (K := kills (w_st w) o).
  destruct o as [c a l2| |c l2|c l2|a l2|a c|pc sp rem| | |p|a]; try discriminate Hlo; cbn [exec].
  - unfold sccp_sap_up. apply lsat_bind; [|intros; apply ls_emit]. apply lsat_bind; [apply ls_send|]. intros z w1 _. destruct l2 as [|b l2].
    + unfold sccp_addr_add. apply ls_bind; [apply ls_get|intros; apply ls_put].
    + apply first_located. intros H. unfold K. cbn [kills]. split; [discriminate|exact H].
  - discriminate.
  - destruct (ue_on (w_st w) c) as [u|] eqn:Hon.
    2:{ pose proof (disc_none_l (stack E) w c l2 Hon) as He. cbn [exec] in He. unfold lsat. rewrite He. discriminate. }
    pose proof (disc_some (stack E) w c l2 u Hon) as He. cbn [exec] in He. unfold lsat. rewrite He.
    match goal with |- snd (?m ?v) = None -> _ => change (lsat K m v) end.
    apply lsat_bind.
    + destruct l2 as [|b l2]; [apply ls_ret|]. apply later_located; [apply (live_on _ c); exact Hon|].
      intros H. unfold K. cbn [kills]. rewrite Hon. split; [discriminate|]. split; [discriminate|exact H].
    + intros [] w1 Hw1. apply ls_bind; [apply ls_get|]. intros s. apply ls_bind; [|intros; apply ls_emit].
      destruct (ue_conn_ctx_find s c); [apply ls_link|apply ls_ret].
  - unfold sccp_sap_up, lsat. rewrite bind_assoc, bind_get. unfold ue_conn_ctx_find. fold (ue_on (w_st w) c).
    unfold K. cbn [kills]. change (pending (w_st w) c) with (sccp_addr_find (w_st w) c).
    destruct (ue_on (w_st w) c) as [u|] eqn:Hon; match goal with |- snd (?m w) = None -> ?Q \/ _ => change (lsat Q m w) end.
    + apply lsat_bind; [|intros; apply ls_emit]. apply later_located; [apply (live_on _ c), Hon|auto].
    + apply lsat_bind; [|intros; apply ls_emit]. destruct (sccp_addr_find (w_st w) c) as [a|]; [|apply ls_ret].
      apply lsat_bind; [unfold sccp_addr_del; apply ls_bind; [apply ls_get|intros; apply ls_put]|].
      intros [] w1 _. apply first_located. intros H. split; [discriminate|exact H].
  - intros Hc. destruct (unitdata_runs E a l2 w Hc).
  - discriminate.
  - discriminate.
  - unfold timer_fires. apply ls_bind; [apply ls_get|]. intros s. destruct (live s p) as [u|]; [|apply ls_ret]. destruct (u_timer u); [|apply ls_ret].
    apply ls_bind; [apply ls_put|]. intros _. apply ls_bind; [apply ls_event|intros; apply ls_ret].
  - apply ls_api.
Qed.

Lemma crash_l : forall l, frees_none_older E -> fresh_conns (stack E) l -> snd (run (stack E) l w0) = None ->
  misused (reach (stack E) l) \/
  exists l1 o l2, l = l1 ++ o :: l2 /\ snd (run (stack E) l1 w0) = Some tt /\ kills (w_st (reach (stack E) l1)) o.
Proof.
  intros l Hfree Hf Hs.
  assert (Hx : in_call (reach (stack E) l) \/
    exists l1 o l2, l = l1 ++ o :: l2 /\ snd (run (stack E) l1 w0) = Some tt /\ kills (w_st (reach (stack E) l1)) o).
  { induction l as [|o l IH] using rev_ind; [discriminate|].
    pose proof (fresh_prefix _ _ _ Hf) as Hf'. specialize (IH Hf').
    pose proof (reach_good (stack E) l) as G. pose proof (reach_dist (stack E) l Hf') as D.
    pose proof (exec_located Hfree o (reach (stack E) l) G D) as Hu. rewrite reach_snoc. rewrite run_app in Hs.
    unfold reach in *. unfold bind in Hs. destruct (run (stack E) l w0) as [w [[]|]] eqn:Er; cbn [fst snd] in *.
    - cbn [run] in Hs. unfold bind, lsat in *. destruct (exec (stack E) o w) as [w' [[]|]]; cbn [fst snd] in *; [discriminate|].
      destruct (Hu eq_refl) as [H|H]; [right|left; exact H]. exists l, o, []. rewrite Er. auto.
    - destruct (IH eq_refl) as [H|(l1&o'&l2&->&H)]; [left; exact H|right]. exists l1, o', (l2 ++ [o]). split; [rewrite <- app_assoc; reflexivity|exact H]. }
  destruct Hx as [(f&r&Hw&[->|(t&a&t'&->&Ht&Ha)])|Hx]; [left|left|right; exact Hx].
  - destruct (memory_safe_l (stack E) l Hfree Hf) as (a&p&rest&H1&H2&H3).
    + intros i. cbn [stack dec_item]. unfold decode_item. destruct (decode _ _); discriminate.
    + rewrite Hw. left. reflexivity.
    + exists UseAfterFree, a, [], rest. split; [exact H1|]. split; [left; reflexivity|]. left. eauto.
  - exists f, a, t, t'. auto.
Qed.
Lemma kills_crash s w o : kills (w_st w) o -> s = w -> snd (exec (stack E) o s) = None.
Proof.
  intros H ->. destruct o; cbn [kills] in H; try contradiction.
  - destruct H as [H1 H2]. apply any_connect; assumption.
  - destruct H as (H1&H2&H3). apply any_disconnect; assumption.
  - apply any_data, H.
Qed.
Lemma crash_iff : forall l, frees_none_older E -> fresh_conns (stack E) l ->
  (snd (run (stack E) l w0) = None <->
   misused (reach (stack E) l) \/
   exists l1 o l2, l = l1 ++ o :: l2 /\ snd (run (stack E) l1 w0) = Some tt /\ kills (w_st (reach (stack E) l1)) o).
Proof.
  intros l Hfree Hf. split; [apply crash_l; assumption|]. intros [(f&a&t&t'&Hw&_)|(l1&o&l2&->&Hs&Hk)].
  - pose proof (reach_faults (stack E) l) as H. destruct (snd (run (stack E) l w0)) as [[]|]; [|reflexivity]. rewrite Hw in H. discriminate.
  - rewrite run_app. unfold reach in Hk. unfold bind. destruct (run (stack E) l1 w0) as [w [[]|]]; cbn [fst snd] in *; [|reflexivity].
    cbn [run]. pose proof (kills_crash w w o Hk eq_refl) as H. unfold bind. destruct (exec (stack E) o w) as [w' [[]|]]; [discriminate|reflexivity].
Qed.
End Handlers.
