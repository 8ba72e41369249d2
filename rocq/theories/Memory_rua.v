(* What follows for the calls, and the RUA factory. *)
From Verif Require Import Base Aper Container Helpers RanapTypes RuaTypes RanapTab RuaTab Factory_spec Factory RuaFactory Aper_spec Aper_proofs Aper_valid Container_proofs AllMsgs Memory_spec Memory Memory_proofs Memory_calls.
From Coq Require Import String List Lia.
Local Open Scope list_scope.

Lemma m0_denied s n ks : (mkMst n (ks ++ q_denied m0) = s) -> q_denied s = ks.
Proof. intros <-. cbn. apply app_nil_r. Qed.
Lemma granted deny c m r s : do_call c = Ok m -> do_call_m deny c m0 = (r, s) -> q_denied s = [] -> r = Ok (r_msg m).
Proof.
  intros E H Hd. destruct s as [n d]. cbn in Hd. subst d. symmetry. eapply (U_call deny c m E m0). exact H.
Qed.
Lemma reported deny c m r s k : do_call c = Ok m -> do_call_m deny c m0 = (r, s) -> In k (q_denied s) -> looked_at k = true -> r = Ok None.
Proof.
  intros E H Hd Hk. destruct s as [n d]. cbn in Hd, Hk. eapply (L_call deny c m E m0 d n r); [|apply existsb_exists; exists k; split; assumption].
  rewrite H. cbn [q_denied m0]. rewrite app_nil_r. reflexivity.
Qed.
Lemma crash_temp deny c m f s : do_call c = Ok m -> do_call_m deny c m0 = (Fault f, s) -> In ATemp (q_denied s).
Proof.
  intros E H. destruct (W_call deny c m E m0) as (ks & r & n & E' & _ & F). rewrite H in E'. injection E' as <- ->. cbn. rewrite app_nil_r. apply (F f eq_refl).
Qed.
Lemma ends_no_crash A (m : mem A) : W ends m -> exists r, fst (m m0) = Ok r.
Proof.
  intro H. destruct (H m0) as (ks & r & n & E & F1 & F2). rewrite E. destruct r as [a|f]; [exists a; reflexivity|].
  specialize (F2 f eq_refl). rewrite forallb_forall in F1. specialize (F1 _ F2). discriminate F1.
Qed.
Lemma plain_no_crash deny c : heap_args c = false -> exists r, fst (do_call_m deny c m0) = Ok r.
Proof.
  intro H. apply ends_no_crash. destruct c; try discriminate H; cbn [do_call_m]; cbv zeta; try apply W_fin.
  - destruct imsi; [discriminate H|]. unfold common_id_m. cbv zeta. apply W_fin.
  - unfold reset_resource_m. cbv zeta. destruct ids as [|i [|]]; try apply W_ret. apply W_bind; [apply W_ies|]. intros [l|]; [apply W_fin|apply W_ret].
Qed.

(* ---------------- RUA ---------------- *)
Lemma rows_inv deny m s rows : (forall r, In r rows -> (r_id r <= 65535)%N /\ In (r_crit r) [0; 1; 2]%Z) ->
  forall fields l st c st', (forall ie, In ie (ce_items l) -> valid std_ie ie) -> add_rows_m deny m s rows fields l st = (Ok (Some c), st') ->
  (forall ie, In ie (ce_items c) -> valid std_ie ie) /\ List.length (ce_items c) <= List.length (ce_items l) + List.length rows.
Proof.
  intro Hr. induction rows as [|r rs IH]; intros fields l st c st' Hl E; destruct fields as [|f fs]; cbn [add_rows_m] in E;
    try (injection E as <- _; split; [exact Hl|cbn [List.length]; lia]); try discriminate E.
  assert (IH' := IH (fun x Hx => Hr x (or_intror Hx))). clear IH.
  destruct (wanted m s r).
  2: { destruct (IH' _ _ _ _ _ Hl E) as [H1 H2]. split; [exact H1|cbn [List.length]; lia]. }
  destruct f as [v|]; [|discriminate E]. unfold mbind in E.
  destruct (new_ie_m deny r v st) as [[ie|f] st1] eqn:E1; [|discriminate E]. destruct ie as [ie|]; [|discriminate E].
  assert (Hie : new_ie r v = Some ie).
  { unfold new_ie_m, mbind, ask, mret in E1. destruct (deny _ AIe); [discriminate E1|]. destruct (deny _ AValue); [discriminate E1|]. injection E1 as E1 _. exact E1. }
  assert (Hv : valid std_ie ie) by (destruct (Hr r (or_introl eq_refl)); eapply new_ie_valid; eassumption).
  destruct (add deny l ie st1) as [[l1|f] st2] eqn:E2; [|discriminate E].
  assert (Hl1 : (forall x, In x (ce_items l1) -> valid std_ie x) /\ List.length (ce_items l1) <= List.length (ce_items l) + 1).
  { assert (C : ce_items l1 = ce_items l \/ ce_items l1 = ce_items l ++ [ie]).
    { unfold add, mbind, ask, mret in E2. destruct (_ =? _)%nat.
      - destruct (deny _ ACell); injection E2 as <- _; [left|right]; reflexivity.
      - injection E2 as <- _. right. reflexivity. }
    destruct C as [->| ->]; [split; [exact Hl|lia]|]. rewrite app_length. split; [|cbn [List.length]; lia].
    intros x Hx. apply in_app_or in Hx. destruct Hx as [Hx|[<-|[]]]; [apply Hl; exact Hx|exact Hv]. }
  destruct Hl1 as [G1 G2]. destruct (IH' _ _ _ _ _ G1 E) as [H1 H2]. split; [exact H1|cbn [List.length]; lia].
Qed.
(* the list that is left can be encoded *)
Lemma ies_encode deny m s st l st' : In m all_msgs -> add_ies_m deny m s st = (Ok (Some l), st') -> exists o, encode (m_cont m) (list_val l) = Some o.
Proof.
  intros Hm E. unfold add_ies_m, mbind, mret in E. destruct (add_rows_m deny m s (m_rows m) (i_fields s) no_cells st) as [[[c|]|f] st1] eqn:E1; try discriminate E.
  injection E as <- _. destruct (tab_parts m (all_ok m Hm)) as (_ & _ & H100 & Hrow).
  destruct (rows_inv deny m s (m_rows m)) with (2 := fun ie (H : In ie (ce_items (@no_cells val))) => False_ind (valid std_ie ie) H) (3 := E1) as [H1 H2].
  { intros r Hr. destruct (Hrow r Hr) as (A & B & _). split; assumption. }
  cbn [ce_items no_cells List.length Nat.add] in H2. rewrite (all_cont m Hm).
  destruct (encode_total std_cont (list_val (ce_items c)) eq_refl) as (o & Ho & _); [|exists o; exact Ho].
  apply cont_valid; [lia|exact H1].
Qed.
Definition tokens (k : akind) : bool := match k with AIe | AValue => true | _ => false end.
(* the requests for the list of IEs *)
Definition ie_kinds (k : akind) : bool := match k with AIe | AValue | ACell => true | _ => false end.
Lemma W_only_ies deny m s : W ie_kinds (add_ies_m deny m s).
Proof.
  unfold add_ies_m. apply W_bind; [|intro; apply W_ret]. generalize (@no_cells val). generalize (i_fields s). generalize (m_rows m).
  induction l as [|r rs IH]; intros fields l; destruct fields as [|f fs]; cbn [add_rows_m]; try apply W_ret.
  destruct (wanted m s r); [|apply IH]. destruct f as [v|]; [|apply W_ret].
  apply W_bind.
  - unfold new_ie_m. apply W_bind; [apply W_ask; reflexivity|]. intros []; [|apply W_ret]. apply W_bind; [apply W_ask; reflexivity|]. intros []; apply W_ret.
  - intros [ie|]; [|apply W_ret]. apply W_bind; [apply W_add; reflexivity|intro; apply IH].
Qed.
(* what the common end does, whatever is denied *)
Definition end_trace (o : outcome wrapped) (m : mem (option (list N * N))) : Prop :=
  forall st, exists ks r n, m st = (r, mkMst n (ks ++ q_denied st)) /\
  (forall w, o = Ok w -> ks = [] -> r = Ok (w_msg w)) /\
  ((exists f, r = Fault f) <-> In ABody ks \/ In AMsg ks) /\
  (existsb tokens ks = true -> r = Ok None).
Lemma rua_end_trace deny p m s pre : In m all_msgs -> end_trace (rua_end p m s pre) (rua_end_m deny p m s).
Proof.
  intros Hm st. unfold rua_end_m. unfold mbind at 1. destruct (W_only_ies deny m s st) as (ks & r & n & E & F1 & F2). rewrite E. destruct r as [l|f].
  2: { specialize (F2 f eq_refl). rewrite forallb_forall in F1. specialize (F1 _ F2). discriminate F1. }
  assert (Hl : ks = [] -> l = snd (add_ies m s)).
  { intros ->. assert (X := U_ies deny m s st n (Ok l) E). injection X as ->. reflexivity. }
  assert (HB : In ABody ks \/ In AMsg ks -> False).
  { rewrite forallb_forall in F1. intros [H|H]; apply F1 in H; discriminate H. }
  assert (HL : existsb tokens ks = true -> l = None).
  { intros Ht. assert (existsb looked_at ks = true) as Y.
    { apply existsb_exists in Ht. destruct Ht as (k & Hk & Ht). apply existsb_exists. exists k. split; [exact Hk|]. destruct k; try discriminate Ht; reflexivity. }
    assert (X := L_ies deny m s st ks n (Ok l) E Y). injection X as ->. reflexivity. }
  destruct l as [l|].
  2: { exists ks, (Ok None), n. split; [reflexivity|]. split; [|split; [split; [intros (f&H); discriminate H|intro H; destruct (HB H)]|reflexivity]]. intros w Hw Hk.
       unfold rua_end in Hw. destruct (add_ies m s) as [t o]. cbn [snd] in Hl. rewrite <- (Hl Hk) in Hw. injection Hw as <-. reflexivity. }
  destruct (ies_encode deny m s st l _ Hm E) as (o & Eo).
  assert (HT : existsb tokens ks = false) by (destruct (existsb tokens ks); [specialize (HL eq_refl); discriminate HL|reflexivity]).
  unfold generate_m. rewrite Eo. unfold mbind, ask, mret, mcrash. cbn [q_next q_denied].
  destruct (deny n ABody).
  { exists (ABody :: ks), (Fault NullDeref), (S n). split; [reflexivity|]. split; [intros w Hw X; discriminate X|].
    split; [split; [intros; left; left; reflexivity|eexists; reflexivity]|cbn [existsb tokens orb]; rewrite HT; discriminate]. }
  cbn [q_next q_denied]. destruct (deny (S n) AMsg).
  { exists (AMsg :: ks), (Fault NullDeref), (S (S n)). split; [reflexivity|]. split; [intros w Hw X; discriminate X|].
    split; [split; [intros; right; left; reflexivity|eexists; reflexivity]|cbn [existsb tokens orb]; rewrite HT; discriminate]. }
  exists ks, (Ok (Some (gen_msg rua (pdu_val 1 p 0 o), ppi_rua))), (S (S n)). split; [reflexivity|]. split; [|split; [split; [intros (f&H); discriminate H|intro H; destruct (HB H)]|]].
  - intros w Hw Hk. unfold rua_end in Hw. destruct (add_ies m s) as [t x]. cbn [snd] in Hl. rewrite <- (Hl Hk) in Hw.
    unfold generate in Hw. rewrite Eo in Hw. injection Hw as <-. reflexivity.
  - rewrite HT. discriminate.
Qed.
Lemma copy_trace deny (d : list N) o k : (forall d', end_trace (if list_eq_dec N.eq_dec d d' then o else Fault NullDeref) (k d')) ->
  end_trace o (mbind (copy deny d) k).
Proof.
  intros H st. unfold copy, mbind, ask, mret. destruct (deny (q_next st) ACopy).
  - destruct (H [] (mkMst (S (q_next st)) (ACopy :: q_denied st))) as (ks & r & n & E & H1 & H2 & H3). rewrite E. exists (ks ++ [ACopy]), r, n. cbn [q_denied]. rewrite <- app_assoc.
    split; [reflexivity|]. split; [intros w Hw X; destruct ks; discriminate X|]. split.
    + rewrite H2. rewrite !in_app_iff. cbn [In]. split; [tauto|]. intros [[X|[X|[]]]|[X|[X|[]]]]; try discriminate X; tauto.
    + intros X. rewrite existsb_app in X. cbn [existsb tokens orb] in X. rewrite orb_false_r in X. exact (H3 X).
  - destruct (H d (mkMst (S (q_next st)) (q_denied st))) as (ks & r & n & E & H1 & H2 & H3). rewrite E. exists ks, r, n. split; [reflexivity|].
    destruct (list_eq_dec N.eq_dec d d); [|contradiction]. auto.
Qed.
Lemma end_fault o m : end_trace o m -> forall d d' : list N, d <> d' -> end_trace (if list_eq_dec N.eq_dec d d' then o else Fault NullDeref) m.
Proof.
  intros H d d' Hd st. destruct (list_eq_dec N.eq_dec d d'); [contradiction|]. destruct (H st) as (ks & r & n1 & E & _ & H2). exists ks, r, n1.
  split; [exact E|]. split; [intros w X; discriminate X|exact H2].
Qed.
Lemma rua_in_1 : In M_RUA_ConnectionlessTransferIEs all_msgs. Proof. apply in_or_app; right; apply in_or_app; left. unfold rua_msgs. repeat (first [left; reflexivity | right]). Qed.
Lemma rua_in_2 : In M_RUA_ConnectIEs all_msgs. Proof. apply in_or_app; right; apply in_or_app; left. unfold rua_msgs. repeat (first [left; reflexivity | right]). Qed.
Lemma rua_in_3 : In M_RUA_DirectTransferIEs all_msgs. Proof. apply in_or_app; right; apply in_or_app; left. unfold rua_msgs. repeat (first [left; reflexivity | right]). Qed.
Lemma rua_in_4 : In M_RUA_DisconnectIEs all_msgs. Proof. apply in_or_app; right; apply in_or_app; left. unfold rua_msgs. repeat (first [left; reflexivity | right]). Qed.
Lemma copy_end deny d p m (f : list N -> ies) pre : In m all_msgs ->
  end_trace (rua_end p m (f d) pre) (mbind (copy deny d) (fun d => rua_end_m deny p m (f d))).
Proof.
  intro Hm. apply copy_trace. intro d'. destruct (list_eq_dec N.eq_dec d d') as [->|Hd].
  - apply rua_end_trace. exact Hm.
  - assert (X := end_fault _ _ (rua_end_trace deny p m (f d') pre Hm) d d' Hd). destruct (list_eq_dec N.eq_dec d d'); [contradiction|exact X].
Qed.
Lemma rua_trace deny c w : do_rua c = Ok w -> end_trace (do_rua c) (do_rua_m deny c).
Proof.
  intro E. destruct c as [[d|]|is_ps id [d|]|is_ps id [d|]|is_ps id [[|x d]|]]; cbn [do_rua do_rua_m] in *; try discriminate E.
  - exact (copy_end deny d 4 _ (fun d => put_ie M_RUA_ConnectionlessTransferIEs "id-RANAP-Message" (VOcts d) (zero M_RUA_ConnectionlessTransferIEs)) copied rua_in_1).
  - unfold rua_new_conn. apply (copy_end deny d 1 M_RUA_ConnectIEs (fun d => put_ie M_RUA_ConnectIEs "id-RANAP-Message" (VOcts d) _) copied rua_in_2).
  - unfold rua_new_dt. apply (copy_end deny d 2 M_RUA_DirectTransferIEs (fun d => put_ie M_RUA_DirectTransferIEs "id-RANAP-Message" (VOcts d) _) copied rua_in_3).
  - apply rua_end_trace. exact rua_in_4.
  - unfold rua_new_disc. apply (copy_end deny (x :: d) 3 M_RUA_DisconnectIEs (fun d => put_ie M_RUA_DisconnectIEs "id-RANAP-Message" (VOcts d) _) copied rua_in_4).
  - apply rua_end_trace. exact rua_in_4.
Qed.
Lemma rua_granted deny c w r s : do_rua c = Ok w -> do_rua_m deny c m0 = (r, s) -> q_denied s = [] -> r = Ok (w_msg w).
Proof.
  intros E H Hd. destruct (rua_trace deny c w E m0) as (ks & r' & n & E' & H1 & _). rewrite H in E'. injection E' as <- ->. cbn in Hd. rewrite app_nil_r in Hd. exact (H1 w E Hd).
Qed.
Lemma rua_crash deny c w r s : do_rua c = Ok w -> do_rua_m deny c m0 = (r, s) ->
  (exists f, r = Fault f) <-> In ABody (q_denied s) \/ In AMsg (q_denied s).
Proof.
  intros E H. destruct (rua_trace deny c w E m0) as (ks & r' & n & E' & _ & H2 & _). rewrite H in E'. injection E' as <- ->. cbn. rewrite app_nil_r. exact H2.
Qed.
Lemma rua_reported deny c w r s : do_rua c = Ok w -> do_rua_m deny c m0 = (r, s) -> In AIe (q_denied s) \/ In AValue (q_denied s) -> r = Ok None.
Proof.
  intros E H Hk. destruct (rua_trace deny c w E m0) as (ks & r' & n & E' & _ & _ & H3). rewrite H in E'. injection E' as <- ->. cbn in Hk. rewrite app_nil_r in Hk.
  apply H3. apply existsb_exists. destruct Hk as [Hk|Hk]; eexists; (split; [exact Hk|reflexivity]).
Qed.
(* requests that are granted *)
Definition no (_ : akind) : bool := false.
Lemma W_granted deny k : (forall n, deny n k = false) -> W no (ask deny k).
Proof. intros H s. exists [], (Ok true), (S (q_next s)). unfold ask. rewrite H. repeat split. intros f X; discriminate X. Qed.
Lemma W_no_ies deny m s : (forall n, deny n AIe = false) -> (forall n, deny n AValue = false) -> (forall n, deny n ACell = false) -> W no (add_ies_m deny m s).
Proof.
  intros H1 H2 H3. unfold add_ies_m. apply W_bind; [|intro; apply W_ret]. generalize (@no_cells val). generalize (i_fields s). generalize (m_rows m).
  induction l as [|r rs IH]; intros fields l; destruct fields as [|f fs]; cbn [add_rows_m]; try apply W_ret.
  destruct (wanted m s r); [|apply IH]. destruct f as [v|]; [|apply W_ret].
  apply W_bind.
  - unfold new_ie_m. apply W_bind; [apply W_granted, H1|]. intros []; [|apply W_ret]. apply W_bind; [apply W_granted, H2|]. intros []; apply W_ret.
  - intros [ie|]; [|apply W_ret]. apply W_bind; [|intro; apply IH]. unfold add. destruct (_ =? _)%nat; [|apply W_ret].
    apply W_bind; [apply W_granted, H3|]. intros []; apply W_ret.
Qed.
(* without memory for the body or the buffer, a call that would make a message crashes *)
Lemma rua_end_crash k p m s pre st w : k = ABody \/ k = AMsg -> rua_end p m s pre = Ok w -> w_msg w <> None ->
  fst (rua_end_m (none_for k) p m s st) = Fault NullDeref.
Proof.
  intros Hk Hw Hn. unfold rua_end_m. unfold mbind at 1. 
  destruct (W_no_ies (none_for k) m s) with (s := st) as (ks & r & n & E & F1 & F2); [destruct Hk as [->| ->]; reflexivity..|].
  destruct ks as [|x ks]; [|discriminate F1].
  assert (X := U_ies (none_for k) m s st n r E). subst r. rewrite E. unfold rua_end in Hw. destruct (add_ies m s) as [t [l|]]; cbn [snd].
  2: { injection Hw as <-. cbn in Hn. congruence. }
  unfold generate in Hw. unfold generate_m, mbind, ask, mret, mcrash. destruct (encode (m_cont m) (list_val l)); [|discriminate Hw].
  destruct Hk as [->| ->]; reflexivity.
Qed.
Lemma copy_granted k (d : list N) B (f : list N -> mem B) st : k <> ACopy -> mbind (copy (none_for k) d) f st = f d (mkMst (S (q_next st)) (q_denied st)).
Proof. intro H. unfold copy, mbind, ask, mret. destruct k; try contradiction; reflexivity. Qed.
Lemma rua_crashes k c w : k = ABody \/ k = AMsg -> do_rua c = Ok w -> w_msg w <> None -> fst (do_rua_m (none_for k) c m0) = Fault NullDeref.
Proof.
  intros Hk E Hn. assert (Hc : k <> ACopy) by (destruct Hk as [->| ->]; discriminate).
  destruct c as [[d|]|is_ps id [d|]|is_ps id [d|]|is_ps id [[|x d]|]]; cbn [do_rua do_rua_m] in *; cbv zeta; try discriminate E; rewrite ?copy_granted by exact Hc;
  unfold rua_new_udt, rua_new_conn, rua_new_dt, rua_new_disc in E; cbv zeta in E; eapply rua_end_crash; eassumption.
Qed.
(* without memory for the copy, the payload is lost *)
Lemma rua_lost c w : do_rua (emptied c) = Ok w ->
  is_disc c = false -> fst (do_rua_m (none_for ACopy) c m0) = Ok (w_msg w).
Proof.
  intros E Hd.
  assert (G : forall p m s pre st, rua_end p m s pre = Ok w -> fst (rua_end_m (none_for ACopy) p m s st) = Ok (w_msg w)).
  { intros p m s pre st Hw. unfold rua_end_m. unfold mbind at 1. 
    destruct (W_no_ies (none_for ACopy) m s) with (s := st) as (ks & r & n & E' & F1 & F2); [reflexivity..|].
    destruct ks as [|x ks]; [|discriminate F1].
    assert (X := U_ies (none_for ACopy) m s st n r E'). subst r. rewrite E'. unfold rua_end in Hw. destruct (add_ies m s) as [t [l|]]; cbn [snd].
    2: { injection Hw as <-. reflexivity. }
    unfold generate in Hw. unfold generate_m, mbind, ask, mret, mcrash. destruct (encode (m_cont m) (list_val l)); [|discriminate Hw]. injection Hw as <-. reflexivity. }
  destruct c as [[d|]|is_ps id [d|]|is_ps id [d|]|is_ps id [[|x d]|]]; cbn [do_rua do_rua_m is_disc emptied] in *; cbv zeta; try discriminate E; try discriminate Hd; eapply G; exact E.
Qed.

(* ---------------- what is refuted ---------------- *)
Lemma crash_sec deny ik ck st uea : deny 0 ATemp = true -> fst (do_call_m deny (CallSecModCmd ik ck st 6 uea) m0) = Fault NullDeref.
Proof.
  intro H. cbn [do_call_m]. unfold sec_mod_cmd2_m, bits8. cbv zeta. cbn [alg_loop_m].
  change (N.testbit_nat 6 0) with false. change (N.testbit_nat 6 1) with true. change (uia 1) with (Some 0%Z). cbv iota.
  unfold temp. unfold mbind, ask. cbn [q_next m0]. rewrite H. reflexivity.
Qed.
Lemma crash_first deny c : deny 0 ATemp = true -> heap_first c = true -> fst (do_call_m deny c m0) = Fault NullDeref.
Proof.
  intros H Hc. destruct c; try discriminate Hc.
  { cbn [heap_first] in Hc. destruct uia_mask as [|[q|[[q|q|]|q|]|]]; try discriminate Hc. apply crash_sec. exact H. }
  all: cbn [do_call_m].
  - destruct imsi as [[|x i]|]; try discriminate Hc. unfold common_id_m, imsi_m, mbind, ask. cbn [q_next m0]. rewrite H. reflexivity.
  - destruct imsi as [|x i]; try discriminate Hc. unfold paging_m, imsi_m, mbind, ask. cbn [q_next m0]. rewrite H. reflexivity.
  - unfold rab_voice_m, rab_id_m, temp, mbind, ask. cbn [q_next m0]. rewrite H. reflexivity.
  - unfold rab_data_m, rab_id_m, temp, mbind, ask. cbn [q_next m0]. rewrite H. reflexivity.
  - unfold rab_rel_req_m, rab_id_m, temp, mbind, ask. cbn [q_next m0]. rewrite H. reflexivity.
Qed.
Lemma voice_lost r i p x : fst (do_call_m (none_for APair) (CallRabVoice r i p x) m0) = Ok (Some nothing_assigned).
Proof. destruct x; vm_compute; reflexivity. Qed.
Lemma data_lost r i t x : fst (do_call_m (none_for APair) (CallRabData r i t x) m0) = Ok (Some nothing_assigned).
Proof. destruct x; vm_compute; reflexivity. Qed.
(* no list can grow *)
Lemma cells_rows m s rows : forall fields k st, exists st', add_rows_m (none_for ACell) m s rows fields no_cells st =
  (Ok (option_map (fun _ => no_cells) (snd (add_rows m s rows fields k))), st').
Proof.
  induction rows as [|r rs IH]; intros fields k st; destruct fields as [|f fs]; cbn [add_rows_m add_rows]; try (eexists; reflexivity).
  destruct (wanted m s r); [|apply IH]. destruct f as [v|]; [|eexists; reflexivity].
  unfold mbind at 1. unfold new_ie_m, mbind at 1, ask, mbind, mret. cbn [none_for akind_eqb q_next q_denied].
  destruct (new_ie r v) as [ie|]; [|eexists; reflexivity].
  unfold add. cbn [no_cells ce_items ce_size List.length Nat.eqb]. unfold mbind, ask, mret. cbn [none_for akind_eqb q_next q_denied].
  edestruct (IH fs (S k)) as (st' & E). fold (@no_cells val). rewrite E. exists st'. destruct (add_rows m s rs fs (S k)) as [t [x|]]; reflexivity.
Qed.
Lemma cells_fin P d p c m s mid ko st : r_msg (finish P d p c m s mid ko) <> None ->
  fst (finish_m (none_for ACell) P d p c m s st) = Ok (generate P d p c (m_cont m) (list_val [])).
Proof.
  rewrite fin_msg. intro H. unfold finish_m, add_ies_m, mbind. destruct (cells_rows m s (m_rows m) (i_fields s) 0 st) as (st' & E). rewrite E.
  unfold add_ies in H. destruct (snd (add_rows m s (m_rows m) (i_fields s) 0)) as [l|]; [|congruence]. cbn [option_map ce_items no_cells mret].
  unfold generate_m, mbind, ask, mret. cbn [none_for akind_eqb]. unfold generate. destruct (encode (m_cont m) (list_val [])); reflexivity.
Qed.
Lemma cells_lost c m : one_list c = true ->
  do_call c = Ok m -> r_msg m <> None -> exists b, fst (do_call_m (none_for ACell) c m0) = Ok (Some b) /\ without_ies b.
Proof.
  intros Hc E Hn. destruct c; try discriminate Hc; cbn [do_call] in E; injection E as <-; cbn [do_call_m]; cbv zeta;
    (eexists; split; [etransitivity; [first [apply (cells_fin _ _ _ _ _ _ [] true); exact Hn | apply (cells_fin _ _ _ _ _ _ [] false); exact Hn]|vm_compute; reflexivity]|repeat eexists]).
Qed.
