(* Operations and histories: frame, registration history *)
From Coq Require Import ZifyBool ZifyNat ZifyN Sorted.
From Verif Require Import Base Lai Lai_proofs IuClient IuClient_frame IuClient_spec IuClient_reg IuClient_step.

Section Inv.
Variable E : env.

Definition is_prim (o : op) : bool := match o with OTimer _ | OApi _ => false | _ => true end.
Definition pre_eff (o : op) : list eff :=
  match o with OConnectInd c _ _ => [ESccp (NConnectResp c)] | _ => [] end.
Definition fin_eff (o : op) (res : option unit) : list eff :=
  match res with Some _ => if is_prim o then [EPrimFree] else [] | None => [] end.

Lemma emit_fin {A} (m : M A) w :
  (let! _ := m in emit EPrimFree) w =
  (mkW (w_st (fst (m w))) (match snd (m w) with Some _ => [EPrimFree] | None => [] end ++ w_tr (fst (m w))),
   match snd (m w) with Some _ => Some tt | None => None end).
Proof.
  unfold bind. destruct (m w) as [w' [a|]]; cbn [fst snd emit app]; [reflexivity|].
  rewrite world_eta. reflexivity.
Qed.

Lemma gp_modcache f : gpres no_new_area (let! s := get in put_st (set_cache s (f s))).
Proof.
  apply gpres_modify. intros s. unfold keep_st, set_cache. cbn. auto using ues_le_refl.
Qed.

Lemma gp_addr_del c : gpres no_new_area (sccp_addr_del c).
Proof. apply (gp_modcache (fun s => cache_del c (s_cache s))). Qed.

Lemma rejected_nna t : forallb rejected_eff t = true -> forallb no_new_area t = true.
Proof.
  rewrite !forallb_forall. intros H x Hx. specialize (H x Hx). destruct x; try discriminate; reflexivity.
Qed.

Lemma initial_rej_gstep conn a m w : acceptable m = None ->
  gstep no_new_area w (fst (handle_co_initial E conn a m w)).
Proof.
  intros H. destruct (initial_rej E conn a m w H) as (H1&t&H2&H3).
  split; [rewrite H1; apply keep_st_refl|]. exists t. split; [exact H2|apply rejected_nna, H3].
Qed.

Lemma exec_quiet o w : opens E (w_st w) o = None ->
  let res := exec E o w in
  keep_st (w_st w) (w_st (fst res)) /\
  exists t, forallb no_new_area t = true /\
    w_tr (fst res) = fin_eff o (snd res) ++ t ++ pre_eff o ++ w_tr w.
Proof.
  intros Ho. cbv zeta.
  assert (Hgen : forall A (m : M A) v, gpres no_new_area m -> w_tr v = pre_eff o ++ w_tr w ->
     keep_st (w_st w) (w_st v) -> is_prim o = true ->
     let res := (let! _ := m in emit EPrimFree) v in
     keep_st (w_st w) (w_st (fst res)) /\
     exists t, forallb no_new_area t = true /\
       w_tr (fst res) = fin_eff o (snd res) ++ t ++ pre_eff o ++ w_tr w).
  { intros A m v Hm Hv Hk Hp. cbv zeta. rewrite emit_fin. cbn [fst snd w_st w_tr].
    destruct (Hm v) as (H1&t&H2&H3). split; [eapply keep_st_trans; eauto|].
    exists t. split; [exact H3|]. rewrite H2, Hv. unfold fin_eff. rewrite Hp. destruct (snd (m v)); reflexivity. }
  destruct o as [c a l2| |c l2|c l2|a l2|a c|pc sp rem| | |p|a]; cbn [exec]; unfold sccp_sap_up.
  - (* N-CONNECT *)
    rewrite bind_assoc. unfold sccp_send. rewrite bind_assoc, bind_trace, bind_assoc, bind_emit, bind_ret.
    destruct l2 as [|x l2].
    + apply (Hgen _ _ (mkW (w_st w) (ESccp (NConnectResp c) :: w_tr w))).
      * unfold sccp_addr_add. apply (gp_modcache (fun s => (c, a) :: s_cache s)).
      * reflexivity.
      * apply keep_st_refl.
      * reflexivity.
    + cbn [opens] in Ho. unfold rx_co. destruct (dec_co E (x :: l2)) as [m|].
      * set (v := mkW _ _). destruct (acceptable m) eqn:Ha; [discriminate|].
        rewrite emit_fin. cbn [fst snd w_st w_tr].
        destruct (initial_rej_gstep c a m v Ha) as (H1&t&H2&H3). split; [exact H1|].
        exists t. split; [exact H3|]. rewrite H2. unfold fin_eff. cbn [is_prim pre_eff].
        destruct (snd _); reflexivity.
      * apply (Hgen _ _ (mkW (w_st w) (ESccp (NConnectResp c) :: w_tr w)));
          [apply gpres_ret|reflexivity|apply keep_st_refl|reflexivity].
  - apply (Hgen _ _ w); [apply gpres_ret|reflexivity|apply keep_st_refl|reflexivity].
  - apply (Hgen _ _ w); [|reflexivity|apply keep_st_refl|reflexivity].
    gp.
    + apply gp_addr_del.
    + apply gp_rx_co. intros m. apply gp_handle_co.
    + apply gp_link_invalidated.
  - cbn [opens] in Ho. unfold ue_on, pending in Ho.
    rewrite bind_assoc. rewrite bind_get. unfold ue_conn_ctx_find, sccp_addr_find.
    destruct (find (fun u => (u_conn u =? c)%N) (s_ues (w_st w))) as [u|].
    + apply (Hgen _ _ w); [|reflexivity|apply keep_st_refl|reflexivity].
      apply gp_rx_co. intros m. apply gp_handle_co.
    + destruct (option_map snd (find (fun e => (fst e =? c)%N) (s_cache (w_st w)))) as [a|].
      * rewrite bind_assoc. unfold sccp_addr_del. rewrite bind_assoc, bind_get, bind_put.
        unfold rx_co. destruct (dec_co E l2) as [m|].
        -- destruct (acceptable m) eqn:Ha; [discriminate|]. set (v := mkW _ _).
           rewrite emit_fin. cbn [fst snd w_st w_tr].
           destruct (initial_rej_gstep c a m v Ha) as (H1&t&H2&H3).
           split; [eapply keep_st_trans; [|exact H1]; unfold v, keep_st; cbn; auto using ues_le_refl|].
           exists t. split; [exact H3|]. rewrite H2. unfold fin_eff. cbn [is_prim pre_eff].
           destruct (snd _); reflexivity.
        -- apply (Hgen _ _ (mkW (set_cache (w_st w) (cache_del c (s_cache (w_st w)))) (w_tr w)));
             [apply gpres_ret|reflexivity| |reflexivity]. unfold keep_st; cbn; auto using ues_le_refl.
      * apply (Hgen _ _ w); [apply gpres_ret|reflexivity|apply keep_st_refl|reflexivity].
  - apply (Hgen _ _ w); [|reflexivity|apply keep_st_refl|reflexivity].
    unfold rx_cl. destruct (dec_cl E l2); gp. apply gp_handle_cl.
  - apply (Hgen _ _ w); [|reflexivity|apply keep_st_refl|reflexivity].
    unfold handle_notice_ind. gp. apply gp_invalidate_rncs.
  - apply (Hgen _ _ w); [|reflexivity|apply keep_st_refl|reflexivity].
    unfold handle_pcstate_ind. destruct (pcstate_decision sp rem) as [con dis]. destruct dis; gp.
    apply gp_invalidate_rncs.
  - apply (Hgen _ _ w); [apply gpres_ret|reflexivity|apply keep_st_refl|reflexivity].
  - apply (Hgen _ _ w); [apply gpres_ret|reflexivity|apply keep_st_refl|reflexivity].
  - destruct (gp_timer E p w) as (H1&t&H2&H3). split; [exact H1|]. exists t. split; [exact H3|].
    rewrite H2. unfold fin_eff. cbn. destruct (snd _); reflexivity.
  - destruct (gpres_pres _ nna_api _ (pres_run_api E a) w) as (H1&t&H2&H3). split; [exact H1|].
    exists t. split; [exact H3|]. rewrite H2. unfold fin_eff. cbn. destruct (snd _); reflexivity.
Qed.

(* state in which an accepted Initial UE Message is handled *)
Definition open_st (s : st) (o : op) : st :=
  match o with ODataInd c _ => set_cache s (cache_del c (s_cache s)) | _ => s end.

Lemma exec_open_eq o x w : opens E (w_st w) o = Some x ->
  exec E o w = (let! _ := take_initial E (op_conn x) (op_addr x) (op_acc x) in emit EPrimFree)
               (mkW (open_st (w_st w) o) (pre_eff o ++ w_tr w)).
Proof.
  intros H. destruct o as [c a l2| |c l2|c l2|a l2|a c|pc sp rem| | |p|a]; cbn [opens] in H; try discriminate.
  - destruct l2 as [|y l2]; [discriminate|]. cbn [exec]. unfold sccp_sap_up.
    rewrite bind_assoc. unfold sccp_send. rewrite bind_assoc, bind_trace, bind_assoc, bind_emit, bind_ret.
    unfold rx_co. destruct (dec_co E (y :: l2)) as [m|]; [|discriminate].
    destruct (acceptable m) as [acc|] eqn:Ha; [|discriminate]. injection H as <-.
    cbn [op_conn op_addr op_acc open_st pre_eff app].
    unfold bind. rewrite (initial_acc _ _ _ _ _ _ Ha). reflexivity.
  - cbn [exec]. unfold sccp_sap_up. unfold ue_on, pending in H.
    rewrite bind_assoc. rewrite bind_get. unfold ue_conn_ctx_find, sccp_addr_find.
    destruct (find (fun u => (u_conn u =? c)%N) (s_ues (w_st w))) as [u|]; [discriminate|].
    destruct (option_map snd (find (fun e => (fst e =? c)%N) (s_cache (w_st w)))) as [a|]; [|discriminate].
    rewrite bind_assoc. unfold sccp_addr_del. rewrite bind_assoc, bind_get, bind_put.
    unfold rx_co. destruct (dec_co E l2) as [m|]; [|discriminate].
    destruct (acceptable m) as [acc|] eqn:Ha; [|discriminate]. injection H as <-.
    cbn [op_conn op_addr op_acc open_st pre_eff app].
    unfold bind. rewrite (initial_acc _ _ _ _ _ _ Ha). reflexivity.
Qed.

Lemma open_st_table s o : table_ok s -> table_ok (open_st s o).
Proof. intros []. destruct o; constructor; auto. Qed.
Lemma open_st_ues s o : ues_ok s -> ues_ok (open_st s o).
Proof. intros []. destruct o; constructor; auto. Qed.
Lemma open_st_rncs s o : s_rncs (open_st s o) = s_rncs s.
Proof. destruct o; reflexivity. Qed.
Lemma open_st_next s o : s_next (open_st s o) = s_next s.
Proof. destruct o; reflexivity. Qed.
Lemma open_st_uess s o : s_ues (open_st s o) = s_ues s.
Proof. destruct o; reflexivity. Qed.

Lemma exec_open o x w : table_ok (w_st w) -> ues_ok (w_st w) ->
  opens E (w_st w) o = Some x ->
  let s := open_st (w_st w) o in
  let g := reg_of x in
  let acc := op_acc x in
  let res := exec E o w in
  exists s2 t1,
    api_st (reg_st E s (g_id g) (g_area g) (g_addr g)) s2 /\ forallb api_eff t1 = true /\
    let tr1 := t1 ++ (if reg_new E s (g_id g) (g_area g) (g_addr g) && has_event_cb E
                      then [EEvent None (EvNewArea (g_id g) (new_area_of (g_area g)))] else [])
                  ++ EBufAlloc :: pre_eff o ++ w_tr w in
    ((w_st (fst res) = s2 /\ w_tr (fst res) = tr1 /\ snd res = None) \/
     exists s3 t2,
       let u := new_ue s2 (reg_ptr s (g_id g)) (op_conn x) (acc_ra acc) in
       api_st (add_ue s2 u) s3 /\ forallb api_eff t2 = true /\
       w_st (fst res) = s3 /\
       callback E (ERecv (u_ptr u) (acc_nas acc) (Some (acc_ra acc)) (Some (acc_sai acc))) (mkW (add_ue s2 u) tr1) =
         (mkW s3 (t2 ++ ERecv (u_ptr u) (acc_nas acc) (Some (acc_ra acc)) (Some (acc_sai acc)) :: tr1), snd res) /\
       ((snd res = None /\
         w_tr (fst res) = t2 ++ ERecv (u_ptr u) (acc_nas acc) (Some (acc_ra acc)) (Some (acc_sai acc)) :: tr1) \/
        (snd res = Some tt /\
         w_tr (fst res) = EPrimFree :: EBufFree :: t2 ++
           ERecv (u_ptr u) (acc_nas acc) (Some (acc_ra acc)) (Some (acc_sai acc)) :: tr1))).
Proof.
  intros T Q H. cbv zeta. rewrite (exec_open_eq _ _ _ H). set (v := mkW _ _).
  destruct (take_initial_shape E (op_conn x) (op_addr x) (op_acc x) v) as (s2&t1&H1&H2&H3).
  { apply open_st_table, T. } { apply open_st_ues, Q. }
  cbv zeta in H3. exists s2, t1. split; [exact H1|]. split; [exact H2|].
  rewrite emit_fin. cbn [fst snd w_st w_tr].
  destruct H3 as [(Ha&Hb&Hc)|(s3&t2&H3&H4&Hs&Hcb&H5)].
  - left. rewrite Hc. cbn [app]. auto.
  - right. exists s3, t2. split; [exact H3|]. split; [exact H4|]. split; [exact Hs|].
    split; [rewrite (surjective_pairing (take_initial _ _ _ _ _)) in Hcb; cbn [v w_tr] in Hcb; etransitivity; [exact Hcb|];
            destruct (snd (take_initial E (op_conn x) (op_addr x) (op_acc x) v)) as [[]|]; reflexivity|].
    destruct H5 as [(Ha&Hb)|(Ha&Hb)]; [left|right]; rewrite Ha; cbn [app]; (split; [reflexivity|]); rewrite Hb; reflexivity.
Qed.

(* ---------------- histories ---------------- *)
Lemma run_inv (I : world -> Prop) :
  (forall o w, I w -> I (fst (exec E o w))) -> forall l w, I w -> I (fst (run E l w)).
Proof.
  intros Hs. induction l as [|o l IH]; intros w Hw; cbn [run]; [exact Hw|].
  unfold bind. specialize (Hs o w Hw). destruct (exec E o w) as [w' [[]|]]; cbn [fst] in *; auto.
Qed.
Lemma reach_inv (I : world -> Prop) :
  I w0 -> (forall o w, I w -> I (fst (exec E o w))) -> forall l, I (reach E l).
Proof. intros H0 Hs l. unfold reach. apply run_inv; auto. Qed.

Record good (s : st) : Prop := { g_table : table_ok s; g_ues : ues_ok s }.
Lemma good_init : good init.
Proof. constructor; [apply table_ok_init|apply ues_ok_init]. Qed.
Lemma keep_good s s' : keep_st s s' -> good s -> good s'.
Proof. intros K []. constructor; [eapply keep_table_ok|eapply keep_ues_ok]; eauto. Qed.

Lemma reg_ues_ok s id r a : table_ok s -> ues_ok s -> ues_ok (reg_st E s id r a).
Proof.
  intros T Q. constructor; cbn.
  - apply (q_sorted _ Q).
  - intros u Hu. pose proof (q_next _ Q u Hu). unfold reg_next. destruct (rnc_id_find s id); lia.
  - intros u Hu. pose proof (q_rnc _ Q u Hu) as Hin. apply in_map_iff in Hin as (n & Hp & Hin).
    assert (exists n0, In n0 (reg_l0 E s id a) /\ n_ptr n0 = n_ptr n) as (n0 & H0 & Hp0).
    { eexists (mkRnc (n_ptr n) (n_id n) _ (n_areas n)). split; [|reflexivity].
      apply l0_in; auto. left. exists n. cbn. repeat split; auto. }
    destruct (reg_in' E s id r a n0 T H0) as (n' & Hn' & Hp' & _).
    apply in_map_iff. exists n'. split; [congruence|exact Hn'].
Qed.
Lemma reg_good s id r a : good s -> good (reg_st E s id r a).
Proof. intros []. constructor; [apply reg_table_ok|apply reg_ues_ok]; auto. Qed.
Lemma reg_ptr_in s id r a : table_ok s -> In (reg_ptr s id) (map n_ptr (s_rncs (reg_st E s id r a))).
Proof.
  intros T. destruct (l0_self E s id a T) as (n & Hn & Hp & _).
  destruct (reg_in' E s id r a n T Hn) as (n' & Hn' & Hp' & _).
  apply in_map_iff. exists n'. split; [congruence|exact Hn'].
Qed.
Lemma add_ue_good s u : good s -> u_ptr u = s_next s -> In (u_rnc u) (map n_ptr (s_rncs s)) ->
  good (add_ue s u).
Proof.
  intros [T Q] Hp Hr. constructor.
  - destruct T as [H1 H2 H3 H4]. constructor; cbn; auto. intros n Hn. specialize (H2 n Hn). lia.
  - constructor; cbn [add_ue s_ues s_next s_rncs map].
    + constructor; [apply (q_sorted _ Q)|]. rewrite Forall_forall. intros x Hx.
      apply in_map_iff in Hx as (y & <- & Hy). pose proof (q_next _ Q y Hy). lia.
    + intros v [<-|Hv]; [lia|]. pose proof (q_next _ Q v Hv). lia.
    + intros v [<-|Hv]; [exact Hr|]. apply (q_rnc _ Q); auto.
Qed.

Lemma exec_good o w : good (w_st w) -> good (w_st (fst (exec E o w))).
Proof.
  intros G. destruct (opens E (w_st w) o) as [x|] eqn:Ho.
  - destruct (exec_open o x w (g_table _ G) (g_ues _ G) Ho) as (s2&t1&H1&H2&H3). cbv zeta in H3.
    assert (G1 : good (reg_st E (open_st (w_st w) o) (g_id (reg_of x)) (g_area (reg_of x)) (g_addr (reg_of x)))).
    { apply reg_good. destruct G. constructor; [apply open_st_table|apply open_st_ues]; auto. }
    assert (G2 : good s2) by (eapply keep_good; [apply api_keep, H1|exact G1]).
    destruct H3 as [(Ha&_)|(s3&t2&H3&_&Hs&_)].
    + rewrite Ha. exact G2.
    + rewrite Hs. eapply keep_good; [apply api_keep, H3|]. apply add_ue_good; auto.
      cbn [new_ue u_rnc]. destruct H1 as (Hr&_). rewrite Hr. apply reg_ptr_in. apply open_st_table, (g_table _ G).
  - destruct (exec_quiet o w Ho) as (H1&_). eapply keep_good; eauto.
Qed.
Lemma reach_good l : good (w_st (reach E l)).
Proof. apply (reach_inv (fun w => good (w_st w))); [apply good_init|]. intros o w. apply exec_good. Qed.

(* ---------------- registration history ---------------- *)
Record rep (h : list reg) (s : st) : Prop := {
  rp_area : forall r, match last_of_area h r with
      | None => total (s_rncs s) r = 0
      | Some g => exists n, In n (s_rncs s) /\ 0 < cnt n r /\ rnc_id_eqb (n_id n) (g_id g) = true
      end;
  rp_addr : forall n, In n (s_rncs s) -> exists g, last_of_rnc h (n_id n) = Some g /\
      addr_dump E (n_addr n) = addr_dump E (g_addr g);
  rp_rnc : forall id g, last_of_rnc h id = Some g ->
      exists n, In n (s_rncs s) /\ rnc_id_eqb (n_id n) id = true }.

Lemma rep_init : rep [] init.
Proof. constructor; cbn; try tauto. intros; discriminate. Qed.
Lemma rep_keep h s s' : s_rncs s' = s_rncs s -> rep h s -> rep h s'.
Proof. intros H []. constructor; rewrite ?H; auto. Qed.
Lemma last_area_snoc h g r : last_of_area (h ++ [g]) r =
  if rai_eqb (g_area g) r then Some g else last_of_area h r.
Proof. unfold last_of_area. rewrite rev_app_distr. reflexivity. Qed.
Lemma last_rnc_snoc h g id : last_of_rnc (h ++ [g]) id =
  if rnc_id_eqb (g_id g) id then Some g else last_of_rnc h id.
Proof. unfold last_of_rnc. rewrite rev_app_distr. reflexivity. Qed.
Lemma same_addr_dump a b : same_sccp_addr E a b = true <-> addr_dump E a = addr_dump E b.
Proof. unfold same_sccp_addr. destruct (list_eq_dec _ _ _); split; auto; discriminate. Qed.

Lemma rnc_eqb_left a b c : rnc_id_eqb a b = true -> rnc_id_eqb a c = rnc_id_eqb b c.
Proof.
  intros H. destruct (rnc_id_eqb a c) eqn:E1, (rnc_id_eqb b c) eqn:E2; auto.
  - rewrite rnc_id_eqb_sym in H. rewrite (rnc_id_eqb_trans _ _ _ H E1) in E2. discriminate.
  - rewrite (rnc_id_eqb_trans _ _ _ H E2) in E1. discriminate.
Qed.

Lemma rep_reg h s g : table_ok s -> rep h s ->
  rep (h ++ [g]) (reg_st E s (g_id g) (g_area g) (g_addr g)).
Proof.
  intros T R. set (s' := reg_st _ _ _ _ _).
  assert (T' : table_ok s') by (apply reg_table_ok; auto).
  destruct (l0_self E s (g_id g) (g_addr g) T) as (me & Hme & Hmp & Hmi).
  constructor.
  - intros r. rewrite last_area_snoc. destruct (rai_eqb (g_area g) r) eqn:Er.
    + destruct (reg_in' E s (g_id g) (g_area g) (g_addr g) me T Hme) as (n' & Hn' & Hp' & Hi' & _ & Hc').
      exists n'. split; [exact Hn'|]. split; [|congruence]. rewrite Hc', Er, Hmp, N.eqb_refl. lia.
    + pose proof (rp_area _ _ R r) as HR. destruct (last_of_area h r) as [g'|].
      * destruct HR as (n & Hn & Hc & Hi).
        assert (exists n0, In n0 (reg_l0 E s (g_id g) (g_addr g)) /\ n_ptr n0 = n_ptr n /\ n_id n0 = n_id n /\ n_areas n0 = n_areas n)
          as (n0 & H0 & Hp0 & Hi0 & Ha0).
        { eexists (mkRnc (n_ptr n) (n_id n) _ (n_areas n)). split; [|cbn; auto].
          apply l0_in; auto. left. exists n. cbn. repeat split; auto. }
        destruct (reg_in' E s (g_id g) (g_area g) (g_addr g) n0 T H0) as (n' & Hn' & Hp' & Hi' & _ & Hc').
        exists n'. split; [exact Hn'|]. split; [|congruence].
        rewrite Hc', Er. unfold cnt in *. rewrite Ha0. exact Hc.
      * destruct (total (s_rncs s') r) eqn:Et; [reflexivity|].
        destruct (total_pos (s_rncs s') r) as (n' & Hn' & Hc'); [lia|].
        destruct (reg_in E s (g_id g) (g_area g) (g_addr g) n' T Hn') as (m & Hm & _ & _ & _ & Hc).
        rewrite Hc, Er in Hc'. pose proof (cnt_le_total _ _ r Hm) as Hle. rewrite l0_total in Hle. lia.
  - intros n' Hn'. rewrite last_rnc_snoc.
    destruct (reg_in E s (g_id g) (g_area g) (g_addr g) n' T Hn') as (n & Hn & Hp & Hi & Ha & _).
    rewrite Hi, Ha. apply l0_in in Hn; auto. destruct Hn as [(m & Hm & _ & Hmi' & _ & Hma)|[_ ->]].
    + rewrite Hmi', Hma. rewrite rnc_id_eqb_sym. destruct (rnc_id_eqb (n_id m) (g_id g)) eqn:Ei; cbn [andb].
      * exists g. split; [reflexivity|]. destruct (same_sccp_addr E (n_addr m) (g_addr g)) eqn:Es; cbn [negb]; [|reflexivity].
        apply same_addr_dump, Es.
      * apply (rp_addr _ _ R m Hm).
    + cbn [n_id n_addr]. rewrite rnc_id_eqb_refl. exists g. auto.
  - intros id g' Hg'. rewrite last_rnc_snoc in Hg'. destruct (rnc_id_eqb (g_id g) id) eqn:Ei.
    + destruct (reg_in' E s (g_id g) (g_area g) (g_addr g) me T Hme) as (n' & Hn' & _ & Hi' & _).
      exists n'. split; [exact Hn'|]. rewrite Hi'. eapply rnc_id_eqb_trans; eauto.
    + destruct (rp_rnc _ _ R id g' Hg') as (n & Hn & Hi).
      assert (exists n0, In n0 (reg_l0 E s (g_id g) (g_addr g)) /\ n_id n0 = n_id n) as (n0 & H0 & Hi0).
      { eexists (mkRnc (n_ptr n) (n_id n) _ (n_areas n)). split; [|cbn; auto].
        apply l0_in; auto. left. exists n. cbn. repeat split; auto. }
      destruct (reg_in' E s (g_id g) (g_area g) (g_addr g) n0 T H0) as (n' & Hn' & _ & Hi' & _).
      exists n'. split; [exact Hn'|congruence].
Qed.

Lemma exec_rep o w h : good (w_st w) -> rep h (w_st w) ->
  rep (h ++ registers E (w_st w) o) (w_st (fst (exec E o w))).
Proof.
  intros G R. unfold registers. destruct (opens E (w_st w) o) as [x|] eqn:Ho.
  - destruct (exec_open o x w (g_table _ G) (g_ues _ G) Ho) as (s2&t1&H1&H2&H3). cbv zeta in H3.
    assert (R1 : rep (h ++ [reg_of x]) (reg_st E (open_st (w_st w) o) (g_id (reg_of x)) (g_area (reg_of x)) (g_addr (reg_of x)))).
    { apply rep_reg; [apply open_st_table, (g_table _ G)|]. eapply rep_keep; [apply open_st_rncs|exact R]. }
    assert (R2 : rep (h ++ [reg_of x]) s2) by (eapply rep_keep; [apply H1|exact R1]).
    destruct H3 as [(Ha&_)|(s3&t2&H3&_&Hs&_)].
    + rewrite Ha. exact R2.
    + rewrite Hs. eapply rep_keep; [apply H3|]. eapply rep_keep; [|exact R2]. reflexivity.
  - rewrite app_nil_r. destruct (exec_quiet o w Ho) as (H1&_). eapply rep_keep; [apply H1|exact R].
Qed.

Lemma run_rep l : forall w h, good (w_st w) -> rep h (w_st w) ->
  rep (h ++ registrations_from E l w) (w_st (fst (run E l w))).
Proof.
  induction l as [|o l IH]; intros w h G R; cbn [run registrations_from].
  - rewrite app_nil_r. exact R.
  - pose proof (exec_rep o w h G R) as R'. pose proof (exec_good o w G) as G'.
    unfold bind. destruct (exec E o w) as [w' [[]|]]; cbn [fst] in *.
    + rewrite app_assoc. apply IH; auto.
    + rewrite app_nil_r. exact R'.
Qed.
Lemma reach_rep l : rep (registrations E l) (w_st (reach E l)).
Proof. apply (run_rep l w0 []); [apply good_init|apply rep_init]. Qed.
End Inv.
