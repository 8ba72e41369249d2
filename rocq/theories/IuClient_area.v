(* Paging and NEW_AREA events in terms of the registration history *)
From Coq Require Import ZifyBool ZifyNat ZifyN Sorted.
From Verif Require Import Base Lai Lai_proofs IuClient IuClient_frame IuClient_spec IuClient_reg IuClient_step IuClient_inv.

Lemma flat_map_rev {A B} (f : A -> list B) l :
  (forall a, length (f a) <= 1) -> flat_map f (rev l) = rev (flat_map f l).
Proof.
  intros H. induction l as [|a l IH]; [reflexivity|]. cbn [rev flat_map].
  rewrite flat_map_app, IH, rev_app_distr. cbn [flat_map]. rewrite app_nil_r. f_equal.
  specialize (H a). destruct (f a) as [|x [|y m]]; cbn in *; auto. lia.
Qed.
Lemma nae_rev t : new_area_events (rev t) = rev (new_area_events t).
Proof. apply flat_map_rev. intros [| |p []| | | | | | |]; cbn; lia. Qed.
Lemma nae_app a b : new_area_events (a ++ b) = new_area_events a ++ new_area_events b.
Proof. apply flat_map_app. Qed.
Lemma nae_nil t : forallb no_new_area t = true -> new_area_events t = [].
Proof.
  induction t as [|e t IH]; [reflexivity|]. cbn [forallb]. intros H.
  apply andb_prop in H as [H1 H2]. unfold new_area_events in *. cbn [flat_map]. rewrite (IH H2).
  destruct e as [[]| |p []| | | | | | |]; try reflexivity; discriminate.
Qed.
Lemma added_intro t b a : a = t ++ b -> added b a (rev t).
Proof. intros ->. unfold added. rewrite rev_involutive. reflexivity. Qed.

Section Area.
Variable E : env.

Lemma serves_cnt s n r : serves s n r <-> In n (s_rncs s) /\ 0 < cnt n r.
Proof. unfold serves. rewrite cnt_pos. reflexivity. Qed.

Lemma rai_left r r' x : rai_eqb r r' = true -> rai_eqb r x = rai_eqb r' x.
Proof.
  intros H. destruct (rai_eqb r x) eqn:E1, (rai_eqb r' x) eqn:E2; auto.
  - rewrite rai_eqb_sym in H. rewrite (rai_eqb_trans _ _ _ H E1) in E2. discriminate.
  - rewrite (rai_eqb_trans _ _ _ H E2) in E1. discriminate.
Qed.

(* C31 *)
Lemma table_refines_l : forall l r,
  let s := w_st (reach E l) in
  let h := registrations E l in
  match last_of_area h r with
  | None => forall n, ~ serves s n r
  | Some g =>
      exists n, serves s n r /\ (forall n', serves s n' r -> n' = n) /\
        rnc_id_eqb (n_id n) (g_id g) = true /\
        exists g', last_of_rnc h (g_id g) = Some g' /\
          addr_dump E (n_addr n) = addr_dump E (g_addr g')
  end.
Proof.
  intros l r. cbv zeta. pose proof (reach_rep E l) as R. pose proof (reach_good E l) as G.
  pose proof (rp_area _ _ _ R r) as HR. destruct (last_of_area (registrations E l) r) as [g|].
  - destruct HR as (n & Hn & Hc & Hi). exists n. rewrite serves_cnt. split; [auto|].
    split.
    { intros n' H. rewrite serves_cnt in H. destruct H as [H1 H2].
      eapply total_one; eauto; [apply (t_area _ (g_table _ G))|apply (t_ptr _ (g_table _ G))]. }
    split; [exact Hi|].
    destruct (rp_addr _ _ _ R n Hn) as (g' & Hg' & Ha).
    exists g'. split; [|exact Ha]. unfold last_of_rnc in *. rewrite <- Hg'.
    generalize (rev (registrations E l)). intros t.
    induction t as [|x t IH]; [reflexivity|]. cbn [find].
    rewrite (rnc_id_eqb_sym (g_id x) (n_id n)), (rnc_eqb_left _ _ (g_id x) Hi), (rnc_id_eqb_sym (g_id g)).
    destruct (rnc_id_eqb (g_id x) (g_id g)); auto.
  - intros n H. rewrite serves_cnt in H. destruct H as [H1 H2].
    pose proof (cnt_le_total _ _ r H1). lia.
Qed.

(* C33 *)
Lemma reg_new_history l g : let s := w_st (reach E l) in
  reg_new E s (g_id g) (g_area g) (g_addr g) = 
  match last_of_area (registrations E l) (g_area g) with
  | Some g0 => negb (rnc_id_eqb (g_id g0) (g_id g))
  | None => true
  end.
Proof.
  cbv zeta. pose proof (reach_good E l) as G. pose proof (table_refines_l l (g_area g)) as H. cbv zeta in H.
  pose proof (reg_new_spec E (w_st (reach E l)) (g_id g) (g_area g) (g_addr g) (g_table _ G)) as Hs.
  destruct (last_of_area (registrations E l) (g_area g)) as [g0|].
  - destruct H as (n & Hn & Hu & Hi & _). destruct (rnc_id_eqb (g_id g0) (g_id g)) eqn:Ei; cbn [negb].
    + destruct (reg_new E _ _ _ _); [|reflexivity]. exfalso. apply (proj1 Hs); auto.
      exists n. split; [exact Hn|]. eapply rnc_id_eqb_trans; eauto.
    + apply Hs. intros (n' & Hn' & Hi'). rewrite (Hu n' Hn') in Hi'.
      rewrite <- (rnc_eqb_left _ _ (g_id g) Hi), Hi' in Ei. discriminate.
  - apply Hs. intros (n & Hn & _). exact (H n Hn).
Qed.
Lemma reg_new_open s o id r a : reg_new E (open_st s o) id r a = reg_new E s id r a.
Proof. destruct o; reflexivity. Qed.

Lemma new_area_exact_l : forall l o,
  let w := reach E l in
  exists t, added (w_tr w) (w_tr (fst (exec E o w))) t /\
    new_area_events t =
      match opens E (w_st w) o with
      | Some x =>
          let g := reg_of x in
          let known := match last_of_area (registrations E l) (g_area g) with
                       | Some g0 => rnc_id_eqb (g_id g0) (g_id g) | None => false end in
          if has_event_cb E && negb known then [(g_id g, new_area_of (g_area g))] else []
      | None => []
      end.
Proof.
  intros l o. cbv zeta. set (w := reach E l). pose proof (reach_good E l) as G. fold w in G.
  destruct (opens E (w_st w) o) as [x|] eqn:Ho.
  - destruct (exec_open E o x w (g_table _ G) (g_ues _ G) Ho) as (s2&t1&H1&H2&H3). cbv zeta in H3.
    pose proof (reg_new_history l (reg_of x)) as Hh. cbv zeta in Hh. fold w in Hh.
    rewrite reg_new_open, Hh in H3. set (g := reg_of x) in *.
    set (nw := match last_of_area (registrations E l) (g_area g) with Some g0 => negb (rnc_id_eqb (g_id g0) (g_id g)) | None => true end) in *.
    replace (negb match last_of_area (registrations E l) (g_area g) with
                       | Some g0 => rnc_id_eqb (g_id g0) (g_id g) | None => false end) with nw
      by (unfold nw; destruct (last_of_area _ _); reflexivity).
    set (evs := if nw && has_event_cb E then [EEvent None (EvNewArea (g_id g) (new_area_of (g_area g)))] else []) in *.
    assert (Hfin : exists t, w_tr (fst (exec E o w)) = t ++ w_tr w /\ new_area_events t = new_area_events evs).
    { assert (Hp : new_area_events (pre_eff o) = []) by (destruct o; reflexivity).
      assert (H1n : new_area_events t1 = []) by (apply nae_nil, forallb_nna, H2).
      destruct H3 as [(Ha&Hb&Hc)|(s3&t2&H3&H4&Hs&Hcb&H5)].
      - exists (t1 ++ evs ++ EBufAlloc :: pre_eff o). split; [rewrite Hb, <- !app_assoc; reflexivity|].
        rewrite !nae_app, H1n. change (EBufAlloc :: pre_eff o) with ([EBufAlloc] ++ pre_eff o). rewrite nae_app, Hp. cbn. rewrite app_nil_r. reflexivity.
      - assert (H2n : new_area_events t2 = []) by (apply nae_nil, forallb_nna, H4).
        destruct H5 as [(Ha&Hb)|(Ha&Hb)]; rewrite Hb.
        + exists (t2 ++ [ERecv (u_ptr (new_ue s2 (reg_ptr (open_st (w_st w) o) (g_id g)) (op_conn x) (acc_ra (op_acc x)))) (acc_nas (op_acc x)) (Some (acc_ra (op_acc x))) (Some (acc_sai (op_acc x)))] ++ t1 ++ evs ++ [EBufAlloc] ++ pre_eff o).
          split; [rewrite <- !app_assoc; reflexivity|]. rewrite !nae_app, H1n, H2n, Hp. cbn. rewrite app_nil_r. reflexivity.
        + exists ([EPrimFree; EBufFree] ++ t2 ++ [ERecv (u_ptr (new_ue s2 (reg_ptr (open_st (w_st w) o) (g_id g)) (op_conn x) (acc_ra (op_acc x)))) (acc_nas (op_acc x)) (Some (acc_ra (op_acc x))) (Some (acc_sai (op_acc x)))] ++ t1 ++ evs ++ [EBufAlloc] ++ pre_eff o).
          split; [rewrite <- !app_assoc; reflexivity|]. rewrite !nae_app, H1n, H2n, Hp. cbn. rewrite app_nil_r. reflexivity. }
    destruct Hfin as (t & Ht & Hn). exists (rev t). split; [apply added_intro, Ht|].
    rewrite nae_rev, Hn. unfold evs. rewrite andb_comm. destruct (has_event_cb E && nw); reflexivity.
  - destruct (exec_quiet E o w Ho) as (_&t&Ht&Htr).
    exists (rev (fin_eff o (snd (exec E o w)) ++ t ++ pre_eff o)).
    split; [apply added_intro; rewrite Htr, <- !app_assoc; reflexivity|].
    rewrite nae_rev, !nae_app, (nae_nil t Ht).
    assert (Hf : new_area_events (fin_eff o (snd (exec E o w))) = []).
    { unfold fin_eff. destruct (snd _); [|reflexivity]. destruct (is_prim o); reflexivity. }
    assert (Hp : new_area_events (pre_eff o) = []) by (destruct o; reflexivity).
    rewrite Hf, Hp. reflexivity.
Qed.

(* ---------------- paging ---------------- *)
Lemma page_loop_run l f imsi tmsi ps : enc_ok E (DL_Paging imsi tmsi ps 0) = true ->
  forall n w,
  page_loop E l f imsi tmsi ps n w =
  let ns := filter (fun x => existsb f (n_areas x)) l in
  (mkW (w_st w) (rev (map (fun x => ESccp (NUnitdataReq (n_addr x) (DL_Paging imsi tmsi ps 0))) ns) ++ w_tr w),
   Some (n + Z.of_nat (length ns))%Z).
Proof.
  intros He. induction l as [|x l IH]; intros n w; cbn [page_loop filter].
  - cbn. rewrite world_eta. unfold ret. f_equal. f_equal. lia.
  - destruct (existsb f (n_areas x)).
    + unfold tx_paging_cmd, encode. rewrite He. unfold sccp_send. rewrite bind_assoc, bind_ret, bind_assoc, bind_trace, bind_assoc, bind_emit, bind_ret.
      rewrite IH. cbn [map rev length app w_st w_tr]. cbv zeta. rewrite <- app_assoc. cbn [app].
      f_equal. f_equal. lia.
    + apply IH.
Qed.

Definition paging_msg imsi tmsi ps := DL_Paging imsi tmsi ps 0.

Lemma page_api (a : api) f imsi tmsi ps w :
  enc_ok E (DL_Paging imsi tmsi ps 0) = true ->
  run_api E a w =
    (let! _ := emit (EApi a) in
     let! rc := (let! s := get in page_loop E (s_rncs s) f imsi tmsi ps 0) in emit (ERet rc)) w ->
  let ns := filter (fun x => existsb f (n_areas x)) (s_rncs (w_st w)) in
  exec E (OApi a) w =
   (mkW (w_st w) (ERet (Z.of_nat (length ns)) ::
      rev (map (fun x => ESccp (NUnitdataReq (n_addr x) (DL_Paging imsi tmsi ps 0))) ns) ++ EApi a :: w_tr w), Some tt).
Proof.
  intros He Hr. cbv zeta. cbn [exec]. rewrite Hr, bind_emit, bind_assoc, bind_get. cbn [w_st].
  rewrite (bind_eq _ _ _ _ _ (page_loop_run _ _ _ _ _ He _ _)). cbv zeta. cbn [emit w_st w_tr].
  rewrite Z.add_0_l. reflexivity.
Qed.

Lemma filter_one (l : list rnc) f n : NoDup l -> In n l -> f n = true ->
  (forall m, In m l -> f m = true -> m = n) -> filter f l = [n].
Proof.
  induction l as [|x l IH]; intros Hd Hi Hf Hu; [destruct Hi|].
  inversion Hd as [|? ? Hx Hd']; subst. cbn [filter]. destruct Hi as [->|Hi].
  - rewrite Hf. f_equal. assert (Hnone : forall m, In m l -> f m = false).
    { intros m Hm. destruct (f m) eqn:Em; [|reflexivity]. exfalso. apply Hx.
      rewrite <- (Hu m); [exact Hm|right; exact Hm|exact Em]. }
    clear - Hnone. induction l as [|y l IH]; [reflexivity|]. cbn [filter].
    rewrite (Hnone y) by (left; auto). apply IH. intros; apply Hnone; right; auto.
  - destruct (f x) eqn:Ex.
    + exfalso. apply Hx. rewrite (Hu x); [exact Hi|left; auto|exact Ex].
    + apply IH; auto. intros m Hm. apply Hu. right; exact Hm.
Qed.
Lemma filter_none (l : list rnc) f : (forall n, In n l -> f n = false) -> filter f l = [].
Proof.
  induction l as [|x l IH]; intros H; [reflexivity|]. cbn [filter]. rewrite H by (left; auto).
  apply IH. intros; apply H; right; auto.
Qed.
Lemma nodup_of_ptr (l : list rnc) : NoDup (map n_ptr l) -> NoDup l.
Proof. apply NoDup_map_inv. Qed.

Lemma page_ps2_l : forall l imsi tmsi r,
  enc_ok E (DL_Paging imsi tmsi true 0) = true ->
  let w := reach E l in
  let h := registrations E l in
  let a := APagePs2 imsi tmsi r in
  exists t, exec E (OApi a) w = (mkW (w_st w) (rev t ++ w_tr w), Some tt) /\
  match last_of_area h r with
  | None => t = [EApi a; ERet 0]
  | Some g => exists addr g',
      t = [EApi a; ESccp (NUnitdataReq addr (DL_Paging imsi tmsi true 0)); ERet 1] /\
      last_of_rnc h (g_id g) = Some g' /\ addr_dump E addr = addr_dump E (g_addr g')
  end.
Proof.
  intros l imsi tmsi r He. cbv zeta. set (w := reach E l).
  pose proof (page_api (APagePs2 imsi tmsi r) (fun e => rai_eqb e r) imsi tmsi true w He eq_refl) as H. cbv zeta in H.
  pose proof (reach_good E l) as G. fold w in G.
  pose proof (table_refines_l l r) as HT. cbv zeta in HT. fold w in HT.
  destruct (last_of_area (registrations E l) r) as [g|].
  - destruct HT as (n & Hn & Hu & Hi & g' & Hg' & Ha).
    rewrite (filter_one _ _ n) in H.
    + cbn [length map rev app] in H. eexists. split; [exact (eq_trans H (f_equal (fun t => (mkW (w_st w) t, Some tt)) (eq_refl (rev [EApi (APagePs2 imsi tmsi r); ESccp (NUnitdataReq (n_addr n) (DL_Paging imsi tmsi true 0)); ERet 1] ++ w_tr w))))|].
      exists (n_addr n), g'. auto.
    + apply nodup_of_ptr, (t_ptr _ (g_table _ G)).
    + apply Hn.
    + apply cnt_pos_b. apply serves_cnt in Hn. apply Hn.
    + intros m Hm Hf. apply Hu. apply serves_cnt. split; [exact Hm|]. apply cnt_pos_b, Hf.
  - rewrite filter_none in H.
    + cbn [length map rev app] in H. exists [EApi (APagePs2 imsi tmsi r); ERet 0]. split; [exact H|reflexivity].
    + intros n Hn. destruct (existsb (fun e => rai_eqb e r) (n_areas n)) eqn:Ex; [|reflexivity].
      exfalso. apply (HT n). apply serves_cnt. split; [exact Hn|]. apply cnt_pos_b, Ex.
Qed.

Lemma last_rnc_eq h id id' : rnc_id_eqb id id' = true -> last_of_rnc h id = last_of_rnc h id'.
Proof.
  intros Hi. unfold last_of_rnc. induction (rev h) as [|x t IH]; [reflexivity|]. cbn [find].
  rewrite (rnc_id_eqb_sym (g_id x) id), (rnc_eqb_left _ _ (g_id x) Hi), (rnc_id_eqb_sym id').
  destruct (rnc_id_eqb (g_id x) id'); auto.
Qed.

Lemma page_cs2_l : forall l imsi tmsi la,
  enc_ok E (DL_Paging imsi tmsi false 0) = true ->
  let w := reach E l in
  let h := registrations E l in
  let a := APageCs2 imsi tmsi la in
  exists ns : list rnc,
    exec E (OApi a) w =
      (mkW (w_st w)
         (rev (EApi a :: map (fun n => ESccp (NUnitdataReq (n_addr n) (DL_Paging imsi tmsi false 0))) ns
               ++ [ERet (Z.of_nat (length ns))]) ++ w_tr w), Some tt) /\
    (forall i j ni nj, nth_error ns i = Some ni -> nth_error ns j = Some nj ->
        rnc_id_eqb (n_id ni) (n_id nj) = true -> i = j) /\
    (forall id, (exists n, In n ns /\ rnc_id_eqb (n_id n) id = true) <-> now_serves h id la) /\
    (forall n, In n ns -> exists g, last_of_rnc h (n_id n) = Some g /\
        addr_dump E (n_addr n) = addr_dump E (g_addr g)).
Proof.
  intros l imsi tmsi la He. cbv zeta. set (w := reach E l).
  pose proof (page_api (APageCs2 imsi tmsi la) (fun e => lai_eqb (r_lai e) la) imsi tmsi false w He eq_refl) as H. cbv zeta in H.
  pose proof (reach_good E l) as G. fold w in G. pose proof (reach_rep E l) as R. fold w in R.
  set (ns := filter _ _) in *.
  assert (Hin : forall n, In n ns <-> In n (s_rncs (w_st w)) /\ exists e, In e (n_areas n) /\ lai_eqb (r_lai e) la = true).
  { intros n. unfold ns. rewrite filter_In, existsb_exists. reflexivity. }
  exists ns. split.
  { rewrite H. f_equal. f_equal. cbn [rev]. rewrite rev_app_distr. cbn. rewrite <- app_assoc. reflexivity. }
  split; [|split].
  - assert (Hd : NoDup ns).
    { unfold ns. apply NoDup_filter, nodup_of_ptr, (t_ptr _ (g_table _ G)). }
    intros i j ni nj Hi Hj Hid.
    assert (ni = nj).
    { apply (t_id _ (g_table _ G)); auto; [apply nth_error_In in Hi|apply nth_error_In in Hj]; apply Hin; auto. }
    subst nj. eapply (proj1 (NoDup_nth_error ns) Hd); [|congruence].
    apply nth_error_Some. congruence.
  - intros id. split.
    + intros (n & Hn & Hid). apply Hin in Hn as (Hn & e & Hie & Hl).
      assert (Hc : 0 < cnt n e) by (apply cnt_pos; exists e; split; [exact Hie|apply rai_eqb_refl]).
      pose proof (rp_area _ _ _ R e) as HR.
      destruct (last_of_area (registrations E l) e) as [g|] eqn:Hg.
      * exists e, g. split; [exact Hl|]. split; [exact Hg|].
        destruct HR as (m & Hm & Hcm & Him).
        assert (m = n).
        { eapply total_one; eauto; [apply (t_area _ (g_table _ G))|apply (t_ptr _ (g_table _ G))]. }
        subst m. rewrite rnc_id_eqb_sym in Him. eapply rnc_id_eqb_trans; eauto.
      * pose proof (cnt_le_total _ _ e Hn). lia.
    + intros (r & g & Hl & Hg & Hid). pose proof (rp_area _ _ _ R r) as HR. rewrite Hg in HR.
      destruct HR as (n & Hn & Hc & Hi). exists n. split; [|eapply rnc_id_eqb_trans; eauto].
      apply Hin. split; [exact Hn|]. apply cnt_pos in Hc as (e & Hie & Her). exists e. split; [exact Hie|].
      unfold rai_eqb in Her. apply andb_prop in Her as [Her _]. eapply lai_eqb_trans; eauto.
  - intros n Hn. apply Hin in Hn as [Hn _]. exact (rp_addr _ _ _ R n Hn).
Qed.

Lemma page_count_l : forall l a imsi tmsi ps,
  (exists r, a = APagePs2 imsi tmsi r /\ ps = true) \/ (exists la, a = APageCs2 imsi tmsi la /\ ps = false) ->
  enc_ok E (DL_Paging imsi tmsi ps 0) = true ->
  let w := reach E l in
  exists addrs,
    exec E (OApi a) w =
      (mkW (w_st w) ([ERet (Z.of_nat (length addrs))] ++
         rev (map (fun x => ESccp (NUnitdataReq x (DL_Paging imsi tmsi ps 0))) addrs) ++ [EApi a] ++ w_tr w), Some tt).
Proof.
  intros l a imsi tmsi ps Ha He w.
  assert (H : exists f, run_api E a w =
    (let! _ := emit (EApi a) in
     let! rc := (let! s := get in page_loop E (s_rncs s) f imsi tmsi ps 0) in emit (ERet rc)) w).
  { destruct Ha as [(r&->& ->)|(la&->& ->)];
      [exists (fun e => rai_eqb e r)|exists (fun e => lai_eqb (r_lai e) la)]; reflexivity. }
  destruct H as (f&Hf). pose proof (page_api a f imsi tmsi ps w He Hf) as H. cbv zeta in H.
  eexists (map n_addr _). rewrite H, map_length, map_map. reflexivity.
Qed.

(* legacy paging looks for RAC 0 only *)
Lemma page_cs_l : forall l imsi tmsi lac,
  (forall g, In g (registrations E l) -> l_lac (r_lai (g_area g)) = lac -> r_rac (g_area g) <> 0%N) ->
  let w := reach E l in
  let a := APageCs imsi tmsi lac in
  exec E (OApi a) w = (mkW (w_st w) (ERet 0 :: EApi a :: w_tr w), Some tt).
Proof.
  intros l imsi tmsi lac H. cbv zeta. set (w := reach E l). cbn [exec run_api]. unfold run_api, iu_page.
  rewrite bind_emit, bind_assoc, bind_get. cbn [w_st]. unfold lac_rac_find_legacy.
  destruct (find _ _) as [n|] eqn:Hf; [|rewrite bind_ret; reflexivity].
  exfalso. apply find_some in Hf as [Hn Hf]. apply existsb_exists in Hf as (e & Hie & He).
  apply andb_prop in He as [He1 He2]. apply N.eqb_eq in He1, He2.
  pose proof (reach_rep E l) as R. fold w in R. pose proof (rp_area _ _ _ R e) as HR.
  destruct (last_of_area (registrations E l) e) as [g|] eqn:Hg.
  - unfold last_of_area in Hg. apply find_some in Hg as [Hg Hr]. apply in_rev in Hg.
    unfold rai_eqb, lai_eqb in Hr. apply andb_prop in Hr as [Hr Hr2]. apply andb_prop in Hr as [_ Hr1].
    apply N.eqb_eq in Hr1, Hr2. eapply H; eauto; congruence.
  - assert (Hc : 0 < cnt n e) by (apply cnt_pos; exists e; split; [exact Hie|apply rai_eqb_refl]).
    pose proof (cnt_le_total _ _ e Hn). lia.
Qed.

(* C30 *)
Lemma area_once_l : forall l r,
  length (filter (fun e => rai_eqb e r) (all_areas (w_st (reach E l)))) <= 1.
Proof. intros l r. exact (t_area _ (g_table _ (reach_good E l)) r). Qed.

(* C32 *)
Definition rncs_persist (s s' : st) : Prop :=
  forall n, In n (s_rncs s) -> exists n', In n' (s_rncs s') /\ n_ptr n' = n_ptr n /\ n_id n' = n_id n.
Lemma persist_refl s s' : s_rncs s' = s_rncs s -> rncs_persist s s'.
Proof. intros H n Hn. exists n. rewrite H. auto. Qed.
Lemma persist_trans a b c : rncs_persist a b -> rncs_persist b c -> rncs_persist a c.
Proof.
  intros H1 H2 n Hn. destruct (H1 n Hn) as (n1 & Hn1 & E1 & E2). destruct (H2 n1 Hn1) as (n2 & Hn2 & E3 & E4).
  exists n2. split; [exact Hn2|]. split; congruence.
Qed.
Lemma persist_reg s id r a : table_ok s -> rncs_persist s (reg_st E s id r a).
Proof.
  intros T n Hn.
  assert (exists n0, In n0 (reg_l0 E s id a) /\ n_ptr n0 = n_ptr n /\ n_id n0 = n_id n) as (n0 & H0 & Hp0 & Hi0).
  { eexists (mkRnc (n_ptr n) (n_id n) _ (n_areas n)). split; [|cbn; auto].
    apply l0_in; auto. left. exists n. cbn. repeat split; auto. }
  destruct (reg_in' E s id r a n0 T H0) as (n' & Hn' & Hp' & Hi' & _).
  exists n'. split; [exact Hn'|]. split; congruence.
Qed.
Lemma exec_persist o w : good (w_st w) -> rncs_persist (w_st w) (w_st (fst (exec E o w))).
Proof.
  intros G. destruct (opens E (w_st w) o) as [x|] eqn:Ho.
  - destruct (exec_open E o x w (g_table _ G) (g_ues _ G) Ho) as (s2&t1&H1&H2&H3). cbv zeta in H3.
    assert (P1 : rncs_persist (w_st w) s2).
    { eapply persist_trans; [|apply persist_refl, (proj1 H1)].
      eapply persist_trans; [|apply persist_reg, open_st_table, (g_table _ G)].
      apply persist_refl, open_st_rncs. }
    destruct H3 as [(Ha&_)|(s3&t2&H3&_&Hs&_)].
    + rewrite Ha. exact P1.
    + rewrite Hs. eapply persist_trans; [exact P1|]. apply persist_refl. rewrite (proj1 H3). reflexivity.
  - destruct (exec_quiet E o w Ho) as (H1&_). apply persist_refl, (proj1 H1).
Qed.
Lemma run_app l1 l2 w : run E (l1 ++ l2) w = (let! _ := run E l1 in run E l2) w.
Proof.
  revert w. induction l1 as [|o l IH]; intros w; cbn [app run]; [rewrite bind_ret; reflexivity|].
  rewrite bind_assoc. apply bind_ext. intros [] w'. apply IH.
Qed.
Lemma run_persist l : forall w, good (w_st w) -> rncs_persist (w_st w) (w_st (fst (run E l w))).
Proof.
  induction l as [|o l IH]; intros w G; cbn [run]; [apply persist_refl; reflexivity|].
  pose proof (exec_persist o w G) as HP. pose proof (exec_good E o w G) as HG.
  unfold bind. destruct (exec E o w) as [w' [[]|]]; cbn [fst] in *; auto.
  eapply persist_trans; eauto.
Qed.
Lemma reach_persist l1 l2 : rncs_persist (w_st (reach E l1)) (w_st (reach E (l1 ++ l2))).
Proof.
  unfold reach. rewrite run_app. pose proof (reach_good E l1) as G. unfold reach in G.
  unfold bind. destruct (run E l1 w0) as [w' [[]|]]; cbn [fst] in *; [|apply persist_refl; reflexivity].
  apply run_persist, G.
Qed.
Lemma rnc_unique_l : forall l i j ni nj,
  let s := w_st (reach E l) in
  nth_error (s_rncs s) i = Some ni -> nth_error (s_rncs s) j = Some nj ->
  rnc_id_eqb (n_id ni) (n_id nj) = true -> i = j.
Proof.
  intros l i j ni nj. cbv zeta. intros Hi Hj Hid. pose proof (reach_good E l) as G.
  assert (ni = nj) by (apply (t_id _ (g_table _ G)); eauto using nth_error_In). subst nj.
  pose proof (nodup_of_ptr _ (t_ptr _ (g_table _ G))) as Hd.
  eapply (proj1 (NoDup_nth_error _) Hd); [|congruence]. apply nth_error_Some. congruence.
Qed.
Lemma ue_rnc_l : forall l u, In u (s_ues (w_st (reach E l))) ->
  exists n, In n (s_rncs (w_st (reach E l))) /\ n_ptr n = u_rnc u.
Proof.
  intros l u Hu. pose proof (q_rnc _ (g_ues _ (reach_good E l)) u Hu) as H.
  apply in_map_iff in H as (n & Hp & Hn). eauto.
Qed.

(* C38 *)
Lemma registrations_from_app l o : forall w,
  registrations_from E (l ++ [o]) w =
  registrations_from E l w ++
  match snd (run E l w) with Some _ => registers E (w_st (fst (run E l w))) o | None => [] end.
Proof.
  induction l as [|x l IH]; intros w.
  - change ([] ++ [o]) with [o]. cbn [registrations_from run ret fst snd app].
    destruct (exec E o w) as [w' [[]|]]; apply app_nil_r.
  - change ((x :: l) ++ [o]) with (x :: (l ++ [o])). cbn [registrations_from run]. unfold bind. destruct (exec E x w) as [w' [[]|]]; cbn [fst snd].
    + rewrite IH, app_assoc. reflexivity.
    + rewrite !app_nil_r. reflexivity.
Qed.
Lemma land_shift_byte b : N.land b 15 = (b mod 16)%N.
Proof. change 15%N with (N.ones 4). rewrite N.land_ones. reflexivity. Qed.

Lemma acceptable_plmn m i x b0 b1 b2 c0 c1 :
  m_ies m = I_InitialUE i -> iu_lai i = mkRLai [b0; b1; b2] [c0; c1] -> N.shiftr b1 4 = 15%N ->
  acceptable m = Some x -> r_lai (gprs_rai_to_osmo (acc_ra x)) = mkLai (plmn_from_bcd b0 b1 b2) (be16 c0 c1).
Proof.
  intros Hm Hl Hf. unfold acceptable. rewrite Hm, Hl. destruct (_ && _ && _); [|discriminate].
  unfold parse_lai. cbn [lai_plmn lai_lac length Nat.eqb negb rd nth_error obind asn1str_to_u16]. rewrite Hf.
  cbn [N.eqb Pos.eqb negb].
  destruct ((be16 c0 c1 =? 0)%N || (be16 c0 c1 =? 65534)%N); [discriminate|].
  destruct (grnc_id_parse (iu_grnc i)) as [[id|]|]; try discriminate.
  destruct (rac_of (iu_rac i)); [|discriminate]. destruct (iu_sac i) as [|s0 [|s1 sr]]; try discriminate.
  intros H. injection H as <-. cbn [acc_ra]. unfold gprs_rai_to_osmo.
  cbn [ra_mcc ra_mnc ra_mnc3 ra_lac ra_rac r_lai]. unfold plmn_from_bcd. rewrite Hf. cbn [N.eqb Pos.eqb negb].
  reflexivity.
Qed.

Lemma page_two_digit_l : forall l conn a y l2 m i x b0 b1 b2 c0 c1 imsi tmsi,
  enc_ok E (DL_Paging imsi tmsi false 0) = true ->
  snd (run E l w0) = Some tt ->
  dec_co E (y :: l2) = Some m -> m_ies m = I_InitialUE i -> acceptable m = Some x ->
  iu_lai i = mkRLai [b0; b1; b2] [c0; c1] -> N.shiftr b1 4 = 15%N ->
  let w := reach E (l ++ [OConnectInd conn a (y :: l2)]) in
  exists t addr, added (w_tr w)
      (w_tr (fst (exec E (OApi (APageCs2 imsi tmsi (mkLai (plmn_from_bcd b0 b1 b2) (be16 c0 c1)))) w))) t /\
    addr_dump E addr = addr_dump E a /\
    In (ESccp (NUnitdataReq addr (DL_Paging imsi tmsi false 0))) t.
Proof.
  intros l conn a y l2 m i x b0 b1 b2 c0 c1 imsi tmsi He Hrun Hd Hm Hx Hl Hf. cbv zeta.
  set (o := OConnectInd conn a (y :: l2)). set (la := mkLai _ _).
  destruct (page_cs2_l (l ++ [o]) imsi tmsi la He) as (ns & Heq & _ & Hid & Ha). cbv zeta in *.
  set (g := mkReg (acc_id x) (gprs_rai_to_osmo (acc_ra x)) a).
  assert (Hh : registrations E (l ++ [o]) = registrations E l ++ [g]).
  { unfold registrations. rewrite registrations_from_app, Hrun. f_equal.
    unfold registers, o. cbn [opens]. rewrite Hd, Hx. reflexivity. }
  rewrite Hh in *.
  destruct (proj2 (Hid (acc_id x))) as (n & Hn & Hni).
  { exists (gprs_rai_to_osmo (acc_ra x)), g. split; [|split].
    - rewrite (acceptable_plmn _ _ _ _ _ _ _ _ Hm Hl Hf Hx). apply lai_eqb_refl.
    - rewrite last_area_snoc. cbn [g g_area]. rewrite rai_eqb_refl. reflexivity.
    - apply rnc_id_eqb_refl. }
  destruct (Ha n Hn) as (g' & Hg' & Had).
  assert (g' = g).
  { rewrite last_rnc_snoc in Hg'. cbn [g g_id] in Hg'. rewrite rnc_id_eqb_sym, Hni in Hg'. congruence. }
  subst g'. rewrite Heq. eexists. exists (n_addr n). split; [unfold added; cbn [fst w_tr]; reflexivity|].
  split; [exact Had|]. right. apply in_or_app. left.
  apply (in_map (fun n => ESccp (NUnitdataReq (n_addr n) (DL_Paging imsi tmsi false 0)))). exact Hn.
Qed.
End Area.
