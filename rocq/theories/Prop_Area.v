(* Properties C30-C38: routing area table, NEW_AREA events and paging *)
From Verif Require Import Base Lai IuClient IuClient_spec IuClient_reg IuClient_step
  IuClient_area IuClient_ex.

(* C30 *)
Theorem C30_area_recorded_once :
  forall E l r,
    length (filter (fun e => rai_eqb e r) (all_areas (w_st (reach E l)))) <= 1.
Proof. exact area_once_l. Qed.
Print Assumptions C30_area_recorded_once.
Example C30_ex : (* two areas, after one of them moved *)
  all_areas (w_st (reach E0 h0)) = [rai_of 10 3; rai_of 10 255].
Proof. vm_compute. reflexivity. Qed.

(* C31: the table is the map from area to the last RNC that announced it *)
Theorem C31_table_refines_history :
  forall E l r,
    let s := w_st (reach E l) in
    let h := registrations E l in
    match last_of_area h r with
    | None => forall n, ~ serves s n r
    | Some g =>
        exists n, serves s n r /\ (forall n', serves s n' r -> n' = n) /\
          rnc_id_eqb (n_id n) (g_id g) = true /\
          exists g', last_of_rnc h (g_id g) = Some g' /\
            addr_dump E (n_addr n) = addr_dump E (g_addr g')
    end.
Proof. exact table_refines_l. Qed.
Print Assumptions C31_table_refines_history.
Example C31_ex : (* RNC 1 announced LAC 10 first, RNC 2 took it over *)
  registrations E0 h0 =
    [ mkReg (id_of 1) (rai_of 10 255) (mk_addr 100);
      mkReg (id_of 2) (rai_of 10 255) (mk_addr 200);
      mkReg (id_of 2) (rai_of 10 3) (mk_addr 201) ] /\
  last_of_area (registrations E0 h0) (rai_of 10 255)
    = Some (mkReg (id_of 2) (rai_of 10 255) (mk_addr 200)).
Proof. vm_compute. auto. Qed.

(* C32 *)
Theorem C32_rnc_unique :
  forall E l i j ni nj,
    let s := w_st (reach E l) in
    nth_error (s_rncs s) i = Some ni -> nth_error (s_rncs s) j = Some nj ->
    rnc_id_eqb (n_id ni) (n_id nj) = true -> i = j.
Proof. exact rnc_unique_l. Qed.
Print Assumptions C32_rnc_unique.
Theorem C32_rnc_never_disappears :
  forall E l1 l2 n, In n (s_rncs (w_st (reach E l1))) ->
    exists n', In n' (s_rncs (w_st (reach E (l1 ++ l2)))) /\ n_ptr n' = n_ptr n /\ n_id n' = n_id n.
Proof. exact reach_persist. Qed.
Print Assumptions C32_rnc_never_disappears.
Theorem C32_ue_refers_to_rnc :
  forall E l u, In u (s_ues (w_st (reach E l))) ->
    exists n, In n (s_rncs (w_st (reach E l))) /\ n_ptr n = u_rnc u.
Proof. exact ue_rnc_l. Qed.
Print Assumptions C32_ue_refers_to_rnc.
Example C32_ex :
  length (s_rncs (w_st (reach E0 h0))) = 2 /\ length (s_ues (w_st (reach E0 h0))) = 3.
Proof. vm_compute. auto. Qed.

(* C33: [opens] is the Initial UE Message that the operation carries, if it is
   the first data of a connection and well-formed *)
Theorem C33_new_area_events_exact :
  forall E l o,
    let w := reach E l in
    exists t, added (w_tr w) (w_tr (fst (exec E o w))) t /\
      new_area_events t =
        match opens E (w_st w) o with
        | Some x =>
            let g := reg_of x in
            let known := match last_of_area (registrations E l) (g_area g) with
                         | Some g0 => rnc_id_eqb (g_id g0) (g_id g) | None => false end in
            if has_event_cb E && negb known
            then [(g_id g, if (r_rac (g_area g) =? 255)%N then NewLac (r_lai (g_area g))
                           else NewRac (g_area g))]
            else []
        | None => []
        end.
Proof. exact new_area_exact_l. Qed.
Print Assumptions C33_new_area_events_exact.
Example C33_ex : (* the take-over of a location area; the same again is silent *)
  let w := reach E0 [OConnectInd 5 (mk_addr 100) [0%N]] in
  let w' := fst (exec E0 (OConnectInd 6 (mk_addr 200) [1%N]) w) in
  let w'' := fst (exec E0 (OConnectInd 7 (mk_addr 200) [1%N]) w') in
  new_area_events (w_tr w') = [(id_of 2, NewLac (r_lai (rai_of 10 0))); (id_of 1, NewLac (r_lai (rai_of 10 0)))]
  /\ new_area_events (w_tr w'') = new_area_events (w_tr w').
Proof. vm_compute. auto. Qed.

(* C34 *)
Theorem C34_page_ps2_exact :
  forall E l imsi tmsi r,
    enc_ok E (DL_Paging imsi tmsi true 0) = true ->
    let w := reach E l in
    let h := registrations E l in
    let a := APagePs2 imsi tmsi r in
    exists t, exec E (OApi a) w = (mkW (w_st w) (rev t ++ w_tr w), Some tt) /\
    match last_of_area h r with
    | None => t = [EApi a; ERet 0]
    | Some g => exists addr g',
        t = [EApi a; ESccp (NUnitdataReq addr (DL_Paging imsi tmsi true 0)); ERet 1] /\
        last_of_rnc h (g_id g) = Some g' /\ addr_dump E addr = addr_dump E (g_addr g')
    end.
Proof. exact page_ps2_l. Qed.
Print Assumptions C34_page_ps2_exact.
Example C34_ex : (* area announced from 201; RNC 2 is now at 201 *)
  sends (w_tr (fst (exec E0 (OApi (APagePs2 [1%N] None (rai_of 10 3))) (mkW (w_st (reach E0 h0)) []))))
    = [NUnitdataReq (mk_addr 201) (DL_Paging [1%N] None true 0)].
Proof. vm_compute. reflexivity. Qed.

(* C35 *)
Theorem C35_page_cs2_exact :
  forall E l imsi tmsi la,
    enc_ok E (DL_Paging imsi tmsi false 0) = true ->
    let w := reach E l in
    let h := registrations E l in
    let a := APageCs2 imsi tmsi la in
    exists ns : list rnc,
      exec E (OApi a) w =
        (mkW (w_st w)
           (rev (EApi a :: map (fun n => ESccp (NUnitdataReq (n_addr n) (DL_Paging imsi tmsi false 0))) ns
                 ++ [ERet (Z.of_nat (length ns))]) ++ w_tr w), Some tt) /\
      (forall i j ni nj, nth_error ns i = Some ni -> nth_error ns j = Some nj ->
          rnc_id_eqb (n_id ni) (n_id nj) = true -> i = j) /\
      (forall id, (exists n, In n ns /\ rnc_id_eqb (n_id n) id = true) <-> now_serves h id la) /\
      (forall n, In n ns -> exists g, last_of_rnc h (n_id n) = Some g /\
          addr_dump E (n_addr n) = addr_dump E (g_addr g)).
Proof. exact page_cs2_l. Qed.
Print Assumptions C35_page_cs2_exact.
Example C35_ex : (* RNC 2 has two areas in LAC 10 and is paged once; RNC 1 lost its area *)
  sends (w_tr (fst (exec E0 (OApi (APageCs2 [1%N] None (r_lai (rai_of 10 0)))) (mkW (w_st (reach E0 h0)) []))))
    = [NUnitdataReq (mk_addr 201) (DL_Paging [1%N] None false 0)].
Proof. vm_compute. reflexivity. Qed.

(* C36: SCCP refuses the message, 1 is returned all the same *)
Theorem C36_return_counts_sent_refuted :
  exists E l imsi r,
    (forall t q, send E t q <> 0%Z) /\
    let w := reach E l in
    let w' := fst (exec E (OApi (APagePs2 imsi None r)) w) in
    exists t, added (w_tr w) (w_tr w') t /\ last t EPrimFree = ERet 1.
Proof.
  exists (ex_env msgs0 (-1) no_app), [OConnectInd 5 (mk_addr 100) [0%N]], [1%N], (rai_of 10 255).
  split; [intros t q; discriminate|].
  exists [EApi (APagePs2 [1%N] None (rai_of 10 255));
          ESccp (NUnitdataReq (mk_addr 100) (DL_Paging [1%N] None true 0)); ERet 1].
  vm_compute. auto.
Qed.
Print Assumptions C36_return_counts_sent_refuted.
(* What is returned is the number of paging messages that were handed to SCCP: the
   number that were sent if SCCP takes them all *)
Theorem C36_return_counts_handed_over_partial :
  forall E l a imsi tmsi ps,
    (exists r, a = APagePs2 imsi tmsi r /\ ps = true) \/ (exists la, a = APageCs2 imsi tmsi la /\ ps = false) ->
    enc_ok E (DL_Paging imsi tmsi ps 0) = true ->
    let w := reach E l in
    exists addrs,
      exec E (OApi a) w =
        (mkW (w_st w) ([ERet (Z.of_nat (length addrs))] ++
           rev (map (fun x => ESccp (NUnitdataReq x (DL_Paging imsi tmsi ps 0))) addrs) ++ [EApi a] ++ w_tr w), Some tt).
Proof. exact page_count_l. Qed.
Print Assumptions C36_return_counts_handed_over_partial.
Example C36_ex :
  let w := reach E0 h0 in
  enc_ok E0 (DL_Paging [1%N] None false 0) = true /\
  exists x, w_tr (fst (exec E0 (OApi (APageCs2 [1%N] None (r_lai (rai_of 10 0)))) (mkW (w_st w) []))) =
    [ERet 1; ESccp (NUnitdataReq x (DL_Paging [1%N] None false 0)); EApi (APageCs2 [1%N] None (r_lai (rai_of 10 0)))].
Proof. split; [reflexivity|]. eexists. vm_compute. reflexivity. Qed.

(* C37: if no Initial UE message in the LAC named RAC 0 - a CS one names none -
   then legacy CS paging does nothing, in every history *)
Theorem C37_legacy_cs_paging_silent :
  forall E l imsi tmsi lac,
    (forall g, In g (registrations E l) -> l_lac (r_lai (g_area g)) = lac -> r_rac (g_area g) <> 0%N) ->
    let w := reach E l in
    let a := APageCs imsi tmsi lac in
    exec E (OApi a) w = (mkW (w_st w) (ERet 0 :: EApi a :: w_tr w), Some tt).
Proof. exact page_cs_l. Qed.
Print Assumptions C37_legacy_cs_paging_silent.
Theorem C37_legacy_cs_paging_refuted :
  (* RNC 1 announced LAC 10 without RAC; page_cs2 pages it, page_cs does not *)
  exists E l lac n,
    snd (run E l w0) = Some tt /\
    registrations E l = [mkReg (id_of 1) (rai_of lac 255) n] /\
    sends (w_tr (fst (exec E (OApi (APageCs2 [1%N] None (r_lai (rai_of lac 0)))) (mkW (w_st (reach E l)) []))))
      = [NUnitdataReq n (DL_Paging [1%N] None false 0)] /\
    sends (w_tr (fst (exec E (OApi (APageCs [1%N] None lac)) (mkW (w_st (reach E l)) [])))) = [].
Proof.
  exists E0, [OConnectInd 5 (mk_addr 100) [0%N]], 10%N, (mk_addr 100). vm_compute. auto.
Qed.
Print Assumptions C37_legacy_cs_paging_refuted.
Example C37_ex : (* LAC 10 is announced and reachable by ranap_iu_page_cs2 *)
  forallb (fun g => negb (l_lac (r_lai (g_area g)) =? 10)%N || negb (r_rac (g_area g) =? 0)%N)
    (registrations E0 h0) = true /\ length (registrations E0 h0) = 3.
Proof. vm_compute. auto. Qed.

(* C38: 262-026, announced with three MNC digits *)
Theorem C38_three_digit_mnc_paged_refuted :
  exists E l b0 b1 b2 c0 c1,
    registrations E l <> [] /\
    (forall g, In g (registrations E l) -> l_lac (r_lai (g_area g)) = be16 c0 c1) /\
    let w := reach E l in
    let a := APageCs2 [1%N] None (mkLai (plmn_from_bcd b0 b1 b2) (be16 c0 c1)) in
    dec_co E [0%N] = Some (mkMsg PR_initiatingMessage id_InitialUE_Message
      (I_InitialUE (mkInitialUe 0 (mkRLai [b0; b1; b2] [c0; c1]) None [0; 7]%N [1%N] (mkGrnc [b0; b1; b2] 1)))) /\
    l = [OConnectInd 5 (mk_addr 100) [0%N]] /\
    exec E (OApi a) w = (mkW (w_st w) (ERet 0 :: EApi a :: w_tr w), Some tt).
Proof.
  pose (b := [2 + 16 * 6; 2 + 16 * 6; 0 + 16 * 2]%N).
  exists (ex_env [mkMsg PR_initiatingMessage id_InitialUE_Message
      (I_InitialUE (mkInitialUe 0 (mkRLai b [0; 10]%N) None [0; 7]%N [1%N] (mkGrnc b 1)))] 0 no_app).
  exists [OConnectInd 5 (mk_addr 100) [0%N]]. do 5 eexists.
  split; [vm_compute; discriminate|]. split; [|split; [reflexivity|]].
  - intros g Hg. vm_compute in Hg. destruct Hg as [<-|[]]. vm_compute. reflexivity.
  - split; [reflexivity|]. vm_compute. reflexivity.
Qed.
Print Assumptions C38_three_digit_mnc_paged_refuted.
(* true for two MNC digits.  Missing: three digits, where it is false. *)
Theorem C38_two_digit_mnc_paged_partial :
  forall E l conn a y l2 m i x b0 b1 b2 c0 c1 imsi tmsi,
    enc_ok E (DL_Paging imsi tmsi false 0) = true ->
    snd (run E l w0) = Some tt ->
    dec_co E (y :: l2) = Some m -> m_ies m = I_InitialUE i -> acceptable m = Some x ->
    iu_lai i = mkRLai [b0; b1; b2] [c0; c1] -> N.shiftr b1 4 = 15%N ->
    let w := reach E (l ++ [OConnectInd conn a (y :: l2)]) in
    exists t addr, added (w_tr w)
        (w_tr (fst (exec E (OApi (APageCs2 imsi tmsi (mkLai (plmn_from_bcd b0 b1 b2) (be16 c0 c1)))) w))) t /\
      addr_dump E addr = addr_dump E a /\
      In (ESccp (NUnitdataReq addr (DL_Paging imsi tmsi false 0))) t.
Proof. exact page_two_digit_l. Qed.
Print Assumptions C38_two_digit_mnc_paged_partial.
Example C38_ex :
  snd (run E0 h0 w0) = Some tt /\ acceptable (nth 1 msgs0 rel_complete) <> None /\
  N.shiftr (nth 1 plmn_26242 0%N) 4 = 15%N.
Proof. vm_compute. repeat split; discriminate. Qed.
