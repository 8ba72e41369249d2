(* C109: what the client remembers of the radio networks *)
From Verif Require Import Base Lai IuClient IuClient_spec IuClient_ex IuClient_known.

(* What is in the table was announced: each RNC by an accepted Initial UE Message, each of its areas by the
   last such message that named the area. *)
Theorem C109_announced : forall E l n,
  In n (s_rncs (w_st (reach E l))) ->
  (exists g, In g (registrations E l) /\ rnc_id_eqb (n_id n) (g_id g) = true) /\
  forall e, In e (n_areas n) ->
    exists g, last_of_area (registrations E l) e = Some g /\ rnc_id_eqb (n_id n) (g_id g) = true.
Proof. intros E l n H. split; [exact (rnc_announced E l n H)|]. intros e. exact (area_announced E l n e H). Qed.
Print Assumptions C109_announced.

(* So it does not grow beyond the number of different areas, and of different RNCs, that were ever announced;
   the lists are any that have all of these. *)
Theorem C109_bounded : forall E l areas ids,
  (forall g, In g (registrations E l) -> exists r, In r areas /\ rai_eqb (g_area g) r = true) ->
  (forall g, In g (registrations E l) -> exists i, In i ids /\ rnc_id_eqb (g_id g) i = true) ->
  length (all_areas (w_st (reach E l))) <= length areas /\
  length (s_rncs (w_st (reach E l))) <= length ids.
Proof. intros E l areas ids HA HI. split; [exact (areas_bounded E l areas HA)|exact (rncs_bounded E l ids HI)]. Qed.
Print Assumptions C109_bounded.

(* Only accepted Initial UE Messages change it. *)
Theorem C109_unchanged : forall E l o,
  opens E (w_st (reach E l)) o = None ->
  s_rncs (w_st (fst (exec E o (reach E l)))) = s_rncs (w_st (reach E l)).
Proof. intros E l o. exact (table_kept E o (reach E l)). Qed.
Print Assumptions C109_unchanged.

(* False of the code: RNC 1 at point code 100 is paged although this point code was reported to be inaccessible. *)
Theorem C109_lost_not_paged_refuted :
  exists E l n la,
    let o := OPcstateInd 100 SpInaccessible RemUnavailableUnknown in
    snd (run E (l ++ [o]) w0) = Some tt /\ In n (s_rncs (w_st (reach E l))) /\ hits E o n /\
    exists t, added (w_tr (reach E (l ++ [o]))) (w_tr (fst (exec E (OApi (APageCs2 [49%N] None la)) (reach E (l ++ [o]))))) t /\
      sends t = [NUnitdataReq (n_addr n) (DL_Paging [49%N] None false 0)].
Proof.
  exists E0, [OConnectInd 5 (mk_addr 100) [0%N]], (mkRnc 0%N (id_of 1) (mk_addr 100) [rai_of 10 255]), (r_lai (rai_of 10 255)).
  cbv zeta. split; [vm_compute; reflexivity|]. split; [left; vm_compute; reflexivity|].
  split; [repeat split; left; reflexivity|].
  exists [EApi (APageCs2 [49%N] None (r_lai (rai_of 10 255))); ESccp (NUnitdataReq (mk_addr 100) (DL_Paging [49%N] None false 0)); ERet 1].
  split; vm_compute; reflexivity.
Qed.
Print Assumptions C109_lost_not_paged_refuted.

(* In every history paging does the same after a report of loss as before. *)
Theorem C109_lost_still_paged : forall E l o a imsi tmsi ps,
  is_loss_ind o = true -> snd (run E l w0) = Some tt ->
  (exists r, a = APagePs2 imsi tmsi r /\ ps = true) \/ (exists la, a = APageCs2 imsi tmsi la /\ ps = false) ->
  enc_ok E (DL_Paging imsi tmsi ps 0) = true ->
  let w := reach E l in let w' := reach E (l ++ [o]) in
  exists t, added (w_tr w) (w_tr (fst (exec E (OApi a) w))) t /\ added (w_tr w') (w_tr (fst (exec E (OApi a) w'))) t.
Proof.
  intros E l o a imsi tmsi ps Ho Hr Ha He. cbv zeta. apply (page_same E a _ _ imsi tmsi ps Ha He).
  rewrite (reach_snoc E l o Hr). apply table_kept. destruct o; try discriminate Ho; reflexivity.
Qed.
Print Assumptions C109_lost_still_paged.

(* two RNCs announced the same location area, one of them a routing area too *)
Example C109_ex :
  length (registrations E0 h0) = 3 /\ length (s_rncs (w_st (reach E0 h0))) = 2 /\
  all_areas (w_st (reach E0 h0)) <> [] /\
  (forall g, In g (registrations E0 h0) -> exists r, In r [rai_of 10 255; rai_of 10 3] /\ rai_eqb (g_area g) r = true) /\
  (forall g, In g (registrations E0 h0) -> exists i, In i [id_of 1; id_of 2] /\ rnc_id_eqb (g_id g) i = true).
Proof.
  split; [vm_compute; reflexivity|]. split; [vm_compute; reflexivity|]. split; [vm_compute; discriminate|].
  assert (H : registrations E0 h0 = [mkReg (id_of 1) (rai_of 10 255) (mk_addr 100); mkReg (id_of 2) (rai_of 10 255) (mk_addr 200);
    mkReg (id_of 2) (rai_of 10 3) (mk_addr 201)]) by (vm_compute; reflexivity).
  rewrite H. split; intros g [<-|[<-|[<-|[]]]].
  - exists (rai_of 10 255). split; [left; reflexivity|reflexivity].
  - exists (rai_of 10 255). split; [left; reflexivity|reflexivity].
  - exists (rai_of 10 3). split; [right; left; reflexivity|reflexivity].
  - exists (id_of 1). split; [left; reflexivity|reflexivity].
  - exists (id_of 2). split; [right; left; reflexivity|reflexivity].
  - exists (id_of 2). split; [right; left; reflexivity|reflexivity].
Qed.
