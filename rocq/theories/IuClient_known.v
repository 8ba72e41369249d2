(* Proofs for C109: what the client remembers of the radio networks *)
From Verif Require Import Base Lai Lai_proofs IuClient IuClient_frame IuClient_spec IuClient_reg IuClient_step IuClient_inv IuClient_area.

Lemma classes_count {A B} (f : A -> B -> bool) : forall (D : list B) (L : list A),
  (forall d, length (filter (fun e => f e d) L) <= 1) -> (forall e, In e L -> exists d, In d D /\ f e d = true) ->
  length L <= length D.
Proof.
  induction D as [|d D IH]; intros L H1 H2.
  - destruct L as [|e L]; [cbn; lia|]. destruct (H2 e (or_introl eq_refl)) as (d & [] & _).
  - assert (Hl : length L = length (filter (fun e => f e d) L) + length (filter (fun e => negb (f e d)) L)).
    { clear. induction L as [|x L IH]; [reflexivity|]. cbn [filter length]. destruct (f x d); cbn [negb length]; lia. }
    assert (length (filter (fun e => negb (f e d)) L) <= length D).
    { apply IH.
      - intros d'. specialize (H1 d'). revert H1. clear. intros H.
        assert (length (filter (fun e => f e d') (filter (fun e => negb (f e d)) L)) <= length (filter (fun e => f e d') L)); [|lia].
        clear. induction L as [|x L IH]; [cbn; lia|]. cbn [filter]. destruct (f x d); cbn [negb filter]; destruct (f x d'); cbn [length]; lia.
      - intros e He. apply filter_In in He as [He Hn]. destruct (H2 e He) as (d' & [<-|Hd] & Hf); [rewrite Hf in Hn; discriminate|eauto]. }
    specialize (H1 d). cbn [length]. lia.
Qed.

Section Known.
Context (E : env).
Lemma area_announced l n e : In n (s_rncs (w_st (reach E l))) -> In e (n_areas n) ->
  exists g, last_of_area (registrations E l) e = Some g /\ rnc_id_eqb (n_id n) (g_id g) = true.
Proof.
  intros Hn He. pose proof (table_refines_l E l e) as H. cbv zeta in H.
  assert (Hs : serves (w_st (reach E l)) n e) by (split; [exact Hn|exists e; split; [exact He|apply rai_eqb_refl]]).
  destruct (last_of_area (registrations E l) e) as [g|]; [|destruct (H n Hs)].
  destruct H as (n0 & _ & Hu & Hi & _). exists g. split; [reflexivity|]. rewrite (Hu n Hs). exact Hi.
Qed.
Lemma last_area_in h r g : last_of_area h r = Some g -> In g h /\ rai_eqb (g_area g) r = true.
Proof. unfold last_of_area. intros H. apply find_some in H as [H1 H2]. rewrite <- in_rev in H1. auto. Qed.
Lemma last_rnc_in h i g : last_of_rnc h i = Some g -> In g h /\ rnc_id_eqb (g_id g) i = true.
Proof. unfold last_of_rnc. intros H. apply find_some in H as [H1 H2]. rewrite <- in_rev in H1. auto. Qed.
Lemma rnc_announced l n : In n (s_rncs (w_st (reach E l))) ->
  exists g, In g (registrations E l) /\ rnc_id_eqb (n_id n) (g_id g) = true.
Proof.
  intros Hn. destruct (rp_addr _ _ _ (reach_rep E l) n Hn) as (g & Hg & _).
  apply last_rnc_in in Hg as [H1 H2]. exists g. rewrite rnc_id_eqb_sym. auto.
Qed.
Lemma areas_bounded l D : (forall g, In g (registrations E l) -> exists r, In r D /\ rai_eqb (g_area g) r = true) ->
  length (all_areas (w_st (reach E l))) <= length D.
Proof.
  intros HD. apply (classes_count (fun e r => rai_eqb e r)); [intros d; apply area_once_l|].
  intros e He. unfold all_areas in He. apply in_flat_map in He as (n & Hn & He).
  destruct (area_announced l n e Hn He) as (g & Hg & _). apply last_area_in in Hg as [Hg Ha].
  destruct (HD g Hg) as (r & Hr & Hgr). exists r. split; [exact Hr|].
  rewrite rai_eqb_sym in Ha. exact (rai_eqb_trans _ _ _ Ha Hgr).
Qed.
Lemma rncs_bounded l D : (forall g, In g (registrations E l) -> exists i, In i D /\ rnc_id_eqb (g_id g) i = true) ->
  length (s_rncs (w_st (reach E l))) <= length D.
Proof.
  intros HD. apply (classes_count (fun n i => rnc_id_eqb (n_id n) i)).
  - intros i. pose proof (reach_good E l) as G. pose proof (nodup_of_ptr _ (t_ptr _ (g_table _ G))) as Hd.
    pose proof (NoDup_filter (fun n => rnc_id_eqb (n_id n) i) Hd) as Hf.
    destruct (filter _ _) as [|a [|b t]] eqn:Ef; cbn [length]; [lia|lia|exfalso].
    assert (Ha : In a (a :: b :: t)) by (left; reflexivity). assert (Hb : In b (a :: b :: t)) by (right; left; reflexivity).
    rewrite <- Ef in Ha, Hb. apply filter_In in Ha as [Ha Ia]. apply filter_In in Hb as [Hb Ib].
    assert (a = b). { apply (t_id _ (g_table _ G)); auto. rewrite rnc_id_eqb_sym in Ib. exact (rnc_id_eqb_trans _ _ _ Ia Ib). }
    subst b. inversion Hf as [|? ? Hx _]. apply Hx. left; reflexivity.
  - intros n Hn. destruct (rnc_announced l n Hn) as (g & Hg & Hi). destruct (HD g Hg) as (i & Hin & Hgi).
    exists i. split; [exact Hin|exact (rnc_id_eqb_trans _ _ _ Hi Hgi)].
Qed.
Lemma table_kept o w : opens E (w_st w) o = None -> s_rncs (w_st (fst (exec E o w))) = s_rncs (w_st w).
Proof. intros H. exact (proj1 (proj1 (exec_quiet E o w H))). Qed.
Lemma reach_snoc l o : snd (run E l w0) = Some tt -> reach E (l ++ [o]) = fst (exec E o (reach E l)).
Proof.
  intros H. unfold reach. rewrite run_app. unfold bind. destruct (run E l w0) as [w [[]|]]; [|discriminate H].
  cbn [fst run]. unfold bind. destruct (exec E o w) as [w' [[]|]]; reflexivity.
Qed.
Lemma page_same a w w' imsi tmsi ps :
  (exists r, a = APagePs2 imsi tmsi r /\ ps = true) \/ (exists la, a = APageCs2 imsi tmsi la /\ ps = false) ->
  enc_ok E (DL_Paging imsi tmsi ps 0) = true -> s_rncs (w_st w') = s_rncs (w_st w) ->
  exists t, added (w_tr w) (w_tr (fst (exec E (OApi a) w))) t /\ added (w_tr w') (w_tr (fst (exec E (OApi a) w'))) t.
Proof.
  intros Ha He Hs.
  assert (H : exists f, forall w, run_api E a w =
    (let! _ := emit (EApi a) in let! rc := (let! s := get in page_loop E (s_rncs s) f imsi tmsi ps 0) in emit (ERet rc)) w).
  { destruct Ha as [(r & -> & ->)|(la & -> & ->)]; eexists; intros; reflexivity. }
  destruct H as (f & H).
  rewrite (page_api E a f imsi tmsi ps w He (H w)), (page_api E a f imsi tmsi ps w' He (H w')), Hs. cbn [fst w_tr].
  set (t0 := rev (map _ _)).
  exists (rev (ERet (Z.of_nat (length (filter (fun x => existsb f (n_areas x)) (s_rncs (w_st w))))) :: t0 ++ [EApi a])).
  unfold added. rewrite rev_involutive. split; rewrite <- app_comm_cons, <- app_assoc; reflexivity.
Qed.
End Known.
