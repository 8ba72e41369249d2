(* Life of UE contexts: creation, the effect of API calls on one context,
   distinct connections *)
From Coq Require Import ZifyBool ZifyNat ZifyN Sorted.
From Verif Require Import Base Lai Lai_proofs IuClient IuClient_frame IuClient_spec IuClient_reg IuClient_step IuClient_inv IuClient_area IuClient_conn.

(* ---------------- API calls and one context ---------------- *)
Definition AF (p : ptr) (t : list eff) : Prop := In (EApi (AFreeUe (Some p))) t.
Definition RF (p : ptr) (t : list eff) : Prop := exists c d, In (EApi (ATxReleaseFree p c d)) t.
Lemma AF_app p a b : AF p (a ++ b) <-> AF p a \/ AF p b.
Proof. unfold AF. apply in_app_iff. Qed.
Lemma RF_app p a b : RF p (a ++ b) <-> RF p a \/ RF p b.
Proof.
  unfold RF. split.
  - intros (c&d&H). apply in_app_iff in H as [H|H]; eauto.
  - intros [(c&d&H)|(c&d&H)]; exists c, d; apply in_app_iff; auto.
Qed.

Definition kstep (p : ptr) (l l' : list ue) (t : list eff) : Prop :=
  (AF p t -> forall u, In u l' -> u_ptr u <> p) /\
  (RF p t -> forall u, In u l' -> u_ptr u = p -> u_notif u = false /\ u_for u = true) /\
  (forall u, In u l -> u_ptr u = p -> ~ AF p t -> exists u', In u' l' /\ ue_le u u' /\ (~ RF p t -> u' = u)).
Definition kspec {A} (p : ptr) (m : M A) : Prop := forall w, exists t,
  w_tr (fst (m w)) = t ++ w_tr w /\ ues_le (s_ues (w_st w)) (s_ues (w_st (fst (m w)))) /\
  (snd (m w) <> None -> kstep p (s_ues (w_st w)) (s_ues (w_st (fst (m w)))) t).

Lemma kstep_same p l t : (forall a, ~ In (EApi a) t) -> kstep p l l t.
Proof.
  intros H. split; [|split].
  - intros Ha. exfalso. eapply H, Ha.
  - intros (c&d&Ha). exfalso. eapply H, Ha.
  - intros u Hu Hp _. exists u. auto using ue_le_refl.
Qed.
Lemma kspec_bind {A B} p (m : M A) (k : A -> M B) : kspec p m -> (forall a, kspec p (k a)) -> kspec p (bind m k).
Proof.
  intros Hm Hk w. destruct (Hm w) as (t1&E1&L1&K1). unfold bind. destruct (m w) as [w' [a|]]; cbn [fst snd] in *.
  - destruct (Hk a w') as (t2&E2&L2&K2). exists (t2 ++ t1). split; [rewrite E2, E1, app_assoc; reflexivity|].
    split; [eapply ues_le_trans; eauto|]. intros Hs. specialize (K2 Hs).
    destruct (K1 ltac:(discriminate)) as (A1&B1&C1). destruct K2 as (A2&B2&C2). split; [|split].
    + rewrite AF_app. intros [H|H]; [auto|]. intros u Hu. destruct (ues_le_in _ _ _ L2 Hu) as (v&Hv&Hle).
      destruct Hle as [-> _]. auto.
    + rewrite RF_app. intros [H|H]; [auto|]. intros u Hu Hp. destruct (ues_le_in _ _ _ L2 Hu) as (v&Hv&Hle).
      destruct Hle as (E'&_&_&_&Hn&Hf). destruct (B1 H v Hv ltac:(congruence)) as [Hb1 Hb2]. split; [|auto].
      destruct (u_notif u); [|reflexivity]. specialize (Hn eq_refl). congruence.
    + intros u Hu Hp Hn. rewrite AF_app in Hn. destruct (C1 u Hu Hp ltac:(tauto)) as (u1&Hu1&Hle1&Heq1).
      destruct (C2 u1 Hu1 ltac:(destruct Hle1; congruence) ltac:(tauto)) as (u2&Hu2&Hle2&Heq2).
      exists u2. split; [exact Hu2|]. split; [eapply ue_le_trans; eauto|]. intros Hr. rewrite RF_app in Hr.
      rewrite Heq2, Heq1 by tauto. reflexivity.
  - exists t1. split; [exact E1|]. split; [exact L1|]. intros H. exfalso. apply H. reflexivity.
Qed.
Lemma kspec_ret {A} p (a : A) : kspec p (ret a).
Proof. intros w. exists []. split; [reflexivity|]. split; [apply ues_le_refl|]. intros _. apply kstep_same. intros a' []. Qed.
Lemma kspec_get p : kspec p get.
Proof. intros w. exists []. split; [reflexivity|]. split; [apply ues_le_refl|]. intros _. apply kstep_same. intros a' []. Qed.
Lemma kspec_trace p : kspec p trace.
Proof. intros w. exists []. split; [reflexivity|]. split; [apply ues_le_refl|]. intros _. apply kstep_same. intros a' []. Qed.
Lemma kspec_fail {A} p f : kspec p (@fail A f).
Proof. intros w. exists [EFault f]. split; [reflexivity|]. split; [apply ues_le_refl|]. intros H. exfalso. apply H. reflexivity. Qed.
Lemma kspec_lift {A} p (o : outcome A) : kspec p (lift o).
Proof. destruct o; [apply kspec_ret|apply kspec_fail]. Qed.
Lemma kspec_emit p e : (forall a, e <> EApi a) -> kspec p (emit e).
Proof.
  intros He w. exists [e]. split; [reflexivity|]. split; [apply ues_le_refl|]. intros _. apply kstep_same.
  intros a [H|[]]. eapply He, H.
Qed.
Lemma kspec_deref p q : kspec p (deref q).
Proof. unfold deref. apply kspec_bind; [apply kspec_get|]. intros s. destruct (live s q); [apply kspec_ret|apply kspec_fail]. Qed.

Ltac kk := repeat
  match goal with
  | |- kspec _ (ret _) => apply kspec_ret
  | |- kspec _ (fail _) => apply kspec_fail
  | |- kspec _ get => apply kspec_get
  | |- kspec _ trace => apply kspec_trace
  | |- kspec _ (lift _) => apply kspec_lift
  | |- kspec _ (deref _) => apply kspec_deref
  | |- kspec _ (emit _) => apply kspec_emit; discriminate
  | |- kspec _ (bind _ _) => apply kspec_bind; [|intros]
  | |- kspec _ (match ?x with _ => _ end) => destruct x
  end.

(* a function that only reads and sends *)
Definition quiet_st {A} (m : M A) : Prop := forall w, w_st (fst (m w)) = w_st w.
Lemma quiet_bind {A B} (m : M A) (k : A -> M B) : quiet_st m -> (forall a, quiet_st (k a)) -> quiet_st (bind m k).
Proof.
  intros Hm Hk w. unfold bind. specialize (Hm w). destruct (m w) as [w' [a|]]; cbn [fst] in *; auto.
  rewrite Hk. exact Hm.
Qed.
Lemma quiet_deref p : quiet_st (deref p).
Proof. intros w. unfold deref. rewrite bind_get. destruct (live _ _); reflexivity. Qed.

(* no API call is recorded *)
Definition NA {A} (m : M A) : Prop :=
  forall w, exists t, w_tr (fst (m w)) = t ++ w_tr w /\ (forall b, ~ In (EApi b) t).
Lemma NA_ret {A} (x : A) : NA (ret x).
Proof. intros v; exists []; split; [reflexivity|intros b []]. Qed.
Lemma NA_get : NA get.
Proof. intros v; exists []; split; [reflexivity|intros b []]. Qed.
Lemma NA_trace : NA trace.
Proof. intros v; exists []; split; [reflexivity|intros b []]. Qed.
Lemma NA_put s : NA (put_st s).
Proof. intros v; exists []; split; [reflexivity|intros b []]. Qed.
Lemma NA_fail {A} f : NA (@fail A f).
Proof. intros v; exists [EFault f]; split; [reflexivity|intros b [H|[]]; discriminate]. Qed.
Lemma NA_emit e : (forall a, e <> EApi a) -> NA (emit e).
Proof. intros He v. exists [e]. split; [reflexivity|]. intros b [H|[]]. eapply He, H. Qed.
Lemma NA_bind {A B} (m : M A) (k : A -> M B) : NA m -> (forall x, NA (k x)) -> NA (bind m k).
Proof.
  intros Hm Hk v. destruct (Hm v) as (t1&H1&N1). unfold bind. destruct (m v) as [v' [x|]]; cbn [fst] in *.
  - destruct (Hk x v') as (t2&H2&N2). exists (t2 ++ t1). rewrite H2, H1, app_assoc. split; [reflexivity|].
    intros b Hb. apply in_app_iff in Hb as [Hb|Hb]; [eapply N2|eapply N1]; eauto.
  - exists t1. auto.
Qed.
Lemma NA_deref p : NA (deref p).
Proof. unfold deref. apply NA_bind; [apply NA_get|]. intros s. destruct (live s p); [apply NA_ret|apply NA_fail]. Qed.
Ltac na := repeat
  match goal with
  | |- NA (ret _) => apply NA_ret
  | |- NA (fail _) => apply NA_fail
  | |- NA get => apply NA_get
  | |- NA trace => apply NA_trace
  | |- NA (put_st _) => apply NA_put
  | |- NA (deref _) => apply NA_deref
  | |- NA (emit _) => apply NA_emit; discriminate
  | |- NA (bind _ _) => apply NA_bind; [|intros]
  | |- NA (match ?x with _ => _ end) => destruct x
  end.

Section Life.
Variable E : env.

Lemma quiet_send r : quiet_st (sccp_send E r).
Proof. intros w. reflexivity. Qed.
Lemma quiet_encode m : quiet_st (encode E m).
Proof. intros w. unfold encode. destruct (enc_ok E m); reflexivity. Qed.
Lemma quiet_paging a i t b c : quiet_st (tx_paging_cmd E a i t b c).
Proof. unfold tx_paging_cmd. apply quiet_bind; auto using quiet_encode, quiet_send. Qed.
Lemma quiet_tx_release p c : quiet_st (tx_release E p c).
Proof. unfold tx_release. apply quiet_bind; [apply quiet_encode|]. intros m. apply quiet_bind; auto using quiet_deref, quiet_send. Qed.
Lemma quiet_page_loop l f i t b : forall n, quiet_st (page_loop E l f i t b n).
Proof.
  induction l; intros n; cbn [page_loop]; [intros w; reflexivity|]. destruct (existsb f _); [|auto].
  apply quiet_bind; auto using quiet_paging.
Qed.
(* API calls that change no state *)
Definition api_quiet (a : api) : bool := match a with AFreeUe (Some _) | ATxReleaseFree _ _ _ => false | _ => true end.
Lemma quiet_api a : api_quiet a = true -> quiet_st (run_api E a).
Proof.
  intros Ha. unfold run_api. apply quiet_bind; [intros w; reflexivity|]. intros _.
  apply quiet_bind; [|intros rc w; reflexivity].
  destruct a as [b [p|] nas sapi| | | | |[p|]| | | | | |]; try discriminate; try (intros w; reflexivity).
  - cbn [iu_tx]. apply quiet_bind; [apply quiet_deref|]. intros u. apply quiet_bind; [intros w; reflexivity|]. intros _.
    apply quiet_bind; auto using quiet_encode, quiet_send.
  - unfold tx_sec_mode_cmd. apply quiet_bind; [apply quiet_encode|]. intros m. apply quiet_bind; auto using quiet_deref, quiet_send.
  - unfold tx_common_id. apply quiet_bind; [apply quiet_deref|]. intros u. apply quiet_bind; auto using quiet_encode, quiet_send.
  - apply quiet_tx_release.
  - unfold rab_act. apply quiet_bind; auto using quiet_deref, quiet_send.
  - unfold iu_page. apply quiet_bind; [intros w; reflexivity|]. intros s. destruct (lac_rac_find_legacy s lac 0); [|intros w; reflexivity].
    apply quiet_bind; [apply quiet_paging|]. intros rc w; reflexivity.
  - unfold iu_page. apply quiet_bind; [intros w; reflexivity|]. intros s. destruct (lac_rac_find_legacy s lac rac); [|intros w; reflexivity].
    apply quiet_bind; [apply quiet_paging|]. intros rc w; reflexivity.
  - unfold page_cs2. apply quiet_bind; [intros w; reflexivity|]. intros s. apply quiet_page_loop.
  - unfold page_ps2. apply quiet_bind; [intros w; reflexivity|]. intros s. apply quiet_page_loop.
Qed.

Lemma NA_loop l f i t b : forall n, NA (page_loop E l f i t b n).
Proof. induction l; intros n; cbn [page_loop]; unfold tx_paging_cmd, encode, sccp_send; na; auto. Qed.
(* exactly one API call is recorded per call *)
Lemma run_api_trace a w : exists t, w_tr (fst (run_api E a w)) = t ++ EApi a :: w_tr w /\ (forall b, ~ In (EApi b) t).
Proof.
  unfold run_api. rewrite bind_emit. set (v := mkW _ _).
  assert (H : forall A (m : M A), (forall w, exists t, w_tr (fst (m w)) = t ++ w_tr w /\ (forall b, ~ In (EApi b) t)) ->
    exists t, w_tr (fst (m v)) = t ++ EApi a :: w_tr w /\ (forall b, ~ In (EApi b) t)).
  { intros A m Hm. destruct (Hm v) as (t&H1&H2). exists t. rewrite H1. auto. }
  apply H. clear v H. change (NA (let! rc := match a with
    | ATx buf dst nas sapi => iu_tx E buf dst nas sapi
    | ATxSecModeCmd p ik ck send_ck nk => tx_sec_mode_cmd E p ik ck send_ck nk
    | ATxCommonId p imsi => tx_common_id E p imsi
    | ATxRelease p c => tx_release E p c
    | ATxReleaseFree p c t => let! _ := tx_release_free E p c t in ret 0%Z
    | AFreeUe p => let! _ := free_ue E p in ret 0%Z
    | ARabAct p m => rab_act E p m
    | ARabDeact _ _ => ret (-1)%Z
    | APageCs imsi tmsi lac => iu_page E imsi tmsi lac 0 false
    | APagePs imsi tmsi lac rac => iu_page E imsi tmsi lac rac true
    | APageCs2 imsi tmsi l => page_cs2 E imsi tmsi l
    | APagePs2 imsi tmsi r => page_ps2 E imsi tmsi r
    end in emit (ERet rc))).
  unfold iu_tx, tx_sec_mode_cmd, tx_common_id, tx_release_free, tx_release, free_ue, rab_act, iu_page,
    page_cs2, page_ps2, tx_paging_cmd, encode, sccp_send. na; apply NA_loop.
Qed.

(* the two calls that change the list of contexts *)
Lemma run_free_eq p w : run_api E (AFreeUe (Some p)) w =
  match live (w_st w) p with
  | None => (mkW (w_st w) (EFault UseAfterFree :: EApi (AFreeUe (Some p)) :: w_tr w), None)
  | Some u => (mkW (set_ues (w_st w) (filter (fun u => negb (u_ptr u =? p)%N) (s_ues (w_st w))))
                (ERet 0 :: ESccp (NDisconnectReq (u_conn u)) :: EApi (AFreeUe (Some p)) :: w_tr w), Some tt)
  end.
Proof.
  unfold run_api. rewrite bind_emit, bind_assoc. cbn [free_ue]. rewrite bind_assoc. unfold deref.
  rewrite bind_assoc, bind_get. cbn [w_st]. destruct (live (w_st w) p) as [u|]; [|reflexivity].
  rewrite bind_ret. reflexivity.
Qed.
Definition rf_ue (f : ue -> option Z) (u : ue) : ue :=
  mkUe (u_ptr u) (u_rnc u) (u_conn u) (u_ra u) false true (f u).
Lemma live_upd p f l : (forall u, u_ptr (f u) = u_ptr u) ->
  find (fun u => (u_ptr u =? p)%N) (upd_ue p f l) = option_map f (find (fun u => (u_ptr u =? p)%N) l).
Proof.
  intros Hf. induction l as [|u l IH]; [reflexivity|]. cbn [upd_ue map find].
  destruct (u_ptr u =? p)%N eqn:Hp; [rewrite Hf, Hp; reflexivity|]. rewrite Hp. exact IH.
Qed.
Lemma upd_upd p f g l : (forall u, u_ptr (f u) = u_ptr u) ->
  upd_ue p g (upd_ue p f l) = upd_ue p (fun u => g (f u)) l.
Proof.
  intros Hf. unfold upd_ue. rewrite map_map. apply map_ext. intros u.
  destruct (u_ptr u =? p)%N eqn:Hp; [rewrite Hf, Hp|rewrite Hp]; reflexivity.
Qed.
Lemma run_rf_eq p c d w : exists t o, let c' := match c with Some c => c | None => cause_normal_release end in
  run_api E (ATxReleaseFree p c d) w =
  match live (w_st w) p with
  | None => (mkW (w_st w) (EFault UseAfterFree :: EApi (ATxReleaseFree p c d) :: w_tr w), None)
  | Some u =>
      if enc_ok E (DL_IuReleaseCmd c') then
        (mkW (set_ues (w_st w) (upd_ue p (rf_ue (fun _ => Some t)) (s_ues (w_st w))))
             (ERet 0 :: ESccp (NDataReq (u_conn u) (DL_IuReleaseCmd c')) :: EApi (ATxReleaseFree p c d) :: w_tr w), Some tt)
      else (mkW (set_ues (w_st w) (upd_ue p (rf_ue u_timer) (s_ues (w_st w))))
             (EFault NullDeref :: EApi (ATxReleaseFree p c d) :: w_tr w), o)
  end /\ o = None.
Proof.
  unfold run_api. rewrite bind_emit, bind_assoc. unfold tx_release_free. rewrite bind_assoc. unfold deref at 1.
  rewrite bind_assoc, bind_get. cbn [w_st]. destruct (live (w_st w) p) as [u|] eqn:Hl.
  2:{ exists 0%Z, None. split; reflexivity. }
  rewrite bind_ret, bind_assoc, bind_get, bind_assoc, bind_put. cbn [w_st w_tr].
  set (c' := match c with Some c => c | None => cause_normal_release end).
  set (t := send E (EApi (ATxReleaseFree p c d) :: w_tr w) (NDataReq (u_conn u) (DL_IuReleaseCmd c'))).
  exists (if (t =? 0)%Z then d else 0%Z), None. split; [|reflexivity]. cbv zeta.
  rewrite bind_assoc. unfold tx_release. fold c'. rewrite bind_assoc. unfold encode.
  destruct (enc_ok E (DL_IuReleaseCmd c')); [|reflexivity].
  rewrite bind_ret, bind_assoc. unfold deref. rewrite bind_assoc, bind_get.
  assert (Hl' : live (set_ues (w_st w) (upd_ue p (fun u => mkUe (u_ptr u) (u_rnc u) (u_conn u) (u_ra u) false true (u_timer u)) (s_ues (w_st w)))) p
     = Some (rf_ue u_timer u)).
  { unfold live. cbn [set_ues s_ues]. rewrite live_upd by reflexivity. unfold live in Hl. rewrite Hl. reflexivity. }
  cbn [w_st]. rewrite Hl', bind_ret. unfold sccp_send. rewrite bind_assoc, bind_trace, bind_assoc, bind_emit, bind_ret.
  rewrite bind_assoc, bind_get, bind_put, bind_ret. cbn [w_st w_tr emit u_conn rf_ue]. fold t. f_equal. f_equal.
  unfold set_ues at 1 3. cbn [s_ues s_rncs s_cache s_next set_ues]. f_equal.
  rewrite upd_upd by reflexivity. reflexivity.
Qed.

Lemma live_in s p u : live s p = Some u -> In u (s_ues s) /\ u_ptr u = p.
Proof. intros H. apply find_some in H as [H1 H2]. apply N.eqb_eq in H2. auto. Qed.

Lemma kspec_api p a : kspec p (run_api E a).
Proof.
  intros w. destruct (run_api_trace a w) as (t&Ht&Hn).
  destruct (pres_run_api E a w) as ((_&_&_&Hle)&_).
  exists (t ++ [EApi a]). split; [rewrite Ht, <- app_assoc; reflexivity|]. split; [exact Hle|]. intros Hs.
  assert (HAF : AF p (t ++ [EApi a]) -> a = AFreeUe (Some p)).
  { unfold AF. rewrite in_app_iff. intros [H|[H|[]]]; [destruct (Hn _ H)|congruence]. }
  assert (HRF : RF p (t ++ [EApi a]) -> exists c d, a = ATxReleaseFree p c d).
  { intros (c&d&H). apply in_app_iff in H as [H|[H|[]]]; [destruct (Hn _ H)|]. exists c, d. congruence. }
  destruct (api_quiet a) eqn:Hq.
  - rewrite (quiet_api a Hq). split; [|split].
    + intros H. rewrite (HAF H) in Hq. discriminate.
    + intros H. destruct (HRF H) as (c&d&->). discriminate.
    + intros u Hu Hp _. exists u. auto using ue_le_refl.
  - destruct a as [| | | |q c d|[q|]| | | | | |]; try discriminate; clear Hq.
    + destruct (run_rf_eq q c d w) as (tm&o&Heq&->). cbv zeta in Heq. rewrite Heq in Hs |- *.
      destruct (live (w_st w) q) as [u|]; [|exfalso; apply Hs; reflexivity].
      destruct (enc_ok E _); [|exfalso; apply Hs; reflexivity].
      cbn [fst w_st set_ues s_ues]. split; [|split].
      * intros H. specialize (HAF H). discriminate.
      * intros H v Hv Hp. destruct (HRF H) as (c'&d'&Heq'). injection Heq' as -> -> ->.
        unfold upd_ue in Hv. apply in_map_iff in Hv as (v0&Hv0&Hin).
        destruct (u_ptr v0 =? p)%N eqn:E0; [subst v; split; reflexivity|]. subst v0. lia.
      * intros v Hv Hp _. exists (if (u_ptr v =? q)%N then rf_ue (fun _ => Some tm) v else v). split; [|split].
        -- unfold upd_ue. apply (in_map (fun u => if (u_ptr u =? q)%N then rf_ue (fun _ => Some tm) u else u)). exact Hv.
        -- destruct (u_ptr v =? q)%N; [|apply ue_le_refl]. unfold ue_le. cbn. intuition discriminate.
        -- intros Hr. destruct (u_ptr v =? q)%N eqn:Eq; [|reflexivity]. exfalso. apply Hr. exists c, d.
           apply N.eqb_eq in Eq. rewrite <- Hp, Eq. apply in_app_iff. right. left. reflexivity.
    + rewrite run_free_eq in Hs |- *. destruct (live (w_st w) q) as [u|]; [|exfalso; apply Hs; reflexivity].
      cbn [fst w_st set_ues s_ues]. split; [|split].
      * intros H v Hv Hp. specialize (HAF H). injection HAF as ->. apply filter_In in Hv as [_ Hv]. lia.
      * intros H. destruct (HRF H) as (c&d&Hd). discriminate.
      * intros v Hv Hp Hna. exists v. split; [|auto using ue_le_refl]. apply filter_In. split; [exact Hv|].
        destruct (u_ptr v =? q)%N eqn:Eq; [|reflexivity]. exfalso. apply Hna. apply N.eqb_eq in Eq.
        unfold AF. rewrite <- Hp, Eq. apply in_app_iff. right. left. reflexivity.
Qed.
Lemma kspec_apis p l : kspec p (run_apis E l).
Proof. induction l; cbn [run_apis]; kk; auto using kspec_api. Qed.
Lemma kspec_callback p e : (forall a, e <> EApi a) -> kspec p (callback E e).
Proof. intros H. unfold callback. kk; auto using kspec_apis. apply kspec_emit, H. Qed.
Lemma kspec_event p q ev : kspec p (global_iu_event E q ev).
Proof. unfold global_iu_event. kk. apply kspec_callback. discriminate. Qed.
Lemma kspec_send p r : kspec p (sccp_send E r).
Proof. unfold sccp_send. kk. Qed.
Lemma kspec_tx_release p q c : kspec p (tx_release E q c).
Proof. unfold tx_release, encode. kk; auto using kspec_send. Qed.
Lemma kspec_handle_co p q m : kspec p (handle_co E q m).
Proof.
  unfold handle_co, handle_co_dt, nas_put, handle_co_iu_rel_req, handle_co_rab_ass_resp.
  kk; auto using kspec_event, kspec_tx_release; apply kspec_callback; discriminate.
Qed.
End Life.
