(* Proofs for C94: how the process ends. *)
From Coq Require Import ZifyBool ZifyNat ZifyN.
From Verif Require Import Base Lai IuClient IuClient_spec IuClient_frame IuClient_step ClientMem ClientMem_spec ClientMem_proofs ClientMem_count.

Section How.
Variable E : env.
Variable G : N -> bool.
(* the code ends where its counterpart with memory does not: at the request last made, and
   how is told by [F] from that request's number *)
Definition ends {A} (F : st -> N -> fault) (m' : MM A) (m : M A) : Prop := forall n w n' w',
  m' n w = (n', (w', None)) -> snd (m w) <> None ->
  (n < n')%N /\ G (n' - 1)%N = false /\ exists t, w_tr w' = EFault (F (w_st w) (n' - n)%N) :: t.
Definition null : st -> N -> fault := fun _ _ => NullDeref.
Lemma en_up {A} F (m : M A) : ends F (up m) m.
Proof. intros n w n' w' H Hs. unfold up in H. injection H as _ H. rewrite H in Hs. destruct (Hs eq_refl). Qed.
Lemma en_ext {A} F (m' : MM A) (m1 m2 : M A) : (forall w, m1 w = m2 w) -> ends F m' m1 -> ends F m' m2.
Proof. intros He H n w n' w' Hm Hs. rewrite <- He in Hs. exact (H n w n' w' Hm Hs). Qed.
Lemma bind_done {A B} (m : M A) (k : A -> M B) w : snd (bind m k w) <> None -> snd (m w) <> None.
Proof. unfold bind. destruct (m w) as [w1 [a|]]; cbn [snd]; [discriminate|auto]. Qed.
(* first part ends as F says, the rest by NullDeref; [F] says NullDeref after the first part *)
Lemma en_bind {A B} F (m' : MM A) (m : M A) (k' : A -> MM B) (k : A -> M B) :
  sim G m' m -> ends F m' m -> (forall a, ends null (k' a) (k a)) ->
  (forall n w n1 w1 a, m' n w = (n1, (w1, Some a)) -> forall d, (n1 - n < d)%N -> F (w_st w) d = NullDeref) ->
  ends F (mbind m' k') (bind m k).
Proof.
  intros Hs Hm Hk HF n w n' w' H Hd. pose proof (bind_done _ _ _ Hd) as Hd1. unfold mbind in H. destruct (Hs n w) as (L&S&_).
  destruct (m' n w) as [n1 [w1 [a|]]] eqn:E1; cbn [fst snd] in *.
  - destruct S as [S|[S _]]; [|discriminate S]. unfold bind in Hd. rewrite <- S in Hd.
    destruct (Hk a _ _ _ _ H Hd) as (L2&G2&t&T). split; [lia|]. split; [exact G2|]. exists t. rewrite (HF _ _ _ _ _ E1 (n' - n)%N) by lia. exact T.
  - injection H as <- <-. exact (Hm _ _ _ _ E1 Hd1).
Qed.
Lemma en_bind0 {A B} (m' : MM A) (m : M A) (k' : A -> MM B) (k : A -> M B) :
  sim G m' m -> ends null m' m -> (forall a, ends null (k' a) (k a)) -> ends null (mbind m' k') (bind m k).
Proof. intros H1 H2 H3. apply en_bind; try assumption. reflexivity. Qed.
Lemma en_before {A B} F (m : M A) (k' : A -> MM B) (k : A -> M B) :
  (forall w, match m w with (w1, Some a) => w_st w1 = w_st w | _ => True end) ->
  (forall a, ends F (k' a) (k a)) -> ends F (mbind (up m) k') (bind m k).
Proof.
  intros Hm Hk n w n' w' H Hd. unfold mbind, up in H. unfold bind in Hd. specialize (Hm w). destruct (m w) as [w1 [a|]]; [|destruct (Hd eq_refl)].
  rewrite <- Hm. exact (Hk a _ _ _ _ H Hd).
Qed.
Lemma en_need {A} F (m' : MM A) (m : M A) : ends F m' m -> ends (fun s d => if (d <=? 1)%N then NullDeref else F s (d - 1)%N) (let+ _ := need G NullDeref in m') m.
Proof.
  intros Hm n w n' w' H Hd. unfold need, request, mbind in H. destruct (G n) eqn:Hn.
  - destruct (Hm (n + 1)%N w n' w' H Hd) as (L&Hg&t&T). split; [lia|]. split; [exact Hg|]. exists t. rewrite T.
    destruct (N.leb_spec (n' - n) 1); [lia|]. do 3 f_equal. lia.
  - injection H as <- <-. split; [lia|]. split; [replace (n + 1 - 1)%N with n by lia; exact Hn|]. exists (w_tr w). replace (n + 1 - n)%N with 1%N by lia. reflexivity.
Qed.
Lemma en_eq {A} F F' (m' : MM A) (m : M A) : (forall s d, F s d = F' s d) -> ends F m' m -> ends F' m' m.
Proof. intros He H n w n' w' Hm Hd. rewrite <- He. exact (H n w n' w' Hm Hd). Qed.
Lemma en_need0 {A} (m' : MM A) (m : M A) : ends null m' m -> ends null (let+ _ := need G NullDeref in m') m.
Proof. intros H. apply (en_eq (fun s d => if (d <=? 1)%N then NullDeref else null s (d - 1)%N)); [intros s d; destruct (d <=? 1)%N; reflexivity|]. apply en_need, H. Qed.

Lemma en_assoc {A B C} F (m : MM A) (k : A -> MM B) (h : B -> MM C) (m2 : M C) :
  ends F (mbind m (fun a => mbind (k a) h)) m2 -> ends F (mbind (mbind m k) h) m2.
Proof. intros H n w n' w' Hm. rewrite mb_assoc in Hm. exact (H n w n' w' Hm). Qed.

Definition first_unknown (id : rnc_id) : st -> N -> fault :=
  fun s d => if (d =? 1)%N && negb (known_rnc s id) then Assertion else NullDeref.
Lemma en_tail id r p : ends null (reg_tail E G id r p)
  (let! s := get in
  match lac_rac_find s r with
  | Some old =>
      if negb (n_ptr old =? p)%N then
        let e := match find (fun e => rai_eqb e r) (n_areas old) with
                 | Some e => e | None => r end in
        let l1 := upd_rnc (n_ptr old)
                    (fun n => mkRnc (n_ptr n) (n_id n) (n_addr n) (area_del r (n_areas n))) (s_rncs s) in
        let l2 := upd_rnc p
                    (fun n => mkRnc (n_ptr n) (n_id n) (n_addr n) (e :: n_areas n)) l1 in
        let! _ := put_st (set_rncs s l2) in
        let! _ := event_new_area E id r in
        ret p
      else ret p
  | None =>
      let! _ := put_st (set_rncs s (upd_rnc p
                  (fun n => mkRnc (n_ptr n) (n_id n) (n_addr n) (r :: n_areas n)) (s_rncs s))) in
      let! _ := event_new_area E id r in
      ret p
  end).
Proof.
  unfold reg_tail. apply en_bind0; [apply sim_up|apply en_up|intros s]. destruct (lac_rac_find s r) as [old|].
  - cbv zeta. destruct (negb _); [|apply en_up]. repeat (apply en_bind0; [apply sim_up|apply en_up|intros _]). apply en_up.
  - apply en_need0. repeat (apply en_bind0; [apply sim_up|apply en_up|intros _]). apply en_up.
Qed.
Lemma en_register id r a : ends (first_unknown id) (m_rnc_register E G id r a) (rnc_register E id r a).
Proof.
  intros n w.
  change (m_rnc_register E G id r a n w) with
    ((let+ p := match rnc_id_find (w_st w) id with
       | Some v => let+ _ := up (if same_sccp_addr E (n_addr v) a then ret tt
                   else put_st (set_rncs (w_st w) (upd_rnc (n_ptr v)
                          (fun n => mkRnc (n_ptr n) (n_id n) a (n_areas n)) (s_rncs (w_st w))))) in up (ret (n_ptr v))
       | None => m_rnc_alloc G id a end in reg_tail E G id r p) n w).
  unfold rnc_register, first_unknown, known_rnc. rewrite <- find_existsb. fold (rnc_id_find (w_st w) id). rewrite bind_get.
  destruct (rnc_id_find (w_st w) id) as [v|]; cbn [negb].
  - intros n' w' H Hd. rewrite andb_false_r.
    refine (en_bind0 _ _ _ _ _ _ (en_tail id r) n w n' w' H Hd).
    + apply sim_bind; [apply sim_up|intros; apply sim_up|intros _ w0; exists []; reflexivity].
    + apply en_bind0; [apply sim_up|apply en_up|intros; apply en_up].
  - intros n' w' H Hd. rewrite andb_true_r.
    set (w1 := mkW (mkSt (s_ues (w_st w)) (mkRnc (s_next (w_st w)) id a [] :: s_rncs (w_st w)) (s_cache (w_st w)) (s_next (w_st w) + 1)%N) (w_tr w)).
    assert (Ha : (let+ p := m_rnc_alloc G id a in reg_tail E G id r p) n w =
      if G n then reg_tail E G id r (s_next (w_st w)) (n + 1)%N w1 else ((n + 1)%N, fail Assertion w)).
    { unfold m_rnc_alloc, need, request, mbind. destruct (G n); reflexivity. }
    rewrite Ha in H. destruct (G n) eqn:Hn.
    + destruct (en_tail id r _ _ _ _ _ H Hd) as (L&Hg&t&T). split; [lia|]. split; [exact Hg|]. exists t. rewrite T.
      destruct (N.eqb_spec (n' - n) 1); [lia|reflexivity].
    + injection H as <- <-. split; [lia|]. split; [replace (n + 1 - 1)%N with n by lia; exact Hn|]. exists (w_tr w). replace (n + 1 - n)%N with 1%N by lia. reflexivity.
Qed.
Lemma en_take c a x : ends (first_unknown (acc_id x)) (let+ _ := take_m E G c a x in up (ret tt))
  (let! n := rnc_register E (acc_id x) (gprs_rai_to_osmo (acc_ra x)) a in
  let! p := ue_conn_ctx_alloc n c in
  let! s := get in
  let! _ := put_st (set_ues s (upd_ue p
     (fun u => mkUe (u_ptr u) (u_rnc u) (u_conn u) (acc_ra x) (u_notif u) (u_for u) (u_timer u))
     (s_ues s))) in
  let! _ := callback E (ERecv p (acc_nas x) (Some (acc_ra x)) (Some (acc_sai x))) in
  emit EBufFree).
Proof.
  unfold take_m. apply en_assoc. apply en_bind.
  - apply sim_register.
  - apply en_register.
  - intros p. apply en_assoc. apply en_bind0; [apply sim_alloc| |intros q].
    + unfold m_ue_conn_ctx_alloc. apply en_need0, en_up.
    + apply en_assoc, en_bind0; [apply sim_up|apply en_up|intros s]. apply en_assoc, en_bind0; [apply sim_up|apply en_up|intros _].
      apply en_assoc, en_bind0; [apply sim_up|apply en_up|intros _]. intros n w n' w' H. discriminate H.
  - intros n w n1 w1 q H d Hd. unfold first_unknown. destruct (known_rnc (w_st w) (acc_id x)) eqn:Hk; [rewrite andb_false_r; reflexivity|].
    pose proof (cost_register E G (acc_id x) (gprs_rai_to_osmo (acc_ra x)) a n w) as Hc. rewrite H, Hk in Hc. cbn [snd fst negb one_if] in Hc.
    specialize (Hc ltac:(discriminate)). destruct (N.eqb_spec d 1); [lia|reflexivity].
Qed.
(* an Initial UE Message, cut at the checks *)
Lemma ue_split c a i m : m_ies m = I_InitialUE i -> m_dir m = PR_initiatingMessage -> m_proc m = id_InitialUE_Message ->
  forall n w, snd (handle_co_initial_ue E c a i w) <> None ->
  match acceptable m with
  | Some x => m_handle_co_initial_ue E G c a i n w =
      if G n then take_m E G c a x (n + 1)%N (mkW (w_st w) (EBufAlloc :: w_tr w)) else ((n + 1)%N, fail NullDeref (mkW (w_st w) (EBufAlloc :: w_tr w)))
  | None => snd (snd (m_handle_co_initial_ue E G c a i n w)) <> None
  end.
Proof.
  intros Hi Hd Hp n w. unfold acceptable. rewrite Hi, Hd, Hp, !N.eqb_refl. cbn [andb].
  change (m_handle_co_initial_ue E G c a i n w) with
    ((let+ buf := up (ret (G n)) in let+ _ := up (emit EBufAlloc) in
      let+ (rc, ra) := up (lift (parse_lai (iu_lai i))) in
      if negb (rc =? 0)%Z then up (ret (-1)%Z)
      else
        let+ rac := up (match iu_rac i with Some o => lift (asn1str_to_u8 o) | None => ret OSMO_RESERVED_RAC end) in
        if (match iu_rac i with Some _ => true | None => false end) && (rac =? OSMO_RESERVED_RAC)%N then up (ret (-1)%Z)
        else
          let ra := mkRaId (ra_mcc ra) (ra_mnc ra) (ra_mnc3 ra) (ra_lac ra) rac in
          let+ g := up (lift (grnc_id_parse (iu_grnc i))) in
          match g with
          | None => up (ret (-1)%Z)
          | Some id =>
              let+ sai := up (lift (asn1str_to_u16 (iu_sac i))) in
              let+ _ := m_nas_put buf (iu_nas i) in
              take_m E G c a (mkAcc id ra sai (iu_nas i))
          end) (n + 1)%N w).
  rewrite mb_up. cbn [ret]. rewrite mb_up. cbn [emit]. unfold handle_co_initial_ue. rewrite bind_emit. set (w1 := mkW _ _). rewrite mb_up.
  destruct (lift_parse_lai (iu_lai i)) as (rc&ra&Hl). destruct (lift_grnc (iu_grnc i)) as (g&Hg). rewrite Hl, Hg. cbn [lift ret]. rewrite bind_ret.
  destruct rc as [|rc|rc]; cbn [Z.eqb negb]; [|intros _; destruct (length _ <=? 256); cbn [up ret snd]; discriminate..].
  rewrite mb_up.
  assert (Hrac : match match iu_rac i with Some o => lift (asn1str_to_u8 o) | None => ret OSMO_RESERVED_RAC end w1 with
    | (w2, Some r) => w2 = w1 /\ rac_of (iu_rac i) = (if (match iu_rac i with Some _ => true | None => false end) && (r =? OSMO_RESERVED_RAC)%N then None else Some r)
    | (_, None) => True end).
  { destruct (iu_rac i) as [[|o ol]|]; cbn [asn1str_to_u8 lift fail ret]; [exact I| |split; reflexivity].
    cbn [rac_of andb]. unfold OSMO_RESERVED_RAC. split; [reflexivity|]. destruct (o =? 255)%N; reflexivity. }
  unfold bind at 1. destruct (match iu_rac i with Some o => lift (asn1str_to_u8 o) | None => ret OSMO_RESERVED_RAC end w1) as [w2 [r|]]; [|intros H; destruct (H eq_refl)].
  destruct Hrac as [-> ->]. destruct (_ && _); [intros _; destruct (length _ <=? 256); destruct g; cbn [up ret snd]; discriminate|].
  rewrite mb_up. cbn [lift ret]. rewrite bind_ret. destruct g as [id|]; [|intros _; destruct (length _ <=? 256); cbn [up ret snd]; discriminate].
  rewrite mb_up. destruct (iu_sac i) as [|s0 [|s1 sr]]; cbn [asn1str_to_u16 lift fail ret]; try (intros H; destruct (H eq_refl)).
  rewrite bind_ret. unfold m_nas_put, nas_put, NAS_BUF_SIZE. destruct (length (iu_nas i) <=? 256); [|intros H; destruct (H eq_refl)].
  intros _. destruct (G n); reflexivity.
Qed.
Definition initial_end (m : message) : st -> N -> fault := fun s d =>
  match acceptable m with
  | Some x => if (d =? 2)%N && negb (known_rnc s (acc_id x)) then Assertion else NullDeref
  | None => NullDeref
  end.
Lemma en_initial c a m : ends (initial_end m) (m_handle_co_initial E G c a m) (handle_co_initial E c a m).
Proof.
  destruct (m_dir m =? PR_initiatingMessage)%N eqn:Hd; [|unfold m_handle_co_initial, handle_co_initial; rewrite Hd; apply en_up].
  destruct (m_proc m =? id_InitialUE_Message)%N eqn:Hp; [|unfold m_handle_co_initial, handle_co_initial; rewrite Hd, Hp; apply en_up].
  destruct (m_ies m) as [i| | | | | |] eqn:Hi; try (unfold m_handle_co_initial, handle_co_initial; rewrite Hd, Hp, Hi; apply en_up).
  intros n w n' w' H Hdone.
  assert (H1 : (let+ _ := m_handle_co_initial_ue E G c a i in up (ret tt)) n w = (n', (w', None))).
  { unfold m_handle_co_initial in H. rewrite Hd, Hp, Hi in H. exact H. }
  assert (H2 : snd (handle_co_initial_ue E c a i w) <> None).
  { unfold handle_co_initial in Hdone. rewrite Hd, Hp, Hi in Hdone. exact (bind_done _ _ _ Hdone). }
  pose proof (ue_split c a i m Hi (proj1 (N.eqb_eq _ _) Hd) (proj1 (N.eqb_eq _ _) Hp) n w H2) as Hs.
  unfold initial_end. destruct (acceptable m) as [x|] eqn:Hx.
  - unfold mbind in H1. rewrite Hs in H1. destruct (G n) eqn:Hn.
    + set (w1 := mkW (w_st w) (EBufAlloc :: w_tr w)) in *. rewrite (initial_acc E c a m x w Hx) in Hdone. unfold take_initial in Hdone. rewrite bind_emit in Hdone. fold w1 in Hdone.
      destruct (en_take c a x (n + 1)%N w1 n' w' H1 Hdone) as (L&Hg&t&T). split; [lia|]. split; [exact Hg|]. exists t. rewrite T. unfold first_unknown.
      change (w_st w1) with (w_st w). replace (n' - (n + 1) =? 1)%N with (n' - n =? 2)%N by lia. reflexivity.
    + cbn [fail] in H1. injection H1 as <- <-. split; [lia|]. split; [replace (n + 1 - 1)%N with n by lia; exact Hn|].
      exists (EBufAlloc :: w_tr w). replace (n + 1 - n)%N with 1%N by lia. reflexivity.
  - unfold mbind in H1. destruct (m_handle_co_initial_ue E G c a i n w) as [n1 [w1 [z|]]]; [discriminate H1|destruct (Hs eq_refl)].
Qed.
Lemma en_request {A} (k' : bool -> MM A) (m : M A) : ends null (k' true) m ->
  (forall n w n' w', k' false n w = (n', (w', None)) -> snd (m w) <> None -> n' = n /\ exists t, w_tr w' = EFault NullDeref :: t) ->
  ends null (let+ b := request G in k' b) m.
Proof.
  intros Ht Hf n w n' w' H Hd. unfold request, mbind in H. destruct (G n) eqn:Hn.
  - destruct (Ht _ _ _ _ H Hd) as (L&Hg&t&T). split; [lia|]. split; [exact Hg|]. exists t. exact T.
  - destruct (Hf _ _ _ _ H Hd) as (->&t&T). split; [lia|]. split; [replace (n + 1 - 1)%N with n by lia; exact Hn|]. exists t. exact T.
Qed.
Lemma en_dt p d : ends null (m_handle_co_dt E G p d) (handle_co_dt E p d).
Proof.
  unfold m_handle_co_dt, handle_co_dt. apply en_request.
  - apply en_bind0; [apply sim_up|apply en_up|intros _]. apply en_bind0; [apply sim_up|apply en_up|intros [[ra sai]|]]; [|apply en_up].
    apply en_bind0; [apply sim_up|apply en_up|intros _]. apply en_bind0; [apply sim_up|apply en_up|intros _]. apply en_bind0; [apply sim_up|apply en_up|intros _]. apply en_up.
  - intros n w n' w' H Hdone. rewrite mb_up in H. cbn [emit] in H. rewrite bind_emit in Hdone. set (w1 := mkW _ _) in *. rewrite mb_up in H. unfold bind at 1 in Hdone.
    match type of H with match ?x with _ => _ end = _ => destruct x as [w2 [[[ra sai]|]|]] end.
    + cbn in H. injection H as <- <-. split; [reflexivity|]. exists (w_tr w2). reflexivity.
    + discriminate H.
    + destruct (Hdone eq_refl).
Qed.
Lemma en_co p m : ends null (m_handle_co E G p m) (handle_co E p m).
Proof.
  unfold m_handle_co. destruct ((m_dir m =? _)%N && _) eqn:Hc; [|apply en_up]. apply andb_true_iff in Hc as [Hd Hp]. unfold handle_co. rewrite Hd, Hp.
  apply N.eqb_eq in Hp. rewrite Hp. change (id_DirectTransfer =? id_InitialUE_Message)%N with false. cbv iota.
  destruct (m_ies m); try (apply (en_ext _ _ (fail OobRead)); [reflexivity|apply en_up]). apply en_bind0; [apply sim_dt|apply en_dt|intros; apply en_up].
Qed.
Lemma en_rx F d h' h : (forall m, ends (F m) (h' m) (h m)) ->
  ends (fun s k => match dec_co E d with Some m => F m s k | None => NullDeref end) (m_rx_co E d h') (rx_co E d h).
Proof. intros H. unfold m_rx_co, rx_co. destruct (dec_co E d); [apply H|apply en_up]. Qed.
Lemma en_exec o : ends (fun s d => ends_with E s o d) (m_exec E G o) (exec E o).
Proof.
  assert (Hfin : forall F (m' : MM unit) (m : M unit), ends F m' m -> ends F (let+ _ := m' in up (emit EPrimFree)) (let! _ := m in emit EPrimFree)).
  { intros F m' m Hm n w n' w' H Hd. unfold mbind in H. destruct (m' n w) as [n1 [w1 [z|]]] eqn:Hx; [discriminate H|]. injection H as <- <-.
    exact (Hm _ _ _ _ Hx (bind_done _ _ _ Hd)). }
  destruct o as [c a d| |c d|c d| | | | | | |]; unfold m_exec, exec, m_sccp_sap_up, sccp_sap_up; try apply en_up; apply Hfin; try apply en_up.
  - destruct d as [|x d].
    + apply (en_eq null); [reflexivity|]. apply en_need0. apply en_bind0; [apply sim_up|apply en_up|intros _]. unfold m_sccp_addr_add. apply en_need0, en_up.
    + eapply en_eq; [|apply en_need; eapply en_before; [|intros _; apply (en_rx initial_end); intros m; apply en_initial]].
      * intros s k. cbv beta. unfold ends_with, rnc_request, opens, initial_end. destruct (dec_co E (x :: d)) as [m|]; [|destruct (k <=? 1)%N; reflexivity].
        destruct (acceptable m) as [y|]; cbn [option_map op_acc]; [|destruct (k <=? 1)%N; reflexivity]. fold (known_rnc s (acc_id y)).
        destruct (known_rnc s (acc_id y)); cbn [negb]; [rewrite andb_false_r; destruct (k <=? 1)%N; reflexivity|]. rewrite andb_true_r.
        destruct (N.leb_spec k 1), (N.eqb_spec k 3), (N.eqb_spec (k - 1) 2); try lia; reflexivity.
      * intros w. unfold sccp_send. cbn [bind trace emit ret]. reflexivity.
  - apply (en_eq null); [intros s k; unfold ends_with, rnc_request, opens; reflexivity|].
    apply en_bind0; [apply sim_up|apply en_up|intros _]. apply en_bind0; [apply sim_up|apply en_up|intros s].
    destruct (ue_conn_ctx_find s c) as [u|]; [|apply en_up].
    assert (Hl : ends null (let+ s := up get in match ue_conn_ctx_find s c with Some u => up (link_invalidated_free E (u_ptr u)) | None => up (ret tt) end)
      (let! s := get in match ue_conn_ctx_find s c with Some u => link_invalidated_free E (u_ptr u) | None => ret tt end)).
    { apply en_bind0; [apply sim_up|apply en_up|intros s']. destruct (ue_conn_ctx_find s' c); apply en_up. }
    apply en_bind0; [| |intros _; exact Hl].
    + destruct d; [apply sim_up|apply sim_rx; intros; apply sim_co].
    + destruct d; [apply en_up|]. eapply en_eq; [|apply (en_rx (fun _ => null)); intros; apply en_co]. intros s' k. cbv beta. destruct (dec_co _ _); reflexivity.
  - intros n w n' w' H Hd. rewrite mb_get in H. rewrite bind_get in Hd. unfold ends_with, rnc_request, opens.
    change (ue_conn_ctx_find (w_st w) c) with (ue_on (w_st w) c) in *. change (sccp_addr_find (w_st w) c) with (pending (w_st w) c) in *.
    destruct (ue_on (w_st w) c) as [u|].
    + destruct (en_rx (fun _ => null) d _ _ (fun m => en_co (u_ptr u) m) n w n' w' H Hd) as (L&Hg&t&T). split; [exact L|]. split; [exact Hg|]. exists t. rewrite T.
      unfold null. destruct (dec_co E d); reflexivity.
    + destruct (pending (w_st w) c) as [a|]; [|destruct (en_up null (ret tt) n w n' w' H Hd) as (L&Hg&t&T); split; [exact L|]; split; [exact Hg|]; exists t; exact T].
      rewrite mb_up in H. cbn [sccp_addr_del bind get put_st] in H. unfold bind at 1 in Hd. cbn [sccp_addr_del bind get put_st] in Hd.
      destruct (en_rx initial_end d _ _ (fun m => en_initial c a m) n _ n' w' H Hd) as (L&Hg&t&T). split; [exact L|]. split; [exact Hg|]. exists t. rewrite T.
      destruct (dec_co E d) as [m|]; [|reflexivity]. unfold initial_end. destruct (acceptable m) as [y|]; cbn [option_map op_acc]; [|reflexivity].
      change (known_rnc (w_st (mkW (set_cache (w_st w) ?x) ?t)) ?i) with (known_rnc (w_st w) i). fold (known_rnc (w_st w) (acc_id y)).
      destruct (known_rnc (w_st w) (acc_id y)); cbn [negb]; [rewrite andb_false_r; reflexivity|]. rewrite andb_true_r. reflexivity.
Qed.
End How.
Lemma how_it_ends E G o n w w1 n' w' : exec E o w = (w1, Some tt) -> m_exec E G o n w = (n', (w', None)) ->
  (n < n')%N /\ G (n' - 1)%N = false /\ exists t, w_tr w' = EFault (ends_with E (w_st w) o (n' - n)) :: t.
Proof. intros He H. apply (en_exec E G o n w n' w' H). rewrite He. discriminate. Qed.
