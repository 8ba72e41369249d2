(* Proofs for C94: how many requests for memory an event makes. *)
From Coq Require Import ZifyBool ZifyNat ZifyN.
From Verif Require Import Base Lai IuClient IuClient_spec IuClient_step ClientMem ClientMem_spec ClientMem_proofs.

Section Count.
Variable E : env.
Variable granted : N -> bool.
(* if the code completes it has made [f w] requests *)
Definition cost {A} (m : MM A) (f : world -> N) : Prop :=
  forall n w, snd (snd (m n w)) <> None -> fst (m n w) = (n + f w)%N.
Lemma cost_up {A} (m : M A) : cost (up m) (fun _ => 0%N).
Proof. intros n w _. cbn [up fst]. lia. Qed.
Lemma cost_bind {A B} (m : MM A) (k : A -> MM B) f c : cost m f -> (forall a, cost (k a) (fun _ => c)) -> cost (mbind m k) (fun w => (f w + c)%N).
Proof.
  intros Hm Hk n w. unfold mbind. specialize (Hm n w). destruct (m n w) as [n1 [w1 [a|]]]; cbn [fst snd] in *; [|congruence].
  intros H. rewrite (Hk a n1 w1 H), Hm by discriminate. lia.
Qed.
Lemma cost_ext {A} (m : MM A) f g : (forall w, f w = g w) -> cost m f -> cost m g.
Proof. intros H Hm n w Hs. rewrite <- H. apply Hm, Hs. Qed.
Lemma cost_need_bind {A} f (k : MM A) c : cost k c -> cost (let+ _ := need granted f in k) (fun w => (1 + c w)%N).
Proof.
  intros Hk n w. unfold need, request, mbind. destruct (granted n); [|intros H; destruct (H eq_refl)].
  intros H. exact (eq_trans (Hk (n + 1)%N w H) (eq_sym (N.add_assoc n 1 (c w)))).
Qed.
Lemma cost_request_bind {A} (k : bool -> MM A) c : (forall b, cost (k b) c) -> cost (let+ b := request granted in k b) (fun w => (1 + c w)%N).
Proof. intros Hk n w H. exact (eq_trans (Hk (granted n) (n + 1)%N w H) (eq_sym (N.add_assoc n 1 (c w)))). Qed.
(* pure steps in front *)
Lemma cost_up_bind {A B} (m : M A) (k : A -> MM B) c : (forall a, cost (k a) (fun _ => c)) -> cost (let+ a := up m in k a) (fun _ => c).
Proof. intros H. apply (cost_ext _ (fun _ => (0 + c)%N)); [intros; lia|]. apply cost_bind; [apply cost_up|exact H]. Qed.
Lemma find_existsb {A} (p : A -> bool) l : (match find p l with Some _ => true | None => false end) = existsb p l.
Proof. induction l as [|x l IH]; [reflexivity|]. cbn [find existsb]. destruct (p x); [reflexivity|exact IH]. Qed.
Definition known_rnc (s : st) (id : rnc_id) : bool := existsb (fun n => rnc_id_eqb (n_id n) id) (s_rncs s).
Definition known_area (s : st) (r : rai) : bool := existsb (fun n => existsb (fun e => rai_eqb e r) (n_areas n)) (s_rncs s).
Lemma known_area_upd s p f r : (forall n, n_areas (f n) = n_areas n) -> known_area (set_rncs s (upd_rnc p f (s_rncs s))) r = known_area s r.
Proof.
  intros H. unfold known_area, upd_rnc. cbn [set_rncs s_rncs]. induction (s_rncs s) as [|n l IH]; [reflexivity|]. cbn [map existsb]. rewrite IH.
  destruct (n_ptr n =? p)%N; rewrite ?H; reflexivity.
Qed.
Lemma mb_get {A} (k : st -> MM A) n w : (let+ s := up get in k s) n w = k (w_st w) n w.
Proof. reflexivity. Qed.
Lemma mb_assoc {A B C} (m : MM A) (k : A -> MM B) (h : B -> MM C) n w : mbind (mbind m k) h n w = mbind m (fun a => mbind (k a) h) n w.
Proof. unfold mbind. destruct (m n w) as [n1 [w1 [a|]]]; reflexivity. Qed.
Lemma mb_up {A B} (m : M A) (k : A -> MM B) n w : (let+ a := up m in k a) n w = match m w with (w1, Some a) => k a n w1 | (w1, None) => (n, (w1, None)) end.
Proof. unfold mbind, up. destruct (m w) as [w1 [a|]]; reflexivity. Qed.
Definition reg_tail (id : rnc_id) (r : rai) (p : ptr) : MM ptr :=
  let+ s := up get in
  match lac_rac_find s r with
  | Some old =>
      if negb (n_ptr old =? p)%N then
        let e := match find (fun e => rai_eqb e r) (n_areas old) with
                 | Some e => e | None => r end in
        let l1 := upd_rnc (n_ptr old)
                    (fun n => mkRnc (n_ptr n) (n_id n) (n_addr n) (area_del r (n_areas n))) (s_rncs s) in
        let l2 := upd_rnc p
                    (fun n => mkRnc (n_ptr n) (n_id n) (n_addr n) (e :: n_areas n)) l1 in
        let+ _ := up (put_st (set_rncs s l2)) in
        let+ _ := up (event_new_area E id r) in
        up (ret p)
      else up (ret p)
  | None =>
      let+ _ := need granted NullDeref in
      let+ _ := up (put_st (set_rncs s (upd_rnc p
                  (fun n => mkRnc (n_ptr n) (n_id n) (n_addr n) (r :: n_areas n)) (s_rncs s)))) in
      let+ _ := up (event_new_area E id r) in
      up (ret p)
  end.
Lemma cost_tail id r p : cost (reg_tail id r p) (fun w => one_if (negb (known_area (w_st w) r))).
Proof.
  intros n w. unfold reg_tail. rewrite mb_get.
  unfold known_area. rewrite <- find_existsb. fold (lac_rac_find (w_st w) r). destruct (lac_rac_find (w_st w) r) as [old|]; cbn [negb one_if].
  - destruct (negb (n_ptr old =? p)%N); cbv zeta; intros H; match type of H with snd (snd (?m n w)) <> None => assert (Hc : cost m (fun _ => 0%N)) end.
    { apply cost_up_bind. intros _. apply cost_up_bind. intros _. apply cost_up. }
    { exact (Hc n w H). }
    { apply cost_up. }
    { exact (Hc n w H). }
  - intros H. match type of H with snd (snd (?m n w)) <> None => assert (Hc : cost m (fun _ => (1 + 0)%N)) end.
    { apply cost_need_bind. apply cost_up_bind. intros _. apply cost_up_bind. intros _. apply cost_up. }
    exact (Hc n w H).
Qed.
Lemma cost_register id r a : cost (m_rnc_register E granted id r a)
  (fun w => (one_if (negb (known_rnc (w_st w) id)) + one_if (negb (known_area (w_st w) r)))%N).
Proof.
  intros n w. change (m_rnc_register E granted id r a n w) with
    ((let+ p := match rnc_id_find (w_st w) id with
       | Some v => let+ _ := up (if same_sccp_addr E (n_addr v) a then ret tt
                   else put_st (set_rncs (w_st w) (upd_rnc (n_ptr v)
                          (fun n => mkRnc (n_ptr n) (n_id n) a (n_areas n)) (s_rncs (w_st w))))) in up (ret (n_ptr v))
       | None => m_rnc_alloc granted id a end in reg_tail id r p) n w).
  unfold known_rnc. rewrite <- find_existsb. fold (rnc_id_find (w_st w) id). destruct (rnc_id_find (w_st w) id) as [v|]; cbn [negb one_if].
  - rewrite mb_assoc, mb_up. destruct (same_sccp_addr E (n_addr v) a); cbn [ret put_st]; rewrite mb_up; cbn [ret]; intros H; rewrite (cost_tail id r (n_ptr v) _ _ H); cbn [w_st].
    + lia.
    + rewrite known_area_upd by reflexivity. lia.
  - set (w1 := mkW (mkSt (s_ues (w_st w)) (mkRnc (s_next (w_st w)) id a [] :: s_rncs (w_st w)) (s_cache (w_st w)) (s_next (w_st w) + 1)%N) (w_tr w)).
    assert (Ha : (let+ p := m_rnc_alloc granted id a in reg_tail id r p) n w =
      if granted n then reg_tail id r (s_next (w_st w)) (n + 1)%N w1 else ((n + 1)%N, fail Assertion w)).
    { unfold m_rnc_alloc, need, request, mbind. destruct (granted n); reflexivity. }
    rewrite Ha. destruct (granted n); [|intros H; destruct (H eq_refl)].
    intros H. rewrite (cost_tail id r _ _ _ H). change (known_area (w_st w1) r) with (known_area (w_st w) r). lia.
Qed.
Lemma cost_nas b nas : cost (m_nas_put b nas) (fun _ => 0%N).
Proof. unfold m_nas_put. destruct b; apply cost_up. Qed.
Lemma cost_dt p d : cost (m_handle_co_dt E granted p d) (fun _ => 1%N).
Proof.
  unfold m_handle_co_dt. apply (cost_ext _ (fun _ => (1 + 0)%N)); [reflexivity|]. apply (cost_request_bind _ (fun _ => 0%N)). intros b.
  apply cost_up_bind. intros _. apply cost_up_bind. intros [[ra sai]|]; [|apply cost_up].
  apply (cost_ext _ (fun _ => (0 + 0)%N)); [reflexivity|]. apply (cost_bind _ _ (fun _ => 0%N)); [apply cost_nas|intros _]. apply cost_up_bind. intros _. apply cost_up_bind. intros _. apply cost_up.
Qed.
Lemma cost_co p m : cost (m_handle_co E granted p m) (fun _ => later_asks m).
Proof.
  unfold m_handle_co, later_asks. destruct (_ && _); cbn [one_if]; [|apply cost_up]. destruct (m_ies m); try (intros n w H; destruct (H eq_refl)).
  apply (cost_ext _ (fun _ => (1 + 0)%N)); [reflexivity|]. apply (cost_bind _ _ (fun _ => 1%N)); [apply cost_dt|intros; apply cost_up].
Qed.
Definition take_m (conn : N) (a : sccp_addr) (x : accepted) : MM Z :=
  let+ n := m_rnc_register E granted (acc_id x) (gprs_rai_to_osmo (acc_ra x)) a in
  let+ p := m_ue_conn_ctx_alloc granted n conn in
  let+ s := up get in
  let+ _ := up (put_st (set_ues s (upd_ue p
     (fun u => mkUe (u_ptr u) (u_rnc u) (u_conn u) (acc_ra x) (u_notif u) (u_for u) (u_timer u))
     (s_ues s)))) in
  let+ _ := up (callback E (ERecv p (acc_nas x) (Some (acc_ra x)) (Some (acc_sai x)))) in
  let+ _ := up (emit EBufFree) in
  up (ret 0%Z).
Definition new_asks (s : st) (x : accepted) : N :=
  (1 + one_if (negb (known_rnc s (acc_id x))) + one_if (negb (known_area s (gprs_rai_to_osmo (acc_ra x)))))%N.
Lemma cost_take conn a x : cost (take_m conn a x) (fun w => new_asks (w_st w) x).
Proof.
  unfold take_m. eapply cost_ext; [|apply (cost_bind _ _ _ 1%N (cost_register (acc_id x) (gprs_rai_to_osmo (acc_ra x)) a))].
  - intros w. cbv beta. unfold new_asks. lia.
  - intros n. apply (cost_ext _ (fun _ => (1 + 0)%N)); [reflexivity|]. apply (cost_bind _ _ (fun _ => 1%N)).
    + unfold m_ue_conn_ctx_alloc. apply (cost_ext _ (fun _ => (1 + 0)%N)); [reflexivity|]. apply (cost_need_bind _ _ (fun _ => 0%N)). apply cost_up.
    + intros p. apply cost_up_bind. intros s. apply cost_up_bind. intros _. apply cost_up_bind. intros _. apply cost_up_bind. intros _. apply cost_up.
Qed.
Lemma cost_ue c a i m : m_ies m = I_InitialUE i -> m_dir m = PR_initiatingMessage -> m_proc m = id_InitialUE_Message ->
  cost (m_handle_co_initial_ue E granted c a i) (fun w => (1 + match acceptable m with Some x => new_asks (w_st w) x | None => 0 end)%N).
Proof.
  intros Hi Hd Hp. unfold acceptable. rewrite Hi, Hd, Hp, !N.eqb_refl. cbn [andb].
  unfold m_handle_co_initial_ue. apply (cost_request_bind _ (fun w => match _ with Some x => new_asks (w_st w) x | None => 0%N end)). intros b.
  intros n w. rewrite mb_up. cbn [emit]. set (w1 := mkW _ _). rewrite mb_up.
  destruct (lift_parse_lai (iu_lai i)) as (rc&ra&Hl). destruct (lift_grnc (iu_grnc i)) as (g&Hg). rewrite Hl. cbn [lift ret].
  destruct rc as [|rc|rc]; cbn [Z.eqb negb]; [|destruct (length _ <=? 256); cbn [up fst]; lia..].
  rewrite mb_up, Hg.
  assert (Hrac : match match iu_rac i with Some o => lift (asn1str_to_u8 o) | None => ret OSMO_RESERVED_RAC end w1 with
    | (w2, Some r) => w2 = w1 /\ rac_of (iu_rac i) = (if (match iu_rac i with Some _ => true | None => false end) && (r =? OSMO_RESERVED_RAC)%N then None else Some r)
    | (_, None) => True end).
  { destruct (iu_rac i) as [[|o ol]|]; cbn [asn1str_to_u8 lift fail ret]; [exact I| |split; reflexivity].
    cbn [rac_of andb]. unfold OSMO_RESERVED_RAC. split; [reflexivity|]. destruct (o =? 255)%N; reflexivity. }
  destruct (match iu_rac i with Some o => lift (asn1str_to_u8 o) | None => ret OSMO_RESERVED_RAC end w1) as [w2 [r|]]; [|intros H; destruct (H eq_refl)].
  destruct Hrac as [-> ->]. destruct (_ && _); [destruct (length _ <=? 256); destruct g; cbn [up fst]; lia|].
  rewrite mb_up. cbn [lift ret]. destruct g as [id|]; [|destruct (length _ <=? 256); cbn [up fst]; lia].
  rewrite mb_up. destruct (iu_sac i) as [|s0 [|s1 sr]]; cbn [asn1str_to_u16 lift fail ret]; try (intros H; destruct (H eq_refl)).
  destruct b; [|intros H; destruct (H eq_refl)]. unfold m_nas_put, nas_put, NAS_BUF_SIZE. destruct (length (iu_nas i) <=? 256); [|intros H; destruct (H eq_refl)].
  exact (cost_take c a (mkAcc id (mkRaId (ra_mcc ra) (ra_mnc ra) (ra_mnc3 ra) (ra_lac ra) r) (be16 s0 s1) (iu_nas i)) n w1).
Qed.
Lemma cost_initial c a m : cost (m_handle_co_initial E granted c a m) (fun w => initial_asks (w_st w) m).
Proof.
  unfold m_handle_co_initial, initial_asks.
  destruct (m_dir m =? PR_initiatingMessage)%N eqn:Hd; cbn [negb orb andb]; [|apply cost_up].
  destruct (m_proc m =? id_InitialUE_Message)%N eqn:Hp; cbn [negb orb andb]; [|apply cost_up].
  destruct (m_ies m) as [i| | | | | |] eqn:Hi; try (intros n w H; destruct (H eq_refl)).
  apply (cost_ext _ (fun w => (1 + match acceptable m with Some x => new_asks (w_st w) x | None => 0 end + 0)%N)); [intros w; rewrite N.add_0_r; reflexivity|].
  apply cost_bind; [|intros; apply cost_up]. apply cost_ue; [assumption|apply N.eqb_eq; assumption..].
Qed.
Lemma cost_rx_co {f} d h : (forall m, cost (h m) (fun w => f m (w_st w))) ->
  cost (m_rx_co E d h) (fun w => match dec_co E d with Some m => f m (w_st w) | None => 0%N end).
Proof. intros H. unfold m_rx_co. destruct (dec_co E d); [apply H|apply cost_up]. Qed.
Lemma cost_exec o : cost (m_exec E granted o) (fun w => asks E (w_st w) o).
Proof.
  assert (Hfin : forall f (m : MM unit), cost m f -> cost (let+ _ := m in up (emit EPrimFree)) f).
  { intros f m Hm. apply (cost_ext _ (fun w => (f w + 0)%N)); [intros; lia|]. apply cost_bind; [exact Hm|intros; apply cost_up]. }
  destruct o as [c a d| |c d|c d| | | | | | |]; unfold m_exec, m_sccp_sap_up; cbn [asks]; try (apply Hfin; apply cost_up); try apply cost_up; apply Hfin.
  - destruct d as [|x d].
    + apply (cost_need_bind _ _ (fun _ => 1%N)). apply cost_up_bind. intros _. unfold m_sccp_addr_add.
      apply (cost_ext _ (fun _ => (1 + 0)%N)); [reflexivity|]. apply (cost_need_bind _ _ (fun _ => 0%N)). apply cost_up.
    + apply (cost_need_bind _ _ (fun w => match dec_co E (x :: d) with Some m => initial_asks (w_st w) m | None => 0%N end)).
      intros n w. rewrite mb_up. unfold sccp_send. cbn [bind trace emit ret].
      exact (@cost_rx_co (fun m s => initial_asks s m) (x :: d) (m_handle_co_initial E granted c a) (cost_initial c a) n (mkW (w_st w) (ESccp (NConnectResp c) :: w_tr w))).
  - intros n w. rewrite mb_up. cbn [sccp_addr_del bind get put_st]. rewrite mb_get. cbn [w_st].
    set (w1 := mkW _ _). change (ue_conn_ctx_find (set_cache (w_st w) ?x) c) with (ue_on (w_st w) c).
    assert (Hz : forall c' d', cost (let+ s := up get in match ue_conn_ctx_find s c' with Some u => up (link_invalidated_free E (u_ptr u)) | None => up d' end) (fun _ => 0%N)).
    { intros c' d'. apply cost_up_bind. intros s. destruct (ue_conn_ctx_find s c'); apply cost_up. }
    destruct d as [|x d]; destruct (ue_on (w_st w) c) as [u|]; try apply cost_up.
    + intros H. rewrite (cost_up_bind (ret tt) _ 0%N (fun _ => Hz c (ret tt)) n w1 H). reflexivity.
    + intros H. rewrite (cost_bind _ _ _ 0%N (@cost_rx_co (fun m _ => later_asks m) (x :: d) (m_handle_co E granted (u_ptr u)) (fun m => cost_co (u_ptr u) m)) (fun _ => Hz c (ret tt)) n w1 H).
      destruct (dec_co E (x :: d)); lia.
  - intros n w. rewrite mb_get. change (ue_conn_ctx_find (w_st w) c) with (ue_on (w_st w) c). change (sccp_addr_find (w_st w) c) with (pending (w_st w) c).
    destruct (ue_on (w_st w) c) as [u|].
    + exact (@cost_rx_co (fun m _ => later_asks m) d (m_handle_co E granted (u_ptr u)) (fun m => cost_co (u_ptr u) m) n w).
    + destruct (pending (w_st w) c) as [a|]; [|apply cost_up].
      rewrite mb_up. cbn [sccp_addr_del bind get put_st].
      intros H. rewrite (@cost_rx_co (fun m s => initial_asks s m) d (m_handle_co_initial E granted c a) (cost_initial c a) n _ H). reflexivity.
Qed.
End Count.

(* The answers to the requests made decide. *)
Section Agree.
Variable E : env.
Variables G1 G2 : N -> bool.
Definition agree {A} (m1 m2 : MM A) : Prop := forall n w,
  (n <= fst (m1 n w))%N /\ ((forall k, (n <= k < fst (m1 n w))%N -> G1 k = G2 k) -> m2 n w = m1 n w).
Lemma ag_up {A} (m : M A) : agree (up m) (up m).
Proof. intros n w. cbn [up fst]. split; [lia|reflexivity]. Qed.
Lemma ag_bind {A B} (m1 m2 : MM A) (k1 k2 : A -> MM B) : agree m1 m2 -> (forall a, agree (k1 a) (k2 a)) -> agree (mbind m1 k1) (mbind m2 k2).
Proof.
  intros Hm Hk n w. unfold mbind. destruct (Hm n w) as [L Eq]. destruct (m1 n w) as [n1 [w1 [a|]]]; cbn [fst] in *.
  - destruct (Hk a n1 w1) as [L' Eq']. split; [lia|]. intros H. rewrite Eq by (intros; apply H; lia). apply Eq'. intros; apply H; lia.
  - split; [lia|]. intros H. rewrite Eq by exact H. reflexivity.
Qed.
Lemma ag_request : agree (request G1) (request G2).
Proof. intros n w. unfold request. cbn [fst]. split; [lia|]. intros H. rewrite (H n) by lia. reflexivity. Qed.
Lemma ag_need f : agree (need G1 f) (need G2 f).
Proof. unfold need. apply ag_bind; [exact ag_request|]. intros []; apply ag_up. Qed.
Lemma ag_if {A} (b : bool) (x1 x2 y1 y2 : MM A) : agree x1 x2 -> agree y1 y2 -> agree (if b then x1 else y1) (if b then x2 else y2).
Proof. destruct b; auto. Qed.
Ltac ag := repeat first
  [ apply ag_up | apply ag_request | apply ag_need | assumption
  | apply ag_bind; [|intros]
  | apply ag_if
  | match goal with |- agree (match ?x with _ => _ end) _ => destruct x end ].
Lemma ag_register i r a : agree (m_rnc_register E G1 i r a) (m_rnc_register E G2 i r a).
Proof. unfold m_rnc_register, m_rnc_alloc. ag. Qed.
Lemma ag_initial c a m : agree (m_handle_co_initial E G1 c a m) (m_handle_co_initial E G2 c a m).
Proof.
  unfold m_handle_co_initial, m_handle_co_initial_ue, m_ue_conn_ctx_alloc.
  ag. all: first [apply ag_register|unfold m_nas_put; ag].
Qed.
Lemma ag_co p m : agree (m_handle_co E G1 p m) (m_handle_co E G2 p m).
Proof. unfold m_handle_co, m_handle_co_dt, m_nas_put. ag. Qed.
Lemma ag_exec o : agree (m_exec E G1 o) (m_exec E G2 o).
Proof.
  destruct o; unfold m_exec, m_sccp_sap_up, m_rx_co, m_sccp_addr_add; ag; try apply ag_initial; apply ag_co.
Qed.
End Agree.

Lemma requests E G o n n' w w' : m_exec E G o n w = (n', (w', Some tt)) -> n' = (n + asks E (w_st w) o)%N.
Proof. intros H. pose proof (cost_exec E G o n w) as Hc. rewrite H in Hc. apply Hc. discriminate. Qed.
Lemma suffices E G o n w w1 : exec E o w = (w1, Some tt) ->
  (forall k, (n <= k < n + asks E (w_st w) o)%N -> G k = true) -> m_exec E G o n w = ((n + asks E (w_st w) o)%N, (w1, Some tt)).
Proof.
  intros He Hk. pose (T := fun _ : N => true). destruct (sim_exec E T o n w) as (_&_&Ht). specialize (Ht (fun _ _ => eq_refl)). rewrite He in Ht.
  assert (H1 : m_exec E T o n w = ((n + asks E (w_st w) o)%N, (w1, Some tt))).
  { destruct (m_exec E T o n w) as [n' r] eqn:Hx. cbn [snd] in Ht. subst r. rewrite (requests _ _ _ _ _ _ _ Hx). reflexivity. }
  destruct (ag_exec E T G o n w) as [_ Ha]. rewrite H1 in Ha. apply Ha. intros k Hk'. symmetry. apply Hk, Hk'.
Qed.
