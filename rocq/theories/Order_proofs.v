(* Proofs for C101 *)
From Verif Require Import Base Aper Container Container_spec RanapTypes RanapTab AllMsgs DispatchTab Dispatch Dispatch_spec Factory_spec Container_proofs Dispatch_proofs IuClient Stack Order_spec.
From Coq Require Import Permutation.
Local Open Scope nat_scope.
Local Open Scope list_scope.

Lemma set_nth_comm {A} (a b : A) : forall l j k, j <> k -> set_nth j a (set_nth k b l) = set_nth k b (set_nth j a l).
Proof. induction l as [|x l IH]; intros [|j] [|k] H; cbn [set_nth]; try reflexivity; [congruence|]. f_equal. apply IH. congruence. Qed.
Lemma add_flag_fields m r s : i_fields (add_flag m r s) = i_fields s.
Proof. unfold add_flag. destruct (is_opt r); reflexivity. Qed.
Lemma add_flag_mask m r s f : add_flag m r (mkIes (i_mask s) f) = mkIes (i_mask (add_flag m r s)) f.
Proof. unfold add_flag. destruct (is_opt r); reflexivity. Qed.
Lemma mask_comm a b c : N.land (N.lor (N.land (N.lor a b) 65535) c) 65535 = N.land (N.lor (N.land (N.lor a c) 65535) b) 65535.
Proof. apply N.bits_inj. intros n. rewrite !N.land_spec, !N.lor_spec, !N.land_spec, !N.lor_spec. destruct (N.testbit a n), (N.testbit b n), (N.testbit c n), (N.testbit 65535 n); reflexivity. Qed.
Lemma add_flag_comm m r r' s : add_flag m r (add_flag m r' s) = add_flag m r' (add_flag m r s).
Proof. unfold add_flag. destruct (is_opt r), (is_opt r'); try reflexivity. cbn [i_mask i_fields]. now rewrite mask_comm. Qed.

Lemma id_of ie id o : ie_parts ie = Some (id, o) -> forall l, ids_of (ie :: l) = Some id :: ids_of l.
Proof.
  intros Hp l. unfold ids_of at 1. cbn [map]. fold (ids_of l). f_equal. revert Hp. unfold ie_parts.
  repeat match goal with |- context [match ?x with _ => _ end] => destruct x; try discriminate end. intros H. injection H as <- _. reflexivity.
Qed.
Lemma ids_perm l l' : Permutation l l' -> Permutation (ids_of l) (ids_of l').
Proof. apply Permutation_map. Qed.
Lemma good_step m ie : NoDup (map r_id (m_rows m)) -> ie_good m ie -> exists id o k r v, ie_parts ie = Some (id, o) /\ r_id r = id /\ find_row id (m_rows m) 0 = Some (k, r) /\ nth_error (m_rows m) k = Some r /\
  forall s lost l, d_ies (decode_list m s lost (ie :: l)) = d_ies (decode_list m (mkIes (i_mask (add_flag m r s)) (set_nth k (Some v) (i_fields s))) [] l) /\ decode (r_ty r) o = Some v.
Proof.
  intros Hnd (id&o&r&v&Hp&Hin&Hid&Hd). destruct (find_row id (m_rows m) 0) as [[k r']|] eqn:Hf.
  - destruct (find_row_in _ _ _ _ _ Hf) as (Hin'&Hid'&Hn&_). rewrite Nat.sub_0_r in Hn. assert (r' = r) by (apply (nodup_id m); congruence). subst r'.
    exists id, o, k, r, v. repeat split; auto. cbn [decode_list]. rewrite Hp, Hf, Hd. cbv zeta. rewrite add_flag_fields.
    generalize (match nth_error (i_fields s) k with Some (Some w) => lost ++ [w] | _ => lost end). intros lost'. clear.
    generalize (mkIes (i_mask (add_flag m r s)) (set_nth k (Some v) (i_fields s))). generalize (@nil val). revert lost'.
    induction l as [|x l IH]; intros lost lost' s'; [reflexivity|]. cbn [decode_list]. destruct (ie_parts x) as [[id o]|]; [|reflexivity].
    destruct (find_row id (m_rows m) 0) as [[k' r']|]; [|reflexivity]. cbv zeta. destruct (decode (r_ty r') o); [|reflexivity]. apply IH.
  - destruct (find_row_none _ _ _ Hf r Hin). congruence.
Qed.
Lemma perm_list m : NoDup (map r_id (m_rows m)) -> forall l l', Permutation l l' -> Forall (ie_good m) l -> NoDup (ids_of l) ->
  forall s lost lost', d_ies (decode_list m s lost l) = d_ies (decode_list m s lost' l').
Proof.
  intros Hnd. induction 1 as [|x l l' P IH|x y l|l l' l'' P IH P' IH']; intros G N s lost lost'.
  - reflexivity.
  - inversion G as [|? ? Gx Gl]; subst. destruct (good_step m x Hnd Gx) as (id&o&k&r&v&Hp&_&_&_&S). rewrite !(proj1 (S _ _ _)). apply IH; [exact Gl|].
    rewrite (id_of x id o Hp) in N. now inversion N.
  - inversion G as [|? ? Gy G']; subst. inversion G' as [|? ? Gx Gl]; subst.
    destruct (good_step m x Hnd Gx) as (id&o&k&r&v&Hp&Hi&Hf&Hn&S). destruct (good_step m y Hnd Gy) as (id'&o'&k'&r'&v'&Hp'&Hi'&Hf'&Hn'&S').
    rewrite (proj1 (S' _ _ _)), (proj1 (S _ _ _)), (proj1 (S _ _ _)), (proj1 (S' _ _ _)). cbn [i_mask i_fields]. rewrite !add_flag_mask. cbn [i_mask].
    rewrite add_flag_comm. rewrite set_nth_comm; [reflexivity|]. intros ->. assert (r' = r) by congruence. subst r'.
    rewrite (id_of y id' o' Hp'), (id_of x id o Hp) in N. inversion N as [|? ? M _]; subst. apply M. left. congruence.
  - rewrite (IH G N s lost []). apply IH'; [eapply Permutation_Forall; eassumption|]. eapply Permutation_NoDup; [apply ids_perm; eassumption|exact N].
Qed.
Lemma order_l m b b' : tab_ok m = true -> body_reordered m b b' ->
  d_ok (decode_msg m b) = d_ok (decode_msg m b') /\ (d_ok (decode_msg m b) = true -> decode_msg m b = decode_msg m b').
Proof.
  intros T (l&l'&B&B'&P&N). destruct (tab_parts m T) as (Hid&_).
  assert (N' : NoDup (ids_of l')) by (eapply Permutation_NoDup; [apply ids_perm; eassumption|exact N]).
  assert (E : d_ok (decode_msg m b) = d_ok (decode_msg m b')).
  { rewrite !decode_msg_body, B, B'. apply Bool.eq_true_iff_eq. rewrite !(decode_list_ok m Hid). split; apply Permutation_Forall; [exact P|now apply Permutation_sym]. }
  split; [exact E|]. intros O. pose proof (lost_none m b l T B N) as L. pose proof (lost_none m b' l' T B' N') as L'.
  assert (F : d_ies (decode_msg m b) = d_ies (decode_msg m b')).
  { rewrite !decode_msg_body, B, B' in *. apply (perm_list m Hid); [exact P|now apply (decode_list_ok m Hid) in O|exact N]. }
  destruct (decode_msg m b) as [a c d], (decode_msg m b') as [a' c' d']. cbn [d_ok d_ies d_lost] in *. congruence.
Qed.
Lemma decode2_order P data data' : In P paths -> reordered P data data' ->
  e_rc (decode2 P data) = e_rc (decode2 P data') /\ (e_rc (decode2 P data) = 0%Z -> decode2 P data = decode2 P data').
Proof.
  intros HP (d&p&cr&b&b'&m&D&D'&M&R). unfold decode2. change pdu_parts with (pdu_in T_RANAP_RANAP_PDU). rewrite D, D'.
  pose proof (decoded_ok P d p m HP M) as T. unfold decoded_as in M. destruct (dec_tab P d) as [tab|]; [|discriminate]. rewrite M. cbv zeta. cbn [e_rc].
  destruct (order_l m b b' T R) as [E F]. rewrite <- E. split; [reflexivity|]. intros Z. destruct (d_ok (decode_msg m b)); [|discriminate]. now rewrite F.
Qed.
Lemma receive_l P receive data data' : In (P, receive) receive_of -> reordered P data data' ->
  x_rc (receive data) = x_rc (receive data') /\ x_calls (receive data) = x_calls (receive data') /\ (x_rc (receive data) = 0%Z -> receive data = receive data').
Proof.
  intros [E|[E|[E|[]]]] R; injection E as <- <-.
  - destruct (decode2_order cn_co data data' ltac:(cbn; tauto) R) as [E F]. unfold rx_cn_co. rewrite <- E. destruct (e_rc (decode2 cn_co data) =? 0)%Z eqn:Z.
    + apply Z.eqb_eq in Z. rewrite (F Z). auto.
    + cbn [x_rc x_calls]. repeat split. intros C. rewrite C in Z. discriminate.
  - destruct (decode2_order cn_cl data data' ltac:(cbn; tauto) R) as [E F]. unfold rx_cn_cl, rx_free. cbn [x_rc x_calls]. rewrite <- E. destruct (e_rc (decode2 cn_cl data) =? 0)%Z eqn:Z.
    + apply Z.eqb_eq in Z. rewrite (F Z). auto.
    + repeat split. intros C. rewrite C in Z. discriminate.
  - destruct (decode2_order ran_co data data' ltac:(cbn; tauto) R) as [E F]. unfold rx_ran_co, rx_free. cbn [x_rc x_calls]. rewrite <- E. destruct (e_rc (decode2 ran_co data) =? 0)%Z eqn:Z.
    + apply Z.eqb_eq in Z. rewrite (F Z). auto.
    + repeat split. intros C. rewrite C in Z. discriminate.
Qed.
Lemma reordered_some P l l' : reordered P l l' -> l <> [] /\ l' <> [].
Proof. intros (d&p&cr&b&b'&m&D&D'&_). split; intros ->; vm_compute in *; discriminate. Qed.
Lemma same_l E o o' : same_op o o' -> forall w, exec (stack E) o w = exec (stack E) o' w.
Proof.
  assert (Co : forall l l', reordered cn_co l l' -> dec_co (stack E) l = dec_co (stack E) l').
  { intros l l' R. unfold stack, dec_co, shown_to_handler. destruct (receive_l cn_co rx_cn_co l l' ltac:(cbn; tauto) R) as (_&C&_). now rewrite C. }
  assert (Cl : forall l l', reordered cn_cl l l' -> dec_cl (stack E) l = dec_cl (stack E) l').
  { intros l l' R. unfold stack, dec_cl, shown_to_handler. destruct (receive_l cn_cl rx_cn_cl l l' ltac:(cbn; tauto) R) as (_&C&_). now rewrite C. }
  intros [|conn calling l l' R|conn l l' R|conn l l' R|calling l l' R] w; [reflexivity| | | |]; destruct (reordered_some _ _ _ R) as [N N']; cbn [exec]; unfold sccp_sap_up, rx_co, rx_cl.
  - rewrite (Co _ _ R). destruct l, l'; [congruence..|reflexivity].
  - rewrite (Co _ _ R). destruct l, l'; [congruence..|reflexivity].
  - rewrite (Co _ _ R). reflexivity.
  - rewrite (Cl _ _ R). reflexivity.
Qed.
Lemma same_run E ops ops' : Forall2 same_op ops ops' -> forall w, run (stack E) ops w = run (stack E) ops' w.
Proof.
  induction 1 as [|o o' l l' S F IH]; intros w; [reflexivity|]. cbn [run]. unfold bind. rewrite (same_l E o o' S w). destruct (exec (stack E) o' w) as [w' [[]|]]; [apply IH|reflexivity].
Qed.

(* ---------------- for the examples ---------------- *)
(* a Direct Transfer with NAS-PDU and SAPI, in both orders *)
Definition dt_a : list N := [0x00; 0x14; 0x40; 0x10; 0; 0; 2; 0; 0x10; 0x40; 4; 3; 0xaa; 0xbb; 0xcc; 0; 0x3b; 0x40; 1; 0]%N.
Definition dt_b : list N := [0x00; 0x14; 0x40; 0x10; 0; 0; 2; 0; 0x3b; 0x40; 1; 0; 0; 0x10; 0x40; 4; 3; 0xaa; 0xbb; 0xcc]%N.
Lemma dt_reordered P : In P [cn_co; ran_co] -> reordered P dt_a dt_b.
Proof.
  intros H. eexists _, _, _, _, _, _. split; [vm_compute; reflexivity|]. split; [vm_compute; reflexivity|]. split; [destruct H as [<-|[<-|[]]]; vm_compute; reflexivity|].
  eexists _, _. split; [vm_compute; reflexivity|]. split; [vm_compute; reflexivity|]. split; [apply perm_swap|]. vm_compute. repeat constructor; cbn [In]; intuition discriminate.
Qed.
