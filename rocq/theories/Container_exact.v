(* What a generated decoder leaves in its structure, for arbitrary input. *)
From Coq Require Import ZifyBool ZifyNat ZifyN.
From Verif Require Import Base Aper Aper_spec Aper_proofs Aper_valid Container Container_proofs.
Local Open Scope list_scope.
Local Open Scope nat_scope.

Lemma set_nth_other {A} (a : A) : forall l k i, i <> k -> nth_error (set_nth k a l) i = nth_error l i.
Proof.
  induction l as [|y l IH]; intros [|k] [|i] H; cbn [set_nth nth_error]; auto; try congruence.
Qed.
Lemma nodup_map_inj {A B} (f : A -> B) : forall l x y, NoDup (map f l) -> In x l -> In y l -> f x = f y -> x = y.
Proof.
  induction l as [|z l IH]; [intros x y _ []|].
  intros x y ND [->|Hx] [->|Hy] He; cbn [map] in ND; inversion ND; subst; auto.
  - destruct H1. rewrite He. apply in_map. exact Hy.
  - destruct H1. rewrite <- He. apply in_map. exact Hx.
Qed.
Lemma flags_inj m r x : tab_ok m = true -> In r (m_rows m) -> In x (m_rows m) -> is_opt r = true -> is_opt x = true ->
  flag m r = flag m x -> r = x.
Proof.
  intros Hok Hr Hx Hor Hox He. destruct (tab_parts m Hok) as (_&Hnd&_&_).
  apply (nodup_map_inj (flag m) (filter is_opt (m_rows m))); auto; apply filter_In; auto.
Qed.
Lemma add_flag_other m r x s : tab_ok m = true -> In r (m_rows m) -> In x (m_rows m) -> (i_mask s < 65536)%N ->
  is_opt x = true -> x <> r -> has_flag m (add_flag m r s) x = has_flag m s x.
Proof.
  intros Hok Hr Hx Hs Hox Hne. destruct (tab_parts m Hok) as (_&_&_&Hrow). unfold add_flag.
  destruct (is_opt r) eqn:Ho; [|reflexivity].
  destruct (Hrow r Hr) as (_&_&_&Hf). destruct (Hf Ho) as (k&Hk&Hfl).
  destruct (Hrow x Hx) as (_&_&_&Hfx). destruct (Hfx Hox) as (kx&Hkx&Hflx).
  assert (Hkk : k <> kx).
  { intros ->. apply Hne. symmetry. apply (flags_inj m); auto. congruence. }
  destruct (lor_small (i_mask s) k Hs Hk) as [H1 _]. unfold has_flag. rewrite Hfl, H1. cbn [i_mask].
  rewrite Hflx, !land_pow, N.lor_spec, N.pow2_bits_false by lia. rewrite orb_false_r. reflexivity.
Qed.
Lemma fields_add_flag m r s : i_fields (add_flag m r s) = i_fields s.
Proof. unfold add_flag. destruct (is_opt r); reflexivity. Qed.

Lemma decode_list_exact m : tab_ok m = true -> forall l s lost,
  length (i_fields s) = length (m_rows m) -> (i_mask s < 65536)%N ->
  d_ok (decode_list m s lost l) = true ->
  forall i r, nth_error (m_rows m) i = Some r ->
  (exists l1 ie l2 oct v, l = l1 ++ ie :: l2 /\ ie_parts ie = Some (r_id r, oct) /\ decode (r_ty r) oct = Some v /\
     (forall x o, In x l2 -> ie_parts x <> Some (r_id r, o)) /\
     nth_error (i_fields (d_ies (decode_list m s lost l))) i = Some (Some v) /\
     (is_opt r = true -> has_flag m (d_ies (decode_list m s lost l)) r = true)) \/
  ((forall x o, In x l -> ie_parts x <> Some (r_id r, o)) /\
     nth_error (i_fields (d_ies (decode_list m s lost l))) i = nth_error (i_fields s) i /\
     (is_opt r = true -> has_flag m (d_ies (decode_list m s lost l)) r = has_flag m s r)).
Proof.
  intros Hok. destruct (tab_parts m Hok) as (Hid&_&_&_).
  induction l as [|ie l IH]; intros s lost Hlen Hmask Hd i r Hr.
  - right. repeat split. intros x o [].
  - cbn [decode_list] in Hd |- *.
    destruct (ie_parts ie) as [[id oct]|] eqn:Hp; [|discriminate].
    destruct (find_row id (m_rows m) 0) as [[k q]|] eqn:Hf; [|discriminate].
    destruct (find_row_in _ _ _ _ _ Hf) as (Hin&Hidq&Hnq&_). rewrite Nat.sub_0_r in Hnq. cbv zeta in Hd |- *.
    destruct (decode (r_ty q) oct) as [v|] eqn:Hv; [|discriminate].
    assert (Hrin : In r (m_rows m)) by (eapply nth_error_In; exact Hr).
    destruct (add_flag_ok m q s Hok Hin Hmask) as (A1&A2&_).
    match goal with |- context [decode_list m ?s1 ?lost1 l] => set (s' := s1) in *; set (lost' := lost1) in * end.
    assert (Hlen' : length (i_fields s') = length (m_rows m)).
    { unfold s'. cbn [i_fields]. rewrite set_nth_len, fields_add_flag. exact Hlen. }
    assert (Hmask' : (i_mask s' < 65536)%N) by exact A1.
    destruct (IH s' lost' Hlen' Hmask' Hd i r Hr) as [(l1&ie'&l2&o'&v'&E&H1&H2&H3&H4&H5)|(H1&H2&H3)].
    + left. exists (ie :: l1), ie', l2, o', v'. split; [rewrite E; reflexivity|]. repeat split; assumption.
    + destruct (N.eq_dec id (r_id r)) as [He|Hne].
      * assert (q = r) by (apply (nodup_id m); [exact Hid|exact Hin|exact Hrin|congruence]). subst q.
        assert (k = i).
        { rewrite NoDup_nth_error in Hid. apply Hid.
          - rewrite map_length. apply nth_error_Some. rewrite Hnq. discriminate.
          - rewrite !nth_error_map, Hnq, Hr. reflexivity. }
        subst k. left. exists [], ie, l, oct, v. split; [reflexivity|]. split; [rewrite Hp, He; reflexivity|].
        split; [exact Hv|]. split; [exact H1|]. split.
        -- rewrite H2. unfold s'. cbn [i_fields]. apply set_nth_same. rewrite fields_add_flag, Hlen.
           apply nth_error_Some. rewrite Hr. discriminate.
        -- intros Ho. rewrite (H3 Ho). unfold wanted in A2. rewrite Ho in A2. exact A2.
      * right. split; [|split].
        -- intros x o [<-|Hx]; [rewrite Hp; congruence|apply H1; exact Hx].
        -- rewrite H2. unfold s'. cbn [i_fields]. rewrite set_nth_other, fields_add_flag; [reflexivity|].
           intros ->. apply Hne. congruence.
        -- intros Ho. rewrite (H3 Ho). unfold s'.
           change (has_flag m (add_flag m q s) r = has_flag m s r).
           apply add_flag_other; auto. intros ->. apply Hne. congruence.
Qed.

Lemma decode_msg_exact m o l : tab_ok m = true -> d_ok (decode_msg m o) = true -> body m o = Some l ->
  forall i r, nth_error (m_rows m) i = Some r ->
  (exists l1 ie l2 oct v, l = l1 ++ ie :: l2 /\ ie_parts ie = Some (r_id r, oct) /\ decode (r_ty r) oct = Some v /\
     (forall x o, In x l2 -> ie_parts x <> Some (r_id r, o)) /\
     nth_error (i_fields (d_ies (decode_msg m o))) i = Some (Some v) /\
     (is_opt r = true -> has_flag m (d_ies (decode_msg m o)) r = true)) \/
  ((forall x o, In x l -> ie_parts x <> Some (r_id r, o)) /\
     nth_error (i_fields (d_ies (decode_msg m o))) i = Some None /\
     (is_opt r = true -> has_flag m (d_ies (decode_msg m o)) r = false)).
Proof.
  intros Hok Hd Hb i r Hr. rewrite decode_msg_body, Hb in *.
  destruct (decode_list_exact m Hok l (zero_ies m) [] ltac:(apply map_length) ltac:(reflexivity) Hd i r Hr)
    as [H|(H1&H2&H3)]; [left; exact H|right].
  split; [exact H1|]. split.
  - rewrite H2. cbn [zero_ies i_fields]. rewrite nth_error_map, Hr. reflexivity.
  - intros Ho. rewrite (H3 Ho). unfold has_flag. cbn [zero_ies i_mask].
    destruct (tab_parts m Hok) as (_&_&_&Hrow). destruct (Hrow r (nth_error_In _ _ Hr)) as (_&_&_&Hf).
    destruct (Hf Ho) as (k&Hk&Hfl). rewrite Hfl, N.land_0_l. apply N.eqb_neq.
    intros He. symmetry in He. apply N.pow_nonzero in He; [exact He|discriminate].
Qed.
