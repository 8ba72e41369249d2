(* A decoder of one release reads what the other release sends. *)
From Coq Require Import ZifyBool ZifyNat ZifyN.
From Verif Require Import Base Aper Aper_spec Aper_proofs Aper_valid Evolve_spec.
Ltac Zify.zify_post_hook ::= Z.div_mod_to_equations.

Lemma Forall2_length {A B} {R : A -> B -> Prop} {l l'} : Forall2 R l l' -> length l = length l'.
Proof. induction 1; cbn [length]; congruence. Qed.

(* ---------------- lists whose items are read as something else ---------------- *)
Section Items2.
Context {A B : Type} (put : A -> nat -> option bits) (getf : D B) (small : option N).
Definition pair_ok (a : A) (c : B) : Prop := forall p b, put a p = Some b -> reads getf p b c.
Lemma reads_items2 : forall l l', Forall2 pair_ok l l' -> forall p b, put_items put l p = Some b ->
  reads (get_items getf (length l)) p b l'.
Proof.
  induction 1 as [|a c l l' Hac HF IH]; intros p b H; cbn [put_items] in H.
  - apply some_inv in H; subst b. apply reads_ret.
  - apply opt_inv in H as (b1&H1&H). apply after_inv in H as (b2&H2&->).
    cbn [length get_items]. eapply reads_bind; [apply Hac; exact H1|].
    eapply reads_bind0; [apply IH; exact H2|]. intros q. apply reads_ret.
Qed.
Lemma forall2_firstn (R : A -> B -> Prop) : forall k l l', Forall2 R l l' -> Forall2 R (firstn k l) (firstn k l').
Proof. induction k; intros l l' []; cbn [firstn]; constructor; auto. Qed.
Lemma forall2_skipn (R : A -> B -> Prop) : forall k l l', Forall2 R l l' -> Forall2 R (skipn k l) (skipn k l').
Proof. induction k; intros l l' H; [exact H|]. destruct H; cbn [skipn]; [constructor|auto]. Qed.
Lemma reads_frag2 : forall fuel l l', Forall2 pair_ok l l' -> forall p b, put_frag put fuel l p = Some b ->
  forall f, length b <= f -> reads (get_frag getf f) p b l'.
Proof.
  induction fuel as [|fuel IH]; intros l l' Hok p b H f Hf.
  - cbn [put_frag] in H. cbv zeta in H. destruct (N.of_nat (length l) <? 16384)%N eqn:Hn; [|discriminate].
    apply after_inv in H as (b'&Hb&->). pose proof (pad_bits_len put p (N.of_nat (length l))). rewrite app_length in Hf.
    destruct f as [|f]; [lia|]. cbn [get_frag]. rewrite <- app_assoc. eapply reads_bind; [apply reads_align|].
    apply (len_bits_read (fun (_ : B) (_ : nat) => None)); [lia|]. rewrite Nat2N.id. rewrite app_length, Nat.add_assoc in Hb. apply reads_items2; assumption.
  - cbn [put_frag] in H. cbv zeta in H. destruct (N.of_nat (length l) <? 16384)%N eqn:Hn.
    { apply after_inv in H as (b'&Hb&->). pose proof (pad_bits_len put p (N.of_nat (length l))). rewrite app_length in Hf.
      destruct f as [|f]; [lia|]. cbn [get_frag]. rewrite <- app_assoc. eapply reads_bind; [apply reads_align|].
      apply (len_bits_read (fun (_ : B) (_ : nat) => None)); [lia|]. rewrite Nat2N.id. rewrite app_length, Nat.add_assoc in Hb. apply reads_items2; assumption. }
    set (m := N.min 4 (N.of_nat (length l) / 16384)) in *.
    assert (Hm : (1 <= m <= 4)%N) by lia.
    assert (Hk : N.to_nat (m * 16384) <= length l) by lia.
    set (k := N.to_nat (m * 16384)) in *.
    apply opt_inv in H as (b1&H1&H). apply after_inv in H as (b3&H3&->). apply after_inv in H1 as (b2&H2&->).
    rewrite !app_length, to_bits_len in Hf. destruct f as [|f]; [lia|].
    cbn [get_frag]. rewrite <- !app_assoc. eapply reads_bind; [apply reads_align|].
    eapply reads_bind; [apply reads_bits; change (2 ^ N.of_nat 8)%N with 256%N; lia|].
    replace (192 + m <? 128)%N with false by lia. replace (192 + m <? 192)%N with false by lia.
    replace ((193 <=? 192 + m) && (192 + m <=? 196))%N with true by lia.
    replace (192 + m - 192)%N with m by lia. fold k.
    rewrite app_length, Nat.add_assoc in H2.
    eapply reads_bind.
    { replace k with (length (firstn k l)) by (apply firstn_length_le; exact Hk).
      eapply reads_items2; [|exact H2]. apply forall2_firstn. exact Hok. }
    match goal with |- reads ?d ?q ?b l' => cut (reads d q b (firstn k l' ++ skipn k l')); [rewrite firstn_skipn; exact (fun x => x)|] end.
    eapply reads_bind0; [|intros q; apply reads_ret].
    rewrite !app_length, !Nat.add_assoc in H3.
    eapply IH; [|exact H3|lia]. apply forall2_skipn. exact Hok.
Qed.
Lemma reads_list2 l l' : Forall2 pair_ok l l' -> forall p b, put_list put l p = Some b -> reads (get_list getf) p b l'.
Proof.
  intros Hok p b H r. unfold get_list. eapply (reads_frag2 _ _ _ Hok _ _ H). rewrite app_length. lia.
Qed.
Lemma reads_root2 c l l' : Forall2 pair_ok l l' -> forall p b,
  put_root put small c l p = Some b -> reads (get_root getf small c) p b l'.
Proof.
  intros Hok p b H. unfold put_root in H. unfold get_root. destruct (in_con c (Z.of_nat (length l))) eqn:Hc; [|discriminate].
  pose proof (Forall2_length Hok) as Hlen.
  destruct (c_ub c <? 65536)%Z.
  - apply opt_inv in H as (b1&H1&H). cbv zeta in H. apply after_inv in H as (b2&H2&->).
    assert (Hn : Z.to_N (Z.of_N (Z.to_N (Z.of_nat (length l) - c_lb c)) + c_lb c) = N.of_nat (length l)) by (unfold in_con in Hc; lia).
    destruct (aligns small c (N.of_nat (length l))) eqn:Ha.
    + rewrite <- app_assoc. eapply reads_bind; [apply reads_whole; exact H1|]. cbv zeta. rewrite Hn, Ha.
      eapply reads_bind; [apply reads_align|]. rewrite Nat2N.id. rewrite app_length, Nat.add_assoc in H2.
      apply reads_items2; assumption.
    + eapply reads_bind; [apply reads_whole; exact H1|]. cbv zeta. rewrite Hn, Ha.
      change b2 with ([] ++ b2). eapply reads_bind; [apply reads_ret|]. cbn [length]. rewrite Nat.add_0_r, Nat2N.id.
      apply reads_items2; assumption.
  - eapply reads_bind0; [eapply reads_list2; eassumption|]. intros q. rewrite <- Hlen, Hc. apply reads_ret.
Qed.
Lemma reads_sized2 c l l' : Forall2 pair_ok l l' -> forall p b,
  put_sized put small c l p = Some b -> reads (get_sized getf small c) p b l'.
Proof.
  intros Hok p b. destruct c as [c|]; cbn [put_sized get_sized]; [|apply reads_list2; exact Hok].
  destruct (c_ext c); [|apply reads_root2; exact Hok]. destruct (in_con c _); intros H; apply after_inv in H as (b'&H&->);
    (eapply reads_bind; [apply reads_bit|]); [eapply reads_root2|eapply reads_list2]; eassumption.
Qed.
End Items2.

Lemma octets_reads {A} (d : D A) b a : reads d 0 b a -> of_octets d (to_octets b) = Some a.
Proof.
  intros H. unfold of_octets, to_octets. destruct b as [|x b0].
  - specialize (H (octets_bits [0%N])). cbn [List.app] in H. rewrite H. reflexivity.
  - rewrite octets_bits_octets. rewrite (H _). reflexivity.
Qed.
Lemma index_of_app z x : forall m i, index_of z m = Some i -> index_of z (m ++ x) = Some i.
Proof.
  induction m as [|y m IH]; intros i H; [discriminate|]. cbn [index_of List.app] in *.
  destruct (y =? z)%Z; [exact H|]. destruct (index_of z m) as [j|]; [|discriminate]. rewrite (IH j eq_refl). exact H.
Qed.
Lemma present_app a b : present (a ++ b) = present a ++ present b.
Proof. apply map_app. Qed.
Lemma evolve_len a b : evolve_all a b -> length a = length b.
Proof. induction 1; cbn [length]; congruence. Qed.
Lemma known_len e a b c : known_all e a b c -> length a = length b /\ length a = length c /\ present b = present c.
Proof.
  induction 1 as [|o t l v w vs ws H1 H2 (I1&I2&I3)|o t l vs ws H2 (I1&I2&I3)];
    [auto| |]; unfold present in *; cbn [length map]; repeat split; congruence.
Qed.
(* the presence bitmap depends on the optionality and the presence only *)
Lemma bitmap_same root root' vr wr : evolve_all root root' -> present vr = present wr ->
  put_bitmap root' vr = put_bitmap root wr.
Proof.
  intros H. revert vr wr. induction H as [|o t t' l l' H1 H2 IH]; intros [|v vr] [|w wr] Hp; try discriminate Hp; [reflexivity..| |].
  - destruct o; reflexivity.
  - unfold present in Hp. cbn [map] in Hp. injection Hp as Hv Hp. destruct o; cbn [put_bitmap]; [|apply IH; exact Hp].
    rewrite Hv, (IH vr wr Hp). reflexivity.
Qed.
Lemma shape_same root root' vr wr : evolve_all root root' -> present vr = present wr ->
  (forall i t, nth_error root' i = Some (false, t) -> nth_error vr i <> Some None) ->
  (forall i t, nth_error root i = Some (false, t) -> nth_error wr i <> Some None).
Proof.
  intros H. revert vr wr. induction H as [|o t t' l l' H1 H2 IH]; intros vr wr Hp HS i u Hn; [destruct i; discriminate|].
  destruct wr as [|w wr]; [destruct i; discriminate|]. destruct vr as [|v vr]; [discriminate|].
  unfold present in Hp. cbn [map] in Hp. injection Hp as Hv Hp. destruct i as [|i]; cbn [nth_error] in *.
  - injection Hn as -> <-. specialize (HS 0 t' eq_refl). cbn [nth_error] in HS. destruct w, v; congruence.
  - apply (IH vr wr Hp (fun i => HS (S i)) i u Hn).
Qed.

(* ---------------- an earlier release reads a later one ---------------- *)
Definition fw (t : ty) : Prop := forall t' v w p b, evolves t t' -> known any_extra t v w -> enc t' v p = Some b -> reads (dec t) p b w.
Lemma fw_complete t t' v w o : fw t -> evolves t t' -> known any_extra t v w -> complete (enc t' v) = Some o ->
  of_octets (dec t) o = Some w.
Proof.
  intros H He Hk Hc. apply opt_inv in Hc as (b&Hb&Hc). apply some_inv in Hc; subst o. apply octets_reads.
  eapply H; eassumption.
Qed.
Lemma fw_members : forall ms, Forall (fun m => fw (snd m)) ms -> forall ms' vs ws p b, evolve_all ms ms' ->
  known_all any_extra ms vs ws -> put_members enc ms' vs p = Some b -> reads (get_members dec ms (present ws)) p b ws.
Proof.
  induction ms as [|[o t] ms IH]; intros HF ms' vs ws p b He Hk H; inversion He; subst; inversion Hk; subst; cbn [put_members] in H.
  - apply some_inv in H; subst b. apply reads_ret.
  - inversion HF as [|m l Ht HF']; subst. cbn [snd] in Ht.
    assert (Hb : exists b1 b2, enc t' v p = Some b1 /\ put_members enc l' vs0 (p + length b1) = Some b2 /\ b = b1 ++ b2).
    { destruct o; apply opt_inv in H as (b1&H1&H); apply after_inv in H as (b2&H2&->); eauto. }
    destruct Hb as (b1&b2&H1&H2'&->). cbn [present map get_members]. fold (present ws0).
    eapply reads_bind; [eapply Ht; eassumption|]. eapply reads_bind0; [eapply IH; eassumption|]. intros q. apply reads_ret.
  - inversion HF as [|m l Ht HF']; subst. destruct o; [|discriminate]. cbn [present map get_members]. fold (present ws0).
    eapply reads_bind0; [eapply IH; eassumption|]. intros q. apply reads_ret.
Qed.
Lemma reads_skip : forall ms vs p b, put_adds enc ms vs p = Some b -> reads (skip_adds (present vs)) p b tt.
Proof.
  induction ms as [|[o t] ms IH]; intros [|[v|] vs] p b H; cbn [put_adds] in H; try discriminate.
  - apply some_inv in H; subst b. apply reads_ret.
  - apply opt_inv in H as (oc&Hoc&H). apply opt_inv in H as (b1&H1&H). apply after_inv in H as (b2&H2&->).
    unfold present. cbn [map skip_adds]. fold (present vs).
    eapply reads_bind; [apply reads_open; exact H1|]. eapply IH; exact H2.
  - unfold present. cbn [map skip_adds]. fold (present vs). eapply IH; exact H.
Qed.
Lemma fw_adds : forall ms, Forall (fun m => fw (snd m)) ms -> forall ms' x vs y ws p b, evolve_all ms ms' ->
  known_all any_extra ms vs ws -> put_adds enc (ms' ++ x) (vs ++ y) p = Some b ->
  reads (get_adds dec ms (present (vs ++ y))) p b ws.
Proof.
  induction ms as [|[o t] ms IH]; intros HF ms' x vs y ws p b He Hk H; inversion He; subst; inversion Hk; subst; cbn [List.app put_adds] in H.
  - cbn [get_adds List.app]. apply reads_skip in H. destruct (present y); (eapply reads_bind0; [exact H|]; intros q; apply reads_ret).
  - inversion HF as [|m l Ht HF']; subst. cbn [snd] in Ht.
    apply opt_inv in H as (oc&Hoc&H). apply opt_inv in H as (b1&H1&H). apply after_inv in H as (b2&H2'&->).
    unfold present. cbn [List.app map get_adds]. fold (present (vs0 ++ y)).
    eapply reads_bind; [apply reads_open; exact H1|]. erewrite fw_complete by eassumption. cbn [dopt].
    change b2 with ([] ++ b2). eapply reads_bind; [apply reads_ret|]. cbn [length]. rewrite Nat.add_0_r.
    eapply reads_bind0; [eapply IH; eassumption|]. intros q. apply reads_ret.
  - inversion HF as [|m l Ht HF']; subst. unfold present. cbn [List.app map get_adds]. fold (present (vs0 ++ y)).
    eapply reads_bind0; [eapply IH; eassumption|]. intros q. apply reads_ret.
Qed.
Lemma fw_nth : forall ts, Forall fw ts -> forall ts' x i t v w p b, Forall2 evolves ts ts' -> nth_error ts i = Some t ->
  known any_extra t v w -> nth_put enc (ts' ++ x) i v p = Some b -> reads (nth_get dec ts i) p b w.
Proof.
  induction ts as [|t0 ts IH]; intros HF ts' x i t v w p b He Hn Hk H; [destruct i; discriminate|].
  inversion HF as [|m l Ht HF']; subst. inversion He; subst. destruct i as [|i]; cbn [nth_error nth_put List.app nth_get] in *.
  - injection Hn as <-. eapply Ht; eassumption.
  - eapply IH; eassumption.
Qed.
Lemma fw_nth_open : forall ts, Forall fw ts -> forall ts' x i t v w o, Forall2 evolves ts ts' -> nth_error ts i = Some t ->
  known any_extra t v w -> complete (nth_put enc (ts' ++ x) i v) = Some o -> nth_get_open dec ts i o = Some w.
Proof.
  induction ts as [|t0 ts IH]; intros HF ts' x i t v w o He Hn Hk H; [destruct i; discriminate|].
  inversion HF as [|m l Ht HF']; subst. inversion He; subst. destruct i as [|i]; cbn [nth_error nth_put List.app nth_get_open] in *.
  - injection Hn as <-. eapply fw_complete; eassumption.
  - eapply IH; eassumption.
Qed.

Lemma forward : forall t, fw t.
Proof.
  apply ty_ind2.
  - intros t' v w p b He Hk H. inversion He; subst. inversion Hk; subst. apply round_trip. exact H.
  - intros t' v w p b He Hk H. inversion He; subst. inversion Hk; subst. apply round_trip. exact H.
  - intros c t' v w p b He Hk H. inversion He; subst. inversion Hk; subst. apply round_trip. exact H.
  - intros e r m t' v w p b He Hk H. inversion He; subst. inversion Hk; subst. cbn [enc] in H. cbn [dec].
    eapply reads_bind0; [|intros; apply reads_ret]. apply reads_enum. unfold put_enum in *.
    destruct (index_of z r) as [i|] eqn:Hr; [exact H|]. destruct e; [|discriminate].
    assert (Hz : In z m).
    { match goal with Hi : In z _ |- _ => apply in_app_or in Hi as [Hi|Hi]; [|exact Hi];
        apply index_of_some in Hi as (j&Hj&_); congruence end. }
    apply index_of_some in Hz as (j&Hj&_). rewrite (index_of_app _ _ _ _ Hj) in H. rewrite Hj. exact H.
  - intros c t' v w p b He Hk H. inversion He; subst. inversion Hk; subst. apply round_trip. exact H.
  - intros c t' v w p b He Hk H. inversion He; subst. inversion Hk; subst. apply round_trip. exact H.
  - intros e root adds HR HA t' v w p bb He Hk H.
    inversion He as [| | | | | | |e1 r1 root' a1 adds' x EvR EvA Hx0|]; subst.
    inversion Hk as [| | | | | | |e2 r2 a2 vr wr va wa y KR KA _|]; subst.
    cbn [enc] in H. cbv zeta in H.
    set (f := existsb (fun b => b) (present (va ++ y))) in *.
    destruct (f && negb e) eqn:Hxe; [discriminate|].
    destruct (negb (length (va ++ y) =? length (adds' ++ x))) eqn:Hla; [discriminate|].
    apply after_inv in H as (b1&H&->). apply opt_inv in H as (b2&H2&H). apply after_inv in H as (b3&H3&->).
    destruct (members_shape _ _ _ _ H2) as [Hs1 Hs2].
    destruct (known_len _ _ _ _ KR) as (L1&L2&L3). destruct (known_len _ _ _ _ KA) as (L4&L5&L6).
    rewrite (bitmap_same _ _ _ _ EvR L3) in *.
    cbn [dec]. rewrite <- !app_assoc.
    eapply reads_bind; [apply (reads_ext e f); intros Hx; rewrite Hx in Hxe; destruct e; [reflexivity|discriminate]|].
    eapply reads_bind; [apply (reads_bitmap root wr); [exact L2|apply (shape_same _ _ _ _ EvR L3 Hs2)]|].
    rewrite app_length, Nat.add_assoc in H2.
    eapply reads_bind; [apply (fw_members _ HR _ _ _ _ _ EvR KR H2)|].
    destruct f eqn:Hf.
    + destruct (N.of_nat (length (adds' ++ x)) <=? 64)%N eqn:H64; [|discriminate].
      apply after_inv in H3 as (b4&H4&->).
      assert (Hpos : (1 <= N.of_nat (length (adds' ++ x)))%N).
      { destruct (adds' ++ x); [|cbn [length]; lia]. destruct (va ++ y); [discriminate|]. cbn in Hla. discriminate. }
      rewrite <- app_comm_cons, <- app_assoc.
      match goal with |- reads _ _ (?x :: ?r) _ => change (x :: r) with ([x] ++ r) end.
      eapply reads_bind; [apply reads_bit|]. cbv iota.
      eapply reads_bind; [apply reads_bits; change (2 ^ N.of_nat 6)%N with 64%N; lia|].
      eapply reads_bind.
      { apply reads_raw'. unfold present. rewrite map_length. lia. }
      eapply reads_bind0.
      { apply (fw_adds _ HA adds' x va y wa _ _ EvA KA).
        match goal with H : put_adds _ _ _ ?q = _ |- put_adds _ _ _ ?q' = _ => replace q' with q; [exact H|] end.
        rewrite !app_length. cbn [length]. rewrite !app_length. lia. }
      intros q. apply reads_ret.
    + apply some_inv in H3; subst b3.
      assert (Hwa : existsb (fun b => b) (present wa) = false).
      { rewrite <- L6. unfold f in Hf. rewrite present_app, existsb_app in Hf. apply orb_false_iff in Hf as [Hf _]. exact Hf. }
      rewrite <- (no_adds wa Hwa _ adds) by lia. apply reads_ret.
  - intros c t Ht t' v w p bb He Hk H. inversion He; subst. inversion Hk as [| | | | | |c1 t1 l l' KL| |]; subst.
    cbn [enc] in H. cbn [dec]. eapply reads_bind0; [|intros; apply reads_ret].
    eapply reads_sized2; [|exact H]. clear H. induction KL; constructor; [|apply IHKL; constructor; assumption].
    intros q b' Hb. eapply Ht; eassumption.
  - intros e root more HR HM t' v w p bb He Hk H.
    inversion He as [| | | | | | | |e1 r1 root' m1 more' x EvR EvM Hx0]; subst.
    inversion Hk as [| | | | | | | |e2 r2 m2 i t v' w' Hn Kv]; subst.
    cbn [enc] in H. cbn [dec]. pose proof (Forall2_length EvR) as HlR. rewrite <- HlR in H.
    destruct (i <? length root) eqn:Hi.
    + rewrite nth_error_app1 in Hn by lia.
      apply opt_inv in H as (b1&H1&H). apply after_inv in H1 as (b2&H2&->). apply after_inv in H as (b3&H3&->).
      rewrite <- app_assoc. eapply reads_bind; [apply (reads_ext e false); discriminate|]. cbv iota.
      eapply reads_bind; [apply reads_whole; exact H2|]. rewrite Nat2N.id.
      eapply reads_bind0; [apply (fw_nth _ HR root' [] i t v' w')|intros q; apply reads_ret]; try assumption.
      rewrite app_length, Nat.add_assoc in H3. rewrite app_nil_r. exact H3.
    + rewrite nth_error_app2 in Hn by lia.
      destruct e; [|discriminate]. apply opt_inv in H as (b1&H1&H). apply opt_inv in H as (o&Ho&H).
      apply after_inv in H1 as (b2&H2&->). apply after_inv in H as (b3&H3&->).
      rewrite <- app_assoc. eapply reads_bind; [apply reads_bit|]. cbv iota.
      eapply reads_bind; [apply reads_small; exact H2|].
      eapply reads_bind0; [apply reads_open; rewrite app_length, Nat.add_assoc in H3; exact H3|].
      intros q. rewrite Nat2N.id, (fw_nth_open _ HM _ _ _ _ _ _ _ EvM Hn Kv Ho). cbn [dopt].
      eapply reads_bind0; [apply reads_ret|]. intros q'. replace (length root + (i - length root)) with i by lia. apply reads_ret.
Qed.
Lemma octets_reads_rest {A} (d : D A) b a r : reads d 0 b a -> of_octets d (to_octets b ++ r) = Some a.
Proof.
  intros H. unfold of_octets. rewrite octets_bits_app. unfold to_octets. destruct b as [|x b0].
  - specialize (H (octets_bits [0%N] ++ octets_bits r)). cbn [List.app] in H. rewrite H. reflexivity.
  - rewrite octets_bits_octets, <- app_assoc. rewrite (H _). reflexivity.
Qed.
Lemma forward_octets t t' v w o r : evolves t t' -> known any_extra t v w -> encode t' v = Some o -> decode t (o ++ r) = Some w.
Proof.
  intros He Hk H. apply opt_inv in H as (b&Hb&H). apply some_inv in H; subst o. apply octets_reads_rest.
  eapply forward; eassumption.
Qed.

(* ---------------- a later release reads an earlier one ---------------- *)
Definition bw (t : ty) : Prop := forall t' v w p b, evolves t t' -> known no_extra t v w -> valid t' v ->
  enc t w p = Some b -> reads (dec t') p b v.
Definition fits (m : bool * ty) (v : option val) : Prop := match v with Some v => valid (snd m) v | None => True end.
Lemma fits_all : forall ms vs, length vs = length ms ->
  (forall i o t v, nth_error ms i = Some (o, t) -> nth_error vs i = Some (Some v) -> valid t v) -> Forall2 fits ms vs.
Proof.
  induction ms as [|[o t] ms IH]; intros [|v vs] Hl H; try discriminate; constructor.
  - destruct v as [v|]; [apply (H 0 o t v); reflexivity|exact I].
  - apply IH; [injection Hl; auto|]. intros i. exact (H (S i)).
Qed.
Lemma bw_complete t t' v w o : bw t -> evolves t t' -> known no_extra t v w -> valid t' v -> complete (enc t w) = Some o ->
  of_octets (dec t') o = Some v.
Proof.
  intros H He Hk Hv Hc. apply opt_inv in Hc as (b&Hb&Hc). apply some_inv in Hc; subst o. apply octets_reads.
  eapply H; eassumption.
Qed.
Lemma bw_members : forall ms, Forall (fun m => bw (snd m)) ms -> forall ms' vs ws p b, evolve_all ms ms' ->
  known_all no_extra ms vs ws -> Forall2 fits ms' vs -> put_members enc ms ws p = Some b ->
  reads (get_members dec ms' (present vs)) p b vs.
Proof.
  induction ms as [|[o t] ms IH]; intros HF ms' vs ws p b He Hk Hv H; inversion He; subst; inversion Hk; subst; cbn [put_members] in H.
  - apply some_inv in H; subst b. apply reads_ret.
  - inversion HF as [|m l Ht HF']; subst. cbn [snd] in Ht. inversion Hv; subst.
    assert (Hb : exists b1 b2, enc t w p = Some b1 /\ put_members enc ms ws0 (p + length b1) = Some b2 /\ b = b1 ++ b2).
    { destruct o; apply opt_inv in H as (b1&H1&H); apply after_inv in H as (b2&H2&->); eauto. }
    destruct Hb as (b1&b2&H1&H2'&->). cbn [present map get_members]. fold (present vs0).
    eapply reads_bind; [eapply Ht; eassumption|]. eapply reads_bind0; [eapply IH; eassumption|]. intros q. apply reads_ret.
  - inversion HF as [|m l Ht HF']; subst. inversion Hv; subst. destruct o; [|discriminate]. cbn [present map get_members]. fold (present vs0).
    eapply reads_bind0; [eapply IH; eassumption|]. intros q. apply reads_ret.
Qed.
Lemma adds_none : forall x y p, length y = length x -> no_extra y -> reads (get_adds dec x []) p [] y.
Proof.
  induction x as [|[o t] x IH]; intros [|v y] p Hl Hn; try discriminate.
  - cbn [get_adds skip_adds]. eapply reads_bind0; [apply reads_ret|]. intros q. apply reads_ret.
  - cbn [get_adds]. eapply reads_bind0; [apply (IH y); [injection Hl; auto|intros u Hu; apply Hn; right; exact Hu]|].
    intros q. rewrite (Hn v (or_introl eq_refl)). apply reads_ret.
Qed.
Lemma bw_adds : forall ms, Forall (fun m => bw (snd m)) ms -> forall ms' x vs y ws p b, evolve_all ms ms' ->
  known_all no_extra ms vs ws -> no_extra y -> Forall2 fits (ms' ++ x) (vs ++ y) -> put_adds enc ms ws p = Some b ->
  reads (get_adds dec (ms' ++ x) (present vs)) p b (vs ++ y).
Proof.
  induction ms as [|[o t] ms IH]; intros HF ms' x vs y ws p b He Hk Hy Hv H; inversion He; subst; inversion Hk; subst; cbn [List.app put_adds] in *.
  - apply some_inv in H; subst b. apply adds_none; [symmetry; apply (Forall2_length Hv)|exact Hy].
  - inversion HF as [|m l Ht HF']; subst. cbn [snd] in Ht. inversion Hv; subst.
    apply opt_inv in H as (oc&Hoc&H). apply opt_inv in H as (b1&H1&H). apply after_inv in H as (b2&H2'&->).
    unfold present. cbn [map get_adds]. fold (present vs0).
    eapply reads_bind; [apply reads_open; exact H1|]. erewrite bw_complete by eassumption. cbn [dopt].
    change b2 with ([] ++ b2). eapply reads_bind; [apply reads_ret|]. cbn [length]. rewrite Nat.add_0_r.
    eapply reads_bind0; [eapply IH; eassumption|]. intros q. apply reads_ret.
  - inversion HF as [|m l Ht HF']; subst. inversion Hv; subst. unfold present. cbn [map get_adds]. fold (present vs0).
    eapply reads_bind0; [eapply IH; eassumption|]. intros q. apply reads_ret.
Qed.
Lemma bw_nth : forall ts, Forall bw ts -> forall ts' i t t' v w p b, Forall2 evolves ts ts' -> nth_error ts i = Some t ->
  nth_error ts' i = Some t' -> known no_extra t v w -> valid t' v -> nth_put enc ts i w p = Some b -> reads (nth_get dec ts' i) p b v.
Proof.
  induction ts as [|t0 ts IH]; intros HF ts' i t t' v w p b He Hn Hn' Hk Hv H; [destruct i; discriminate|].
  inversion HF as [|m l Ht HF']; subst. inversion He; subst. destruct i as [|i]; cbn [nth_error nth_put nth_get] in *.
  - injection Hn as <-. injection Hn' as <-. eapply Ht; eassumption.
  - eapply IH; eassumption.
Qed.
Lemma bw_nth_open : forall ts, Forall bw ts -> forall ts' x i t t' v w o, Forall2 evolves ts ts' -> nth_error ts i = Some t ->
  nth_error (ts' ++ x) i = Some t' -> known no_extra t v w -> valid t' v -> complete (nth_put enc ts i w) = Some o ->
  nth_get_open dec (ts' ++ x) i o = Some v.
Proof.
  induction ts as [|t0 ts IH]; intros HF ts' x i t t' v w o He Hn Hn' Hk Hv H; [destruct i; discriminate|].
  inversion HF as [|m l Ht HF']; subst. inversion He; subst. destruct i as [|i]; cbn [nth_error nth_put List.app nth_get_open] in *.
  - injection Hn as <-. injection Hn' as <-. eapply bw_complete; eassumption.
  - eapply IH; eassumption.
Qed.
Lemma no_extra_present y : no_extra y -> existsb (fun b => b) (present y) = false.
Proof.
  intros H. induction y as [|v y IH]; [reflexivity|]. unfold present. cbn [map existsb]. rewrite (H v (or_introl eq_refl)).
  apply IH. intros u Hu. apply H. right. exact Hu.
Qed.
Lemma backward : forall t, bw t.
Proof.
  apply ty_ind2.
  - intros t' v w p b He Hk _ H. inversion He; subst. inversion Hk; subst. apply round_trip. exact H.
  - intros t' v w p b He Hk _ H. inversion He; subst. inversion Hk; subst. apply round_trip. exact H.
  - intros c t' v w p b He Hk _ H. inversion He; subst. inversion Hk; subst. apply round_trip. exact H.
  - intros e r m t' v w p b He Hk _ H. inversion He; subst. inversion Hk; subst. cbn [enc] in H. cbn [dec].
    eapply reads_bind0; [|intros; apply reads_ret]. apply reads_enum. unfold put_enum in *.
    destruct (index_of z r) as [i|] eqn:Hr; [exact H|]. destruct e; [|discriminate].
    apply opt_inv in H as (j&Hj&H). rewrite (index_of_app _ _ _ _ Hj). exact H.
  - intros c t' v w p b He Hk _ H. inversion He; subst. inversion Hk; subst. apply round_trip. exact H.
  - intros c t' v w p b He Hk _ H. inversion He; subst. inversion Hk; subst. apply round_trip. exact H.
  - intros e root adds HR HA t' v w p bb He Hk Hv H.
    inversion He as [| | | | | | |e1 r1 root' a1 adds' x EvR EvA Hx0|]; subst.
    inversion Hk as [| | | | | | |e2 r2 a2 vr wr va wa y KR KA Hy|]; subst.
    inversion Hv as [| | | | | | | |e3 r3 a3 vr3 va3 Lr La V1 V2 V3 V4| |]; subst.
    cbn [enc] in H. cbv zeta in H.
    set (f := existsb (fun b => b) (present wa)) in *.
    destruct (f && negb e) eqn:Hxe; [discriminate|].
    destruct (negb (length wa =? length adds)) eqn:Hla; [discriminate|].
    apply after_inv in H as (b1&H&->). apply opt_inv in H as (b2&H2&H). apply after_inv in H as (b3&H3&->).
    destruct (members_shape _ _ _ _ H2) as [Hs1 Hs2].
    destruct (known_len _ _ _ _ KR) as (L1&L2&L3). destruct (known_len _ _ _ _ KA) as (L4&L5&L6).
    rewrite <- (bitmap_same _ _ _ _ EvR L3) in *.
    cbn [dec]. rewrite <- !app_assoc.
    eapply reads_bind; [apply (reads_ext e f); intros Hx; rewrite Hx in Hxe; destruct e; [reflexivity|discriminate]|].
    eapply reads_bind; [apply (reads_bitmap root' vr); [symmetry; exact Lr|exact V1]|].
    rewrite app_length, Nat.add_assoc in H2.
    eapply reads_bind; [apply (bw_members _ HR _ _ _ _ _ EvR KR (fits_all _ _ Lr V2) H2)|].
    destruct f eqn:Hf.
    + destruct (N.of_nat (length adds) <=? 64)%N eqn:H64; [|discriminate].
      apply after_inv in H3 as (b4&H4&->).
      assert (Hpos : (1 <= N.of_nat (length adds))%N).
      { destruct adds; [|cbn [length]; lia]. destruct wa; [discriminate|]. cbn in Hla. discriminate. }
      rewrite <- app_comm_cons, <- app_assoc.
      match goal with |- reads _ _ (?x :: ?r) _ => change (x :: r) with ([x] ++ r) end.
      eapply reads_bind; [apply reads_bit|]. cbv iota.
      eapply reads_bind; [apply reads_bits; change (2 ^ N.of_nat 6)%N with 64%N; lia|].
      eapply reads_bind.
      { apply reads_raw'. unfold present. rewrite map_length. lia. }
      rewrite <- L6. eapply reads_bind0.
      { apply (bw_adds _ HA adds' x va y wa _ _ EvA KA Hy (fits_all _ _ La V3)).
        match goal with H : put_adds _ _ _ ?q = _ |- put_adds _ _ _ ?q' = _ => replace q' with q; [exact H|] end.
        rewrite !app_length. cbn [length]. rewrite !app_length. rewrite L6. lia. }
      intros q. apply reads_ret.
    + apply some_inv in H3; subst b3.
      assert (Hwa : existsb (fun b => b) (present (va ++ y)) = false).
      { rewrite present_app, existsb_app, L6. unfold f in Hf. rewrite Hf. apply no_extra_present. exact Hy. }
      rewrite <- (no_adds _ Hwa _ (adds' ++ x)) by exact La. apply reads_ret.
  - intros c t Ht t' v w p bb He Hk Hv H. inversion He; subst. inversion Hk as [| | | | | |c1 t1 l l' KL| |]; subst.
    inversion Hv as [| | | | | | |c2 t2 l2 Ha HV| | |]; subst.
    cbn [enc] in H. cbn [dec]. eapply reads_bind0; [|intros; apply reads_ret].
    eapply reads_sized2; [|exact H]. clear H Ha Hv Hk. induction KL; constructor; [|apply IHKL; intros u Hu; apply HV; right; exact Hu].
    intros q b' Hb. eapply Ht; try eassumption. apply HV. left. reflexivity.
  - intros e root more HR HM t' v w p bb He Hk Hv H.
    inversion He as [| | | | | | | |e1 r1 root' m1 more' x EvR EvM Hx0]; subst.
    inversion Hk as [| | | | | | | |e2 r2 m2 i t v' w' Hn Kv]; subst.
    cbn [enc] in H. cbn [dec]. pose proof (Forall2_length EvR) as HlR.
    destruct (i <? length root) eqn:Hi.
    + rewrite nth_error_app1 in Hn by lia.
      assert (HV : exists t2, nth_error root' i = Some t2 /\ valid t2 v').
      { inversion Hv; subst; [eauto|lia]. }
      destruct HV as (t2&Hn2&HV).
      apply opt_inv in H as (b1&H1&H). apply after_inv in H1 as (b2&H2&->). apply after_inv in H as (b3&H3&->).
      rewrite <- app_assoc. eapply reads_bind; [apply (reads_ext e false); discriminate|]. cbv iota. rewrite <- HlR.
      eapply reads_bind; [apply reads_whole; exact H2|]. rewrite Nat2N.id.
      eapply reads_bind0; [eapply (bw_nth _ HR root' i t t2 v' w'); try eassumption|intros q; apply reads_ret].
      rewrite app_length, Nat.add_assoc in H3. exact H3.
    + rewrite nth_error_app2 in Hn by lia.
      assert (HV : exists t2, nth_error (more' ++ x) (i - length root) = Some t2 /\ valid t2 v').
      { inversion Hv as [| | | | | | | | |e5 r5 m5 i5 t5 v5 Hn5 V5|r5 m5 i5 t5 v5 Hn5 V5]; subst.
        - assert (i < length root') by (apply nth_error_Some; congruence). lia.
        - exists t5. split; [|exact V5]. rewrite <- Hn5. f_equal. lia. }
      destruct HV as (t2&Hn2&HV).
      destruct e; [|discriminate]. apply opt_inv in H as (b1&H1&H). apply opt_inv in H as (o&Ho&H).
      apply after_inv in H1 as (b2&H2&->). apply after_inv in H as (b3&H3&->).
      rewrite <- app_assoc. eapply reads_bind; [apply reads_bit|]. cbv iota.
      eapply reads_bind; [apply reads_small; exact H2|].
      eapply reads_bind0; [apply reads_open; rewrite app_length, Nat.add_assoc in H3; exact H3|].
      intros q. rewrite Nat2N.id, (bw_nth_open _ HM _ _ _ _ _ _ _ _ EvM Hn Hn2 Kv HV Ho). cbn [dopt].
      eapply reads_bind0; [apply reads_ret|]. intros q'. rewrite <- HlR. replace (length root + (i - length root)) with i by lia. apply reads_ret.
Qed.
Lemma backward_octets t t' v w o r : evolves t t' -> known no_extra t v w -> valid t' v -> encode t w = Some o ->
  decode t' (o ++ r) = Some v.
Proof.
  intros He Hk Hv H. apply opt_inv in H as (b&Hb&H). apply some_inv in H; subst o. apply octets_reads_rest.
  eapply backward; eassumption.
Qed.

(* ---------------- what the earlier release cannot know ---------------- *)
Lemma bind_read {A B} (d : D A) (k : A -> D B) p b a r : reads d p b a -> dbind d k p (b ++ r) = k a (p + length b) r.
Proof. intros H. unfold dbind. rewrite (H r). reflexivity. Qed.
Lemma new_enum r m x z o : ~ In z r -> ~ In z m -> encode (TEnum true r (m ++ x)) (VEnum z) = Some o ->
  decode (TEnum true r m) o = None.
Proof.
  intros Hr Hm H. apply opt_inv in H as (b&Hb&H). apply some_inv in H; subst o. cbn [enc] in Hb. unfold put_enum in Hb.
  assert (Hnone : forall l, ~ In z l -> index_of z l = None).
  { intros l Hl. destruct (index_of z l) as [j|] eqn:Hj; [|reflexivity]. apply index_of_nth, nth_error_In in Hj. contradiction. }
  rewrite (Hnone r Hr) in Hb. apply opt_inv in Hb as (i&Hi&Hb). apply after_inv in Hb as (b2&H2&->).
  assert (Hge : length m <= i).
  { destruct (Nat.le_gt_cases (length m) i) as [H|H]; [exact H|]. destruct Hm.
    apply index_of_nth in Hi. rewrite nth_error_app1 in Hi by exact H. eapply nth_error_In; exact Hi. }
  unfold decode, of_octets, to_octets. cbn [List.app]. rewrite octets_bits_octets. cbn [dec].
  match goal with |- match ?e with _ => _ end = None => assert (He : e = None); [|rewrite He; reflexivity] end.
  match goal with |- dbind ?d _ ?p ?b = None => assert (He : d p b = None); [|unfold dbind at 1; rewrite He; reflexivity] end.
  unfold get_enum, get_ext. match goal with |- context [(true :: b2) ++ ?t] => change ((true :: b2) ++ t) with ([true] ++ (b2 ++ t)) end.
  rewrite (bind_read _ _ _ _ true) by apply reads_bit. cbv iota.
  rewrite (bind_read _ _ _ _ (N.of_nat i)) by (apply reads_small; exact H2).
  rewrite Nat2N.id. apply nth_error_None in Hge. rewrite Hge. reflexivity.
Qed.
Lemma new_alternative root root' more more' x i v o :
  Forall2 evolves root root' -> Forall2 evolves more more' -> length root + length more <= i ->
  encode (TChoice true root' (more' ++ x)) (VChoice i v) = Some o -> decode (TChoice true root more) o = None.
Proof.
  intros ER EM Hi H. apply opt_inv in H as (b&Hb&H). apply some_inv in H; subst o. cbn [enc] in Hb.
  rewrite <- (Forall2_length ER) in Hb. replace (i <? length root) with false in Hb by lia.
  apply opt_inv in Hb as (b1&H1&H). apply opt_inv in H as (o&Ho&H).
  apply after_inv in H1 as (b2&H2&->). apply after_inv in H as (b3&H3&->).
  unfold decode, of_octets, to_octets. cbn [List.app]. rewrite octets_bits_octets. cbn [dec].
  match goal with |- match ?e with _ => _ end = None => assert (He : e = None); [|rewrite He; reflexivity] end.
  match goal with |- context [(true :: b2 ++ b3) ++ ?t] => replace ((true :: b2 ++ b3) ++ t) with ([true] ++ (b2 ++ (b3 ++ t)))
    by (cbn [List.app]; rewrite <- app_assoc; reflexivity) end.
  unfold get_ext. rewrite (bind_read _ _ _ _ true) by apply reads_bit. cbv iota.
  rewrite (bind_read _ _ _ _ (N.of_nat (i - length root))) by (apply reads_small; exact H2).
  rewrite (bind_read _ _ _ _ o) by (apply reads_open; rewrite app_length, Nat.add_assoc in H3; exact H3).
  rewrite Nat2N.id.
  assert (Hn : forall ts j, length ts <= j -> nth_get_open dec ts j o = None).
  { induction ts as [|t ts IH]; intros [|j] Hj; cbn [length nth_get_open] in *; try reflexivity; [lia|]. apply IH. lia. }
  rewrite Hn by lia. reflexivity.
Qed.
Lemma evolves_refl : forall t, evolves t t.
Proof.
  apply ty_ind2; try constructor; auto.
  - intros e r m. rewrite <- (app_nil_r m) at 2. constructor. reflexivity.
  - intros e root adds HR HA. rewrite <- (app_nil_r adds) at 2. constructor; [| |reflexivity].
    + induction HR as [|[o t] l H1 H2 IH]; constructor; assumption.
    + induction HA as [|[o t] l H1 H2 IH]; constructor; assumption.
  - intros e root more HR HM. rewrite <- (app_nil_r more) at 2. constructor; [| |reflexivity].
    + induction HR as [|t l H1 H2 IH]; constructor; assumption.
    + induction HM as [|t l H1 H2 IH]; constructor; assumption.
Qed.
