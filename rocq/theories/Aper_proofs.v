(* The decoder inverts the encoder; exactly the valid values can be encoded. *)
From Verif Require Import Base Aper.
From Coq Require Import ZifyBool ZifyNat ZifyN.
Ltac Zify.zify_post_hook ::= Z.div_mod_to_equations.

(* [d], started at position [p] in front of the bits [b], yields [a] and stops
   exactly behind them, whatever follows *)
Definition reads {A} (d : D A) (p : nat) (b : bits) (a : A) : Prop :=
  forall r, d p (b ++ r) = Some (a, p + length b, r).

Lemma reads_ret A (a : A) p : reads (dret a) p [] a.
Proof. intros r. unfold dret. cbn [List.app length]. rewrite Nat.add_0_r. reflexivity. Qed.
Lemma reads_bind A B (m : D A) (k : A -> D B) p b1 b2 a c :
  reads m p b1 a -> reads (k a) (p + length b1) b2 c -> reads (dbind m k) p (b1 ++ b2) c.
Proof.
  intros H1 H2 r. unfold dbind. rewrite <- app_assoc, H1, H2, app_length, Nat.add_assoc. reflexivity.
Qed.
Lemma reads_bind0 A B (m : D A) (k : A -> D B) p b a c :
  reads m p b a -> (forall q, reads (k a) q [] c) -> reads (dbind m k) p b c.
Proof. intros H1 H2. rewrite <- (app_nil_r b). eapply reads_bind; eauto. Qed.
Lemma after_inv p b k x : after p b k = Some x -> exists b', k (p + length b) = Some b' /\ x = b ++ b'.
Proof. unfold after. destruct (k (p + length b)); intros H; [injection H as <-; eauto|discriminate]. Qed.
Lemma opt_inv A B (x : option A) (k : A -> option B) y : (opt a <- x ;; k a) = Some y ->
  exists a, x = Some a /\ k a = Some y.
Proof. unfold obind2. destruct x; intros H; [eauto|discriminate]. Qed.

Lemma some_inv A (a b : A) : Some a = Some b -> a = b.
Proof. congruence. Qed.
Ltac sinj H := apply some_inv in H; subst.

(* ---------------- bits ---------------- *)
Lemma take_app u : forall v, take (length u) (u ++ v) = Some (u, v).
Proof. induction u as [|x u IH]; intros v; cbn [length take List.app]; [reflexivity|]. rewrite IH. reflexivity. Qed.
Lemma to_bits_len n : forall v, length (to_bits n v) = n.
Proof. induction n as [|n IH]; intros v; cbn [to_bits length]; [reflexivity|]. rewrite IH. reflexivity. Qed.
Lemma from_bits_acc b : forall acc, from_bits acc b = (acc * 2 ^ N.of_nat (length b) + from_bits 0 b)%N.
Proof.
  induction b as [|x b IH]; intros acc.
  - cbn [from_bits length]. rewrite N.mul_1_r, N.add_0_r. reflexivity.
  - cbn [from_bits length]. rewrite (IH (2 * acc + N.b2n x)%N), (IH (2 * 0 + N.b2n x)%N).
    rewrite Nat2N.inj_succ, N.pow_succ_r'. nia.
Qed.
Lemma testbit_split v n : (v mod 2 ^ N.of_nat (S n) = N.b2n (N.testbit v (N.of_nat n)) * 2 ^ N.of_nat n + v mod 2 ^ N.of_nat n)%N.
Proof.
  rewrite Nat2N.inj_succ, N.pow_succ_r'.
  assert (Hp : (2 ^ N.of_nat n <> 0)%N) by (apply N.pow_nonzero; discriminate).
  rewrite N.mul_comm. rewrite N.mod_mul_r by (auto; discriminate). rewrite N.testbit_spec'. lia.
Qed.
Lemma from_to_bits n : forall v, from_bits 0 (to_bits n v) = (v mod 2 ^ N.of_nat n)%N.
Proof.
  induction n as [|n IH]; intros v.
  - cbn [to_bits from_bits]. change (2 ^ N.of_nat 0)%N with 1%N. rewrite N.mod_1_r. reflexivity.
  - rewrite testbit_split. cbn [to_bits from_bits]. rewrite from_bits_acc, to_bits_len, IH.
    assert (Hb : N.testbit_nat v n = N.testbit v (N.of_nat n)).
    { symmetry. apply Ndigits.Ntestbit_Nbit. }
    rewrite Hb. lia.
Qed.
Lemma from_to_small n v : (v < 2 ^ N.of_nat n)%N -> from_bits 0 (to_bits n v) = v.
Proof. intros H. rewrite from_to_bits. apply N.mod_small. exact H. Qed.
Lemma from_bits_bound b : (from_bits 0 b < 2 ^ N.of_nat (length b))%N.
Proof.
  induction b as [|x b IH]; [reflexivity|]. cbn [from_bits length]. rewrite from_bits_acc, Nat2N.inj_succ, N.pow_succ_r'.
  destruct x; cbn [N.b2n]; lia.
Qed.
Lemma reads_raw u p : reads (get_raw (length u)) p u u.
Proof. intros r. unfold get_raw. rewrite take_app. reflexivity. Qed.
Lemma reads_raw' n u p : length u = n -> reads (get_raw n) p u u.
Proof. intros <-. apply reads_raw. Qed.
Lemma reads_bits n v p : (v < 2 ^ N.of_nat n)%N -> reads (get_bits n) p (to_bits n v) v.
Proof.
  intros H. eapply reads_bind0; [apply reads_raw', to_bits_len|]. intros q. rewrite from_to_small by exact H. apply reads_ret.
Qed.
Lemma reads_bit x p : reads get_bit p [x] x.
Proof. eapply reads_bind0; [apply reads_raw', eq_refl|]. intros q. apply reads_ret. Qed.
Lemma reads_align p : reads get_align p (pad p) tt.
Proof.
  intros r. unfold get_align.
  exact (reads_bind0 _ _ _ _ _ _ (pad p) tt (reads_raw' _ _ p (repeat_length _ _)) (fun q => reads_ret _ tt q) r).
Qed.
Lemma size_pow v : (v < 2 ^ N.size v)%N.
Proof. destruct v; [reflexivity|]. apply N.size_gt. Qed.
Lemma size_nat_size v : N.of_nat (N.size_nat v) = N.size v.
Proof. destruct v as [|p]; [reflexivity|]. cbn. induction p; cbn; lia. Qed.

(* ---------------- whole numbers ---------------- *)
Lemma octets_of_bound v : (v < 2 ^ N.of_nat (8 * octets_of v))%N.
Proof.
  eapply N.lt_le_trans; [apply size_pow|]. apply N.pow_le_mono_r; [discriminate|].
  unfold octets_of. rewrite Nat2N.inj_mul, N2Nat.id. lia.
Qed.
Lemma octets_of_pos v : 1 <= octets_of v.
Proof. unfold octets_of. lia. Qed.
Lemma octets_of_mono a b : (a <= b)%N -> octets_of a <= octets_of b.
Proof.
  intros H. unfold octets_of.
  assert (N.size a <= N.size b)%N.
  { destruct a as [|a]; [cbn; lia|]. destruct b as [|b]; [lia|].
    rewrite !N.size_log2 by discriminate. apply (proj1 (N.succ_le_mono _ _)). apply N.log2_le_mono. exact H. }
  lia.
Qed.
Lemma reads_whole range v p b : put_whole range v p = Some b -> reads (get_whole range) p b v.
Proof.
  unfold put_whole, get_whole. destruct (v <? range)%N eqn:Hv; [|discriminate].
  intros H. eapply reads_bind0.
  2:{ intros q. rewrite Hv. apply reads_ret. }
  destruct (range <=? 255)%N eqn:H1.
  { apply some_inv in H; subst b. apply reads_bits. rewrite size_nat_size. eapply N.le_lt_trans; [|apply size_pow]. lia. }
  destruct (range =? 256)%N eqn:H2.
  { apply some_inv in H; subst b. eapply reads_bind; [apply reads_align|]. apply reads_bits. change (2 ^ N.of_nat 8)%N with 256%N. lia. }
  destruct (range <=? 65536)%N eqn:H3.
  { apply some_inv in H; subst b. eapply reads_bind; [apply reads_align|]. apply reads_bits. change (2 ^ N.of_nat 16)%N with 65536%N. lia. }
  apply some_inv in H; subst b.
  assert (Ho : octets_of v <= octets_of (range - 1)) by (apply octets_of_mono; lia).
  pose proof (octets_of_pos v) as Hp.
  eapply reads_bind.
  - apply reads_bits. rewrite size_nat_size. eapply N.le_lt_trans; [|apply size_pow]. lia.
  - eapply reads_bind; [apply reads_align|].
    replace (N.to_nat (N.of_nat (octets_of v) - 1) + 1) with (octets_of v) by lia.
    apply reads_bits, octets_of_bound.
Qed.

(* ---------------- items ---------------- *)
Section Items.
Context {A : Type} (put : A -> nat -> option bits) (getf : D A).
Definition item_ok (a : A) : Prop := forall p b, put a p = Some b -> reads getf p b a.
Lemma reads_items : forall l, (forall a, In a l -> item_ok a) -> forall p b, put_items put l p = Some b ->
  reads (get_items getf (length l)) p b l.
Proof.
  induction l as [|a l IH]; intros Hok p b H; cbn [put_items] in H.
  - apply some_inv in H; subst b. apply reads_ret.
  - apply opt_inv in H as (b1&H1&H). apply after_inv in H as (b2&H2&->).
    cbn [length get_items]. eapply reads_bind; [apply Hok; [left; reflexivity|exact H1]|].
    eapply reads_bind0; [apply IH; [intros; apply Hok; right; assumption|exact H2]|]. intros q. apply reads_ret.
Qed.
Lemma len_bits_read n p : (n < 16384)%N -> forall (k z : N -> D (list A)) b l,
  reads (k n) (p + length (len_bits n)) b l ->
  reads (get h <- get_bits 8 ;; if (h <? 128)%N then k h
         else if (h <? 192)%N then get l <- get_bits 8 ;; k ((h - 128) * 256 + l)%N else z h) p (len_bits n ++ b) l.
Proof.
  intros Hn k z b l Hk. unfold len_bits in *. destruct (n <? 128)%N eqn:H1.
  - eapply reads_bind; [apply reads_bits; change (2 ^ N.of_nat 8)%N with 256%N; lia|]. rewrite H1. exact Hk.
  - assert (Hs : to_bits 16 (32768 + n) = to_bits 8 (128 + n / 256) ++ to_bits 8 (n mod 256)).
    { assert (H128 : (n / 256 < 64)%N) by lia.
      cut (forall a c, (c < 256)%N -> to_bits 16 (a * 256 + c) = to_bits 8 a ++ to_bits 8 c).
      { intros Hc. rewrite <- Hc by (apply N.mod_lt; discriminate). f_equal. pose proof (N.div_mod n 256). lia. }
      intros a c Hc. cbn [to_bits List.app].
      assert (Hlo : forall i, (i < 8)%nat -> N.testbit_nat (a * 256 + c) i = N.testbit_nat c i).
      { intros i Hi. rewrite <- !Ndigits.Ntestbit_Nbit.
        change 256%N with (2 ^ 8)%N. rewrite <- (N.mod_pow2_bits_low (a * 2 ^ 8 + c) 8) by lia.
        rewrite N.add_comm, N.mod_add by discriminate. rewrite N.mod_small by exact Hc. reflexivity. }
      assert (Hhi : forall i, N.testbit_nat (a * 256 + c) (8 + i) = N.testbit_nat a i).
      { intros i. rewrite <- !Ndigits.Ntestbit_Nbit.
        rewrite Nat2N.inj_add, (N.add_comm (N.of_nat 8)). change (N.of_nat 8) with 8%N. rewrite <- N.shiftr_spec' by lia.
        rewrite N.shiftr_div_pow2. change (2 ^ 8)%N with 256%N. rewrite N.div_add_l by discriminate.
        rewrite N.div_small by exact Hc. rewrite N.add_0_r. reflexivity. }
      rewrite <- (Hhi 0), <- (Hhi 1), <- (Hhi 2), <- (Hhi 3), <- (Hhi 4), <- (Hhi 5), <- (Hhi 6), <- (Hhi 7).
      rewrite <- (Hlo 0), <- (Hlo 1), <- (Hlo 2), <- (Hlo 3), <- (Hlo 4), <- (Hlo 5), <- (Hlo 6), <- (Hlo 7) by lia.
      reflexivity. }
    rewrite Hs in *. rewrite <- app_assoc.
    eapply reads_bind; [apply reads_bits; change (2 ^ N.of_nat 8)%N with 256%N; lia|].
    replace (128 + n / 256 <? 128)%N with false by lia. replace (128 + n / 256 <? 192)%N with true by lia.
    eapply reads_bind; [apply reads_bits; change (2 ^ N.of_nat 8)%N with 256%N; lia|].
    replace ((128 + n / 256 - 128) * 256 + n mod 256)%N with n by lia.
    rewrite app_length, Nat.add_assoc in Hk. exact Hk.
Qed.

Lemma pad_bits_len p n : length (pad p ++ len_bits n) >= 8.
Proof. rewrite app_length. unfold len_bits. destruct (n <? 128)%N; rewrite to_bits_len; lia. Qed.
Lemma reads_frag : forall fuel l, (forall a, In a l -> item_ok a) -> forall p b, put_frag put fuel l p = Some b ->
  forall f, length b <= f -> reads (get_frag getf f) p b l.
Proof.
  induction fuel as [|fuel IH]; intros l Hok p b H f Hf.
  - cbn [put_frag] in H. cbv zeta in H. destruct (N.of_nat (length l) <? 16384)%N eqn:Hn; [|discriminate].
    apply after_inv in H as (b'&Hb&->). pose proof (pad_bits_len p (N.of_nat (length l))). rewrite app_length in Hf.
    destruct f as [|f]; [lia|]. cbn [get_frag]. rewrite <- app_assoc. eapply reads_bind; [apply reads_align|].
    apply len_bits_read; [lia|]. rewrite Nat2N.id. rewrite app_length, Nat.add_assoc in Hb. apply reads_items; assumption.
  - cbn [put_frag] in H. cbv zeta in H. destruct (N.of_nat (length l) <? 16384)%N eqn:Hn.
    { apply after_inv in H as (b'&Hb&->). pose proof (pad_bits_len p (N.of_nat (length l))). rewrite app_length in Hf.
      destruct f as [|f]; [lia|]. cbn [get_frag]. rewrite <- app_assoc. eapply reads_bind; [apply reads_align|].
      apply len_bits_read; [lia|]. rewrite Nat2N.id. rewrite app_length, Nat.add_assoc in Hb. apply reads_items; assumption. }
    set (m := N.min 4 (N.of_nat (length l) / 16384)) in *.
    assert (Hm : (1 <= m <= 4)%N) by lia.
    assert (Hk : N.to_nat (m * 16384) <= length l) by lia.
    set (k := N.to_nat (m * 16384)) in *.
    apply opt_inv in H as (b1&H1&H). apply after_inv in H as (b3&H3&->). apply after_inv in H1 as (b2&H2&->).
    rewrite !app_length, to_bits_len in Hf. destruct f as [|f]; [lia|].
    cbn [get_frag]. rewrite <- !app_assoc. eapply reads_bind; [apply reads_align|].
    eapply reads_bind; [apply reads_bits; change (2 ^ N.of_nat 8)%N with 256%N; lia|].
    replace (192 + m <? 128)%N with false by lia. replace (192 + m <? 192)%N with false by lia.
    replace ((193 <=? 192 + m) && (192 + m <=? 196))%N with true by lia.
    replace (192 + m - 192)%N with m by lia. fold k.
    rewrite app_length, Nat.add_assoc in H2.
    eapply reads_bind.
    { replace k with (length (firstn k l)) by (apply firstn_length_le; exact Hk).
      eapply reads_items; [|exact H2]. intros a Ha. apply Hok. rewrite <- (firstn_skipn k l). apply in_or_app. left. exact Ha. }
    match goal with |- reads ?d ?q ?b l => cut (reads d q b (firstn k l ++ skipn k l)); [rewrite firstn_skipn; exact (fun x => x)|] end.
    eapply reads_bind0; [|intros q; apply reads_ret].
    rewrite !app_length, !Nat.add_assoc in H3. 
    eapply IH; [|exact H3|lia]. intros a Ha. apply Hok. rewrite <- (firstn_skipn k l). apply in_or_app. right. exact Ha.
Qed.
Lemma reads_list l : (forall a, In a l -> item_ok a) -> forall p b, put_list put l p = Some b -> reads (get_list getf) p b l.
Proof.
  intros Hok p b H r. unfold get_list. eapply (reads_frag _ _ Hok _ _ H). rewrite app_length. lia.
Qed.
End Items.

Lemma octet_ok o : item_ok put_octet get_octet o.
Proof.
  intros p b H. unfold put_octet in H. destruct (is_byte o) eqn:Ho; [|discriminate]. apply some_inv in H; subst b.
  apply reads_bits. unfold is_byte in Ho. change (2 ^ N.of_nat 8)%N with 256%N. lia.
Qed.
Lemma bit_ok x : item_ok put_bit get_bit x.
Proof. intros p b H. apply some_inv in H; subst b. apply reads_bit. Qed.
Lemma reads_open l p b : put_open l p = Some b -> reads get_open p b l.
Proof. apply reads_list. intros. apply octet_ok. Qed.

(* ---------------- octets and bits ---------------- *)
Lemma to_bits_mod n m v : n <= m -> to_bits n (v mod 2 ^ N.of_nat m) = to_bits n v.
Proof.
  induction n as [|n IH]; intros H; [reflexivity|]. cbn [to_bits]. rewrite IH by lia. f_equal.
  rewrite <- !Ndigits.Ntestbit_Nbit. apply N.mod_pow2_bits_low. lia.
Qed.
Lemma to_from_bits b : to_bits (length b) (from_bits 0 b) = b.
Proof.
  induction b as [|x b IH]; [reflexivity|]. cbn [length to_bits from_bits]. rewrite from_bits_acc.
  pose proof (from_bits_bound b) as Hb. f_equal.
  - rewrite <- Ndigits.Ntestbit_Nbit. rewrite N.testbit_eqb. 
    rewrite N.div_add_l by (apply N.pow_nonzero; discriminate). rewrite N.div_small by exact Hb. destruct x; reflexivity.
  - rewrite <- (to_bits_mod (length b) (length b)) by lia.
    rewrite N.add_comm, N.mod_add by (apply N.pow_nonzero; discriminate). rewrite N.mod_small by exact Hb. exact IH.
Qed.
Lemma octets_bits_cons o l : octets_bits (o :: l) = to_bits 8 o ++ octets_bits l.
Proof. reflexivity. Qed.
Lemma octets_bits_len l : length (octets_bits l) = 8 * length l.
Proof. induction l as [|o l IH]; [reflexivity|]. rewrite octets_bits_cons, app_length, to_bits_len, IH. cbn [length]. lia. Qed.
Lemma bits_octets_f_ok : forall fuel b, length b <= fuel ->
  octets_bits (bits_octets_f fuel b) = b ++ pad (length b) /\ bytes_ok (bits_octets_f fuel b) = true.
Proof.
  induction fuel as [|f IH]; intros b Hb.
  - destruct b; [split; reflexivity|cbn in Hb; lia].
  - destruct b as [|x b0]; [split; reflexivity|]. set (b := x :: b0) in *.
    assert (Hl : 1 <= length b) by (cbn; lia).
    change (bits_octets_f (S f) b) with (from_bits 0 (firstn 8 (b ++ repeat false 7)) :: bits_octets_f f (skipn 8 b)).
    assert (H8 : length (firstn 8 (b ++ repeat false 7)) = 8).
    { rewrite firstn_length, app_length, repeat_length. lia. }
    pose proof (skipn_length 8 b) as Hsk. destruct (IH (skipn 8 b)) as [I1 I2]; [lia|].
    split.
    + rewrite octets_bits_cons, I1. rewrite <- H8 at 1. rewrite to_from_bits.
      destruct (Nat.le_gt_cases 8 (length b)) as [Hge|Hlt].
      * rewrite firstn_app. replace (8 - length b) with 0 by lia. rewrite firstn_O, app_nil_r, app_assoc, firstn_skipn.
        f_equal. unfold pad, pad_len. f_equal. lia.
      * rewrite firstn_app, (firstn_all2 b) by lia. rewrite (skipn_all2 b) by lia.
        cbn [length List.app]. change (pad 0) with (@nil bool). rewrite app_nil_r. f_equal.
        unfold pad, pad_len. rewrite (Nat.mod_small (length b)) by lia. rewrite Nat.mod_small by lia.
        destruct (length b) as [|[|[|[|[|[|[|[|]]]]]]]]; try lia; reflexivity.
    + cbn [bytes_ok forallb]. fold (bytes_ok (bits_octets_f f (skipn 8 b))). rewrite I2, andb_true_r.
      pose proof (from_bits_bound (firstn 8 (b ++ repeat false 7))) as Hbd. rewrite H8 in Hbd.
      unfold is_byte. change (2 ^ N.of_nat 8)%N with 256%N in Hbd. lia.
Qed.
Lemma octets_bits_octets b : octets_bits (bits_octets b) = b ++ pad (length b).
Proof. apply bits_octets_f_ok. reflexivity. Qed.
Lemma bits_octets_bytes b : bytes_ok (bits_octets b) = true.
Proof. apply bits_octets_f_ok. reflexivity. Qed.
Lemma pad_mult n : pad (8 * n) = [].
Proof. unfold pad, pad_len. replace ((8 - (8 * n) mod 8) mod 8) with 0 by lia. reflexivity. Qed.

(* ---------------- small numbers, integers ---------------- *)
Lemma reads_small v p b : put_small v p = Some b -> reads get_small p b v.
Proof.
  unfold put_small, get_small. destruct (v <? 64)%N eqn:Hv; intros H.
  - apply some_inv in H; subst b. change (false :: to_bits 6 v) with ([false] ++ to_bits 6 v).
    eapply reads_bind; [apply reads_bit|]. apply reads_bits. change (2 ^ N.of_nat 6)%N with 64%N. lia.
  - apply after_inv in H as (b'&H&->). eapply reads_bind; [apply reads_bit|].
    eapply reads_bind0; [eapply reads_list; [|exact H]; intros; apply octet_ok|]. intros q.
    unfold unsigned_octets. rewrite octets_bits_octets, to_bits_len, pad_mult, app_nil_r.
    rewrite from_to_small by apply octets_of_bound. apply reads_ret.
Qed.
Lemma signed_len_bound z : (1 <= signed_len z)%nat /\
  (- 2 ^ (8 * Z.of_nat (signed_len z) - 1) <= z < 2 ^ (8 * Z.of_nat (signed_len z) - 1))%Z.
Proof.
  unfold signed_len. set (m := if (0 <=? z)%Z then _ else _). cbv zeta.
  set (n := N.to_nat ((N.size m + 8) / 8)). assert (Hn : 1 <= n) by lia. split; [exact Hn|].
  assert (Hm : (Z.of_N m < 2 ^ (8 * Z.of_nat n - 1))%Z).
  { pose proof (size_pow m) as Hp. assert (Hp' : (Z.of_N m < 2 ^ Z.of_N (N.size m))%Z).
    { change 2%Z with (Z.of_N 2). rewrite <- N2Z.inj_pow. lia. }
    eapply Z.lt_le_trans; [exact Hp'|]. apply Z.pow_le_mono_r; lia. }
  subst m. destruct (0 <=? z)%Z eqn:Hz; lia.
Qed.
Lemma signed_of_ok z : let n := signed_len z in
  signed_of (bits_octets (to_bits (8 * n) (Z.to_N (z mod 2 ^ Z.of_nat (8 * n))))) = z /\
  bits_octets (to_bits (8 * n) (Z.to_N (z mod 2 ^ Z.of_nat (8 * n)))) <> [].
Proof.
  intros n. destruct (signed_len_bound z) as [Hn Hz]. fold n in Hn, Hz.
  set (v := Z.to_N (z mod 2 ^ Z.of_nat (8 * n))).
  assert (Hob : octets_bits (bits_octets (to_bits (8 * n) v)) = to_bits (8 * n) v).
  { rewrite octets_bits_octets, to_bits_len, pad_mult, app_nil_r. reflexivity. }
  split.
  2:{ intros He. rewrite He in Hob. apply (f_equal (@length bool)) in Hob. rewrite to_bits_len in Hob. cbn in Hob. lia. }
  unfold signed_of. rewrite Hob. cbv zeta. rewrite to_bits_len.
  assert (Hp : (2 ^ Z.of_nat (8 * n) = 2 * 2 ^ (8 * Z.of_nat n - 1))%Z).
  { rewrite <- Z.pow_succ_r by lia. f_equal. lia. }
  set (h := (2 ^ (8 * Z.of_nat n - 1))%Z) in *.
  assert (Hh : (0 < h)%Z) by (apply Z.pow_pos_nonneg; lia).
  assert (Hv : Z.of_N v = (z mod (2 * h))%Z).
  { unfold v. rewrite Hp. rewrite Z2N.id; [reflexivity|]. apply Z.mod_pos_bound. lia. }
  assert (Hfb : from_bits 0 (to_bits (8 * n) v) = v).
  { apply from_to_small. apply N2Z.inj_lt. rewrite N2Z.inj_pow. change (Z.of_N 2) with 2%Z.
    replace (Z.of_N (N.of_nat (8 * n))) with (Z.of_nat (8 * n)) by lia. rewrite Hp, Hv. apply Z.mod_pos_bound. lia. }
  rewrite Hfb.
  assert (Hhd : exists m r, 8 * n = S m /\ to_bits (8 * n) v = N.testbit v (N.of_nat m) :: r /\ Z.of_nat m = (8 * Z.of_nat n - 1)%Z).
  { exists (8 * n - 1), (to_bits (8 * n - 1) v). split; [lia|]. split; [|lia].
    replace (8 * n) with (S (8 * n - 1)) at 1 by lia. cbn [to_bits]. rewrite <- Ndigits.Ntestbit_Nbit. reflexivity. }
  destruct Hhd as (m&r&Hm&Hb&Hmz). rewrite Hb.
  assert (Ht : N.testbit v (N.of_nat m) = (h <=? Z.of_N v)%Z).
  { rewrite N.testbit_eqb.
    assert (Hd : (Z.of_N (v / 2 ^ N.of_nat m) = Z.of_N v / h)%Z).
    { rewrite N2Z.inj_div, N2Z.inj_pow. change (Z.of_N 2) with 2%Z. unfold h. do 2 f_equal. lia. }
    assert (Hub : (0 <= Z.of_N v < 2 * h)%Z) by (rewrite Hv; apply Z.mod_pos_bound; lia).
    destruct (h <=? Z.of_N v)%Z eqn:Hc.
    - assert (Hq : (Z.of_N v / h = 1)%Z) by (symmetry; apply (Z.div_unique_pos _ _ 1 (Z.of_N v - h)); lia).
      rewrite Hq in Hd. assert (v / 2 ^ N.of_nat m = 1)%N as -> by lia. reflexivity.
    - assert (Hq : (Z.of_N v / h = 0)%Z) by (apply Z.div_small; lia).
      rewrite Hq in Hd. assert (v / 2 ^ N.of_nat m = 0)%N as -> by lia. reflexivity. }
  rewrite Ht, Hv, Hp.
  destruct (Z.le_gt_cases 0 z) as [Hpos|Hneg].
  - rewrite (Z.mod_small z) by lia. replace (h <=? z)%Z with false by lia. reflexivity.
  - assert (Hmod : (z mod (2 * h) = z + 2 * h)%Z) by (symmetry; apply (Z.mod_unique_pos z (2 * h) (-1)); lia).
    rewrite Hmod. replace (h <=? z + 2 * h)%Z with true by lia. lia.
Qed.
Lemma reads_signed z p b : put_signed z p = Some b -> reads get_signed p b z.
Proof.
  unfold put_signed, get_signed. cbv zeta. intros H. destruct (signed_of_ok z) as [H1 H2]. cbv zeta in H1, H2.
  eapply reads_bind0; [eapply reads_list; [|exact H]; intros; apply octet_ok|]. intros q.
  destruct (bits_octets _) as [|o l]; [congruence|]. rewrite H1. apply reads_ret.
Qed.
Lemma reads_con c z p b : put_con c z p = Some b -> reads (get_con c) p b z.
Proof.
  unfold put_con, get_con, in_con. destruct (_ && _) eqn:Hc; [|discriminate]. intros H.
  eapply reads_bind0; [apply reads_whole; exact H|]. intros q. replace (Z.of_N (Z.to_N (z - c_lb c)) + c_lb c)%Z with z by lia.
  apply reads_ret.
Qed.
Lemma reads_int c z p b : put_int c z p = Some b -> reads (get_int c) p b z.
Proof.
  destruct c as [c|]; cbn [put_int get_int]; [|apply reads_signed].
  destruct (c_ext c); [|apply reads_con]. destruct (in_con c z); intros H; apply after_inv in H as (b'&H&->);
    (eapply reads_bind; [apply reads_bit|]); [apply reads_con|apply reads_signed]; exact H.
Qed.
Lemma index_of_nth z : forall l i, index_of z l = Some i -> nth_error l i = Some z.
Proof.
  induction l as [|x l IH]; intros i H; cbn [index_of] in H; [discriminate|].
  destruct (x =? z)%Z eqn:Hx.
  - apply some_inv in H; subst i. cbn. f_equal. lia.
  - destruct (index_of z l) as [j|]; [|discriminate]. apply some_inv in H; subst i. apply IH. reflexivity.
Qed.
Lemma reads_ext (e x : bool) p : (x = true -> e = true) -> reads (get_ext e) p (if e then [x] else []) x.
Proof. intros H. destruct e; cbn [get_ext]; [apply reads_bit|]. destruct x; [discriminate H; reflexivity|apply reads_ret]. Qed.
Lemma reads_enum e r m z p b : put_enum e r m z p = Some b -> reads (get_enum e r m) p b z.
Proof.
  unfold put_enum, get_enum. destruct (index_of z r) as [i|] eqn:Hi.
  - cbv zeta. intros H. apply after_inv in H as (b'&H&->). 
    eapply reads_bind; [apply (reads_ext e false); discriminate|]. cbv iota.
    eapply reads_bind0; [apply reads_whole; exact H|]. intros q. rewrite Nat2N.id, (index_of_nth _ _ _ Hi). apply reads_ret.
  - destruct e; [|discriminate]. intros H. apply opt_inv in H as (i&Hm&H). apply after_inv in H as (b'&H&->).
    eapply reads_bind; [apply reads_bit|]. cbv iota.
    eapply reads_bind0; [apply reads_small; exact H|]. intros q. rewrite Nat2N.id, (index_of_nth _ _ _ Hm). apply reads_ret.
Qed.

(* ---------------- sized ---------------- *)
Section Sized.
Context {A : Type} (put : A -> nat -> option bits) (getf : D A) (small : option N).
Lemma reads_root c l : (forall a, In a l -> item_ok put getf a) -> forall p b,
  put_root put small c l p = Some b -> reads (get_root getf small c) p b l.
Proof.
  intros Hok p b H. unfold put_root in H. unfold get_root. destruct (in_con c (Z.of_nat (length l))) eqn:Hc; [|discriminate].
  destruct (c_ub c <? 65536)%Z.
  - apply opt_inv in H as (b1&H1&H). cbv zeta in H. apply after_inv in H as (b2&H2&->).
    assert (Hn : Z.to_N (Z.of_N (Z.to_N (Z.of_nat (length l) - c_lb c)) + c_lb c) = N.of_nat (length l)) by (unfold in_con in Hc; lia).
    destruct (aligns small c (N.of_nat (length l))) eqn:Ha.
    + rewrite <- app_assoc. eapply reads_bind; [apply reads_whole; exact H1|]. cbv zeta. rewrite Hn, Ha.
      eapply reads_bind; [apply reads_align|]. rewrite Nat2N.id. rewrite app_length, Nat.add_assoc in H2.
      apply reads_items with (put := put); assumption.
    + eapply reads_bind; [apply reads_whole; exact H1|]. cbv zeta. rewrite Hn, Ha. 
      change b2 with ([] ++ b2). eapply reads_bind; [apply reads_ret|]. cbn [length]. rewrite Nat.add_0_r, Nat2N.id.
      apply reads_items with (put := put); assumption.
  - eapply reads_bind0; [eapply reads_list; eassumption|]. intros q. rewrite Hc. apply reads_ret.
Qed.
Lemma reads_sized c l : (forall a, In a l -> item_ok put getf a) -> forall p b,
  put_sized put small c l p = Some b -> reads (get_sized getf small c) p b l.
Proof.
  intros Hok p b. destruct c as [c|]; cbn [put_sized get_sized]; [|apply reads_list; exact Hok].
  destruct (c_ext c); [|apply reads_root; exact Hok]. destruct (in_con c _); intros H; apply after_inv in H as (b'&H&->);
    (eapply reads_bind; [apply reads_bit|]); [apply reads_root|eapply reads_list]; eassumption.
Qed.
End Sized.

(* ---------------- types ---------------- *)
Section TyInd.
Variable P : ty -> Prop.
Hypothesis HNull : P TNull.
Hypothesis HBool : P TBool.
Hypothesis HInt : forall c, P (TInt c).
Hypothesis HEnum : forall e r m, P (TEnum e r m).
Hypothesis HBits : forall c, P (TBits c).
Hypothesis HOcts : forall c, P (TOcts c).
Hypothesis HSeq : forall e root adds, Forall (fun m => P (snd m)) root -> Forall (fun m => P (snd m)) adds -> P (TSeq e root adds).
Hypothesis HSeqOf : forall c t, P t -> P (TSeqOf c t).
Hypothesis HChoice : forall e root more, Forall P root -> Forall P more -> P (TChoice e root more).
Fixpoint ty_ind2 (t : ty) : P t :=
  let members := fix members (l : list (bool * ty)) : Forall (fun m => P (snd m)) l :=
    match l with [] => Forall_nil _ | m :: r => Forall_cons m (match m as m0 return P (snd m0) with (_, t) => ty_ind2 t end) (members r) end in
  let alts := fix alts (l : list ty) : Forall P l :=
    match l with [] => Forall_nil _ | t :: r => Forall_cons _ (ty_ind2 t) (alts r) end in
  match t with
  | TNull => HNull | TBool => HBool | TInt c => HInt c | TEnum e r m => HEnum e r m
  | TBits c => HBits c | TOcts c => HOcts c
  | TSeq e root adds => HSeq e root adds (members root) (members adds)
  | TSeqOf c t => HSeqOf c t (ty_ind2 t)
  | TChoice e root more => HChoice e root more (alts root) (alts more)
  end.
End TyInd.

Definition rt (t : ty) : Prop := forall v p b, enc t v p = Some b -> reads (dec t) p b v.

Lemma of_octets_to t v b : rt t -> enc t v 0 = Some b -> of_octets (dec t) (to_octets b) = Some v.
Proof.
  intros Hrt H. unfold of_octets, to_octets. destruct b as [|x b0].
  - pose proof (Hrt _ _ _ H (octets_bits [0%N])) as Hr. cbn [List.app] in Hr. rewrite Hr. reflexivity.
  - rewrite octets_bits_octets. rewrite (Hrt _ _ _ H). reflexivity.
Qed.
Lemma complete_rt t v o : rt t -> complete (enc t v) = Some o -> of_octets (dec t) o = Some v.
Proof.
  intros Hrt H. apply opt_inv in H as (b&Hb&H). apply some_inv in H; subst o. apply of_octets_to; assumption.
Qed.
Lemma reads_bitmap : forall ms vs p, length ms = length vs -> (forall i t, nth_error ms i = Some (false, t) -> nth_error vs i <> Some None) ->
  reads (get_bitmap ms) p (put_bitmap ms vs) (present vs).
Proof.
  induction ms as [|[o t] ms IH]; intros [|v vs] p Hl Hm; try discriminate.
  - apply reads_ret.
  - assert (Hm' : forall i t, nth_error ms i = Some (false, t) -> nth_error vs i <> Some None) by (intros i; apply (Hm (S i))).
    injection Hl as Hl. destruct o; cbn [get_bitmap put_bitmap].
    + match goal with |- reads _ _ (?x :: ?r) _ => change (x :: r) with ([x] ++ r) end.
      eapply reads_bind; [apply reads_bit|]. eapply reads_bind0; [apply (IH vs _ Hl Hm')|]. intros q. apply reads_ret.
    + eapply reads_bind0; [apply (IH vs _ Hl Hm')|]. intros q. destruct v as [v|]; [apply reads_ret|].
      destruct (Hm 0 t eq_refl). reflexivity.
Qed.
Lemma members_shape : forall ms vs p b, put_members enc ms vs p = Some b ->
  length ms = length vs /\ (forall i t, nth_error ms i = Some (false, t) -> nth_error vs i <> Some None).
Proof.
  induction ms as [|[o t] ms IH]; intros [|v vs] p b H; cbn [put_members] in H; try discriminate.
  - split; [reflexivity|]. intros [|i] t; discriminate.
  - destruct o; discriminate.
  - destruct v as [v|].
    + assert (He : exists b1 b2, enc t v p = Some b1 /\ put_members enc ms vs (p + length b1) = Some b2).
      { destruct o; apply opt_inv in H as (b1&H1&H); apply after_inv in H as (b2&H2&_); eauto. }
      destruct He as (b1&b2&_&H2). destruct (IH _ _ _ H2) as [I1 I2]. split; [cbn [length]; congruence|].
      intros [|i] t' Hn; [discriminate|]. apply (I2 i t' Hn).
    + destruct o; [|discriminate]. destruct (IH _ _ _ H) as [I1 I2]. split; [cbn [length]; congruence|].
      intros [|i] t' Hn; [discriminate|]. apply (I2 i t' Hn).
Qed.
Lemma reads_members : forall ms, Forall (fun m => rt (snd m)) ms -> forall vs p b, put_members enc ms vs p = Some b ->
  reads (get_members dec ms (present vs)) p b vs.
Proof.
  induction ms as [|[o t] ms IH]; intros HF [|v vs] p b H; cbn [put_members] in H; try discriminate.
  - apply some_inv in H; subst b. apply reads_ret.
  - destruct o; discriminate.
  - inversion HF as [|m l Ht HF']; subst. cbn [snd] in Ht. destruct v as [v|].
    + assert (He : exists b1 b2, enc t v p = Some b1 /\ put_members enc ms vs (p + length b1) = Some b2 /\ b = b1 ++ b2).
      { destruct o; apply opt_inv in H as (b1&H1&H); apply after_inv in H as (b2&H2&->); eauto. }
      destruct He as (b1&b2&H1&H2&->). cbn [present map get_members]. fold (present vs).
      eapply reads_bind; [apply Ht; exact H1|]. eapply reads_bind0; [apply (IH HF' _ _ _ H2)|]. intros q. apply reads_ret.
    + destruct o; [|discriminate]. cbn [present map get_members]. fold (present vs).
      eapply reads_bind0; [apply (IH HF' _ _ _ H)|]. intros q. apply reads_ret.
Qed.
Lemma reads_adds : forall ms, Forall (fun m => rt (snd m)) ms -> forall vs p b, put_adds enc ms vs p = Some b ->
  reads (get_adds dec ms (present vs)) p b vs.
Proof.
  induction ms as [|[o t] ms IH]; intros HF [|v vs] p b H; cbn [put_adds] in H; try discriminate.
  - apply some_inv in H; subst b. apply (reads_bind0 _ _ _ _ _ _ tt); [apply reads_ret|]. intros q. apply reads_ret.
  - inversion HF as [|m l Ht HF']; subst. cbn [snd] in Ht. destruct v as [v|].
    + apply opt_inv in H as (oc&Hoc&H). apply opt_inv in H as (b1&H1&H). apply after_inv in H as (b2&H2&->).
      cbn [present map get_adds]. fold (present vs).
      eapply reads_bind; [apply reads_open; exact H1|]. rewrite (complete_rt _ _ _ Ht Hoc). cbn [dopt].
      change b2 with ([] ++ b2). eapply reads_bind; [apply reads_ret|]. cbn [length]. rewrite Nat.add_0_r.
      eapply reads_bind0; [apply (IH HF' _ _ _ H2)|]. intros q. apply reads_ret.
    + cbn [present map get_adds]. fold (present vs).
      eapply reads_bind0; [apply (IH HF' _ _ _ H)|]. intros q. apply reads_ret.
Qed.
Lemma reads_nth : forall ts, Forall rt ts -> forall i v p b, nth_put enc ts i v p = Some b -> reads (nth_get dec ts i) p b v.
Proof.
  induction ts as [|t ts IH]; intros HF [|i] v p b H; cbn [nth_put] in H; try discriminate;
    inversion HF as [|m l Ht HF']; subst; cbn [nth_get]; [apply Ht; exact H|apply IH; assumption].
Qed.
Lemma nth_open_rt : forall ts, Forall rt ts -> forall i v o, complete (nth_put enc ts i v) = Some o -> nth_get_open dec ts i o = Some v.
Proof.
  induction ts as [|t ts IH]; intros HF [|i] v o H; cbn [nth_put] in H; try discriminate;
    inversion HF as [|m l Ht HF']; subst; cbn [nth_get_open]; [apply complete_rt; assumption|apply IH; assumption].
Qed.
Lemma no_adds va : existsb (fun b => b) (present va) = false -> forall A (l : list A), length va = length l -> va = map (fun _ => None) l.
Proof.
  induction va as [|v va IH]; intros H A [|a l] Hl; try discriminate; [reflexivity|].
  cbn [present map existsb] in H. destruct v; [discriminate|]. cbn [map]. f_equal. apply IH; [exact H|]. injection Hl; auto.
Qed.

Lemma round_trip : forall t, rt t.
Proof.
  apply ty_ind2.
  - intros v p bb H; destruct v; try discriminate. apply some_inv in H; subst bb. apply reads_ret.
  - intros v p b' H; destruct v; try discriminate. apply some_inv in H; subst b'. eapply reads_bind0; [apply reads_bit|]. intros; apply reads_ret.
  - intros c v p bb H; destruct v; try discriminate. eapply reads_bind0; [apply reads_int; exact H|]. intros; apply reads_ret.
  - intros e r m v p bb H; destruct v; try discriminate. eapply reads_bind0; [apply reads_enum; exact H|]. intros; apply reads_ret.
  - intros c v p bb H; destruct v; try discriminate. eapply reads_bind0; [eapply reads_sized; [|exact H]; intros; apply bit_ok|]. intros; apply reads_ret.
  - intros c v p bb H; destruct v; try discriminate. eapply reads_bind0; [eapply reads_sized; [|exact H]; intros; apply octet_ok|]. intros; apply reads_ret.
  - intros e root adds HR HA v p bb H; destruct v; try discriminate. rename root0 into vr, adds0 into va. cbn [enc] in H. cbv zeta in H.
    set (x := existsb (fun b => b) (present va)) in *.
    destruct (x && negb e) eqn:Hxe; [discriminate|].
    destruct (negb (length va =? length adds)) eqn:Hla; [discriminate|].
    apply after_inv in H as (b1&H&->). apply opt_inv in H as (b2&H2&H). apply after_inv in H as (b3&H3&->).
    destruct (members_shape _ _ _ _ H2) as [Hs1 Hs2].
    cbn [dec]. rewrite <- !app_assoc.
    eapply reads_bind; [apply (reads_ext e x); intros Hx; rewrite Hx in Hxe; destruct e; [reflexivity|discriminate]|].
    eapply reads_bind; [apply (reads_bitmap _ _ _ Hs1 Hs2)|].
    rewrite app_length, Nat.add_assoc in H2.
    eapply reads_bind; [apply (reads_members _ HR _ _ _ H2)|].
    destruct x eqn:Hx.
    + destruct (N.of_nat (length adds) <=? 64)%N eqn:H64; [|discriminate].
      apply after_inv in H3 as (b4&H4&->).
      assert (Hpos : (1 <= N.of_nat (length adds))%N).
      { destruct adds; [|cbn [length]; lia]. destruct va; [discriminate|]. cbn in Hla. discriminate. }
      rewrite <- app_comm_cons, <- app_assoc.
      match goal with |- reads _ _ (?x :: ?r) _ => change (x :: r) with ([x] ++ r) end.
      eapply reads_bind; [apply reads_bit|]. cbv iota.
      eapply reads_bind; [apply reads_bits; change (2 ^ N.of_nat 6)%N with 64%N; lia|].
      eapply reads_bind.
      { apply reads_raw'. unfold present. rewrite map_length. lia. }
      eapply reads_bind0.
      { apply (reads_adds _ HA). 
        match goal with H : put_adds _ _ _ ?q = _ |- put_adds _ _ _ ?q' = _ => replace q' with q; [exact H|] end.
        rewrite !app_length. cbn [length]. rewrite !app_length. lia. }
      intros q. apply reads_ret.
    + apply some_inv in H3; subst b3.
      rewrite <- (no_adds va Hx _ adds) by lia. apply reads_ret.
  - intros c t Ht v p bb H; destruct v; try discriminate. eapply reads_bind0.
    + eapply reads_sized; [|exact H]. intros a _ q b' Hb. apply Ht. exact Hb.
    + intros; apply reads_ret.
  - intros e root more HR HM v p bb H; destruct v; try discriminate. cbn [enc] in H. cbn [dec].
    destruct (i <? length root) eqn:Hi.
    + apply opt_inv in H as (b1&H1&H). apply after_inv in H1 as (b2&H2&->). apply after_inv in H as (b3&H3&->).
      rewrite <- app_assoc. eapply reads_bind; [apply (reads_ext e false); discriminate|]. cbv iota.
      eapply reads_bind; [apply reads_whole; exact H2|]. rewrite Nat2N.id.
      eapply reads_bind0; [apply (reads_nth _ HR)|intros q; apply reads_ret].
      rewrite app_length, Nat.add_assoc in H3. exact H3.
    + destruct e; [|discriminate]. apply opt_inv in H as (b1&H1&H). apply opt_inv in H as (o&Ho&H).
      apply after_inv in H1 as (b2&H2&->). apply after_inv in H as (b3&H3&->).
      rewrite <- app_assoc. eapply reads_bind; [apply reads_bit|]. cbv iota.
      eapply reads_bind; [apply reads_small; exact H2|]. 
      eapply reads_bind0; [apply reads_open; rewrite app_length, Nat.add_assoc in H3; exact H3|].
      intros q. rewrite Nat2N.id, (nth_open_rt _ HM _ _ _ Ho). cbn [dopt].
      eapply reads_bind0; [apply reads_ret|]. intros q'. replace (length root + (i - length root)) with i by lia. apply reads_ret.
Qed.
Lemma decode_encode t v o : encode t v = Some o -> decode t o = Some v.
Proof. apply complete_rt, round_trip. Qed.
