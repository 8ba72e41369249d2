(* The encoder of Aper.v produces exactly the bits X691.v describes. *)
From Coq Require Import ZifyBool ZifyNat ZifyN.
From Verif Require Import Base Aper Aper_spec Aper_proofs Aper_valid X691 AllTypes.
Ltac Zify.zify_post_hook ::= Z.div_mod_to_equations.

(* the encoder [f] and the encoding [E] agree *)
Definition agree (E : encoding) (f : nat -> option bits) : Prop := forall p b, E p b <-> f p = Some b.
Infix "===" := agree (at level 70).
Lemma agree_seq E F f g : E === f -> F === g -> (E +++ F) === (fun p => opt b <- f p ;; after p b g).
Proof.
  intros HE HF p b. unfold seq. split.
  - intros (b1&b2&->&H1&H2). apply HE in H1. apply HF in H2. rewrite H1. cbn [obind2]. unfold after. rewrite H2. reflexivity.
  - intros H. apply opt_inv in H as (b1&H1&H). apply after_inv in H as (b2&H2&->). exists b1, b2.
    split; [reflexivity|]. split; [apply HE, H1|apply HF, H2].
Qed.
Lemma agree_ext E f g : E === f -> (forall p, f p = g p) -> E === g.
Proof. intros H He p b. rewrite <- He. apply H. Qed.
Lemma agree_some E b0 : (forall p b, E p b <-> b = b0 p) -> E === (fun p => Some (b0 p)).
Proof. intros H p b. rewrite H. split; [intros ->; reflexivity|]. intros Hb. apply some_inv in Hb. congruence. Qed.
(* a fixed prefix *)
Lemma agree_after E F b0 f : (forall p b, E p b <-> b = b0 p) -> F === f -> (E +++ F) === (fun p => after p (b0 p) f).
Proof. intros H HF. eapply agree_ext; [apply agree_seq; [apply agree_some, H|exact HF]|]. intros p. reflexivity. Qed.
Lemma seq_assoc E F G p b : ((E +++ F) +++ G) p b <-> (E +++ F +++ G) p b.
Proof.
  unfold seq. split.
  - intros (b1&b2&->&(b3&b4&->&H3&H4)&H2). exists b3, (b4 ++ b2). split; [apply eq_sym, app_assoc|]. split; [exact H3|].
    exists b4, b2. split; [reflexivity|]. split; [exact H4|]. rewrite app_length, Nat.add_assoc in H2. exact H2.
  - intros (b1&b2&->&H1&(b3&b4&->&H3&H4)). exists (b1 ++ b3), b4. split; [apply app_assoc|]. split.
    + exists b1, b3. auto.
    + rewrite app_length, Nat.add_assoc. exact H4.
Qed.
Lemma seq_ext (E F F' : encoding) p b : (forall q c, F q c <-> F' q c) -> (E +++ F) p b <-> (E +++ F') p b.
Proof. intros H. unfold seq. split; intros (b1&b2&->&H1&H2); exists b1, b2; rewrite H in *; auto. Qed.
Lemma head3 E F G H p b : (E +++ F +++ G +++ H) p b <-> ((E +++ F +++ G) +++ H) p b.
Proof. rewrite seq_assoc. apply seq_ext. intros q c. rewrite seq_assoc. reflexivity. Qed.
Lemma head4 E F G H I p b : (E +++ F +++ G +++ H +++ I) p b <-> ((E +++ F +++ G +++ H) +++ I) p b.
Proof. rewrite seq_assoc. apply seq_ext. intros q c. rewrite head3. reflexivity. Qed.
(* [E] is the one bit string [b0] *)
Definition is1 (E : encoding) (b0 : nat -> bits) : Prop := forall p b, E p b <-> b = b0 p.
Lemma is1_seq E F b0 b1 : is1 E b0 -> is1 F b1 -> is1 (E +++ F) (fun p => b0 p ++ b1 (p + length (b0 p))).
Proof.
  intros HE HF p b. unfold seq. split.
  - intros (x&y&->&Hx&Hy). apply HE in Hx. apply HF in Hy. subst. reflexivity.
  - intros ->. exists (b0 p), (b1 (p + length (b0 p))). split; [reflexivity|]. split; [apply HE|apply HF]; reflexivity.
Qed.
Lemma is1_bit x : is1 (bit x) (fun _ => [x]).
Proof. intros p b. reflexivity. Qed.
Lemma is1_nothing : is1 nothing (fun _ => []).
Proof. intros p b. reflexivity. Qed.
Lemma is1_agree E b0 : is1 E b0 -> E === (fun p => Some (b0 p)).
Proof. apply agree_some. Qed.

(* ---------------- numbers ---------------- *)
Lemma number_from b : number b = from_bits 0 b.
Proof.
  induction b as [|x b IH]; [reflexivity|]. cbn [number from_bits]. rewrite IH, (from_bits_acc b (2 * 0 + N.b2n x)). destruct x; cbn [N.b2n]; lia.
Qed.
Lemma field_is n v : (v < 2 ^ N.of_nat n)%N -> is1 (field n v) (fun _ => to_bits n v).
Proof.
  intros Hv p b. unfold field. split.
  - intros [<- <-]. rewrite number_from, to_from_bits. reflexivity.
  - intros ->. rewrite to_bits_len, number_from, from_to_small by exact Hv. split; reflexivity.
Qed.
Lemma field_bound n v p b : field n v p b -> (v < 2 ^ N.of_nat n)%N.
Proof. intros [<- <-]. rewrite number_from. apply from_bits_bound. Qed.
Lemma filler_is : is1 filler pad.
Proof.
  intros p b. unfold filler, pad. split.
  - intros (H1&H2&H3). replace (pad_len p) with (length b) by (unfold pad_len; lia).
    clear H1 H2. induction b as [|x b IH]; [reflexivity|]. cbn [length repeat]. rewrite (H3 x (or_introl eq_refl)), <- IH; [reflexivity|].
    intros y Hy. apply H3. right. exact Hy.
  - intros ->. rewrite repeat_length. unfold pad_len. split; [lia|]. split; [lia|]. intros x Hx. eapply repeat_spec, Hx.
Qed.
Lemma least_unique P n m : least P n -> least P m -> n = m.
Proof. intros [H1 H2] [H3 H4]. apply H2 in H3. apply H4 in H1. lia. Qed.
Lemma size_least v n : (v < 2 ^ n)%N -> (N.size v <= n)%N.
Proof.
  intros H. destruct (N.eq_dec v 0) as [->|Hv]; [cbn; lia|]. rewrite N.size_log2 by exact Hv.
  apply N.le_succ_l. apply N.log2_lt_pow2; lia.
Qed.
Lemma bits_for_is range : (0 < range)%N -> bits_for range (N.size_nat (range - 1)).
Proof.
  intros Hr. split.
  - rewrite size_nat_size. pose proof (size_pow (range - 1)). lia.
  - intros m Hm. assert (Hs : (N.size (range - 1) <= N.of_nat m)%N) by (apply size_least; lia).
    rewrite <- size_nat_size in Hs. lia.
Qed.
Lemma pow256 n : (256 ^ N.of_nat n = 2 ^ N.of_nat (8 * n))%N.
Proof. change 256%N with (2 ^ 8)%N. rewrite <- N.pow_mul_r. f_equal. lia. Qed.
Lemma octets_for_is v : octets_for v (octets_of v).
Proof.
  split; [split; [apply octets_of_pos|rewrite pow256; apply octets_of_bound]|].
  intros m [H1 H2]. rewrite pow256 in H2. apply size_least in H2. unfold octets_of. lia.
Qed.
Lemma whole_agree range v : whole range v === put_whole range v.
Proof.
  intros p b. unfold whole, put_whole. destruct (v <? range)%N eqn:Hv.
  2: { split; [intros [H _]; lia|discriminate]. }
  assert (Hv' : (v < range)%N) by lia. clear Hv.
  assert (Hbits : (v < 2 ^ N.of_nat (N.size_nat (range - 1)))%N).
  { rewrite size_nat_size. pose proof (size_pow (range - 1)). lia. }
  destruct (range <=? 255)%N eqn:H255.
  { split.
    - intros (_&[(_&n&Hn&Hf)|[(H&_)|[(H&_)|(H&_)]]]); try lia.
      rewrite (least_unique _ _ _ Hn (bits_for_is range ltac:(lia))) in Hf. apply field_is in Hf; [subst; reflexivity|exact Hbits].
    - intros H. sinj H. split; [exact Hv'|]. left. split; [lia|]. exists (N.size_nat (range - 1)).
      split; [apply bits_for_is; lia|]. apply field_is; [exact Hbits|reflexivity]. }
  destruct (range =? 256)%N eqn:H256.
  { assert (H8 : is1 (filler +++ field 8 v) (fun p => pad p ++ to_bits 8 v)).
    { apply (is1_seq _ _ _ _ filler_is (field_is 8 v ltac:(change (2 ^ N.of_nat 8)%N with 256%N; lia))). }
    split.
    - intros (_&[(H&_)|[(_&H)|[(H&_)|(H&_)]]]); try lia. apply H8 in H. subst; reflexivity.
    - intros H. sinj H. split; [exact Hv'|]. right. left. split; [lia|]. apply H8. reflexivity. }
  destruct (range <=? 65536)%N eqn:H64.
  { assert (H16 : is1 (filler +++ field 16 v) (fun p => pad p ++ to_bits 16 v)).
    { apply (is1_seq _ _ _ _ filler_is (field_is 16 v ltac:(change (2 ^ N.of_nat 16)%N with 65536%N; lia))). }
    split.
    - intros (_&[(H&_)|[(H&_)|[(_&H)|(H&_)]]]); try lia. apply H16 in H. subst; reflexivity.
    - intros H. sinj H. split; [exact Hv'|]. right. right. left. split; [lia|]. apply H16. reflexivity. }
  cbv zeta. set (most := octets_of (range - 1)). set (n := N.size_nat (N.of_nat most - 1)). set (k := octets_of v).
  pose proof (octets_of_pos (range - 1)) as Hmost. fold most in Hmost. pose proof (octets_of_pos v) as Hk. fold k in Hk.
  assert (Hkm : k <= most) by (apply octets_of_mono; lia).
  assert (Hm : is1 (field n (N.of_nat k - 1) +++ filler +++ field (8 * k) v)
    (fun p => to_bits n (N.of_nat k - 1) ++ pad (p + length (to_bits n (N.of_nat k - 1))) ++ to_bits (8 * k) v)).
  { apply (is1_seq (field n (N.of_nat k - 1)) (filler +++ field (8 * k) v) (fun _ => to_bits n (N.of_nat k - 1)) (fun q => pad q ++ to_bits (8 * k) v)).
    - apply field_is. unfold n. rewrite size_nat_size. pose proof (size_pow (N.of_nat most - 1)). lia.
    - apply (is1_seq _ _ _ _ filler_is (field_is (8 * k) v (octets_of_bound v))). }
  split.
  - intros (_&[(H&_)|[(H&_)|[(H&_)|(_&most'&n'&k'&H1&H2&H3&H)]]]); try lia.
    rewrite (least_unique _ _ _ H1 (octets_for_is _)) in H2. fold most in H2.
    rewrite (least_unique _ _ _ H2 (bits_for_is (N.of_nat most) ltac:(lia))), (least_unique _ _ _ H3 (octets_for_is v)) in H.
    fold n k in H. apply Hm in H. subst; reflexivity.
  - intros H. sinj H. split; [exact Hv'|]. right. right. right. split; [lia|]. exists most, n, k.
    split; [apply octets_for_is|]. split; [apply bits_for_is; lia|]. split; [apply octets_for_is|]. apply Hm. reflexivity.
Qed.

(* ---------------- lists ---------------- *)
Section Items.
Context {A : Type} (item : A -> encoding) (put : A -> nat -> option bits).
Lemma items_agree l : (forall a, In a l -> item a === put a) -> items item l === put_items put l.
Proof.
  induction l as [|a l IH]; intros H; cbn [items put_items]; [apply is1_agree, is1_nothing|].
  apply agree_seq; [apply H; left; reflexivity|]. apply IH. intros x Hx. apply H. right. exact Hx.
Qed.
Lemma len_short n : (n < 128)%N -> is1 (filler +++ bit false +++ field 7 n) (fun p => pad p ++ len_bits n).
Proof.
  intros Hn. unfold len_bits. replace (n <? 128)%N with true by lia.
  pose proof (is1_seq _ _ _ _ filler_is (is1_seq _ _ _ _ (is1_bit false) (field_is 7 n ltac:(change (2 ^ N.of_nat 7)%N with 128%N; lia)))) as H.
  replace (to_bits 8 n) with ([false] ++ to_bits 7 n); [exact H|].
  cbn [List.app]. change (to_bits 8 n) with (N.testbit_nat n 7 :: to_bits 7 n). f_equal.
  rewrite <- Ndigits.Ntestbit_Nbit. change (N.of_nat 7) with 7%N.
  destruct (N.testbit n 7) eqn:Ht; [|reflexivity]. apply N.testbit_true in Ht. rewrite N.div_small in Ht by (change (2^7)%N with 128%N; lia). discriminate.
Qed.
Lemma len_long n : (128 <= n < 16384)%N -> is1 (filler +++ bit true +++ bit false +++ field 14 n) (fun p => pad p ++ len_bits n).
Proof.
  intros Hn. unfold len_bits. replace (n <? 128)%N with false by lia.
  pose proof (is1_seq _ _ _ _ filler_is (is1_seq _ _ _ _ (is1_bit true) (is1_seq _ _ _ _ (is1_bit false)
    (field_is 14 n ltac:(change (2 ^ N.of_nat 14)%N with 16384%N; lia))))) as H.
  replace (to_bits 16 (32768 + n)) with ([true] ++ [false] ++ to_bits 14 n); [exact H|].

  change (to_bits 16 (32768 + n)) with (N.testbit_nat (32768 + n) 15 :: N.testbit_nat (32768 + n) 14 :: to_bits 14 (32768 + n)).
  cbn [List.app]. f_equal; [|f_equal].
  - rewrite <- Ndigits.Ntestbit_Nbit. change (N.of_nat 15) with 15%N. apply eq_sym, N.testbit_true. change (2^15)%N with 32768%N. lia.
  - rewrite <- Ndigits.Ntestbit_Nbit. change (N.of_nat 14) with 14%N. apply eq_sym, N.testbit_false. change (2^14)%N with 16384%N. lia.
  - rewrite <- (to_bits_mod 14 14 (32768 + n)) by lia. f_equal. change (2 ^ N.of_nat 14)%N with 16384%N. lia.
Qed.
Lemma len_frag m : (1 <= m <= 4)%N -> is1 (filler +++ bit true +++ bit true +++ field 6 m) (fun p => pad p ++ to_bits 8 (192 + m)).
Proof.
  intros Hm.
  pose proof (is1_seq _ _ _ _ filler_is (is1_seq _ _ _ _ (is1_bit true) (is1_seq _ _ _ _ (is1_bit true)
    (field_is 6 m ltac:(change (2 ^ N.of_nat 6)%N with 64%N; lia))))) as H.
  replace (to_bits 8 (192 + m)) with ([true] ++ [true] ++ to_bits 6 m); [exact H|].
  assert (m = 1 \/ m = 2 \/ m = 3 \/ m = 4)%N as [-> | [-> | [-> | ->]]] by lia; reflexivity.
Qed.

Lemma short_agree l : (N.of_nat (length l) < 128)%N -> (forall a, In a l -> item a === put a) ->
  (filler +++ bit false +++ field 7 (N.of_nat (length l)) +++ items item l) ===
  (fun p => after p (pad p ++ len_bits (N.of_nat (length l))) (put_items put l)).
Proof.
  intros Hn Hi p b. rewrite head3. exact (agree_after _ _ _ _ (len_short _ Hn) (items_agree l Hi) p b).
Qed.
Lemma long_agree l : (128 <= N.of_nat (length l) < 16384)%N -> (forall a, In a l -> item a === put a) ->
  (filler +++ bit true +++ bit false +++ field 14 (N.of_nat (length l)) +++ items item l) ===
  (fun p => after p (pad p ++ len_bits (N.of_nat (length l))) (put_items put l)).
Proof.
  intros Hn Hi p b. rewrite head4. exact (agree_after _ _ _ _ (len_long _ Hn) (items_agree l Hi) p b).
Qed.
Lemma frag_agree m l : (1 <= m <= 4)%N -> (forall a, In a l -> item a === put a) ->
  (filler +++ bit true +++ bit true +++ field 6 m +++ items item l) ===
  (fun p => after p (pad p ++ to_bits 8 (192 + m)) (put_items put l)).
Proof.
  intros Hn Hi p b. rewrite head4. exact (agree_after _ _ _ _ (len_frag _ Hn) (items_agree l Hi) p b).
Qed.
Lemma counted_put l p b : counted item l p b -> (forall a, In a l -> item a === put a) ->
  forall fuel, length l <= fuel -> put_frag put fuel l p = Some b.
Proof.
  induction 1 as [l p b Hn H|l p b Hn H|m l1 l2 p b1 b2 Hm Hl1 Hl2 H H2 IH]; intros Hi fuel Hf.
  - apply short_agree in H; [|exact Hn|exact Hi].
    destruct fuel; cbn [put_frag]; cbv zeta; replace (_ <? 16384)%N with true by lia; exact H.
  - apply long_agree in H; [|exact Hn|exact Hi].
    destruct fuel; cbn [put_frag]; cbv zeta; replace (_ <? 16384)%N with true by lia; exact H.
  - apply frag_agree in H; [|exact Hm|intros a Ha; apply Hi, in_or_app; auto].
    rewrite app_length in Hf. destruct fuel as [|f]; [lia|]. cbn [put_frag]. cbv zeta. rewrite app_length.
    replace (N.of_nat (length l1 + length l2) <? 16384)%N with false by lia.
    replace (N.min 4 (N.of_nat (length l1 + length l2) / 16384)) with m by lia.
    replace (N.to_nat (m * 16384)) with (length l1) by lia.
    rewrite firstn_app, Nat.sub_diag, firstn_all, firstn_O, app_nil_r. rewrite H. cbn [obind2].
    rewrite skipn_app, Nat.sub_diag, skipn_all, skipn_O. cbn [List.app]. unfold after.
    rewrite IH; [reflexivity|intros a Ha; apply Hi, in_or_app; auto|lia].
Qed.
Lemma put_counted : forall fuel l p b, put_frag put fuel l p = Some b -> (forall a, In a l -> item a === put a) -> counted item l p b.
Proof.
  assert (Hbase : forall l p b, (N.of_nat (length l) < 16384)%N -> (forall a, In a l -> item a === put a) ->
    after p (pad p ++ len_bits (N.of_nat (length l))) (put_items put l) = Some b -> counted item l p b).
  { intros l p b Hl Hi H. destruct (N.ltb_spec (N.of_nat (length l)) 128) as [Hs|Hs].
    - apply short; [exact Hs|]. apply short_agree; assumption.
    - apply long; [lia|]. apply long_agree; [lia|assumption|assumption]. }
  induction fuel as [|f IH]; intros l p b H Hi; cbn [put_frag] in H; cbv zeta in H;
    (destruct (N.of_nat (length l) <? 16384)%N eqn:Hl; [apply Hbase; [lia|exact Hi|exact H]|]); [discriminate|].
  set (m := N.min 4 (N.of_nat (length l) / 16384)) in *. set (k := N.to_nat (m * 16384)) in *.
  apply opt_inv in H as (b1&H1&H). apply after_inv in H as (b2&H2&->).
  rewrite <- (firstn_skipn k l).
  assert (Hin : forall a, In a (firstn k l) \/ In a (skipn k l) -> In a l).
  { intros a Ha. rewrite <- (firstn_skipn k l). apply in_or_app. exact Ha. }
  apply fragment with (m := m).
  - unfold m; lia.
  - rewrite firstn_length. unfold k, m; lia.
  - rewrite skipn_length. unfold k, m; lia.
  - apply frag_agree; [unfold m; lia|intros a Ha; apply Hi, Hin; auto|exact H1].
  - apply IH; [exact H2|intros a Ha; apply Hi, Hin; auto].
Qed.
Lemma counted_agree l : (forall a, In a l -> item a === put a) -> counted item l === put_list put l.
Proof.
  intros Hi p b. split; [intros H; apply (counted_put _ _ _ H Hi); lia|intros H; apply (put_counted _ _ _ _ H Hi)].
Qed.
End Items.
Lemma octet_agree o : octet o === put_octet o.
Proof.
  intros p b. unfold put_octet, is_byte. destruct (o <? 256)%N eqn:Ho.
  - refine (is1_agree _ _ (field_is 8 o _) p b). change (2 ^ N.of_nat 8)%N with 256%N. lia.
  - split; [|discriminate]. intros H. apply field_bound in H. change (2 ^ N.of_nat 8)%N with 256%N in H. lia.
Qed.
Lemma bit_agree x : bit x === put_bit x.
Proof. apply is1_agree, is1_bit. Qed.
Lemma octets_agree l : counted octet l === put_list put_octet l.
Proof. apply counted_agree. intros. apply octet_agree. Qed.
Lemma app_inj_len {A} : forall (a b c d : list A), length a = length b -> a ++ c = b ++ d -> a = b /\ c = d.
Proof.
  induction a as [|x a IH]; intros [|y b] c d Hl H; try discriminate; [split; [reflexivity|exact H]|].
  injection H as -> H. injection Hl as Hl. apply IH in H as [-> ->]; [split; reflexivity|exact Hl].
Qed.
(* the bits of some octets *)
Lemma items_octets : forall o p d, items octet o p d <-> bytes_ok o = true /\ d = octets_bits o.
Proof.
  induction o as [|x o IH]; intros p d; cbn [items].
  - split; [intros ->; split; reflexivity|intros [_ ->]; reflexivity].
  - unfold seq. cbn [bytes_ok forallb]. rewrite octets_bits_cons. split.
    + intros (b1&b2&->&H1&H2). apply IH in H2 as [H2 ->]. apply octet_agree in H1. unfold put_octet in H1.
      destruct (is_byte x); [|discriminate]. sinj H1. split; [exact H2|reflexivity].
    + intros [H ->]. apply andb_prop in H as [Hx Ho]. exists (to_bits 8 x), (octets_bits o). split; [reflexivity|].
      split; [apply octet_agree; unfold put_octet; rewrite Hx; reflexivity|]. apply IH. split; [exact Ho|reflexivity].
Qed.
Lemma octets_bits_inj : forall a b, bytes_ok a = true -> bytes_ok b = true -> octets_bits a = octets_bits b -> a = b.
Proof.
  induction a as [|x a IH]; intros [|y b] Ha Hb H; try reflexivity; try (apply (f_equal (@length bool)) in H; rewrite !octets_bits_len in H; cbn [length] in H; lia).
  rewrite !octets_bits_cons in H. apply app_inj_len in H as [H1 H2]; [|rewrite !to_bits_len; reflexivity].
  cbn [bytes_ok forallb] in Ha, Hb. apply andb_prop in Ha as [Hx Ha]. apply andb_prop in Hb as [Hy Hb]. f_equal; [|apply IH; assumption].
  apply (f_equal (from_bits 0)) in H1. unfold is_byte in Hx, Hy. rewrite !from_to_small in H1; [exact H1| |]; change (2 ^ N.of_nat 8)%N with 256%N; lia.
Qed.

(* ---------------- small and signed numbers ---------------- *)
Lemma bits_octets_whole n v : octets_bits (bits_octets (to_bits (8 * n) v)) = to_bits (8 * n) v.
Proof. rewrite octets_bits_octets, to_bits_len, pad_mult, app_nil_r. reflexivity. Qed.
Lemma bits_octets_len n v : length (bits_octets (to_bits (8 * n) v)) = n.
Proof.
  pose proof (f_equal (@length bool) (bits_octets_whole n v)) as H. rewrite octets_bits_len, to_bits_len in H. lia.
Qed.
(* [k] octets with value [v] are the only ones *)
Lemma octets_unique k v o d : length o = k -> items octet o 0 d -> number d = v -> o = bits_octets (to_bits (8 * k) v).
Proof.
  intros Hl H Hn. apply items_octets in H as [Ho ->]. apply octets_bits_inj; [exact Ho|apply bits_octets_bytes|].
  rewrite bits_octets_whole. subst k v. rewrite number_from, <- octets_bits_len, to_from_bits. reflexivity.
Qed.
Lemma octets_exist k v : (v < 2 ^ N.of_nat (8 * k))%N -> let o := bits_octets (to_bits (8 * k) v) in
  length o = k /\ items octet o 0 (octets_bits o) /\ number (octets_bits o) = v.
Proof.
  intros Hv. cbv zeta. split; [apply bits_octets_len|]. split; [apply items_octets; split; [apply bits_octets_bytes|reflexivity]|].
  rewrite bits_octets_whole, number_from, from_to_small by exact Hv. reflexivity.
Qed.
Lemma small_agree v : small v === put_small v.
Proof.
  intros p b. unfold small, put_small. destruct (v <? 64)%N eqn:Hv.
  - pose proof (is1_seq _ _ _ _ (is1_bit false) (field_is 6 v ltac:(change (2 ^ N.of_nat 6)%N with 64%N; lia))) as H6. split.
    + intros [[_ H]|[H _]]; [|lia]. apply H6 in H. subst. reflexivity.
    + intros H. sinj H. left. split; [lia|]. apply H6. reflexivity.
  - pose proof (agree_after _ _ _ _ (is1_bit true) (octets_agree (unsigned_octets v))) as Ho. split.
    + intros [[H _]|(_&k&o&d&H1&H2&H3&H4&H5)]; [lia|].
      rewrite (least_unique _ _ _ H1 (octets_for_is v)) in H2. rewrite (octets_unique _ _ _ _ H2 H3 H4) in H5.
      apply Ho in H5. exact H5.
    + intros H. right. split; [lia|]. destruct (octets_exist (octets_of v) v (octets_of_bound v)) as (I1&I2&I3).
      eexists _, _, _. split; [apply octets_for_is|]. split; [exact I1|]. split; [exact I2|]. split; [exact I3|]. apply Ho. exact H.
Qed.
Lemma signed_len_is z : signed_octets_for z (signed_len z).
Proof.
  split; [apply signed_len_bound|]. intros m [Hm Hz]. unfold signed_len.
  set (a := if (0 <=? z)%Z then _ else _). cbv zeta.
  assert (Ha : (a < 2 ^ (8 * N.of_nat m - 1))%N).
  { assert (Hp : (Z.of_N (2 ^ (8 * N.of_nat m - 1)) = 2 ^ (8 * Z.of_nat m - 1))%Z).
    { rewrite N2Z.inj_pow. f_equal. lia. }
    apply N2Z.inj_lt. rewrite Hp. unfold a. destruct (0 <=? z)%Z eqn:E; lia. }
  apply size_least in Ha. lia.
Qed.
Lemma signed_agree z : signed z === put_signed z.
Proof.
  intros p b. unfold signed, put_signed. cbv zeta. set (n := signed_len z).
  assert (Hp : (2 ^ Z.of_nat (8 * n) = 2 ^ (8 * Z.of_nat n))%Z) by (f_equal; lia).
  assert (Hpos : (0 < 2 ^ (8 * Z.of_nat n))%Z) by (apply Z.pow_pos_nonneg; lia).
  pose proof (Z.mod_pos_bound z _ Hpos) as Hb.
  split.
  - intros (k&o&d&H1&H2&H3&H4&H5). rewrite (least_unique _ _ _ H1 (signed_len_is z)) in *. fold n in H2, H4.
    rewrite Hp, <- H4, N2Z.id. rewrite (octets_unique _ _ _ _ H2 H3 eq_refl) in H5. apply octets_agree. exact H5.
  - intros H. rewrite Hp in H. destruct (octets_exist n (Z.to_N (z mod 2 ^ (8 * Z.of_nat n)))) as (I1&I2&I3).
    { apply N2Z.inj_lt. rewrite N2Z.inj_pow, Z2N.id by lia. change (Z.of_N 2) with 2%Z. replace (Z.of_N (N.of_nat (8 * n))) with (8 * Z.of_nat n)%Z by lia. lia. }
    eexists _, _, _. split; [apply signed_len_is|]. fold n. split; [exact I1|]. split; [exact I2|]. rewrite I3.
    split; [rewrite Z2N.id by lia; reflexivity|]. apply octets_agree. exact H.
Qed.

(* ---------------- constraints ---------------- *)
Lemma within_in c z : in_con c z = true <-> within c z.
Proof. unfold in_con, within. lia. Qed.
Lemma in_con_dec c z : {within c z /\ in_con c z = true} + {~ within c z /\ in_con c z = false}.
Proof. unfold in_con, within. destruct ((c_lb c <=? z) && (z <=? c_ub c))%Z eqn:H; [left|right]; split; auto; lia. Qed.
Lemma offset_agree c z : offset c z === put_con c z.
Proof.
  intros p b. unfold offset, when, put_con, con_range. destruct (in_con_dec c z) as [[Hw ->]|[Hw ->]].
  - split; [intros [_ H]|intros H; split; [exact Hw|]]; apply whole_agree; exact H.
  - split; [intros [H _]; contradiction|discriminate].
Qed.
Lemma extensible_agree c z E F f g : (within c z -> E === f) -> F === g ->
  (in_con c z = false -> forall p, f p = None) ->
  extensible c z E F === (fun p => if c_ext c then if in_con c z then after p [false] f else after p [true] g else f p).
Proof.
  intros HE HF Hout p b. unfold extensible. destruct (c_ext c), (in_con_dec c z) as [[Hw Hi]|[Hw Hi]]; rewrite ?Hi.
  - specialize (HE Hw). pose proof (agree_after _ _ _ _ (is1_bit false) HE p b) as H0. split.
    + intros [(H&_)|[(_&_&H)|(_&H&_)]]; [discriminate|apply H0, H|contradiction].
    + intros H. right. left. split; [reflexivity|]. split; [exact Hw|]. apply H0, H.
  - pose proof (agree_after _ _ _ _ (is1_bit true) HF p b) as H0. split.
    + intros [(H&_)|[(_&H&_)|(_&_&H)]]; [discriminate|contradiction|apply H0, H].
    + intros H. right. right. split; [reflexivity|]. split; [exact Hw|]. apply H0, H.
  - specialize (HE Hw). split.
    + intros [(_&_&H)|[(H&_)|(H&_)]]; try discriminate. apply HE, H.
    + intros H. left. split; [reflexivity|]. split; [exact Hw|]. apply HE, H.
  - split.
    + intros [(_&H&_)|[(H&_)|(H&_)]]; try discriminate. contradiction.
    + rewrite (Hout Hi). discriminate.
Qed.
Lemma integer_agree c z : integer c z === put_int c z.
Proof.
  destruct c as [c|]; cbn [integer]; [|apply signed_agree].
  eapply agree_ext; [apply extensible_agree; [intros _; apply offset_agree|apply signed_agree|]|].
  - intros Hi p. unfold put_con. rewrite Hi. reflexivity.
  - intros p. cbn [put_int]. reflexivity.
Qed.

(* ---------------- enumerations ---------------- *)
Lemma index_place z : forall l i, index_of z l = Some i <-> at_place l z i.
Proof.
  unfold at_place. induction l as [|x l IH]; intros i; cbn [index_of].
  - split; [discriminate|]. intros [H _]. destruct i; discriminate.
  - destruct (x =? z)%Z eqn:Hx.
    + assert (x = z) by lia. subst x. split.
      * intros H. sinj H. split; [reflexivity|]. intros j Hj. lia.
      * intros [_ H2]. destruct i as [|i]; [reflexivity|]. destruct (H2 0 ltac:(lia) eq_refl).
    + split.
      * destruct (index_of z l) as [j|] eqn:Hj; [|discriminate]. intros H. sinj H. destruct (proj1 (IH j) eq_refl) as [H1 H2].
        split; [exact H1|]. intros [|k] Hk; cbn [nth_error]; [intros H; apply some_inv in H; lia|apply H2; lia].
      * intros [H1 H2]. destruct i as [|i]; cbn [nth_error] in H1; [apply some_inv in H1; lia|].
        assert (Hi : index_of z l = Some i). { apply IH. split; [exact H1|]. intros j Hj. apply (H2 (S j)). lia. }
        rewrite Hi. reflexivity.
Qed.
Lemma index_none z l : index_of z l = None <-> ~ In z l.
Proof.
  split.
  - intros H Hin. apply index_of_some in Hin as (i&Hi&_). congruence.
  - intros H. destruct (index_of z l) as [i|] eqn:Hi; [|reflexivity]. apply index_of_nth in Hi. destruct H. eapply nth_error_In, Hi.
Qed.
Lemma ext_bit_is e : is1 (ext_bit e false) (fun _ => if e then [false] else []).
Proof. destruct e; intros p b; cbn; [reflexivity|]. unfold when, nothing. tauto. Qed.
Lemma enum_agree e r m z : enumerated e r m z === put_enum e r m z.
Proof.
  intros p b. unfold enumerated, put_enum. destruct (index_of z r) as [i|] eqn:Hi.
  - cbv zeta. pose proof (agree_after _ _ _ _ (ext_bit_is e) (whole_agree (N.of_nat (length r)) (N.of_nat i)) p b) as H0.
    split.
    + intros [(j&Hj&H)|(H&_)]; [|apply index_none in H; congruence]. apply index_place in Hj. assert (j = i) by congruence. subst j.
      apply H0, H.
    + intros H. left. exists i. split; [apply index_place, Hi|]. apply H0, H.
  - split.
    + intros [(j&Hj&_)|(_&j&Hj&->&H)]; [apply index_place in Hj; congruence|]. apply index_place in Hj. rewrite Hj. cbn [obind2].
      apply (agree_after _ _ _ _ (is1_bit true) (small_agree (N.of_nat j)) p b), H.
    + destruct e; [|discriminate]. intros H. apply opt_inv in H as (j&Hj&H). right. split; [apply index_none, Hi|].
      exists j. split; [apply index_place, Hj|]. split; [reflexivity|].
      apply (agree_after _ _ _ _ (is1_bit true) (small_agree (N.of_nat j)) p b), H.
Qed.

(* ---------------- sized things ---------------- *)
Definition kind_of (k : kind) : option N := match k with Plain => None | Text s => Some s end.
Lemma aligned_iff k c n : aligns (kind_of k) c n = true <-> contents_aligned k c n.
Proof.
  destruct k as [|s]; cbn [kind_of aligns contents_aligned]; [split; [discriminate|tauto]|].
  destruct (c_lb c =? c_ub c)%Z eqn:E; lia.
Qed.
Lemma fill_if_is k c n : is1 (fill_if (contents_aligned k c n)) (fun p => if aligns (kind_of k) c n then pad p else []).
Proof.
  intros p b. unfold fill_if. rewrite <- aligned_iff. destruct (aligns (kind_of k) c n).
  - rewrite (filler_is p b). intuition congruence.
  - intuition congruence.
Qed.
Lemma sized_agree {A} (item : A -> encoding) put k c l : (forall a, In a l -> item a === put a) ->
  sized k item c l === put_sized put (kind_of k) c l.
Proof.
  intros Hi. destruct c as [c|]; cbn [sized put_sized]; [|apply counted_agree, Hi].
  eapply agree_ext; [apply extensible_agree with (f := put_root put (kind_of k) c l)|intros p; reflexivity].
  - intros Hw p b. unfold put_root. rewrite (proj2 (within_in _ _) Hw). destruct (c_ub c <? 65536)%Z eqn:Hub.
    + pose proof (agree_seq _ _ _ _ (offset_agree c (Z.of_nat (length l)))
        (agree_after _ _ _ _ (fill_if_is k c (N.of_nat (length l))) (items_agree item put l Hi)) p b) as H0.
      assert (He : forall q, (opt b0 <- put_con c (Z.of_nat (length l)) q ;;
          after q b0 (fun p0 => after p0 (if aligns (kind_of k) c (N.of_nat (length l)) then pad p0 else []) (put_items put l))) =
        (opt b0 <- put_whole (con_range c) (Z.to_N (Z.of_nat (length l) - c_lb c)) q ;;
          after q (if aligns (kind_of k) c (N.of_nat (length l)) then b0 ++ pad (q + length b0) else b0) (put_items put l))).
      { intros q. unfold put_con. rewrite (proj2 (within_in _ _) Hw). destruct (put_whole _ _ q) as [b0|]; cbn [obind2]; [|reflexivity].
        unfold after. destruct (aligns _ _ _).
        - rewrite app_length, Nat.add_assoc. destruct (put_items _ _ _); [rewrite app_assoc|]; reflexivity.
        - cbn [length List.app]. rewrite Nat.add_0_r. destruct (put_items _ _ _); reflexivity. }
      cbv beta in H0. rewrite He in H0. rewrite <- H0. split; [intros [[_ H]|[H _]]; [exact H|lia]|intros H; left; split; [lia|exact H]].
    + rewrite <- (counted_agree item put l Hi p b). split; [intros [[H _]|[_ H]]; [lia|exact H]|intros H; right; split; [lia|exact H]].
  - apply counted_agree, Hi.
  - intros Hw p. unfold put_root. rewrite Hw. reflexivity.
Qed.

(* ---------------- open types ---------------- *)
Lemma completed_iff E e o : E === e -> completed E o <-> complete e = Some o.
Proof.
  intros HE. unfold completed, complete. split.
  - intros (c&Hc&H). apply HE in Hc. rewrite Hc. cbn [obind2]. f_equal. unfold to_octets.
    destruct H as [[-> ->]|(Hne&Hi&Hl)]; [reflexivity|]. destruct c as [|x c]; [contradiction|].
    apply items_octets in Hi as [Ho Hi]. apply octets_bits_inj; [apply bits_octets_bytes|exact Ho|].
    rewrite octets_bits_octets, <- Hi. f_equal. unfold pad, pad_len. f_equal. lia.
  - intros H. apply opt_inv in H as (c&Hc&H). sinj H. exists c. split; [apply HE, Hc|]. unfold to_octets.
    destruct c as [|x c]; [left; split; reflexivity|]. right. split; [discriminate|].
    pose proof (octets_bits_octets (x :: c)) as Ho. pose proof (f_equal (@length bool) Ho) as Hl.
    rewrite octets_bits_len, app_length in Hl. unfold pad in Hl. rewrite repeat_length in Hl.
    split; [|unfold pad_len in Hl; lia]. apply items_octets. split; [apply bits_octets_bytes|].
    rewrite Ho. f_equal. unfold pad. f_equal. lia.
Qed.
Lemma open_agree E e : E === e -> open_type E === (fun p => opt o <- complete e ;; put_open o p).
Proof.
  intros HE p b. unfold open_type. split.
  - intros (o&Ho&H). apply (completed_iff _ _ _ HE) in Ho. rewrite Ho. apply octets_agree, H.
  - intros H. apply opt_inv in H as (o&Ho&H). exists o. split; [apply (completed_iff _ _ _ HE), Ho|apply octets_agree, H].
Qed.

(* ---------------- SEQUENCE and CHOICE ---------------- *)
Lemma presence_bitmap : forall ms vs, presence ms vs = put_bitmap ms vs.
Proof.
  unfold presence. induction ms as [|[[] t] ms IH]; intros [|v vs]; cbn [combine filter map put_bitmap fst snd]; try reflexivity.
  - rewrite IH. reflexivity.
  - apply IH.
Qed.
Lemma given_present va : map given va = present va.
Proof. reflexivity. Qed.
Lemma existsb_given va : existsb given va = existsb (fun b => b) (present va).
Proof. induction va as [|v va IH]; [reflexivity|]. cbn [existsb present map]. unfold given at 1. f_equal. exact IH. Qed.
Definition ok (t : ty) : Prop := forall v, x691 t v === enc t v.
Lemma mandatory_put : forall ms vs p b, put_members enc ms vs p = Some b -> mandatory_given ms vs.
Proof.
  intros ms vs p b H. apply members_shape in H as [H1 H2]. split; [congruence|exact H2].
Qed.
Lemma components_agree : forall ms, Forall (fun m => ok (snd m)) ms -> forall vs, mandatory_given ms vs ->
  components x691 ms vs === put_members enc ms vs.
Proof.
  induction ms as [|[o t] ms IH]; intros HF [|v vs] [Hl Hm]; try discriminate; cbn [components put_members].
  - apply is1_agree, is1_nothing.
  - inversion HF as [|m l Ht HF']; subst. cbn [snd] in Ht.
    assert (Hr : mandatory_given ms vs). { split; [injection Hl; auto|]. intros i t'. exact (Hm (S i) t'). }
    destruct v as [v|].
    + eapply agree_ext; [apply agree_seq; [apply Ht|apply IH; [exact HF'|exact Hr]]|]. intros p. destruct o; reflexivity.
    + destruct o; [apply IH; assumption|]. destruct (Hm 0 t eq_refl eq_refl).
Qed.
Lemma additions_agree : forall ms, Forall (fun m => ok (snd m)) ms -> forall vs, length vs = length ms ->
  additions x691 ms vs === put_adds enc ms vs.
Proof.
  induction ms as [|[o t] ms IH]; intros HF [|v vs] Hl; try discriminate; cbn [additions put_adds].
  - apply is1_agree, is1_nothing.
  - inversion HF as [|m l Ht HF']; subst. cbn [snd] in Ht. injection Hl as Hl. destruct v as [v|]; [|apply IH; assumption].
    eapply agree_ext; [apply agree_seq; [apply open_agree, Ht|apply IH; [exact HF'|exact Hl]]|].
    intros p. unfold obind2. destruct (complete (enc t v)); reflexivity.
Qed.
Lemma alternative_agree : forall ts, Forall ok ts -> forall i v, alternative x691 ts i v === nth_put enc ts i v.
Proof.
  induction ts as [|t ts IH]; intros HF [|i] v; cbn [alternative nth_put].
  - intros p b. split; [tauto|discriminate].
  - intros p b. split; [tauto|discriminate].
  - inversion HF; subst. auto.
  - inversion HF; subst. apply IH. assumption.
Qed.
Lemma the_bits_is x : is1 (the_bits x) (fun _ => x).
Proof. intros p b. reflexivity. Qed.
Lemma ext_bit_is' e x : x && negb e = false -> is1 (ext_bit e x) (fun _ => if e then [x] else []).
Proof.
  intros H. destruct e; intros p b; cbn [ext_bit]; [reflexivity|]. destruct x; [discriminate|]. unfold when, nothing. tauto.
Qed.
Lemma x691_enc : forall t, ok t.
Proof.
  apply ty_ind2; unfold ok.
  - intros v; destruct v; cbn [x691 enc]; try (intros p b'; split; [tauto|discriminate]). apply is1_agree, is1_nothing.
  - intros v; destruct v; cbn [x691 enc]; try (intros p b'; split; [tauto|discriminate]). apply is1_agree, is1_bit.
  - intros c v; destruct v; cbn [x691 enc]; try (intros p b'; split; [tauto|discriminate]). apply integer_agree.
  - intros e r m v; destruct v; cbn [x691 enc]; try (intros p b'; split; [tauto|discriminate]). apply enum_agree.
  - intros c v; destruct v; cbn [x691 enc]; try (intros p b'; split; [tauto|discriminate]).
    apply (sized_agree _ _ (Text 16)). intros. apply bit_agree.
  - intros c v; destruct v; cbn [x691 enc]; try (intros p b'; split; [tauto|discriminate]).
    apply (sized_agree _ _ (Text 2)). intros. apply octet_agree.
  - intros e root adds HR HA v. destruct v as [| | | | | |vr va| |]; cbn [x691 enc]; try (intros p b'; split; [tauto|discriminate]).
    cbv zeta. rewrite existsb_given, presence_bitmap. set (x := existsb (fun b => b) (present va)).
    intros p b. unfold when. destruct (x && negb e) eqn:Hxe.
    { split; [|discriminate]. intros [_ (b1&b2&_&H&_)]. destruct x; [|discriminate]. destruct e; [discriminate|]. destruct H; discriminate. }
    destruct (negb (length va =? length adds)) eqn:Hla.
    { split; [intros [[_ H] _]; lia|discriminate]. }
    assert (Hlen : length va = length adds) by lia.
    assert (Htail : mandatory_given root vr ->
      (ext_bit e x +++ the_bits (put_bitmap root vr) +++ components x691 root vr +++
       (if x then (fun p0 b0 => (N.of_nat (length adds) <= 64)%N /\
          (bit false +++ field 6 (N.of_nat (length adds) - 1) +++ the_bits (map given va) +++ additions x691 adds va) p0 b0) else nothing))
      === (fun p => after p ((if e then [x] else []) ++ put_bitmap root vr) (fun p =>
        opt b <- put_members enc root vr p ;;
        after p b (fun p =>
        if x then
          if (N.of_nat (length adds) <=? 64)%N then
            after p (false :: to_bits 6 (N.of_nat (length adds) - 1) ++ present va) (put_adds enc adds va)
          else None
        else Some [])))).
    { intros Hm q c. rewrite <- seq_assoc.
      apply (agree_after _ _ _ _ (is1_seq _ _ _ _ (ext_bit_is' e x Hxe) (the_bits_is (put_bitmap root vr)))).
      apply agree_seq; [apply components_agree; assumption|].
      destruct x; [|apply is1_agree, is1_nothing].
      intros q' c'. destruct (N.leb_spec (N.of_nat (length adds)) 64) as [H64|H64]; [|split; [intros [H _]; lia|discriminate]].
      pose proof (is1_seq _ _ _ _ (is1_bit false) (is1_seq _ _ _ _ (field_is 6 (N.of_nat (length adds) - 1)
        ltac:(change (2 ^ N.of_nat 6)%N with 64%N; lia)) (the_bits_is (map given va)))) as Hh.
      rewrite head3. split.
      + intros [_ H]. apply (agree_after _ _ _ _ Hh (additions_agree adds HA va Hlen)) in H. exact H.
      + intros H. split; [exact H64|]. apply (agree_after _ _ _ _ Hh (additions_agree adds HA va Hlen)). exact H. }
    split.
    + intros [[Hm _] H]. apply (Htail Hm). exact H.
    + intros H. assert (Hm : mandatory_given root vr).
      { apply after_inv in H as (b1&H&_). apply opt_inv in H as (b2&H&_). eapply mandatory_put, H. }
      split; [split; assumption|]. apply (Htail Hm). exact H.
  - intros c t Ht v; destruct v; cbn [x691 enc]; try (intros p b'; split; [tauto|discriminate]).
    apply (sized_agree _ _ Plain). intros a _. apply Ht.
  - intros e root more HR HM v. destruct v as [| | | | | | | |i v]; cbn [x691 enc]; try (intros p b'; split; [tauto|discriminate]).
    intros p b. destruct (i <? length root) eqn:Hi.
    + pose proof (agree_seq _ _ _ _ (agree_after _ _ _ _ (ext_bit_is e) (whole_agree (N.of_nat (length root)) (N.of_nat i)))
        (alternative_agree root HR i v) p b) as H0. rewrite seq_assoc in H0. rewrite <- H0.
      split; [intros [[_ H]|[H _]]; [exact H|lia]|intros H; left; split; [lia|exact H]].
    + destruct e; [|split; [intros [[H _]|(_&H&_)]; [lia|discriminate]|discriminate]].
      pose proof (agree_seq _ _ _ _ (agree_after _ _ _ _ (is1_bit true) (small_agree (N.of_nat (i - length root))))
        (open_agree _ _ (alternative_agree more HM (i - length root) v)) p b) as H0. rewrite seq_assoc in H0.
      split.
      * intros [[H _]|(_&_&H)]; [lia|]. apply H0 in H. apply opt_inv in H as (b1&H1&H). rewrite H1. cbn [obind2].
        apply after_inv in H as (b2&H2&->). apply opt_inv in H2 as (o&Ho&H2). rewrite Ho. cbn [obind2]. unfold after. rewrite H2. reflexivity.
      * intros H. right. split; [lia|]. split; [reflexivity|]. apply H0. apply opt_inv in H as (b1&H1&H). rewrite H1. cbn [obind2].
        apply opt_inv in H as (o&Ho&H). unfold after in *. rewrite Ho. cbn [obind2]. exact H.
Qed.
Lemma encode_x691 t v o : encode t v = Some o <-> completed (x691 t v) o.
Proof. symmetry. apply completed_iff, x691_enc. Qed.
Lemma x691_decodes t v p b rest : x691 t v p b -> dec t p (b ++ rest) = Some (v, p + length b, rest).
Proof. intros H. apply x691_enc in H. apply round_trip in H. apply H. Qed.
Lemma x691_decode t v o rest : completed (x691 t v) o -> decode t (o ++ rest) = Some v.
Proof. intros H. apply encode_x691 in H. apply decode_encode_rest, H. Qed.
Lemma one_encoding n t v : In (n, t) all_types ->
  (valid t v <-> exists o, completed (x691 t v) o) /\
  (forall o o', completed (x691 t v) o -> completed (x691 t v) o' -> o = o').
Proof.
  intros Hin. split.
  - split.
    + intros Hv. destruct (encode_total t v (all_types_few _ _ Hin) Hv) as (o&Ho&_). exists o. apply encode_x691, Ho.
    + intros (o&Ho). apply encode_x691 in Ho. eapply encode_valid, Ho.
  - intros o o' H H'. apply encode_x691 in H, H'. congruence.
Qed.
