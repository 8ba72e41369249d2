(* An upper bound of the length of encodings, used to show that messages fit
   their transmit buffer. *)
From Coq Require Import ZifyBool ZifyNat ZifyN.
From Verif Require Import Base Aper Aper_proofs.
Ltac Zify.zify_post_hook ::= Z.div_mod_to_equations.

Definition whole_max (range : N) : nat :=
  if (range <=? 255)%N then N.size_nat (range - 1)
  else if (range =? 256)%N then 15
  else if (range <=? 65536)%N then 23
  else N.size_nat (N.of_nat (octets_of (range - 1)) - 1) + 7 + 8 * octets_of (range - 1).
(* [n] items of [s] bits altogether, behind an unconstrained count *)
Definition list_max (n s : nat) : nat := (if (N.of_nat n <? 16384)%N then 23 else 23 + 15 * n) + s.
Definition small_max (v : N) : nat := if (v <? 64)%N then 7 else 1 + list_max (octets_of v) (8 * octets_of v).
Definition signed_max (z : Z) : nat := list_max (signed_len z) (8 * signed_len z).
Definition int_max (c : option con) (z : Z) : nat :=
  match c with
  | None => signed_max z
  | Some c => (if c_ext c then 1 else 0) + (if in_con c z then whole_max (con_range c) else signed_max z)
  end.
Definition enum_max (root more : list Z) (z : Z) : nat :=
  1 + match index_of z root with
      | Some _ => whole_max (N.of_nat (length root))
      | None => match index_of z more with Some i => small_max (N.of_nat i) | None => 0 end
      end.
Definition sized_max (c : option con) (n s : nat) : nat :=
  match c with
  | None => list_max n s
  | Some c =>
      1 + (if in_con c (Z.of_nat n) && (c_ub c <? 65536)%Z then whole_max (con_range c) + 7 + s else list_max n s)
  end.
Definition octs_max (bits : nat) : nat := bits / 8 + 1.   (* octets of a complete encoding *)
Definition open_max (bits : nat) : nat := list_max (octs_max bits) (8 * octs_max bits).
Fixpoint blen (t : ty) (v : val) {struct t} : nat :=
  match t, v with
  | TBool, _ => 1
  | TInt c, VInt z => int_max c z
  | TEnum _ r m, VEnum z => enum_max r m z
  | TBits c, VBits l => sized_max c (length l) (length l)
  | TOcts c, VOcts l => sized_max c (length l) (8 * length l)
  | TSeqOf c t, VList l => sized_max c (length l) (list_sum (map (blen t) l))
  | TSeq _ root adds, VSeq vr va =>
      let members := fix members (ms : list (bool * ty)) (vs : list (option val)) : nat :=
        match ms, vs with
        | (_, t) :: ms', v :: vs' => 1 + match v with Some v => blen t v | None => 0 end + members ms' vs'
        | _, _ => 0
        end in
      let ads := fix ads (ms : list (bool * ty)) (vs : list (option val)) : nat :=
        match ms, vs with
        | (_, t) :: ms', v :: vs' => 1 + match v with Some v => open_max (blen t v) | None => 0 end + ads ms' vs'
        | _, _ => 0
        end in
      1 + members root vr + (if existsb (fun b => b) (present va) then 7 + ads adds va else 0)
  | TChoice _ root more, VChoice i v =>
      let alt := fix alt (ts : list ty) (i : nat) : nat :=
        match ts, i with t :: _, O => blen t v | _ :: r, S i' => alt r i' | [], _ => 0 end in
      1 + (if i <? length root then whole_max (N.of_nat (length root)) + alt root i
           else small_max (N.of_nat (i - length root)) + open_max (alt more (i - length root)))
  | _, _ => 0
  end.

Lemma pad_len_le p : pad_len p <= 7.
Proof. unfold pad_len. lia. Qed.
Lemma pad_le p : length (pad p) <= 7.
Proof. unfold pad. rewrite repeat_length. apply pad_len_le. Qed.
Lemma whole_le range v p b : put_whole range v p = Some b -> length b <= whole_max range.
Proof.
  unfold put_whole, whole_max. destruct (v <? range)%N eqn:Hv; [|discriminate]. cbv zeta.
  destruct (range <=? 255)%N; [intros H; apply some_inv in H; subst b; rewrite to_bits_len; lia|].
  pose proof (pad_le p).
  destruct (range =? 256)%N; [intros H'; apply some_inv in H'; subst b; rewrite app_length, to_bits_len; lia|].
  destruct (range <=? 65536)%N; [intros H'; apply some_inv in H'; subst b; rewrite app_length, to_bits_len; lia|].
  intros H'; apply some_inv in H'; subst b. rewrite !app_length, !to_bits_len.
  match goal with |- context [pad ?q] => pose proof (pad_le q) end.
  pose proof (octets_of_mono v (range - 1) ltac:(lia)). lia.
Qed.
Lemma list_max_mono n m s t : n <= m -> s <= t -> list_max n s <= list_max m t.
Proof. unfold list_max. intros. destruct (N.of_nat n <? 16384)%N eqn:E, (N.of_nat m <? 16384)%N eqn:E'; lia. Qed.
Section Items.
Context {A : Type} (put : A -> nat -> option bits) (f : A -> nat).
Hypothesis Hf : forall a p b, put a p = Some b -> length b <= f a.
Lemma items_le : forall l p b, put_items put l p = Some b -> length b <= list_sum (map f l).
Proof.
  induction l as [|a l IH]; intros p b H; cbn [put_items] in H.
  - apply some_inv in H; subst b. cbn. lia.
  - apply opt_inv in H as (b1&H1&H). apply after_inv in H as (b2&H2&->). rewrite app_length. cbn [map list_sum fold_right].
    apply Hf in H1. apply IH in H2. unfold list_sum in H2. lia.
Qed.
Lemma sum_split : forall k l, list_sum (map f l) = list_sum (map f (firstn k l)) + list_sum (map f (skipn k l)).
Proof. intros k l. rewrite <- (firstn_skipn k l) at 1. rewrite map_app, list_sum_app. reflexivity. Qed.
Lemma len_bits_le n : length (len_bits n) <= 16.
Proof. unfold len_bits. destruct (n <? 128)%N; rewrite to_bits_len; lia. Qed.
Lemma frag_le : forall fuel l p b, put_frag put fuel l p = Some b -> length b <= list_max (length l) (list_sum (map f l)).
Proof.
  induction fuel as [|fu IH]; intros l p b H; cbn [put_frag] in H; cbv zeta in H.
  - unfold list_max. destruct (N.of_nat (length l) <? 16384)%N eqn:E; [|discriminate].
    apply after_inv in H as (b2&H2&->). apply items_le in H2. rewrite !app_length. pose proof (pad_le p). pose proof (len_bits_le (N.of_nat (length l))). lia.
  - unfold list_max. destruct (N.of_nat (length l) <? 16384)%N eqn:E.
    + apply after_inv in H as (b2&H2&->). apply items_le in H2. rewrite !app_length. pose proof (pad_le p). pose proof (len_bits_le (N.of_nat (length l))). lia.
    + apply opt_inv in H as (b1&H1&H). apply after_inv in H1 as (b2&H2&->). apply after_inv in H as (b3&H3&->).
      set (k := N.to_nat (N.min 4 (N.of_nat (length l) / 16384) * 16384)) in *.
      apply IH in H3. apply items_le in H2. rewrite !app_length, to_bits_len. pose proof (pad_le p).
      rewrite (sum_split k l). unfold list_max in H3. rewrite skipn_length in H3.
      assert (1 <= k <= length l) by lia.
      destruct (N.of_nat (length l - k) <? 16384)%N; lia.
Qed.
Lemma put_list_le l p b : put_list put l p = Some b -> length b <= list_max (length l) (list_sum (map f l)).
Proof. apply frag_le. Qed.
Lemma sized_le small c l p b : put_sized put small c l p = Some b -> length b <= sized_max c (length l) (list_sum (map f l)).
Proof.
  unfold put_sized, sized_max. destruct c as [c|]; [|apply put_list_le].
  assert (Hr : forall q b, put_root put small c l q = Some b ->
    length b <= (if in_con c (Z.of_nat (length l)) && (c_ub c <? 65536)%Z then whole_max (con_range c) + 7 + list_sum (map f l) else list_max (length l) (list_sum (map f l)))).
  { intros q b0. unfold put_root. destruct (in_con c (Z.of_nat (length l))); [|discriminate]. cbn [andb].
    destruct (c_ub c <? 65536)%Z; [|apply put_list_le]. intros H. apply opt_inv in H as (b1&H1&H). cbv zeta in H.
    apply after_inv in H as (b2&H2&->). apply whole_le in H1. apply items_le in H2. rewrite app_length.
    destruct (aligns small c (N.of_nat (length l))); [rewrite app_length; pose proof (pad_le (q + length b1)); lia|lia]. }
  destruct (c_ext c).
  - destruct (in_con c (Z.of_nat (length l))) eqn:E; intros H; apply after_inv in H as (b2&H2&->); rewrite app_length; cbn [length].
    + apply Hr in H2. lia.
    + apply put_list_le in H2. cbn [andb]. lia.
  - intros H. apply Hr in H. lia.
Qed.
End Items.
Lemma octet_le o p b : put_octet o p = Some b -> length b <= 8.
Proof. unfold put_octet. destruct (is_byte o); [|discriminate]. intros H. apply some_inv in H; subst b. rewrite to_bits_len. lia. Qed.
Lemma bit_le x p b : put_bit x p = Some b -> length b <= 1.
Proof. intros H. apply some_inv in H; subst b. cbn. lia. Qed.
Lemma sum_const {A} k (l : list A) : list_sum (map (fun _ => k) l) = k * length l.
Proof. induction l as [|a l IH]; cbn [map length]; [cbn; lia|]. change (list_sum (k :: ?r)) with (k + list_sum r). rewrite IH. lia. Qed.
Lemma octets_le l p b : put_list put_octet l p = Some b -> length b <= list_max (length l) (8 * length l).
Proof. intros H. apply (put_list_le _ (fun _ => 8) octet_le) in H. rewrite sum_const in H. exact H. Qed.
Lemma bits_octets_len : forall fuel b, length b <= fuel -> length (bits_octets_f fuel b) <= length b / 8 + 1 /\ 8 * length (bits_octets_f fuel b) <= length b + 7.
Proof.
  induction fuel as [|f IH]; intros b H; cbn [bits_octets_f]; [cbn [length]; lia|]. destruct b as [|x b]; [cbn [length]; lia|].
  destruct (IH (skipn 8 (x :: b))) as [H1 H2]; [rewrite skipn_length; cbn [length] in *; lia|].
  rewrite skipn_length in H1, H2. cbn [length] in *. lia.
Qed.
Lemma bits_octets_le b n : length b <= 8 * n -> length (bits_octets b) <= n.
Proof. intros H. unfold bits_octets. destruct (bits_octets_len (length b) b) as [_ H']; [lia|]. lia. Qed.
Lemma to_octets_le b : length (to_octets b) <= octs_max (length b).
Proof.
  unfold to_octets, octs_max. destruct b as [|x b]; [cbn; lia|]. unfold bits_octets.
  apply (bits_octets_len (length (x :: b)) (x :: b)). lia.
Qed.
Lemma small_le v p b : put_small v p = Some b -> length b <= small_max v.
Proof.
  unfold put_small, small_max. destruct (v <? 64)%N.
  - intros H. apply some_inv in H; subst b. cbn [length]. rewrite to_bits_len. lia.
  - intros H. apply after_inv in H as (b2&H2&->). apply octets_le in H2. cbn [length List.app].
    assert (length (unsigned_octets v) <= octets_of v).
    { unfold unsigned_octets. apply bits_octets_le. rewrite to_bits_len. lia. }
    pose proof (list_max_mono _ _ (8 * length (unsigned_octets v)) (8 * octets_of v) H ltac:(lia)). lia.
Qed.
Lemma signed_le z p b : put_signed z p = Some b -> length b <= signed_max z.
Proof.
  unfold put_signed, signed_max. intros H. apply octets_le in H.
  set (l := bits_octets _) in *. assert (Hl : length l <= signed_len z).
  { subst l. apply bits_octets_le. rewrite to_bits_len. lia. }
  pose proof (list_max_mono _ _ (8 * length l) (8 * signed_len z) Hl ltac:(lia)). lia.
Qed.
Lemma int_le c z p b : put_int c z p = Some b -> length b <= int_max c z.
Proof.
  unfold put_int, int_max. destruct c as [c|]; [|apply signed_le].
  assert (Hc : forall q b, put_con c z q = Some b -> in_con c z = true /\ length b <= whole_max (con_range c)).
  { intros q b0. unfold put_con. destruct (in_con c z); [|discriminate]. intros H. split; [reflexivity|]. apply whole_le in H. exact H. }
  destruct (c_ext c).
  - destruct (in_con c z); intros H; apply after_inv in H as (b2&H2&->); cbn [List.app length].
    + apply Hc in H2. lia.
    + apply signed_le in H2. lia.
  - intros H. apply Hc in H as [-> H]. lia.
Qed.
Lemma enum_le e r m z p b : put_enum e r m z p = Some b -> length b <= enum_max r m z.
Proof.
  unfold put_enum, enum_max. destruct (index_of z r).
  - intros H. apply after_inv in H as (b2&H2&->). apply whole_le in H2. rewrite app_length. destruct e; cbn [length]; lia.
  - destruct e; [|discriminate]. intros H. apply opt_inv in H as (i&Hi&H). rewrite Hi. apply after_inv in H as (b2&H2&->).
    apply small_le in H2. cbn [List.app length]. lia.
Qed.
Definition bounded (t : ty) : Prop := forall v p b, enc t v p = Some b -> length b <= blen t v.
Definition mem_max := fix members (ms : list (bool * ty)) (vs : list (option val)) : nat :=
  match ms, vs with
  | (_, t) :: ms', v :: vs' => 1 + match v with Some v => blen t v | None => 0 end + members ms' vs'
  | _, _ => 0
  end.
Definition ads_max := fix ads (ms : list (bool * ty)) (vs : list (option val)) : nat :=
  match ms, vs with
  | (_, t) :: ms', v :: vs' => 1 + match v with Some v => open_max (blen t v) | None => 0 end + ads ms' vs'
  | _, _ => 0
  end.
Lemma octs_max_mono a b : a <= b -> octs_max a <= octs_max b.
Proof. unfold octs_max. lia. Qed.
Lemma open_le e k n p b : complete e = Some k -> (forall q b, e q = Some b -> length b <= n) -> put_open k p = Some b -> length b <= open_max n.
Proof.
  intros H Hn Ho. apply opt_inv in H as (b0&H0&H). apply some_inv in H; subst k. apply Hn in H0.
  unfold put_open in Ho. apply octets_le in Ho. pose proof (to_octets_le b0) as H1. pose proof (octs_max_mono _ _ H0) as H2. unfold open_max.
  pose proof (list_max_mono (length (to_octets b0)) (octs_max n) (8 * length (to_octets b0)) (8 * octs_max n) ltac:(lia) ltac:(lia)). lia.
Qed.
Lemma members_le : forall ms, Forall (fun m => bounded (snd m)) ms -> forall vs p b,
  put_members enc ms vs p = Some b -> length (put_bitmap ms vs) + length b <= mem_max ms vs.
Proof.
  induction ms as [|[o t] ms IH]; intros HF [|v vs] p b H; cbn [put_members] in H; try discriminate.
  - apply some_inv in H; subst b. cbn. lia.
  - destruct o; discriminate.
  - inversion HF as [|zz l Ht HF']; subst. cbn [snd] in Ht. destruct v as [v|].
    + assert (He : exists b1 b2, enc t v p = Some b1 /\ put_members enc ms vs (p + length b1) = Some b2 /\ b = b1 ++ b2).
      { destruct o; apply opt_inv in H as (b1&H1&H); apply after_inv in H as (b2&H2&->); eauto. }
      destruct He as (b1&b2&H1&H2&->). apply Ht in H1. apply (IH HF') in H2. cbn [mem_max put_bitmap]. rewrite app_length.
      destruct o; cbn [length]; lia.
    + destruct o; [|discriminate]. apply (IH HF') in H. cbn [mem_max put_bitmap length]. lia.
Qed.
Lemma adds_le : forall ms, Forall (fun m => bounded (snd m)) ms -> forall vs p b,
  put_adds enc ms vs p = Some b -> length vs + length b <= ads_max ms vs.
Proof.
  induction ms as [|[o t] ms IH]; intros HF [|v vs] p b H; cbn [put_adds] in H; try discriminate.
  - apply some_inv in H; subst b. cbn. lia.
  - inversion HF as [|zz l Ht HF']; subst. cbn [snd] in Ht. destruct v as [v|].
    + apply opt_inv in H as (k&Hk&H). apply opt_inv in H as (b1&H1&H). apply after_inv in H as (b2&H2&->).
      apply (IH HF') in H2. pose proof (open_le _ _ (blen t v) _ _ Hk (fun q b0 => Ht v q b0) H1) as H3.
      cbn [ads_max length]. rewrite app_length. lia.
    + apply (IH HF') in H. cbn [ads_max length]. lia.
Qed.
Definition alt_max v := fix alt (ts : list ty) (i : nat) : nat :=
  match ts, i with t :: _, O => blen t v | _ :: r, S i' => alt r i' | [], _ => 0 end.
Lemma nth_le v : forall ts, Forall bounded ts -> forall i p b, nth_put enc ts i v p = Some b -> length b <= alt_max v ts i.
Proof.
  induction ts as [|t ts IH]; intros HF [|i] p b H; cbn [nth_put] in H; try discriminate; inversion HF as [|zz l Ht HF']; subst.
  - apply Ht in H. exact H.
  - apply (IH HF') in H. exact H.
Qed.
Lemma enc_le : forall t, bounded t.
Proof.
  apply ty_ind2.
  - intros v p b H; destruct v; try discriminate. apply some_inv in H; subst b. cbn. lia.
  - intros v p b' H; destruct v; try discriminate. apply some_inv in H; subst b'. cbn. lia.
  - intros c v p b H; destruct v; try discriminate. apply int_le in H. exact H.
  - intros e r m v p b H; destruct v; try discriminate. apply enum_le in H. exact H.
  - intros c v p b H; destruct v; try discriminate. apply (sized_le _ (fun _ => 1) bit_le) in H. rewrite sum_const, Nat.mul_1_l in H. exact H.
  - intros c v p b H; destruct v; try discriminate. apply (sized_le _ (fun _ => 8) octet_le) in H. rewrite sum_const in H. exact H.
  - intros e root adds HR HA v p b H; destruct v; try discriminate. rename root0 into vr, adds0 into va. cbn [enc] in H. cbv zeta in H.
    destruct (existsb (fun b => b) (present va) && negb e); [discriminate|]. destruct (negb (length va =? length adds)) eqn:Hla; [discriminate|].
    apply after_inv in H as (b1&H&->). apply opt_inv in H as (b2&H2&H). apply after_inv in H as (b3&H3&->).
    apply (members_le _ HR) in H2.
    cbn [blen]. fold mem_max. fold ads_max. rewrite !app_length.
    assert (length (if e then [existsb (fun b => b) (present va)] else []) <= 1) by (destruct e; cbn; lia).
    destruct (existsb (fun b => b) (present va)).
    + destruct (N.of_nat (length adds) <=? 64)%N; [|discriminate]. apply after_inv in H3 as (b4&H4&->). apply (adds_le _ HA) in H4.
      rewrite app_length. cbn [length]. rewrite app_length, to_bits_len. unfold present. rewrite map_length. lia.
    + apply some_inv in H3; subst b3. cbn [length]. lia.
  - intros c t Ht v p b H; destruct v; try discriminate. apply (sized_le _ (blen t) Ht) in H. exact H.
  - intros e root more HR HM v p b H; destruct v; try discriminate. cbn [enc] in H. cbn [blen]. fold (alt_max v).
    destruct (i <? length root).
    + apply opt_inv in H as (b1&H1&H). apply after_inv in H1 as (b2&H2&->). apply after_inv in H as (b3&H3&->).
      apply whole_le in H2. apply (nth_le _ _ HR) in H3. rewrite !app_length. destruct e; cbn [length]; lia.
    + destruct e; [|discriminate]. apply opt_inv in H as (b1&H1&H). apply opt_inv in H as (o&Ho&H).
      apply after_inv in H1 as (b2&H2&->). apply after_inv in H as (b3&H3&->). apply small_le in H2.
      pose proof (open_le _ _ (alt_max v more (i - length root)) _ _ Ho (fun q b0 => nth_le v _ HM (i - length root) q b0) H3).
      rewrite !app_length. cbn [length]. lia.
Qed.
Lemma encode_le t v o : encode t v = Some o -> length o <= octs_max (blen t v).
Proof.
  intros H. apply opt_inv in H as (b&Hb&H). apply some_inv in H; subst o. apply enc_le in Hb.
  pose proof (to_octets_le b). pose proof (octs_max_mono _ _ Hb). lia.
Qed.

(* octet strings are never compressed *)
Lemma put_items_octets : forall l p b, put_items put_octet l p = Some b -> length b = 8 * length l.
Proof.
  induction l as [|a l IH]; intros p b H; cbn [put_items] in H.
  - apply some_inv in H; subst b. reflexivity.
  - apply opt_inv in H as (b1&H1&H). apply after_inv in H as (b2&H2&->). unfold put_octet in H1. destruct (is_byte a); [|discriminate].
    apply some_inv in H1; subst b1. apply IH in H2. rewrite app_length, to_bits_len. cbn [length]. lia.
Qed.
Lemma put_list_octets_ge : forall fuel l p b, put_frag put_octet fuel l p = Some b -> 8 * length l < length b.
Proof.
  induction fuel as [|f IH]; intros l p b H; cbn [put_frag] in H; cbv zeta in H.
  - destruct (N.of_nat (length l) <? 16384)%N; [|discriminate]. apply after_inv in H as (b2&H2&->). apply put_items_octets in H2.
    rewrite app_length. pose proof (pad_bits_len put_octet p (N.of_nat (length l))). lia.
  - destruct (N.of_nat (length l) <? 16384)%N eqn:E.
    + apply after_inv in H as (b2&H2&->). apply put_items_octets in H2. rewrite app_length. pose proof (pad_bits_len put_octet p (N.of_nat (length l))). lia.
    + apply opt_inv in H as (b1&H1&H). apply after_inv in H1 as (b2&H2&->). apply after_inv in H as (b3&H3&->).
      apply put_items_octets in H2. apply IH in H3. rewrite !app_length, to_bits_len. rewrite skipn_length in H3. rewrite firstn_length in H2. lia.
Qed.
