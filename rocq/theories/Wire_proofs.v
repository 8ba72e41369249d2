(* The encoder of PDUs and IE containers produces the octets of Wire_spec.v. *)
From Coq Require Import ZifyBool ZifyNat ZifyN.
From Verif Require Import Base Aper Aper_spec Aper_proofs Aper_valid Aper_len Container Container_proofs Factory Factory_spec
  Factory_len X691_proofs Wire_spec.
Ltac Zify.zify_post_hook ::= Z.div_mod_to_equations.

Lemma to_octets_octets l : l <> [] -> bytes_ok l = true -> to_octets (octets_bits l) = l.
Proof.
  intros Hne Hb. unfold to_octets. destruct (octets_bits l) as [|x b] eqn:E.
  - destruct l; [congruence|]. apply (f_equal (@length bool)) in E. rewrite octets_bits_len in E. cbn [length] in E. lia.
  - rewrite <- E. apply octets_bits_inj; [apply bits_octets_bytes|exact Hb|].
    rewrite octets_bits_octets, octets_bits_len, pad_mult, app_nil_r. reflexivity.
Qed.
Lemma to_bits_split a b v : to_bits (a + b) v = to_bits a (v / 2 ^ N.of_nat b) ++ to_bits b v.
Proof.
  induction a as [|a IH]; [reflexivity|]. cbn [Nat.add to_bits List.app]. rewrite IH. f_equal.
  rewrite <- !Ndigits.Ntestbit_Nbit, N.div_pow2_bits. f_equal. lia.
Qed.
Lemma two_octets v : to_bits 16 v = to_bits 8 (v / 256) ++ to_bits 8 (v mod 256).
Proof.
  change 16 with (8 + 8). rewrite to_bits_split. f_equal. change (v mod 256)%N with (v mod 2 ^ N.of_nat 8)%N.
  rewrite to_bits_mod; [reflexivity|lia].
Qed.
Lemma wire_len_bits n : octets_bits (wire_len n) = len_bits n.
Proof.
  unfold wire_len, len_bits. destruct (n <? 128)%N; [cbn [octets_bits flat_map]; apply app_nil_r|].
  rewrite two_octets. cbn [octets_bits flat_map]. rewrite app_nil_r. f_equal; f_equal; lia.
Qed.
Lemma wire_len_bytes n : (n < 16384)%N -> bytes_ok (wire_len n) = true.
Proof.
  intros Hn. unfold wire_len. destruct (n <? 128)%N eqn:E; cbn [bytes_ok forallb]; unfold is_byte; lia.
Qed.
Lemma put_octets_bits : forall o p b, put_items put_octet o p = Some b -> b = octets_bits o /\ bytes_ok o = true.
Proof.
  intros o p b H. apply (items_agree X691.octet put_octet o (fun a _ => octet_agree a)) in H. apply items_octets in H. tauto.
Qed.
Lemma open_octets o p b : (N.of_nat (length o) < 16384)%N -> put_list put_octet o p = Some b ->
  b = pad p ++ octets_bits (wire_len (N.of_nat (length o)) ++ o) /\ bytes_ok o = true.
Proof.
  intros Hn H. unfold put_list in H.
  assert (Ha : after p (pad p ++ len_bits (N.of_nat (length o))) (put_items put_octet o) = Some b).
  { revert H. generalize (length o) at 1. intros [|f]; cbn [put_frag]; cbv zeta; replace (N.of_nat (length o) <? 16384)%N with true by lia; auto. }
  apply after_inv in Ha as (b2&H2&->). apply put_octets_bits in H2 as [-> Hb]. split; [|exact Hb].
  rewrite octets_bits_app, wire_len_bits, app_assoc. reflexivity.
Qed.
Lemma crit_bits c p b : enc (TEnum false [0; 1; 2]%Z []) (VEnum c) p = Some b ->
  (c = 0 \/ c = 1 \/ c = 2)%Z /\ b = to_bits 2 (Z.to_N c).
Proof.
  cbn [enc]. unfold put_enum. cbn [index_of].
  destruct (0 =? c)%Z eqn:E0; [|destruct (1 =? c)%Z eqn:E1; [|destruct (2 =? c)%Z eqn:E2; [|discriminate]]];
    [assert (c = 0%Z) by lia|assert (c = 1%Z) by lia|assert (c = 2%Z) by lia]; subst c; intros H; vm_compute in H;
    (split; [lia|]); apply some_inv in H; subst b; reflexivity.
Qed.
(* as Factory_len.trip_parts, with the bits of the criticality *)
Lemma trip_bits ub id c o p b : (0 <= ub)%Z -> enc (trip ub) (VSeq [Some (VInt id); Some (VEnum c); Some (VOcts o)] []) p = Some b ->
  exists b1 b3, b = b1 ++ to_bits 2 (Z.to_N c) ++ b3 /\ put_whole (Z.to_N (ub + 1)) (Z.to_N id) p = Some b1 /\
    (c = 0 \/ c = 1 \/ c = 2)%Z /\ (0 <= id <= ub)%Z /\ put_list put_octet o (p + length b1 + 2) = Some b3.
Proof.
  intros Hub H. unfold trip in H. cbn [enc present map existsb andb negb length Nat.eqb put_bitmap app] in H.
  apply after_inv in H as (x&H&->). apply opt_inv in H as (y&H&H'). apply after_inv in H' as (z&Hz&->). apply some_inv in Hz. subst z.
  rewrite !app_nil_r. cbn [app length] in *. rewrite Nat.add_0_r in H.
  cbn [put_members] in H. apply opt_inv in H as (b1&H1&H). apply after_inv in H as (u&H&->).
  apply opt_inv in H as (b2&H2&H). apply after_inv in H as (v&H&->).
  apply opt_inv in H as (b3&H3&H). apply after_inv in H as (w&H&->). apply some_inv in H. subst w.
  destruct (crit_bits _ _ _ H2) as [Hc ->]. rewrite to_bits_len in H3. exists b1, b3. rewrite !app_nil_r.
  split; [reflexivity|].
  cbn [enc put_int c_ext] in H1. unfold put_con in H1. destruct (in_con _ id) eqn:E; [|discriminate]. cbn [c_lb] in H1.
  unfold in_con in E. cbn [c_lb c_ub] in E.
  unfold con_range in H1. cbn [c_lb c_ub] in H1. rewrite !Z.sub_0_r in H1. split; [exact H1|]. split; [exact Hc|]. split; [lia|exact H3].
Qed.
Lemma crit_octet c : (c = 0 \/ c = 1 \/ c = 2)%Z -> to_bits 2 (Z.to_N c) ++ repeat false 6 = to_bits 8 (64 * Z.to_N c).
Proof. intros [-> | [-> | ->]]; reflexivity. Qed.
Lemma pad_mod p n : (p + n) mod 8 = 0 -> n < 8 -> pad p = repeat false n.
Proof. intros H Hn. unfold pad. f_equal. unfold pad_len. lia. Qed.
Definition ie_val (id : N) (c : Z) (o : list N) : val := VSeq [Some (VInt (Z.of_N id)); Some (VEnum c); Some (VOcts o)] [].
Lemma ie_wire id c o p b : p mod 8 = 0 -> (N.of_nat (length o) < 16384)%N -> enc (trip 65535) (ie_val id c o) p = Some b ->
  b = octets_bits (wire_ie (id, Z.to_N c, o)) /\ bytes_ok (wire_ie (id, Z.to_N c, o)) = true.
Proof.
  intros Hp Hn H. destruct (trip_bits 65535 _ c o p b ltac:(lia) H) as (b1&b3&->&H1&Hc&Hid&H3).
  unfold put_whole in H1. rewrite N2Z.id in H1. destruct (_ <? _)%N; [|discriminate].
  change (Z.to_N (65535 + 1) <=? 255)%N with false in H1. change (Z.to_N (65535 + 1) =? 256)%N with false in H1.
  change (Z.to_N (65535 + 1) <=? 65536)%N with true in H1. cbv iota in H1. sinj H1.
  rewrite (pad_mod p 0) in * by lia. cbn [repeat List.app] in *. rewrite to_bits_len in H3.
  apply open_octets in H3 as [-> Ho]; [|exact Hn]. rewrite (pad_mod (p + 16 + 2) 6) by lia.
  cbn [wire_ie]. rewrite two_octets. rewrite (app_assoc (to_bits 2 _)), (crit_octet c Hc).
  split.
  - cbn [List.app]. rewrite !octets_bits_cons, <- !app_assoc. reflexivity.
  - unfold bytes_ok. rewrite !forallb_app. fold (bytes_ok (wire_len (N.of_nat (length o)))). fold (bytes_ok o). rewrite Ho, wire_len_bytes by exact Hn.
    cbn [forallb]. unfold is_byte. destruct Hc as [-> | [-> | ->]]; lia.
Qed.
Lemma items_wire : forall l p b, p mod 8 = 0 -> (forall id c o, In (id, c, o) l -> (N.of_nat (length o) < 16384)%N) ->
  put_items (fun v p => enc std_ie v p) (map (fun x => ie_val (fst (fst x)) (snd (fst x)) (snd x)) l) p = Some b ->
  let w := flat_map wire_ie (map (fun x => (fst (fst x), Z.to_N (snd (fst x)), snd x)) l) in
  b = octets_bits w /\ bytes_ok w = true.
Proof.
  induction l as [|[[id c] o] l IH]; intros p b Hp Hn H; cbn [map put_items fst snd flat_map] in *.
  - sinj H. split; reflexivity.
  - apply opt_inv in H as (b1&H1&H). apply after_inv in H as (b2&H2&->).
    destruct (ie_wire id c o p b1 Hp (Hn _ _ _ (or_introl eq_refl)) H1) as [-> B1].
    rewrite octets_bits_len in H2.
    assert (Hq : (p + 8 * length (wire_ie (id, Z.to_N c, o))) mod 8 = 0) by lia.
    destruct (IH _ _ Hq (fun i k x h => Hn i k x (or_intror h)) H2) as [-> B2].
    split; [rewrite octets_bits_app; reflexivity|]. unfold bytes_ok in *. rewrite forallb_app, B1, B2. reflexivity.
Qed.
Lemma cont_wire l o : (forall id c x, In (id, c, x) l -> (N.of_nat (length x) < 16384)%N) ->
  encode std_cont (list_val (map (fun x => ie_val (fst (fst x)) (snd (fst x)) (snd x)) l)) = Some o ->
  o = wire_body (map (fun x => (fst (fst x), Z.to_N (snd (fst x)), snd x)) l).
Proof.
  intros Hf H. unfold encode in H. apply opt_inv in H as (x&H&Hx). apply some_inv in Hx; subst o.
  unfold std_cont, list_val in H. cbn [enc present map existsb andb negb length Nat.eqb put_bitmap app] in H.
  apply after_inv in H as (x1&H&->). apply opt_inv in H as (y&H&H'). apply after_inv in H' as (z&Hz&->). apply some_inv in Hz. subst z.
  cbn [length] in H. cbn [put_members] in H. apply opt_inv in H as (b1&H1&H). apply after_inv in H as (u&Hu&->). apply some_inv in Hu. subst u.
  rewrite !app_nil_r. cbn [enc] in H1. unfold put_sized in H1. cbn [c_ext] in H1. unfold put_root in H1.
  rewrite map_length in H1.
  destruct (in_con _ _) eqn:Hin; [|discriminate]. unfold in_con in Hin. cbn [c_lb c_ub] in Hin.
  cbn [c_ub] in H1. change ((65535 <? 65536)%Z) with true in H1. cbv iota in H1.
  apply opt_inv in H1 as (b2&H2&H1). cbn [aligns] in H1. apply after_inv in H1 as (b3&H3&->).
  unfold put_whole in H2. cbn [con_range c_lb c_ub] in H2. destruct (_ <? _)%N; [|discriminate].
  change (Z.to_N (65535 - 0 + 1) <=? 255)%N with false in H2. change (Z.to_N (65535 - 0 + 1) =? 256)%N with false in H2.
  change (Z.to_N (65535 - 0 + 1) <=? 65536)%N with true in H2. cbv iota in H2. sinj H2.
  rewrite app_length, to_bits_len in H3. change (length (pad (0 + 1))) with 7 in H3. change (0 + 1 + (7 + 16)) with 24 in H3.
  destruct (items_wire l 24 b3 eq_refl Hf H3) as [-> Hb]. change (pad (0 + 1)) with (repeat false 7).
  set (w := flat_map wire_ie _) in *. set (n := N.of_nat (length l)).
  replace (Z.to_N (Z.of_nat (length l) - 0)) with n by lia. rewrite two_octets.
  unfold wire_body. rewrite map_length. fold n w.
  replace ([false] ++ (repeat false 7 ++ to_bits 8 (n / 256) ++ to_bits 8 (n mod 256)) ++ octets_bits w)
    with (octets_bits ([0; n / 256; n mod 256]%N ++ w)).
  - apply to_octets_octets; [discriminate|]. unfold bytes_ok in *. rewrite forallb_app, Hb. cbn [forallb]. unfold is_byte. subst n. lia.
  - cbn [List.app]. rewrite !octets_bits_cons, <- !app_assoc. reflexivity.
Qed.
Lemma pdu_wire P d p c o b : is_std (p_pdu P) -> (1 <= d)%N -> (N.of_nat (length o) < 16384)%N ->
  encode (p_pdu P) (pdu_val d p c o) = Some b -> b = wire_pdu d p (Z.to_N c) o.
Proof.
  intros (k&Hk&->) Hd1 Hn H. unfold encode in H. apply opt_inv in H as (x&H&Hx). apply some_inv in Hx; subst b.
  unfold pdu_val in H. cbn [enc] in H. rewrite repeat_length in H.
  destruct (N.to_nat d - 1 <? k) eqn:Hd.
  2:{ apply opt_inv in H as (u&_&H). apply opt_inv in H as (w&H&_). unfold complete in H. destruct (N.to_nat d - 1 - k); cbn [nth_put] in H; discriminate. }
  apply opt_inv in H as (b1&H1&H). apply after_inv in H as (b2&H2&->). rewrite nth_put_repeat in H2 by lia.
  apply after_inv in H1 as (b3&H3&->).
  assert (Hb3 : b3 = to_bits 2 (d - 1)).
  { unfold put_whole in H3. destruct (_ <? _)%N; [|discriminate]. replace (N.of_nat k <=? 255)%N with true in H3 by lia. sinj H3.
    replace (N.of_nat (N.to_nat d - 1)) with (d - 1)%N by lia. destruct Hk as [-> | ->]; reflexivity. }
  subst b3. clear H3. cbn [app length] in H2. rewrite to_bits_len in H2.
  destruct (trip_bits 255 (Z.of_N p) c o _ _ ltac:(lia) H2) as (c1&c3&->&C1&Hc&Hp&C3).
  unfold put_whole in C1. destruct (_ <? _)%N; [|discriminate]. rewrite N2Z.id in C1.
  change (Z.to_N (255 + 1) <=? 255)%N with false in C1. change (Z.to_N (255 + 1) =? 256)%N with true in C1. cbv iota in C1. sinj C1.
  change (pad (0 + 3)) with (repeat false 5) in *. rewrite app_length, to_bits_len in C3.
  change (0 + 3 + (length (repeat false 5) + 8) + 2) with 18 in C3.
  apply open_octets in C3 as [-> Ho]; [|exact Hn]. change (pad 18) with (repeat false 6).
  unfold wire_pdu.
  replace (([false] ++ to_bits 2 (d - 1)) ++ (repeat false 5 ++ to_bits 8 p) ++ to_bits 2 (Z.to_N c) ++ repeat false 6 ++
     octets_bits (wire_len (N.of_nat (length o)) ++ o)) with
    (octets_bits ([32 * (d - 1); p; 64 * Z.to_N c]%N ++ wire_len (N.of_nat (length o)) ++ o)).
  - apply to_octets_octets; [discriminate|]. unfold bytes_ok in *. rewrite !forallb_app, Ho.
    fold (bytes_ok (wire_len (N.of_nat (length o)))). rewrite wire_len_bytes by exact Hn. cbn [forallb]. unfold is_byte.
    destruct Hc as [-> | [-> | ->]]; lia.
  - rewrite (app_assoc (to_bits 2 (Z.to_N c))), (crit_octet c Hc). cbn [List.app]. rewrite !octets_bits_cons, <- !app_assoc.
    assert (Hd4 : (d = 1 \/ d = 2 \/ d = 3 \/ d = 4)%N) by lia. destruct Hd4 as [-> | [-> | [-> | ->]]]; reflexivity.
Qed.
