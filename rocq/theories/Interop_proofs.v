(* Bodies and lists of the unabridged grammar, read and written by the compiled one. *)
From Verif Require Import Base Aper Aper_spec Aper_proofs Aper_valid Container Container_proofs
  X691 X691_proofs AllMsgs Interop_spec.
From Verif Require RanapTypes Asn1_proofs Aper_len.
From Coq Require Import ZifyBool ZifyNat ZifyN.
Local Open Scope list_scope.

(* a container starting inside the first octet is the rest of that octet, then
   what it is at the second octet *)
Lemma container_from l p : 1 <= p <= 8 ->
  enc container (VList l) p = match enc container (VList l) 8 with Some b => Some (pad p ++ b) | None => None end.
Proof.
  intros Hp. cbn [enc container]. unfold put_sized. cbn [c_ext]. unfold put_root.
  destruct (in_con (mkCon false 0 65535) (Z.of_nat (length l))); [|reflexivity].
  cbn [c_ub c_lb]. change (65535 <? 65536)%Z with true. cbv iota.
  unfold aligns. cbv zeta iota.
  unfold put_whole. change (con_range (mkCon false 0 65535)) with 65536%N.
  destruct (Z.to_N (Z.of_nat (length l) - 0) <? 65536)%N; [|reflexivity].
  change (65536 <=? 255)%N with false. change (65536 =? 256)%N with false. change (65536 <=? 65536)%N with true.
  cbv iota. cbn [obind2]. unfold after.
  assert (Hl : p + length (pad p ++ to_bits 16 (Z.to_N (Z.of_nat (length l) - 0))) =
               8 + length (pad 8 ++ to_bits 16 (Z.to_N (Z.of_nat (length l) - 0)))).
  { rewrite !app_length, !to_bits_len. unfold pad. rewrite !repeat_length.
    assert (E : p + pad_len p = 8).
    { unfold pad_len. destruct p as [|[|[|[|[|[|[|[|[|p]]]]]]]]]; try reflexivity; lia. }
    change (pad_len 8) with 0. lia. }
  rewrite Hl. change (pad 8) with (@nil bool). cbn [List.app].
  match goal with |- match ?x with _ => _ end = _ => destruct x as [b'|]; [|reflexivity] end.
  rewrite <- app_assoc. reflexivity.
Qed.

(* what is read does not depend on the seven filler bits, nor on what follows *)
Lemma compiled_reads l b seven rest : length seven = 7 -> enc container (VList l) 8 = Some b ->
  dec compiled 0 (false :: seven ++ b ++ rest) = Some (compiled_value l, 8 + length b, rest).
Proof.
  intros Hs Hb.
  assert (Ha : dec container 1 (seven ++ b ++ rest) = dec container 8 (b ++ rest)).
  { cbn [dec container]. unfold get_sized. cbn [c_ext]. unfold get_root. cbn [c_ub c_lb].
    change (65535 <? 65536)%Z with true. cbv iota. unfold aligns.
    unfold get_whole. change (con_range (mkCon false 0 65535)) with 65536%N.
    change (65536 <=? 255)%N with false. change (65536 =? 256)%N with false. change (65536 <=? 65536)%N with true.
    cbv iota. unfold dbind, get_align, dret, get_raw. cbv beta.
    unfold dbind. change (pad_len 1) with 7. change (pad_len 8) with 0.
    rewrite <- Hs. rewrite take_app. cbn [take]. rewrite Hs. reflexivity. }
  cbn [compiled dec]. unfold get_ext, dbind, get_bit, get_raw, dret. cbn [take get_bitmap].
  unfold dbind, dret. cbv beta iota. cbn [get_members]. unfold dbind, dret.
  change (0 + 1) with 1. fold container. fold (dec container). rewrite Ha.
  rewrite (round_trip container _ _ _ Hb rest). reflexivity.
Qed.

Lemma octets_of_bits x b : octets_bits (to_octets (x :: b)) = (x :: b) ++ pad (length (x :: b)).
Proof. unfold to_octets. apply octets_bits_octets. Qed.

Lemma body_compiled ies ext o rest : encode message_body (body_value ies ext) = Some o ->
  decode compiled (o ++ rest) = Some (compiled_value ies).
Proof.
  intros H. unfold encode, complete in H. apply opt_inv in H as (b&Hb&H). apply some_inv in H; subst o.
  cbn [message_body body_value enc] in Hb. cbv zeta in Hb. cbn [present map existsb length negb andb Nat.eqb] in Hb.
  apply after_inv in Hb as (b1&Hb&->). apply opt_inv in Hb as (b2&H2&Hb). apply after_inv in Hb as (b3&H3&->).
  assert (Hx : exists x, put_bitmap [(false, container); (true, extensions)] [Some (VList ies); option_map VList ext] = [x]).
  { destruct ext; eexists; reflexivity. }
  destruct Hx as (x&Hx). rewrite Hx in H2 |- *. cbn [List.app length Nat.add] in H2 |- *.
  cbn [put_members] in H2. apply opt_inv in H2 as (c&Hc&H2). apply after_inv in H2 as (d&Hd&->).
  fold (enc container) in Hc. rewrite container_from in Hc by lia.
  destruct (enc container (VList ies) 8) as [c8|] eqn:E8; [|discriminate]. apply some_inv in Hc; subst c.
  unfold decode, of_octets. rewrite octets_bits_app, octets_of_bits.
  cbn [List.app]. 
  change (pad 2) with (repeat false 6).
  match goal with |- context [dec compiled 0 ?l] =>
    assert (El : exists r, l = false :: (x :: repeat false 6) ++ c8 ++ r) end.
  { eexists. cbn [List.app repeat]. do 8 f_equal. rewrite <- !app_assoc. reflexivity. }
  destruct El as (r&->). rewrite (compiled_reads ies c8 (x :: repeat false 6) r eq_refl E8). reflexivity.
Qed.

Lemma body_same ies : encode compiled (compiled_value ies) = encode message_body (body_value ies None).
Proof.
  unfold encode, complete. cbn [message_body compiled compiled_value body_value option_map enc]. cbv zeta.
  cbn [present map existsb length negb andb Nat.eqb]. cbn [put_bitmap List.app put_members].
  fold (enc container). unfold after at 1 4. cbn [length Nat.add].
  rewrite (container_from ies 1), (container_from ies 2) by lia.
  destruct (enc container (VList ies) 8) as [c8|]; [|reflexivity].
  cbn [obind2]. unfold after. cbn [length Nat.add]. cbn [obind2 List.app]. 
  rewrite ?app_nil_r. change (pad 1) with (repeat false 7). change (pad 2) with (repeat false 6).
  cbn [repeat List.app]. rewrite ?app_nil_r. reflexivity.
Qed.

Lemma size_small max k : (2 <= max <= 256)%Z -> (2 * k < Z.to_N max)%N ->
  exists seven, (exists h, put_whole (con_range (mkCon false 1 max)) k 0 = Some h /\
    1 <= length h <= 8 /\ h ++ pad (length h) = false :: seven /\ length seven = 7 /\
    (k = 0%N -> seven = repeat false 7)).
Proof.
  intros Hm Hk. unfold con_range. cbn [c_ub c_lb].
  replace (Z.to_N (max - 1 + 1)) with (Z.to_N max) by lia.
  assert (Hall : forallb (fun m => forallb (fun k =>
     match put_whole m k 0 with
     | Some h => (1 <=? length h) && (length h <=? 8) &&
        match h ++ pad (length h) with
        | false :: seven => (length seven =? 7) && (negb (k =? 0)%N || forallb negb seven)
        | _ => false end
     | None => false end)
     (filter (fun k => 2 * k <? m)%N (map N.of_nat (List.seq 0 128)))) (map N.of_nat (List.seq 2 255)) = true)
    by (vm_compute; reflexivity).
  rewrite forallb_forall in Hall. specialize (Hall (Z.to_N max)).
  assert (Hin : In (Z.to_N max) (map N.of_nat (List.seq 2 255))).
  { apply in_map_iff. exists (Z.to_nat max). split; [lia|]. apply in_seq. lia. }
  specialize (Hall Hin). rewrite forallb_forall in Hall. specialize (Hall k).
  assert (Hin2 : In k (filter (fun k => 2 * k <? Z.to_N max)%N (map N.of_nat (List.seq 0 128)))).
  { apply filter_In. split; [|apply N.ltb_lt; exact Hk]. apply in_map_iff. exists (N.to_nat k). split; [lia|].
    apply in_seq. lia. }
  specialize (Hall Hin2). cbv beta in Hall.
  destruct (put_whole (Z.to_N max) k 0) as [h|] eqn:Eh; [|discriminate].
  apply andb_prop in Hall as [H1 H2]. apply andb_prop in H1 as [H0 H1].
  destruct (h ++ pad (length h)) as [|[|] seven] eqn:Es; try discriminate.
  apply andb_prop in H2 as [H2 H3]. exists seven, h. split; [reflexivity|]. split; [lia|]. split; [exact Es|].
  split; [lia|]. intros ->. cbn [N.eqb negb orb] in H3. apply Nat.eqb_eq in H2. clear - H2 H3.
  rewrite <- H2. clear H2. induction seven as [|a s IH]; [reflexivity|]. cbn [forallb] in H3.
  apply andb_prop in H3 as [Ha H3]. destruct a; [discriminate|]. cbn [length repeat]. f_equal. apply IH, H3.
Qed.

(* the first container of a list *)
Lemma list_bits max l more b : (2 <= max <= 256)%Z -> (2 * Z.of_nat (length more) < max)%Z ->
  enc (container_list max) (VList (VList l :: more)) 0 = Some b ->
  exists seven c8 r, b = false :: seven ++ c8 ++ r /\ length seven = 7 /\ enc container (VList l) 8 = Some c8 /\
    (more = [] -> seven = repeat false 7 /\ r = []).
Proof.
  intros Hm Hk H. cbn [container_list enc] in H. unfold put_sized in H. cbn [c_ext] in H. unfold put_root in H.
  destruct (in_con (mkCon false 1 max) (Z.of_nat (length (VList l :: more)))) eqn:Ein; [|discriminate].
  cbn [c_ub] in H. replace (max <? 65536)%Z with true in H by lia. unfold aligns in H. cbv zeta iota in H.
  replace (Z.to_N (Z.of_nat (length (VList l :: more)) - c_lb (mkCon false 1 max))) with (N.of_nat (length more)) in H
    by (cbn [length c_lb]; lia).
  assert (Hk2 : (2 * N.of_nat (length more) < Z.to_N max)%N) by lia.
  destruct (size_small max (N.of_nat (length more)) Hm Hk2) as (seven & h & Eh & Hh & Es & H7 & H0).
  rewrite Eh in H. cbn [obind2] in H. apply after_inv in H as (b'&Hb'&->).
  cbn [put_items] in Hb'. apply opt_inv in Hb' as (c&Hc&Hb'). apply after_inv in Hb' as (d&Hd&->).
  cbn [Nat.add] in Hc. fold (enc container) in Hc. cbv beta in Hc.
  change (enc container (VList l) (length h) = Some c) in Hc. rewrite container_from in Hc by lia.
  destruct (enc container (VList l) 8) as [c8|] eqn:E8; [|discriminate]. apply some_inv in Hc; subst c.
  exists seven, c8, d. split; [|split; [exact H7|split; [reflexivity|]]].
  - rewrite !app_assoc. rewrite Es. reflexivity.
  - intros ->. split; [apply H0; reflexivity|]. cbn [put_items] in Hd. apply some_inv in Hd. symmetry. exact Hd.
Qed.

Lemma list_first max l more o rest : (2 <= max <= 256)%Z -> (2 * Z.of_nat (length more) < max)%Z ->
  encode (container_list max) (VList (VList l :: more)) = Some o ->
  decode compiled (o ++ rest) = Some (compiled_value l).
Proof.
  intros Hm Hk H. unfold encode, complete in H. apply opt_inv in H as (b&Hb&H). apply some_inv in H; subst o.
  destruct (list_bits max l more b Hm Hk Hb) as (seven&c8&r&->&H7&E8&_).
  unfold decode, of_octets. rewrite octets_bits_app, octets_of_bits. cbn [List.app].
  match goal with |- context [dec compiled 0 ?x] => assert (El : exists r', x = false :: seven ++ c8 ++ r') end.
  { eexists. rewrite <- !app_assoc. reflexivity. }
  destruct El as (r'&->). rewrite (compiled_reads l c8 seven r' H7 E8). reflexivity.
Qed.

Lemma list_one max l : (2 <= max <= 256)%Z ->
  encode (container_list max) (VList [VList l]) = encode compiled (compiled_value l).
Proof.
  intros Hm. unfold encode, complete.
  assert (Hc : enc compiled (compiled_value l) 0 =
    match enc container (VList l) 8 with Some c8 => Some (false :: repeat false 7 ++ c8) | None => None end).
  { cbn [compiled compiled_value enc]. cbv zeta.
    cbn [present map existsb length negb andb Nat.eqb]. cbn [put_bitmap List.app put_members].
    fold (enc container). unfold after at 1. cbn [length Nat.add]. rewrite (container_from l 1) by lia.
    destruct (enc container (VList l) 8) as [c8|]; [|reflexivity].
    cbn [obind2]. unfold after. cbn [obind2 List.app]. change (pad 1) with (repeat false 7).
    rewrite ?app_nil_r. reflexivity. }
  rewrite Hc.
  destruct (enc (container_list max) (VList [VList l]) 0) as [b|] eqn:E.
  - destruct (list_bits max l [] b Hm ltac:(cbn [length]; lia) E) as (seven&c8&r&->&_&E8&H0).
    rewrite E8. destruct (H0 eq_refl) as [-> ->]. rewrite app_nil_r. reflexivity.
  - destruct (enc container (VList l) 8) as [c8|] eqn:E8; [|reflexivity]. exfalso.
    cbn [container_list enc] in E. unfold put_sized in E. cbn [c_ext] in E. unfold put_root in E.
    replace (in_con (mkCon false 1 max) (Z.of_nat (length [VList l]))) with true in E
      by (unfold in_con; cbn [c_lb c_ub length]; lia).
    cbn [c_ub] in E. replace (max <? 65536)%Z with true in E by lia. unfold aligns in E. cbv zeta iota in E.
    change (Z.to_N (Z.of_nat (length [VList l]) - c_lb (mkCon false 1 max))) with 0%N in E.
    assert (Hk2 : (2 * 0 < Z.to_N max)%N) by lia.
    destruct (size_small max 0 Hm Hk2) as (seven & h & Eh & Hh & Es & H7 & _).
    rewrite Eh in E. cbn [obind2] in E. unfold after in E. cbn [put_items Nat.add] in E.
    change ((fun v p => enc container v p) (VList l) (length h)) with (enc container (VList l) (length h)) in E.
    cbv beta in E. rewrite container_from, E8 in E by lia. cbn [obind2] in E. unfold after in E. discriminate.
Qed.

(* ---------------- messages ---------------- *)
Lemma cont_compiled m : In m all_msgs -> m_cont m = compiled.
Proof. exact (all_cont m). Qed.
Lemma lists_compiled : forall name max, In (name, max) lists ->
  (2 <= max <= 256)%Z /\ In (name, compiled) RanapTypes.ranap_types.
Proof.
  assert (H : Forall (fun nm => (2 <= snd nm <= 256)%Z /\ In (fst nm, compiled) RanapTypes.ranap_types) lists).
  { assert (E : lists = ltac:(let x := eval vm_compute in lists in exact x)) by (vm_compute; reflexivity). rewrite E. repeat (constructor; [split; [cbn [snd]; lia|apply Asn1_proofs.lookup_in; vm_compute; reflexivity]|]).
    constructor. }
  rewrite Forall_forall in H. intros name max Hin. exact (H _ Hin).
Qed.

(* ---------------- lists of any length ---------------- *)
Lemma pad_ends p : (p + length (pad p)) mod 8 = 0.
Proof. unfold pad, pad_len. rewrite repeat_length. lia. Qed.
Lemma pad_none p : p mod 8 = 0 -> pad p = [].
Proof. intros H. unfold pad, pad_len. rewrite H. reflexivity. Qed.
Lemma frag_ends : forall fuel l p b, put_frag put_octet fuel l p = Some b -> (p + length b) mod 8 = 0.
Proof.
  induction fuel as [|f IH]; intros l p b H; cbn [put_frag] in H; cbv zeta in H;
    destruct (N.of_nat (length l) <? 16384)%N eqn:E; try discriminate.
  1,2: apply after_inv in H as (b'&H&->); apply Aper_len.put_items_octets in H; rewrite !app_length, H;
    pose proof (pad_ends p); unfold len_bits; destruct (N.of_nat (length l) <? 128)%N; cbn [length List.app]; rewrite ?to_bits_len; lia.
  apply opt_inv in H as (b1&H1&H). apply after_inv in H as (b2&H2&->). apply IH in H2. rewrite app_length. lia.
Qed.
Lemma field_ends v p b : enc field v p = Some b -> (p + length b) mod 8 = 0.
Proof.
  intros H. unfold field in H. cbn [enc] in H. destruct v as [| | | | | |vr va| |]; try discriminate. cbv zeta in H.
  destruct va as [|a va].
  2:{ cbn [length Nat.eqb negb] in H. repeat match type of H with context [if ?x then _ else _] => destruct x; try discriminate end. }
  cbn [present map existsb length Nat.eqb negb andb] in H.
  destruct vr as [|v1 [|v2 [|v3 [|v4 vr]]]];
    cbn [put_bitmap List.app put_members] in H.
  all: try (apply after_inv in H as (x&H&->); apply opt_inv in H as (y&H&H'); apply after_inv in H' as (z&Hz&->); apply some_inv in Hz; subst z).
  all: repeat match type of H with context [match ?v with Some _ => _ | None => _ end] => is_var v; destruct v; try discriminate H end.
  all: repeat match type of H with
    | obind2 _ _ = Some _ => apply opt_inv in H as (?&?&H)
    | after _ _ _ = Some _ => apply after_inv in H as (?&H&->)
    end.
  all: try discriminate H.
  cbn [enc] in H2. destruct v1; try discriminate. cbn [put_sized] in H2. unfold put_list in H2. apply frag_ends in H2.
  apply some_inv in H. subst x3. rewrite ?app_nil_r. cbn [List.app length] in *. rewrite !app_length. lia.
Qed.
Lemma items_end : forall l p b, p mod 8 = 0 -> put_items (fun v p => enc field v p) l p = Some b -> (p + length b) mod 8 = 0.
Proof.
  induction l as [|v l IH]; intros p b Hp H; cbn [put_items] in H.
  - apply some_inv in H; subst b. cbn [length]. lia.
  - apply opt_inv in H as (b1&H1&H). apply after_inv in H as (b2&H2&->). apply field_ends in H1.
    apply IH in H2; [|exact H1]. rewrite app_length. lia.
Qed.
(* at the beginning of an octet: two octets with the number, then the elements *)
Lemma container_at l p b : p mod 8 = 0 -> enc container (VList l) p = Some b ->
  exists r, b = to_bits 16 (N.of_nat (length l)) ++ r /\ (p + length b) mod 8 = 0.
Proof.
  intros Hp H. cbn [enc container] in H. unfold put_sized in H. cbn [c_ext] in H. unfold put_root in H.
  destruct (in_con (mkCon false 0 65535) (Z.of_nat (length l))); [|discriminate].
  cbn [c_ub c_lb] in H. change (65535 <? 65536)%Z with true in H. cbv iota in H.
  unfold aligns in H. cbv zeta iota in H.
  unfold put_whole in H. change (con_range (mkCon false 0 65535)) with 65536%N in H.
  destruct (Z.to_N (Z.of_nat (length l) - 0) <? 65536)%N; [|discriminate].
  change (65536 <=? 255)%N with false in H. change (65536 =? 256)%N with false in H. change (65536 <=? 65536)%N with true in H.
  cbv iota in H. cbn [obind2] in H. rewrite (pad_none p Hp) in H. cbn [List.app] in H.
  apply after_inv in H as (r&H&->). exists r. split; [do 2 f_equal; lia|].
  rewrite to_bits_len in H. apply items_end in H; [|lia]. rewrite app_length, to_bits_len. lia.
Qed.

Lemma compiled_reads_ext l b seven rest : length seven = 7 -> enc container (VList l) 8 = Some b ->
  dec compiled 0 (true :: seven ++ b ++ repeat false 8 ++ rest) = Some (compiled_value l, 8 + length b + 8, rest).
Proof.
  intros Hs Hb.
  assert (Ha : dec container 1 (seven ++ b ++ repeat false 8 ++ rest) = dec container 8 (b ++ repeat false 8 ++ rest)).
  { cbn [dec container]. unfold get_sized. cbn [c_ext]. unfold get_root. cbn [c_ub c_lb].
    change (65535 <? 65536)%Z with true. cbv iota. unfold aligns.
    unfold get_whole. change (con_range (mkCon false 0 65535)) with 65536%N.
    change (65536 <=? 255)%N with false. change (65536 =? 256)%N with false. change (65536 <=? 65536)%N with true.
    cbv iota. unfold dbind, get_align, dret, get_raw. cbv beta.
    unfold dbind. change (pad_len 1) with 7. change (pad_len 8) with 0.
    rewrite <- Hs. rewrite take_app. cbn [take]. rewrite Hs. reflexivity. }
  cbn [compiled dec]. unfold get_ext, dbind, get_bit, get_raw, dret. cbn [take get_bitmap].
  unfold dbind, dret. cbv beta iota. cbn [get_members]. unfold dbind, dret.
  change (0 + 1) with 1. fold container. fold (dec container). rewrite Ha.
  rewrite (round_trip container _ _ _ Hb (repeat false 8 ++ rest)).
  cbn [repeat List.app take]. unfold get_bits, dbind, dret, get_raw. cbn [take from_bits N.to_nat Nat.add].
  unfold dbind, dret. cbn. do 3 f_equal. lia.
Qed.

Lemma size_all max k : (2 <= max <= 256)%Z -> (k < Z.to_N max)%N ->
  exists h x seven, put_whole (con_range (mkCon false 1 max)) k 0 = Some h /\ 1 <= length h <= 8 /\ h ++ pad (length h) = x :: seven /\ length seven = 7.
Proof.
  intros Hm Hk. unfold con_range. cbn [c_ub c_lb].
  replace (Z.to_N (max - 1 + 1)) with (Z.to_N max) by lia.
  assert (Hall : forallb (fun m => forallb (fun k =>
     match put_whole m k 0 with
     | Some h => (1 <=? length h) && (length h <=? 8) &&
        match h ++ pad (length h) with
        | x :: seven => length seven =? 7
        | _ => false end
     | None => false end)
     (filter (fun k => k <? m)%N (map N.of_nat (List.seq 0 256)))) (map N.of_nat (List.seq 2 255)) = true)
    by (vm_compute; reflexivity).
  rewrite forallb_forall in Hall. specialize (Hall (Z.to_N max)).
  assert (Hin : In (Z.to_N max) (map N.of_nat (List.seq 2 255))).
  { apply in_map_iff. exists (Z.to_nat max). split; [lia|]. apply in_seq. lia. }
  specialize (Hall Hin). rewrite forallb_forall in Hall. specialize (Hall k).
  assert (Hin2 : In k (filter (fun k => k <? Z.to_N max)%N (map N.of_nat (List.seq 0 256)))).
  { apply filter_In. split; [|apply N.ltb_lt; exact Hk]. apply in_map_iff. exists (N.to_nat k). split; [lia|].
    apply in_seq. lia. }
  specialize (Hall Hin2). cbv beta in Hall.
  destruct (put_whole (Z.to_N max) k 0) as [h|] eqn:Eh; [|discriminate].
  apply andb_prop in Hall as [H1 H2]. apply andb_prop in H1 as [H0 H1].
  destruct (h ++ pad (length h)) as [|x seven] eqn:Es; try discriminate.
  exists h, x, seven. split; [reflexivity|]. split; [lia|]. split; [exact Es|lia].
Qed.

(* whatever the number of elements, only the first is read *)
Lemma list_first_any max ie more o rest : (2 <= max <= 256)%Z ->
  encode (container_list max) (list_value (ie :: more)) = Some o ->
  decode compiled (o ++ rest) = Some (compiled_value [ie]).
Proof.
  intros Hm H. destruct more as [|ie2 more].
  { eapply list_first; [exact Hm| |exact H]. cbn [map length]. lia. }
  unfold encode, complete in H. apply opt_inv in H as (b&H&Ho). apply some_inv in Ho; subst o.
  unfold list_value in H. cbn [map] in H. set (m := map (fun ie => VList [ie]) more) in H.
  cbn [container_list enc] in H. unfold put_sized in H. cbn [c_ext] in H. unfold put_root in H.
  destruct (in_con (mkCon false 1 max) (Z.of_nat (length (VList [ie] :: VList [ie2] :: m)))) eqn:Ein; [|discriminate].
  cbn [c_ub] in H. replace (max <? 65536)%Z with true in H by lia. unfold aligns in H. cbv zeta iota in H.
  replace (Z.to_N (Z.of_nat (length (VList [ie] :: VList [ie2] :: m)) - c_lb (mkCon false 1 max))) with (N.of_nat (S (length m))) in H
    by (cbn [length c_lb]; lia).
  unfold in_con in Ein. cbn [c_lb c_ub length] in Ein.
  destruct (size_all max (N.of_nat (S (length m))) Hm ltac:(lia)) as (h & x & seven & Eh & Hh & Es & H7).
  rewrite Eh in H. cbn [obind2] in H. apply after_inv in H as (b'&Hb'&->).
  cbn [put_items] in Hb'. apply opt_inv in Hb' as (c&Hc&Hb'). apply after_inv in Hb' as (d&Hd&->).
  apply opt_inv in Hd as (e&He&Hd). apply after_inv in Hd as (f&Hf&->). clear Hf.
  change (enc container (VList [ie]) (length h) = Some c) in Hc. rewrite container_from in Hc by lia.
  destruct (enc container (VList [ie]) 8) as [c8|] eqn:E8; [|discriminate]. apply some_inv in Hc; subst c.
  destruct (container_at [ie] 8 c8 eq_refl E8) as (r8&_&A8).
  change (enc container (VList [ie2]) (0 + length h + length (pad (length h) ++ c8)) = Some e) in He.
  assert (Ap : (0 + length h + length (pad (length h) ++ c8)) mod 8 = 0).
  { rewrite app_length. pose proof (f_equal (@length bool) Es) as L. rewrite app_length in L. cbn [length] in L. rewrite H7 in L. lia. }
  destruct (container_at [ie2] _ e Ap He) as (r2&->&_).
  change (to_bits 16 (N.of_nat (length [ie2]))) with (repeat false 8 ++ to_bits 8 1).
  unfold decode, of_octets. 
  match goal with |- context [octets_bits (to_octets ?b ++ _)] =>
    assert (Eb : exists t, b = x :: seven ++ c8 ++ repeat false 8 ++ t) end.
  { eexists. rewrite <- !app_assoc. rewrite (app_assoc h), Es. cbn [List.app]. reflexivity. }
  destruct Eb as (t&->). rewrite octets_bits_app, octets_of_bits. cbn [List.app].
  match goal with |- context [dec compiled 0 ?y] => assert (El : exists r', y = x :: seven ++ c8 ++ repeat false 8 ++ r') end.
  { eexists. rewrite <- !app_assoc. reflexivity. }
  destruct El as (r'&->).
  destruct x.
  - rewrite (compiled_reads_ext [ie] c8 seven r' H7 E8). reflexivity.
  - rewrite (compiled_reads [ie] c8 seven (repeat false 8 ++ r') H7 E8). reflexivity.
Qed.
