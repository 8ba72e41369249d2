(* Proofs for C92. *)
From Verif Require Import Base Aper Aper_spec Aper_proofs X691 X691_proofs Asn1_spec Asn1_proofs Interop_spec Interop_proofs Full_spec.
From Verif Require Import RanapTypes Constr_proofs AllMsgs.
From Coq Require Import String List Lia.
Import ListNotations.
Local Open Scope list_scope.

Definition names_b (M : module) : bool := nodup_b (map fst (g_types (md_types M))) && nodup_b (map fst (g_consts (md_types M))).
Definition has_b (M : module) (n : string) (t t' : ty) : bool :=
  match lookup (append (md_prefix M) (c_name n)) (md_tab M) with Some u => ty_eqb u t | None => false end && check (md_types M) 200 (ARef n) t'.
Definition same_b (M : module) (n : string) : bool :=
  match lookup (append (md_prefix M) (c_name n)) (md_tab M) with Some u => check (md_types M) 200 (ARef n) u | None => false end.
Lemma names_all : forallb names_b modules = true.
Proof. vm_compute. reflexivity. Qed.
Lemma check_type M n t : In M modules -> check (md_types M) 200 (ARef n) t = true -> is_type M n t.
Proof.
  intros HM H. pose proof (proj1 (forallb_forall _ _) names_all _ HM) as Hn. apply andb_prop in Hn as [H1 H2]. apply nodup_b_ok in H1, H2.
  apply (proj1 (check_sound _ 200)) in H. intros t'. split.
  - intros Ht'. symmetry. exact (means_fun _ H1 H2 _ _ H _ Ht').
  - intros ->. exact H.
Qed.
Lemma types_b : forallb (fun M => forallb (fun na =>
  mem (fst na) (md_messages M) || mem (fst na) (map fst (md_lists M)) || mem (fst na) templates || mem (fst na) wrong || same_b M (fst na))
  (g_types (md_types M))) modules = true.
Proof. vm_compute. reflexivity. Qed.
Lemma types_same M n a : In M modules -> In (n, a) (g_types (md_types M)) ->
  ~ In n (md_messages M) -> ~ In n (map fst (md_lists M)) -> ~ In n templates -> ~ In n wrong ->
  exists t, described M n t /\ is_type M n t.
Proof.
  intros HM Hn H1 H2 H3 H4. pose proof (proj1 (forallb_forall _ _) types_b _ HM) as A. pose proof (proj1 (forallb_forall _ _) A _ Hn) as B. cbv beta in B. cbn [fst] in B.
  rewrite (mem_out _ _ H1), (mem_out _ _ H2), (mem_out _ _ H3), (mem_out _ _ H4) in B. cbn [orb] in B. unfold same_b in B.
  destruct (lookup _ _) as [u|] eqn:E; [|discriminate]. exists u. split; [apply lookup_in, E|apply check_type; assumption].
Qed.
Lemma messages_b : forallb (fun M => forallb (fun n => has_b M n compiled message_body) (md_messages M)) modules = true.
Proof. vm_compute. reflexivity. Qed.
Lemma has_ok M n t t' : In M modules -> has_b M n t t' = true -> described M n t /\ is_type M n t'.
Proof.
  intros HM H. unfold has_b in H. apply andb_prop in H as [H1 H2]. destruct (lookup _ _) as [u|] eqn:E; [|discriminate].
  apply ty_eqb_eq in H1. subst u. split; [apply lookup_in, E|apply check_type; assumption].
Qed.
Lemma messages_are M n : In M modules -> In n (md_messages M) -> described M n compiled /\ is_type M n message_body.
Proof.
  intros HM Hn. pose proof (proj1 (forallb_forall _ _) messages_b _ HM) as A. exact (has_ok _ _ _ _ HM (proj1 (forallb_forall _ _) A _ Hn)).
Qed.
Lemma lists_b : forallb (fun M => forallb (fun x => check (md_types M) 200 (ARef (fst x)) (container_list (snd x)) &&
  match lookup (append (md_prefix M) (c_name (fst x))) (md_tab M) with Some u => negb (mem (fst x) missing) && ty_eqb u compiled
  | None => mem (fst x) missing end) (md_lists M)) modules = true.
Proof. vm_compute. reflexivity. Qed.
Lemma lookup_none {A} n (l : list (string * A)) : lookup n l = None -> forall t, ~ In (n, t) l.
Proof.
  induction l as [|[x a] l IH]; intros H t Hin; [destruct Hin|]. cbn [lookup] in H. destruct (String.eqb n x) eqn:E; [discriminate|].
  destruct Hin as [Hin|Hin]; [injection Hin as -> _; rewrite String.eqb_refl in E; discriminate|exact (IH H _ Hin)].
Qed.
Lemma lists_are M n max : In M modules -> In (n, max) (md_lists M) -> is_type M n (container_list max) /\
  (~ In n missing -> described M n compiled) /\ (In n missing -> forall t, ~ described M n t).
Proof.
  intros HM Hn. pose proof (proj1 (forallb_forall _ _) lists_b _ HM) as A. pose proof (proj1 (forallb_forall _ _) A _ Hn) as B. cbv beta in B. cbn [fst snd] in B.
  apply andb_prop in B as [B1 B2]. split; [apply check_type; assumption|]. unfold described.
  destruct (lookup _ _) as [u|] eqn:E.
  - apply andb_prop in B2 as [B2 B3]. apply ty_eqb_eq in B3. subst u. split; [intros _; apply lookup_in, E|].
    intros Hin. apply Bool.negb_true_iff in B2. rewrite (mem_in _ _ Hin) in B2. discriminate.
  - split; [|intros _; apply lookup_none, E]. intros Hin. rewrite (mem_out _ _ Hin) in B2. discriminate.
Qed.
(* ---------------- RedirectionIndication ---------------- *)
Lemma container_count n r l p' b' : n < 256 -> dec container 8 (to_bits 8 (N.of_nat n) ++ r) = Some (VList l, p', b') ->
  n * 256 <= length l /\ 8 <= length r.
Proof.
  intros Hn H. cbn [dec container] in H. unfold get_sized in H. cbn [c_ext] in H. unfold get_root in H. cbn [c_ub c_lb] in H.
  change (65535 <? 65536)%Z with true in H. cbv iota in H. unfold aligns in H.
  unfold get_whole in H. change (con_range (mkCon false 0 65535)) with 65536%N in H.
  change (65536 <=? 255)%N with false in H. change (65536 =? 256)%N with false in H. change (65536 <=? 65536)%N with true in H.
  cbv iota in H. unfold dbind, get_align, dret, get_raw, get_bits in H. cbv beta in H. unfold dbind, get_raw, dret in H. change (pad_len 8) with 0 in H.
  match type of H with context [take 0 ?x] => change (take 0 x) with (Some (@nil bool, x)) in H end. cbv iota beta in H.
  destruct (take 16 _) as [[u v]|] eqn:E; [|discriminate].
  destruct (from_bits 0 u <? 65536)%N; [|discriminate].
  destruct (get_items _ _ _ _) as [[[l' p2] b2]|] eqn:Eg; [|discriminate]. injection H as -> _ _.
  assert (L : length l = N.to_nat (from_bits 0 u)).
  { pose proof (Aper_decode.y_items _ (fun _ => True) (Aper_decode.y_any _ _) _ _ _ _ _ _ Eg) as [L _]. rewrite L. lia. }
  assert (U : u = to_bits 8 (N.of_nat n) ++ firstn 8 r /\ 8 <= length r).
  { clear - E. destruct r as [|r1 [|r2 [|r3 [|r4 [|r5 [|r6 [|r7 [|r8 r]]]]]]]]; cbn [to_bits List.app take] in E; try discriminate.
    injection E as <- _. split; [reflexivity|]. cbn [length]. lia. }
  destruct U as [-> H8]. split; [|exact H8]. rewrite L.
  assert (X : forall a b acc, from_bits acc (a ++ b) = from_bits (from_bits acc a) b) by (induction a as [|x a IH]; intros b acc; [reflexivity|cbn [List.app from_bits]; apply IH]).
  rewrite X, from_to_small by (change (2 ^ N.of_nat 8)%N with 256%N; lia). rewrite from_bits_acc, firstn_length, Nat.min_l by exact H8.
  change (2 ^ N.of_nat 8)%N with 256%N. lia.
Qed.
Lemma container_skip seven b : length seven = 7 -> dec container 1 (seven ++ b) = dec container 8 b.
Proof.
  intros Hs. cbn [dec container]. unfold get_sized. cbn [c_ext]. unfold get_root. cbn [c_ub c_lb].
  change (65535 <? 65536)%Z with true. cbv iota. unfold aligns.
  unfold get_whole. change (con_range (mkCon false 0 65535)) with 65536%N.
  change (65536 <=? 255)%N with false. change (65536 =? 256)%N with false. change (65536 <=? 65536)%N with true.
  cbv iota. unfold dbind, get_align, dret, get_raw. cbv beta.
  unfold dbind. change (pad_len 1) with 7. change (pad_len 8) with 0.
  rewrite <- Hs. rewrite take_app. cbn [take]. rewrite Hs. reflexivity.
Qed.
Lemma redirection_lost ies o : completed (x691 container (VList ies)) o -> length ies < 256 -> decode compiled o <> Some (compiled_value ies).
Proof.
  intros H Hn Hd. apply encode_x691 in H. unfold encode in H. unfold Aper.complete in H. apply opt_inv in H as (b&Hb&H). apply some_inv in H; subst o.
  destruct (container_at ies 0 b eq_refl Hb) as (r&Er&Ha).
  assert (E16 : to_bits 16 (N.of_nat (length ies)) = repeat false 8 ++ to_bits 8 (N.of_nat (length ies))).
  { assert (A : forallb (fun n => if list_eq_dec Bool.bool_dec (to_bits 16 (N.of_nat n)) (repeat false 8 ++ to_bits 8 (N.of_nat n)) then true else false) (List.seq 0 256) = true) by (vm_compute; reflexivity).
    rewrite forallb_forall in A. assert (I : In (length ies) (List.seq 0 256)) by (apply in_seq; lia). specialize (A _ I). cbv beta in A.
    destruct (list_eq_dec _ _ _) as [E|]; [exact E|discriminate]. }
  rewrite E16 in Er.
  assert (Eb : octets_bits (to_octets b) = b).
  { destruct b as [|x b']; [discriminate Er|]. rewrite octets_of_bits, (pad_none (length (x :: b'))); [apply app_nil_r|exact Ha]. }
  unfold decode, of_octets in Hd. rewrite Eb in Hd. rewrite Er in Hd. cbn [repeat List.app] in Hd.
  cbn [compiled dec] in Hd. unfold get_ext, dbind, get_bit, get_raw, dret in Hd. cbn [take get_bitmap] in Hd.
  unfold dbind, dret in Hd. cbv beta iota in Hd. cbn [get_members] in Hd. unfold dbind, dret in Hd.
  change (0 + 1) with 1 in Hd. fold container in Hd. fold (dec container) in Hd.
  match type of Hd with context [dec container 1 ?x] => change x with (repeat false 7 ++ (to_bits 8 (N.of_nat (length ies)) ++ r)) in Hd end.
  rewrite container_skip in Hd by reflexivity.
  destruct (dec container 8 _) as [[[v p2] b2]|] eqn:E; [|discriminate].
  assert (v = VList ies) by (unfold compiled_value in Hd; cbn in Hd; congruence). subst v.
  apply container_count in E as [E1 E2]; [|exact Hn].
  assert (length ies = 0) by lia. destruct ies; [|discriminate]. vm_compute in Hb. apply some_inv in Hb. subst b.
  apply (f_equal (@length bool)) in Er. rewrite !app_length, repeat_length, to_bits_len in Er. cbn [length] in Er. lia.
Qed.
