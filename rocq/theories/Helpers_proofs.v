From Coq Require Import ZifyBool ZifyNat ZifyN.
From Verif Require Import Base Helpers Helpers_spec.
Ltac Zify.zify_post_hook ::= Z.div_mod_to_equations.

(* ---------------- generic facts ---------------- *)
Lemma forallb_all_bytes (P : N -> bool) :
  forallb P (map N.of_nat (seq 0 256)) = true -> forall b, is_byte b = true -> P b = true.
Proof.
  intros H b Hb. rewrite forallb_forall in H. apply H.
  unfold is_byte in Hb. apply in_map_iff. exists (N.to_nat b). split; [lia|].
  apply in_seq. lia.
Qed.

Lemma land15_mod b : N.land b 15 = (b mod 16)%N.
Proof. change 15%N with (N.ones 4). rewrite N.land_ones. reflexivity. Qed.
Lemma shiftr4_div b : N.shiftr b 4 = (b / 16)%N.
Proof. rewrite N.shiftr_div_pow2. reflexivity. Qed.

Lemma bcd2char_symbol d : (d < 16)%N -> bcd2char d = symbol d.
Proof.
  intros H.
  assert (Hs : forallb (fun d => (bcd2char d =? symbol d)%N) (map N.of_nat (seq 0 16)) = true)
    by (vm_compute; reflexivity).
  rewrite forallb_forall in Hs. specialize (Hs d).
  apply N.eqb_eq, Hs, in_map_iff. exists (N.to_nat d). split; [lia|]. apply in_seq; lia.
Qed.
Lemma bcd2char_F d : (d < 16)%N -> (bcd2char d =? 70)%N = (d =? 15)%N.
Proof.
  intros H.
  assert (Hs : forallb (fun d => Bool.eqb (bcd2char d =? 70)%N (d =? 15)%N) (map N.of_nat (seq 0 16)) = true)
    by (vm_compute; reflexivity).
  rewrite forallb_forall in Hs. specialize (Hs d).
  apply Bool.eqb_prop, Hs, in_map_iff. exists (N.to_nat d). split; [lia|]. apply in_seq; lia.
Qed.

(* ---------------- ranap_bcd_decode ---------------- *)
Definition bcd_overflows (n : nat) (inp : list N) : bool :=
  (n =? 0) || (Nat.odd n && (n <=? length (packed_text inp))).

Lemma put_ok {A} cap (out : list A) c : length out < cap -> put cap out c = Ok (out ++ [c]).
Proof. intros H. unfold put. destruct (Nat.ltb_spec (length out) cap); [reflexivity|lia]. Qed.
Lemma put_oob {A} cap (out : list A) c : cap <= length out -> put cap out c = Fault OobWrite.
Proof. intros H. unfold put. destruct (Nat.ltb_spec (length out) cap); [lia|reflexivity]. Qed.

(* the loop started after k whole octets, [out] of even length *)
Lemma bcd_loop_spec : forall inp out n,
  bytes_ok inp = true -> Nat.even (length out) = true -> length out < n ->
  exists out',
    bcd_decode_loop n out inp = Ok out' /\
    (if Nat.odd n then out' = out ++ firstn (n - length out) (packed_text inp)
     else out' = out ++ firstn (n - 1 - length out) (packed_text inp)).
Proof.
  induction inp as [|ch rest IH]; intros out n Hb He Hn.
  - exists out. cbn [bcd_decode_loop packed_text]. split; [reflexivity|].
    destruct (Nat.odd n); rewrite firstn_nil, app_nil_r; reflexivity.
  - cbn [bytes_ok forallb] in Hb. apply andb_prop in Hb as [Hch Hrest].
    unfold is_byte in Hch.
    cbn [bcd_decode_loop packed_text].
    rewrite put_ok by lia. cbn [obind].
    rewrite land15_mod, shiftr4_div, app_length. cbn [length].
    rewrite (bcd2char_symbol (ch mod 16)) by lia.
    assert (Hpar : Nat.even n = true \/ Nat.odd n = true).
    { rewrite <- Nat.negb_even. destruct (Nat.even n); auto. }
    destruct (Nat.leb_spec n (length out + 1 + 1)) as [Hle|Hgt].
    + exists (out ++ [symbol (ch mod 16)]). split; [reflexivity|].
      destruct (Nat.odd n) eqn:Hodd.
      * assert (n = length out + 1).
        { apply Nat.odd_spec in Hodd as [a Ha]. apply Nat.even_spec in He as [b Hb]. lia. }
        replace (n - length out) with 1 by lia. cbn [firstn]. reflexivity.
      * assert (n = length out + 2).
        { rewrite <- Nat.negb_even in Hodd. apply negb_false_iff in Hodd.
          apply Nat.even_spec in Hodd as [a Ha]. apply Nat.even_spec in He as [b Hb]. lia. }
        replace (n - 1 - length out) with 1 by lia. cbn [firstn]. reflexivity.
    + rewrite bcd2char_F by lia.
      destruct (ch / 16 =? 15)%N eqn:HF.
      * exists (out ++ [symbol (ch mod 16)]). split; [reflexivity|].
        destruct (Nat.odd n).
        -- destruct (n - length out) as [|k] eqn:Hk; [lia|]. cbn [firstn].
           rewrite firstn_nil. reflexivity.
        -- destruct (n - 1 - length out) as [|k] eqn:Hk; [lia|]. cbn [firstn].
           rewrite firstn_nil. reflexivity.
      * rewrite put_ok by (rewrite app_length; cbn [length]; lia). cbn [obind].
        rewrite (bcd2char_symbol (ch / 16)) by lia.
        specialize (IH ((out ++ [symbol (ch mod 16)]) ++ [symbol (ch / 16)]) n Hrest).
        rewrite !app_length in IH. cbn [length] in IH.
        assert (He' : Nat.even (length out + 1 + 1) = true).
        { apply Nat.even_spec in He as [b Hb]. apply Nat.even_spec. exists (S b). lia. }
        specialize (IH He' ltac:(lia)). destruct IH as [out' [H1 H2]].
        exists out'. split; [exact H1|].
        destruct (Nat.odd n).
        -- rewrite H2. replace (n - length out) with (S (S (n - (length out + 1 + 1)))) by lia.
           cbn [firstn]. rewrite <- !app_assoc. reflexivity.
        -- rewrite H2. replace (n - 1 - length out) with (S (S (n - 1 - (length out + 1 + 1)))) by lia.
           cbn [firstn]. rewrite <- !app_assoc. reflexivity.
Qed.

Lemma bcd_decode_exact : forall n inp, bytes_ok inp = true ->
  bcd_decode n inp =
    if bcd_overflows n inp then Fault OobWrite
    else let t := firstn (n - 1) (packed_text inp) in Ok (t ++ [0%N], S (length t)).
Proof.
  intros n inp Hb. unfold bcd_decode, bcd_overflows.
  destruct n as [|n'].
  - cbn [Nat.eqb orb]. destruct inp as [|ch rest]; cbn [bcd_decode_loop obind]; reflexivity.
  - set (n := S n') in *. destruct (bcd_loop_spec inp [] n Hb eq_refl ltac:(cbn [length]; lia)) as [out' [H1 H2]].
    rewrite H1. cbn [obind]. cbn [length] in H2. rewrite !Nat.sub_0_r in H2.
    replace (n =? 0) with false by (symmetry; apply Nat.eqb_neq; lia). cbn [orb app].
    destruct (Nat.odd n) eqn:Hodd; cbn [app] in H2; cbn [andb].
    + destruct (Nat.leb_spec n (length (packed_text inp))) as [Hle|Hgt].
      * rewrite put_oob; [reflexivity|]. rewrite H2, firstn_length. lia.
      * assert (E : firstn n (packed_text inp) = firstn (n - 1) (packed_text inp)).
        { rewrite !firstn_all2 by lia. reflexivity. }
        rewrite E in H2. rewrite H2.
        rewrite put_ok by (rewrite firstn_length; lia). cbn [obind].
        rewrite app_length. cbn [length]. f_equal. f_equal. lia.
    + rewrite H2. rewrite put_ok by (rewrite firstn_length; lia). cbn [obind].
      rewrite app_length. cbn [length]. f_equal. f_equal. lia.
Qed.

Lemma symbol_in d : (d < 16)%N -> In (symbol d) symbols.
Proof.
  intros H. unfold symbol. apply nth_In. cbn [symbols length]. lia.
Qed.
Lemma packed_text_symbols : forall inp, bytes_ok inp = true -> Forall (fun c => In c symbols) (packed_text inp).
Proof.
  induction inp as [|b r IH]; intros H; cbn [packed_text]; [constructor|].
  cbn [bytes_ok forallb] in H. apply andb_prop in H as [Hb Hr]. unfold is_byte in Hb.
  constructor; [apply symbol_in; lia|].
  destruct (b / 16 =? 15)%N; constructor; [apply symbol_in; lia|]. apply IH, Hr.
Qed.
Lemma Forall_firstn' {A} (P : A -> Prop) n l : Forall P l -> Forall P (firstn n l).
Proof.
  intros H. revert n. induction H; intros [|n]; cbn [firstn]; constructor; auto.
Qed.

Lemma bcd_decode_shape_l : forall n inp out r, bytes_ok inp = true ->
  bcd_decode n inp = Ok (out, r) ->
  exists t, out = t ++ [0%N] /\ r = S (length t) /\ r <= n
    /\ Forall (fun c => In c symbols) t /\ t = firstn (n - 1) (packed_text inp).
Proof.
  intros n inp out r Hb H. rewrite bcd_decode_exact in H by assumption.
  destruct (bcd_overflows n inp) eqn:Ho; [discriminate|].
  cbv zeta in H. injection H as H1 H2. exists (firstn (n-1) (packed_text inp)).
  repeat split; auto.
  - unfold bcd_overflows in Ho. apply orb_false_iff in Ho as [Ho _]. apply Nat.eqb_neq in Ho.
    rewrite <- H2. pose proof (firstn_le_length (n-1) (packed_text inp)). lia.
  - apply Forall_firstn', packed_text_symbols, Hb.
Qed.

Lemma bcd_decode_fault_iff : forall n inp, bytes_ok inp = true ->
  (bcd_decode n inp = Fault OobWrite <->
   n = 0 \/ (Nat.Odd n /\ n <= length (packed_text inp))).
Proof.
  intros n inp Hb. rewrite bcd_decode_exact by assumption. unfold bcd_overflows.
  rewrite <- Nat.odd_spec. split.
  - intros H. destruct (n =? 0) eqn:E0; [apply Nat.eqb_eq in E0; auto|]. cbn [orb] in H.
    destruct (Nat.odd n); [|discriminate]. cbn [andb] in H.
    destruct (Nat.leb_spec n (length (packed_text inp))); [auto|discriminate].
  - intros [->|[Ho Hl]]; [reflexivity|]. rewrite Ho.
    destruct (Nat.leb_spec n (length (packed_text inp))); [|lia].
    rewrite orb_true_r. reflexivity.
Qed.

Lemma bcd_decode_even_safe_l : forall m inp, bytes_ok inp = true -> 0 < m ->
  exists out r, bcd_decode (2 * m) inp = Ok (out, r) /\ length out <= 2 * m.
Proof.
  intros m inp Hb Hm. rewrite bcd_decode_exact by assumption.
  assert (E : bcd_overflows (2 * m) inp = false).
  { unfold bcd_overflows. replace (Nat.odd (2 * m)) with false.
    - replace (2 * m =? 0) with false by (symmetry; apply Nat.eqb_neq; lia). reflexivity.
    - symmetry. rewrite <- Nat.negb_even. rewrite Nat.even_mul. reflexivity. }
  rewrite E. eexists _, _. split; [reflexivity|]. rewrite app_length. cbn [length].
  pose proof (firstn_le_length (2 * m - 1) (packed_text inp)). lia.
Qed.

(* ---------------- ranap_imsi_encode ---------------- *)
Lemma list2_ind {A} (P : list A -> Prop) :
  P [] -> (forall a, P [a]) -> (forall a b l, P l -> P (a :: b :: l)) -> forall l, P l.
Proof.
  intros H0 H1 H2. fix IH 1. intros [|a [|b l]]; [exact H0|apply H1|apply H2, IH].
Qed.

Definition pack (u l : N) : N := N.lor (N.shiftl u 4) l.

(* octets written for a string *)
Fixpoint imsi_octets (s : list N) : list N :=
  match s with
  | [] => []
  | c1 :: rest =>
      match rest with
      | [] => [pack 15 (N.land (char2bcd c1) 15)]
      | c2 :: rest' => pack (N.land (char2bcd c2) 15) (N.land (char2bcd c1) 15) :: imsi_octets rest'
      end
  end.

Lemma imsi_octets_length s : length (imsi_octets s) = (length s + 1) / 2.
Proof.
  induction s as [|a|a b l IH] using list2_ind; [reflexivity|reflexivity|].
  cbn [imsi_octets length]. rewrite IH. lia.
Qed.

Lemma imsi_loop_exact cap : forall s out,
  imsi_encode_loop cap out s =
   if length out + length (imsi_octets s) <=? cap then Ok (out ++ imsi_octets s)
   else match s with [] => Ok out | _ => Fault OobWrite end.
Proof.
  induction s as [|a|a b l IH] using list2_ind; intros out.
  - cbn [imsi_encode_loop imsi_octets length]. rewrite app_nil_r.
    destruct (_ <=? _); reflexivity.
  - cbn [imsi_encode_loop imsi_octets length]. unfold put, pack.
    destruct (Nat.ltb_spec (length out) cap), (Nat.leb_spec (length out + 1) cap); try lia; reflexivity.
  - cbn [imsi_encode_loop imsi_octets length]. unfold put at 1. fold (pack (N.land (char2bcd b) 15) (N.land (char2bcd a) 15)).
    destruct (Nat.ltb_spec (length out) cap) as [Hlt|Hge].
    + cbn [obind]. rewrite IH, app_length. cbn [length].
      rewrite <- app_assoc. cbn [app].
      replace (length out + S (length (imsi_octets l))) with (length out + 1 + length (imsi_octets l)) by lia.
      destruct (_ <=? _) eqn:E; [reflexivity|].
      destruct l; [|reflexivity]. cbn [imsi_octets length] in E.
      apply Nat.leb_gt in E. lia.
    + cbn [obind]. destruct (Nat.leb_spec (length out + S (length (imsi_octets l))) cap); [lia|reflexivity].
Qed.

Lemma imsi_encode_exact cap n s :
  imsi_encode cap n s =
    if (length s + 1) / 2 <=? cap then Ok (imsi_octets s) else Fault OobWrite.
Proof.
  unfold imsi_encode. rewrite imsi_loop_exact. cbn [length app Nat.add].
  rewrite imsi_octets_length.
  destruct (_ <=? _) eqn:E; [reflexivity|].
  destruct s; [|reflexivity]. cbn [length] in E. cbn in E. discriminate.
Qed.

Lemma pack_digits u l : (u < 16)%N -> (l < 16)%N ->
  (pack u l mod 16 = l)%N /\ (pack u l / 16 = u)%N /\ (pack u l < 256)%N.
Proof.
  intros Hu Hl.
  assert (H : forallb (fun u => forallb (fun l =>
     ((pack u l mod 16 =? l) && (pack u l / 16 =? u) && (pack u l <? 256))%N)
     (map N.of_nat (seq 0 16))) (map N.of_nat (seq 0 16)) = true) by (vm_compute; reflexivity).
  rewrite forallb_forall in H. specialize (H u).
  assert (Hin : forall x, (x < 16)%N -> In x (map N.of_nat (seq 0 16))).
  { intros x Hx. apply in_map_iff. exists (N.to_nat x). split; [lia|]. apply in_seq; lia. }
  specialize (H (Hin u Hu)). rewrite forallb_forall in H. specialize (H l (Hin l Hl)).
  lia.
Qed.

Lemma digit_bcd c : is_digit c = true ->
  (N.land (char2bcd c) 15 < 10)%N /\ symbol (N.land (char2bcd c) 15) = c.
Proof.
  intros H. unfold is_digit in H.
  assert (Hs : forallb (fun c => ((N.land (char2bcd c) 15 <? 10) && (symbol (N.land (char2bcd c) 15) =? c))%N)
     (map N.of_nat (seq 48 10)) = true) by (vm_compute; reflexivity).
  rewrite forallb_forall in Hs. specialize (Hs c).
  assert (Hin : In c (map N.of_nat (seq 48 10))).
  { apply in_map_iff. exists (N.to_nat c). split; [lia|]. apply in_seq. lia. }
  specialize (Hs Hin). lia.
Qed.

Lemma packed_text_imsi : forall s, forallb is_digit s = true ->
  packed_text (imsi_octets s) = s /\ bytes_ok (imsi_octets s) = true.
Proof.
  induction s as [|a|a b l IH] using list2_ind; intros H; [split; reflexivity| |].
  - cbn [forallb] in H. apply andb_prop in H as [Ha _].
    destruct (digit_bcd a Ha) as [H1 H2].
    cbn [imsi_octets packed_text bytes_ok forallb].
    destruct (pack_digits 15 (N.land (char2bcd a) 15) ltac:(lia) ltac:(lia)) as [P1 [P2 P3]].
    rewrite P1, P2, H2. split; [reflexivity|]. unfold is_byte. lia.
  - cbn [forallb] in H. apply andb_prop in H as [Ha H]. apply andb_prop in H as [Hb Hl].
    destruct (digit_bcd a Ha) as [A1 A2]. destruct (digit_bcd b Hb) as [B1 B2].
    destruct (IH Hl) as [IH1 IH2].
    cbn [imsi_octets packed_text bytes_ok forallb].
    destruct (pack_digits (N.land (char2bcd b) 15) (N.land (char2bcd a) 15) ltac:(lia) ltac:(lia)) as [P1 [P2 P3]].
    rewrite P1, P2, A2, B2, IH1.
    destruct (N.eqb_spec (N.land (char2bcd b) 15) 15); [lia|].
    split; [reflexivity|]. unfold bytes_ok in IH2. rewrite IH2. unfold is_byte. lia.
Qed.

Lemma imsi_roundtrip_l : forall s cap n, forallb is_digit s = true ->
  (length s + 1) / 2 <= cap ->
  exists o, imsi_encode cap n s = Ok o /\ length o = (length s + 1) / 2 /\
    forall out_len, length s + 1 <= out_len ->
      bcd_decode out_len o = Ok (s ++ [0%N], S (length s)).
Proof.
  intros s cap n Hd Hc. exists (imsi_octets s).
  destruct (packed_text_imsi s Hd) as [H1 H2].
  rewrite imsi_encode_exact. destruct (Nat.leb_spec ((length s + 1) / 2) cap); [|lia].
  repeat split; [apply imsi_octets_length|].
  intros out_len Hl. rewrite bcd_decode_exact by assumption.
  unfold bcd_overflows. rewrite H1.
  destruct (Nat.eqb_spec out_len 0); [lia|].
  destruct (Nat.leb_spec out_len (length s)); [lia|].
  rewrite andb_false_r. cbn [orb]. cbv zeta. rewrite firstn_all2 by lia. reflexivity.
Qed.

Lemma imsi_encode_fault_iff cap n s :
  imsi_encode cap n s = Fault OobWrite <-> cap < (length s + 1) / 2.
Proof.
  rewrite imsi_encode_exact. destruct (Nat.leb_spec ((length s + 1) / 2) cap); split; intros; try lia; try discriminate; reflexivity.
Qed.

Lemma imsi_encode_inj_l : forall s1 s2 cap n1 n2 o,
  forallb is_digit s1 = true -> forallb is_digit s2 = true ->
  imsi_encode cap n1 s1 = Ok o -> imsi_encode cap n2 s2 = Ok o -> s1 = s2.
Proof.
  intros s1 s2 cap n1 n2 o H1 H2 E1 E2. rewrite imsi_encode_exact in E1, E2.
  destruct (_ <=? _) in E1; [|discriminate]. destruct (_ <=? _) in E2; [|discriminate].
  injection E1 as E1. injection E2 as E2.
  destruct (packed_text_imsi s1 H1) as [<- _]. destruct (packed_text_imsi s2 H2) as [<- _]. congruence.
Qed.

(* ---------------- transport layer addresses ---------------- *)
Ltac len_destruct l n :=
  lazymatch n with
  | 0 => destruct l; [|discriminate]
  | S ?m => destruct l as [|? l]; [discriminate|]; len_destruct l m
  end.

Lemma list_len_4 (l : list N) : length l = 4 -> exists a b c d, l = [a;b;c;d].
Proof. intros H. do 4 (destruct l as [|? l]; [discriminate|]). destruct l; [|discriminate]. repeat eexists. Qed.
Lemma list_len_16 (l : list N) : length l = 16 -> exists a b c d e f g h i j k m n o p q,
  l = [a;b;c;d;e;f;g;h;i;j;k;m;n;o;p;q].
Proof. intros H. do 16 (destruct l as [|? l]; [discriminate|]). destruct l; [|discriminate].
  do 16 eexists. reflexivity. Qed.

Lemma be16_zero a b : (be16 a b =? 0)%N = ((a =? 0) && (b =? 0))%N.
Proof. unfold be16. lia. Qed.
Lemma be16_one a b : is_byte a = true -> is_byte b = true -> (be16 a b =? 1)%N = ((a =? 0) && (b =? 1))%N.
Proof. unfold be16, is_byte. lia. Qed.

Definition success (buf : list N) (x213 v6 : bool) (ip : list N) : Prop :=
  transp_layer_addr_decode2 buf =
    Ok (0%Z, if v6 then mkSockaddr AF_INET6 0 (repeat 0%N 4) ip
              else mkSockaddr AF_INET 0 ip (repeat 0%N 16), Some x213).

Lemma decode2_sound_tla : forall buf x v ip, tla buf x v ip -> success buf x v ip.
Proof.
  intros buf x v ip H. destruct H as [ip H|ip H|ip H|ip fill H Hf|ip fill H Hf]; unfold success, transp_layer_addr_decode2.
  - apply list_len_4 in H as (a&b&c&d&->). reflexivity.
  - apply list_len_16 in H as (a&b&c&d&e&f&g&h&i&j&k&m&n&o&p&q&->). reflexivity.
  - apply list_len_4 in H as (a&b&c&d&->). reflexivity.
  - apply list_len_4 in H as (a&b&c&d&->).
    do 13 (destruct fill as [|? fill]; [discriminate|]). destruct fill; [|discriminate]. reflexivity.
  - apply list_len_16 in H as (a&b&c&d&e&f&g&h&i&j&k&m&n&o&p&q&->).
    do 1 (destruct fill as [|? fill]; [discriminate|]). destruct fill; [|discriminate]. reflexivity.
Qed.

Lemma decode2_total : forall buf, bytes_ok buf = true ->
  (exists x v ip, tla buf x v ip) \/
  transp_layer_addr_decode2 buf = Ok ((- EINVAL)%Z, sockaddr_zero, None).
Proof.
  intros buf Hb. unfold transp_layer_addr_decode2.
  destruct (Nat.eqb_spec (length buf) 7) as [H7|H7]; cbn [orb].
  - do 7 (destruct buf as [|? buf]; [discriminate|]). destruct buf; [|discriminate].
    cbn [rd nth_error obind length Nat.eqb negb].
    destruct (N.eqb_spec n 53) as [->|]; [|right; reflexivity].
    cbn [bytes_ok forallb] in Hb. repeat (apply andb_prop in Hb as [? Hb]).
    rewrite be16_zero, be16_one by assumption.
    destruct (N.eqb_spec n0 0) as [->|]; cbn [andb]; [|right; reflexivity].
    destruct (N.eqb_spec n1 0) as [->|]; [right; reflexivity|].
    destruct (N.eqb_spec n1 1) as [->|]; [|right; reflexivity].
    left. exists true, false, [n2;n3;n4;n5]. apply (tla_x4_short [n2;n3;n4;n5]). reflexivity.
  - destruct (Nat.eqb_spec (length buf) 20) as [H20|H20].
    + do 20 (destruct buf as [|? buf]; [discriminate|]). destruct buf; [|discriminate].
      cbn [rd nth_error obind length Nat.eqb negb].
      destruct (N.eqb_spec n 53) as [->|]; [|right; reflexivity].
      cbn [bytes_ok forallb] in Hb. repeat (apply andb_prop in Hb as [? Hb]).
      rewrite be16_zero, be16_one by assumption.
      destruct (N.eqb_spec n0 0) as [->|]; cbn [andb]; [|right; reflexivity].
      destruct (N.eqb_spec n1 0) as [->|].
      * left. exists true, true, [n2;n3;n4;n5;n6;n7;n8;n9;n10;n11;n12;n13;n14;n15;n16;n17].
        apply (tla_x6 [n2;n3;n4;n5;n6;n7;n8;n9;n10;n11;n12;n13;n14;n15;n16;n17] [n18]); reflexivity.
      * destruct (N.eqb_spec n1 1) as [->|]; [|right; reflexivity].
        left. exists true, false, [n2;n3;n4;n5].
        apply (tla_x4_long [n2;n3;n4;n5] [n6;n7;n8;n9;n10;n11;n12;n13;n14;n15;n16;n17;n18]); reflexivity.
    + cbn [obind].
      destruct (Nat.eqb_spec (length buf) 4) as [H4|H4]; [left; do 3 eexists; apply tla_raw4; exact H4|].
      destruct (Nat.eqb_spec (length buf) 16) as [H16|H16]; [left; do 3 eexists; apply tla_raw6; exact H16|].
      right. reflexivity.
Qed.

Lemma decode2_exact_l : forall buf, bytes_ok buf = true ->
  (exists x v ip, tla buf x v ip /\ success buf x v ip) \/
  ((forall x v ip, ~ tla buf x v ip) /\
   transp_layer_addr_decode2 buf = Ok ((- EINVAL)%Z, sockaddr_zero, None)).
Proof.
  intros buf Hb. destruct (decode2_total buf Hb) as [(x&v&ip&H)|H].
  - left. exists x, v, ip. split; [exact H|]. apply decode2_sound_tla, H.
  - right. split; [|exact H]. intros x v ip Ht. apply decode2_sound_tla in Ht.
    unfold success in Ht. rewrite H in Ht. discriminate.
Qed.

Lemma new_tla_spec : forall out a x,
  sockaddr_ok a = true -> (sa_family a = AF_INET \/ sa_family a = AF_INET6) ->
  exists o, new_transp_layer_addr out a x = (0%Z, o) /\
    tla o x (sa_family a =? AF_INET6)%N (sa_addr a).
Proof.
  intros out a x Hok Hf. unfold sockaddr_ok in Hok.
  repeat (apply andb_prop in Hok as [Hok ?]). apply Nat.eqb_eq in Hok.
  assert (H6 : length (sa_v6 a) = 16) by (apply Nat.eqb_eq; assumption).
  unfold new_transp_layer_addr, sa_addr. destruct Hf as [Hf|Hf]; rewrite Hf.
  - cbn [N.eqb AF_INET AF_INET6 Pos.eqb]. eexists. split; [reflexivity|].
    destruct x; [|apply tla_raw4; exact Hok].
    replace ([53%N] ++ store16be 1 ++ sa_v4 a ++ repeat 0%N (17 - length (sa_v4 a)))
      with ([53;0;1]%N ++ sa_v4 a ++ repeat 0%N 13) by (rewrite Hok; reflexivity).
    apply tla_x4_long; [exact Hok|reflexivity].
  - cbn [N.eqb AF_INET AF_INET6 Pos.eqb]. eexists. split; [reflexivity|].
    destruct x; [|apply tla_raw6; exact H6].
    replace ([53%N] ++ store16be 0 ++ sa_v6 a ++ repeat 0%N (17 - length (sa_v6 a)))
      with ([53;0;0]%N ++ sa_v6 a ++ repeat 0%N 1) by (rewrite H6; reflexivity).
    apply tla_x6; [exact H6|reflexivity].
Qed.

Lemma new_tla_family : forall out a x,
  sa_family a <> AF_INET -> sa_family a <> AF_INET6 ->
  new_transp_layer_addr out a x = ((- EINVAL)%Z, out).
Proof.
  intros out a x H4 H6. unfold new_transp_layer_addr.
  destruct (N.eqb_spec (sa_family a) AF_INET); [contradiction|].
  destruct (N.eqb_spec (sa_family a) AF_INET6); [contradiction|]. reflexivity.
Qed.

Lemma tla_roundtrip_l : forall out a x,
  sockaddr_ok a = true -> (sa_family a = AF_INET \/ sa_family a = AF_INET6) ->
  exists o a', new_transp_layer_addr out a x = (0%Z, o) /\
    transp_layer_addr_decode2 o = Ok (0%Z, a', Some x) /\
    sa_family a' = sa_family a /\ sa_addr a' = sa_addr a.
Proof.
  intros out a x Hok Hf. destruct (new_tla_spec out a x Hok Hf) as [o [H1 H2]].
  apply decode2_sound_tla in H2. unfold success in H2. exists o. eexists. split; [exact H1|].
  split; [exact H2|]. unfold sa_addr. destruct Hf as [Hf|Hf]; rewrite Hf;
    cbn [N.eqb AF_INET AF_INET6 Pos.eqb sa_family sa_v4 sa_v6]; split; reflexivity.
Qed.

(* ---------------- legacy decoder ---------------- *)
Lemma legacy_agrees_l : forall buf ip x n, tla buf x false ip ->
  length (dotted_quad ip) < n ->
  transp_layer_addr_decode n buf = Ok (0%Z, Some (dotted_quad ip)).
Proof.
  intros buf ip x n H Hn. unfold transp_layer_addr_decode, inet_ntop4.
  assert (Hle : (length (dotted_quad ip) + 1 <=? n) = true) by (apply Nat.leb_le; lia).
  inversion H as [ip' Hl| |ip' Hl|ip' fill Hl Hf|]; subst.
  - destruct (list_len_4 _ Hl) as (a&b&c&d&->). cbn [length Nat.leb obind Nat.ltb].
    cbn [slice Nat.add length Nat.leb skipn firstn obind]. rewrite Hle. reflexivity.
  - destruct (list_len_4 _ Hl) as (a&b&c&d&->). cbn [app length Nat.leb obind Nat.ltb rd nth_error N.eqb Pos.eqb].
    cbn [slice Nat.add length Nat.leb skipn firstn obind]. rewrite Hle. reflexivity.
  - destruct (list_len_4 _ Hl) as (a&b&c&d&->).
    do 13 (destruct fill as [|? fill]; [discriminate|]). destruct fill; [|discriminate].
    cbn [app length Nat.leb obind Nat.ltb rd nth_error N.eqb Pos.eqb].
    cbn [slice Nat.add length Nat.leb skipn firstn obind]. rewrite Hle. reflexivity.
Qed.

Lemma legacy_no_fault_l : forall n buf, exists r, transp_layer_addr_decode n buf = Ok r.
Proof.
  intros n buf. unfold transp_layer_addr_decode.
  destruct (Nat.leb_spec 7 (length buf)) as [H|H].
  - do 7 (destruct buf as [|? buf]; [cbn in H; lia|]). cbn [rd nth_error obind].
    destruct (_ =? 53)%N.
    + cbn [slice Nat.add length Nat.leb skipn firstn obind]. destruct (inet_ntop4 _ _); eauto.
    + cbn [length Nat.ltb Nat.leb]. cbn [slice Nat.add length Nat.leb skipn firstn obind].
      destruct (inet_ntop4 _ _); eauto.
  - cbn [obind]. destruct (Nat.ltb_spec 3 (length buf)) as [H3|H3]; [|eauto].
    do 4 (destruct buf as [|? buf]; [cbn in H3; lia|]).
    cbn [slice Nat.add length Nat.leb skipn firstn obind].
    destruct (inet_ntop4 _ _); eauto.
Qed.

Lemma legacy_exact_l : forall n buf,
  transp_layer_addr_decode n buf =
    if length buf <? 4 then Ok ((- EINVAL)%Z, None)
    else
      let ip := firstn 4 (if (7 <=? length buf) && (nth 0 buf 0 =? 53)%N then skipn 3 buf else buf) in
      if length (dotted_quad ip) <? n then Ok (0%Z, Some (dotted_quad ip))
      else Ok ((- EINVAL)%Z, None).
Proof.
  intros n buf. unfold transp_layer_addr_decode, inet_ntop4.
  assert (R : forall t, (length t + 1 <=? n) = (length (t : list N) <? n)).
  { intros t. unfold Nat.ltb. rewrite Nat.add_1_r. reflexivity. }
  cbv zeta. rewrite <- R. clear R.
  destruct (Nat.leb_spec 7 (length buf)) as [H|H].
  - do 7 (destruct buf as [|? buf]; [cbn in H; lia|]). cbn [rd nth_error obind nth andb].
    replace (length _ <? 4) with false by (symmetry; apply Nat.ltb_ge; cbn [length]; lia).
    destruct (_ =? 53)%N.
    + cbn [slice Nat.add length Nat.leb skipn firstn obind]. destruct (_ + 1 <=? n); reflexivity.
    + replace (3 <? length _) with true by (symmetry; apply Nat.ltb_lt; cbn [length]; lia). cbn [slice Nat.add length Nat.leb skipn firstn obind].
      destruct (_ + 1 <=? n); reflexivity.
  - cbn [obind andb]. destruct (Nat.ltb_spec 3 (length buf)) as [H3|H3].
    + replace (length buf <? 4) with false by (symmetry; apply Nat.ltb_ge; lia).
      do 4 (destruct buf as [|? buf]; [cbn in H3; lia|]).
      cbn [slice Nat.add length Nat.leb skipn firstn obind].
      destruct (_ + 1 <=? n); reflexivity.
    + replace (length buf <? 4) with true by (symmetry; apply Nat.ltb_lt; lia). reflexivity.
Qed.

(* ---------------- transport association ---------------- *)
Lemma land65535 x : N.land x 65535 = (x mod 65536)%N.
Proof. change 65535%N with (N.ones 16). rewrite N.land_ones. reflexivity. Qed.
Lemma shiftr16 x : N.shiftr x 16 = (x / 65536)%N.
Proof. rewrite N.shiftr_div_pow2. reflexivity. Qed.

Lemma assoc_decode_spec : forall port pr b0 b1 b2 b3 rest,
  bytes_ok [b0;b1;b2;b3] = true ->
  transp_assoc_decode port (Some (mkAssoc pr (b0::b1::b2::b3::rest))) =
    if (be16 b2 b3 =? 0)%N
    then Ok (if (be16 b0 b1 =? 0)%N then (- EINVAL)%Z else 0%Z, be16 b0 b1)
    else Ok ((- EINVAL)%Z, port).
Proof.
  intros port pr b0 b1 b2 b3 rest Hb. cbn [bytes_ok forallb] in Hb. unfold is_byte in Hb.
  unfold transp_assoc_decode. cbn [ta_octets asn1bitstr_to_u32 obind].
  rewrite !land65535, shiftr16.
  assert (E1 : (be32 b0 b1 b2 b3 mod 65536 = be16 b2 b3)%N) by (unfold be32, be16; lia).
  assert (E2 : ((be32 b0 b1 b2 b3 / 65536) mod 65536 = be16 b0 b1)%N) by (unfold be32, be16; lia).
  rewrite E1, E2. destruct (be16 b2 b3 =? 0)%N; cbn [negb]; [|reflexivity].
  destruct (be16 b0 b1 =? 0)%N; reflexivity.
Qed.

Lemma assoc_decode_exact_l : forall port ta,
  (ta = None -> transp_assoc_decode port ta = Ok ((- EINVAL)%Z, port)) /\
  (forall pr o, ta = Some (mkAssoc pr o) -> length o < 4 ->
     transp_assoc_decode port ta = Fault Assertion) /\
  (forall pr p0 p1 z0 z1 rest, ta = Some (mkAssoc pr ([p0; p1; z0; z1] ++ rest)) ->
     bytes_ok [p0; p1; z0; z1] = true ->
     transp_assoc_decode port ta =
       if ((z0 =? 0) && (z1 =? 0))%N
       then Ok (if (be_value [p0; p1] =? 0)%N then (- EINVAL)%Z else 0%Z, be_value [p0; p1])
       else Ok ((- EINVAL)%Z, port)).
Proof.
  intros port ta. repeat split.
  - intros ->. reflexivity.
  - intros pr o -> H. unfold transp_assoc_decode. cbn [ta_octets].
    do 4 (destruct o as [|? o]; [reflexivity|]). cbn [length] in H. lia.
  - intros pr p0 p1 z0 z1 rest -> Hb. cbn [app]. rewrite assoc_decode_spec by exact Hb.
    assert (E : (be16 z0 z1 =? 0)%N = ((z0 =? 0) && (z1 =? 0))%N) by (unfold be16; lia).
    assert (E2 : be_value [p0; p1] = be16 p0 p1) by (unfold be_value, be16; cbn [fold_left]; lia).
    rewrite E, E2. reflexivity.
Qed.

Lemma rtp_null_iff : forall a x,
  new_transp_info_rtp a x = None <-> (sa_family a <> AF_INET /\ sa_family a <> AF_INET6).
Proof.
  intros a x. unfold new_transp_info_rtp, new_transp_layer_addr.
  destruct (N.eqb_spec (sa_family a) AF_INET) as [E|E]; cbn [orb].
  - split; [discriminate|]. intros [H _]; contradiction.
  - destruct (N.eqb_spec (sa_family a) AF_INET6) as [E6|E6].
    + split; [discriminate|]. intros [_ H]; contradiction.
    + split; auto.
Qed.
Lemma gtp_null_iff : forall a t x,
  new_transp_info_gtp a t x = None <-> (sa_family a <> AF_INET /\ sa_family a <> AF_INET6).
Proof.
  intros a t x. unfold new_transp_info_gtp, new_transp_layer_addr.
  destruct (N.eqb_spec (sa_family a) AF_INET) as [E|E].
  - split; [discriminate|]. intros [H _]; contradiction.
  - destruct (N.eqb_spec (sa_family a) AF_INET6) as [E6|E6].
    + split; [discriminate|]. intros [_ H]; contradiction.
    + split; auto.
Qed.

Lemma rtp_port_l : forall a x tli prev, sockaddr_ok a = true ->
  new_transp_info_rtp a x = Some tli ->
  transp_assoc_decode prev (Some (tli_assoc tli)) =
    Ok (if (sa_port a =? 0)%N then (- EINVAL)%Z else 0%Z, sa_port a).
Proof.
  intros a x tli prev Hok H. unfold new_transp_info_rtp in H.
  destruct (_ || _); [|discriminate].
  destruct (new_transp_layer_addr [] a x) as [rc o]. destruct (rc <? 0)%Z; [discriminate|].
  injection H as <-. cbn [tli_assoc store16be app].
  unfold sockaddr_ok in Hok. repeat (apply andb_prop in Hok as [Hok ?]).
  rewrite assoc_decode_spec by (cbn [bytes_ok forallb]; unfold is_byte; lia).
  cbn [be16 N.mul N.add N.eqb].
  replace (be16 ((sa_port a / 256) mod 256) (sa_port a mod 256)) with (sa_port a) by (unfold be16; lia).
  reflexivity.
Qed.

Lemma rtp_addr_l : forall a x tli, sockaddr_ok a = true ->
  new_transp_info_rtp a x = Some tli ->
  tla (tli_addr tli) x (sa_family a =? AF_INET6)%N (sa_addr a) /\ ta_present (tli_assoc tli) = PR_bindingID.
Proof.
  intros a x tli Hok H. unfold new_transp_info_rtp in H.
  destruct ((sa_family a =? AF_INET) || (sa_family a =? AF_INET6))%N eqn:E; [|discriminate].
  assert (Hf : sa_family a = AF_INET \/ sa_family a = AF_INET6) by lia.
  destruct (new_tla_spec [] a x Hok Hf) as [o [H1 H2]]. rewrite H1 in H. cbn in H.
  injection H as <-. split; [exact H2|reflexivity].
Qed.

Lemma gtp_l : forall a t x tli, sockaddr_ok a = true ->
  new_transp_info_gtp a t x = Some tli ->
  tla (tli_addr tli) x (sa_family a =? AF_INET6)%N (sa_addr a) /\
  ta_present (tli_assoc tli) = PR_gTP_TEI /\ length (ta_octets (tli_assoc tli)) = 4 /\
  ((t < 2^32)%N -> be_value (ta_octets (tli_assoc tli)) = t).
Proof.
  intros a t x tli Hok H. unfold new_transp_info_gtp in H.
  assert (Hf : sa_family a = AF_INET \/ sa_family a = AF_INET6).
  { destruct (N.eq_dec (sa_family a) AF_INET); auto. destruct (N.eq_dec (sa_family a) AF_INET6); auto.
    rewrite new_tla_family in H by assumption. discriminate. }
  destruct (new_tla_spec [] a x Hok Hf) as [o [H1 H2]]. rewrite H1 in H. cbn in H.
  injection H as <-. cbn [tli_addr tli_assoc ta_present ta_octets store32be length].
  repeat split; auto. intros Ht. unfold be_value, store32be. cbn [fold_left].
  change (2^32)%N with 4294967296%N in Ht. lia.
Qed.

Lemma gtp_decode_l : forall addr tei x213 tli port, sockaddr_ok addr = true -> (tei < 2^32)%N ->
  new_transp_info_gtp addr tei x213 = Some tli ->
  transp_assoc_decode port (Some (tli_assoc tli)) =
    if (tei mod 65536 =? 0)%N
    then Ok (if (tei =? 0)%N then (- EINVAL)%Z else 0%Z, (tei / 65536)%N)
    else Ok ((- EINVAL)%Z, port).
Proof.
  intros a t x tli p Hok Ht H. unfold new_transp_info_gtp in H.
  destruct (new_transp_layer_addr [] a x) as [rc o]. destruct (rc <? 0)%Z; [discriminate|]. injection H as <-.
  cbn [tli_assoc]. unfold store32be. change (2^32)%N with 4294967296%N in Ht.
  rewrite assoc_decode_spec by (cbn [bytes_ok forallb]; unfold is_byte; lia).
  assert (E1 : (be16 ((t / 256) mod 256) (t mod 256) = t mod 65536)%N) by (unfold be16; lia).
  assert (E2 : (be16 ((t / 16777216) mod 256) ((t / 65536) mod 256) = t / 65536)%N) by (unfold be16; lia).
  rewrite E1, E2. destruct (t mod 65536 =? 0)%N eqn:E; [|reflexivity].
  replace (t / 65536 =? 0)%N with (t =? 0)%N by lia. reflexivity.
Qed.

(* ---------------- any characters ---------------- *)
Lemma char_value_ok c : char2bcd c = char_value c /\ (char_value c < 16)%N.
Proof.
  assert (H : forallb (fun c => ((char2bcd c =? char_value c) && (char_value c <? 16))%N) (map N.of_nat (seq 0 128)) = true) by (vm_compute; reflexivity).
  rewrite forallb_forall in H.
  destruct (N.ltb_spec c 128) as [Hc|Hc].
  - specialize (H c). assert (Hin : In c (map N.of_nat (seq 0 128))).
    { apply in_map_iff. exists (N.to_nat c). split; [lia|]. apply in_seq. lia. }
    specialize (H Hin). lia.
  - assert (Hp : forall l, forallb (fun x => (x <? 128)%N) l = true -> place c l = None).
    { induction l as [|x l IH]; [reflexivity|]. cbn [forallb place]. intros Hl. apply andb_prop in Hl as [H1 H2].
      destruct (N.eqb_spec x c) as [->|]; [lia|]. rewrite (IH H2). reflexivity. }
    unfold char_value. rewrite !Hp by reflexivity. split; [|lia]. unfold char2bcd.
    destruct (N.leb_spec c 57), (N.leb_spec c 70), (N.leb_spec c 102); try lia. rewrite !andb_false_r. reflexivity.
Qed.
Lemma land15 v : (v < 16)%N -> N.land v 15 = v.
Proof. intros H. change 15%N with (N.ones 4). rewrite N.land_ones. apply N.mod_small. exact H. Qed.
Lemma imsi_octets_half : forall s,
  (forall i c, nth_error s i = Some c -> half (imsi_octets s) i = char_value c) /\
  (Nat.odd (length s) = true -> half (imsi_octets s) (length s) = 15%N).
Proof.
  induction s as [|a|a b l IH] using list2_ind.
  - split; [intros [|i] c H; discriminate|discriminate].
  - destruct (char_value_ok a) as [A1 A2].
    destruct (pack_digits 15 (char_value a) ltac:(lia) A2) as [P1 [P2 P3]].
    assert (E : imsi_octets [a] = [pack 15 (char_value a)]) by (cbn [imsi_octets]; rewrite A1, land15 by exact A2; reflexivity).
    rewrite E. split.
    + intros [|[|i]] c H; try discriminate. injection H as <-. exact P1.
    + intros _. exact P2.
  - destruct IH as [IH1 IH2]. destruct (char_value_ok a) as [A1 A2]. destruct (char_value_ok b) as [B1 B2].
    destruct (pack_digits (char_value b) (char_value a) B2 A2) as [P1 [P2 P3]].
    assert (E : imsi_octets (a :: b :: l) = pack (char_value b) (char_value a) :: imsi_octets l)
      by (cbn [imsi_octets]; rewrite A1, B1, !land15 by assumption; reflexivity).
    rewrite E.
    assert (Hs : forall i, half (pack (char_value b) (char_value a) :: imsi_octets l) (S (S i)) = half (imsi_octets l) i).
    { intros i. unfold half. replace (S (S i) / 2) with (S (i / 2)) by lia. cbn [nth Nat.even]. reflexivity. }
    split.
    + intros [|[|i]] c H; cbn [nth_error] in H; [injection H as <-; exact P1|injection H as <-; exact P2|]. rewrite Hs. apply IH1, H.
    + cbn [length]. intros H. rewrite Hs. apply IH2. exact H.
Qed.
Lemma imsi_octets_l s cap n o : imsi_encode cap n s = Ok o ->
  length o = (length s + 1) / 2 /\
  (forall i c, nth_error s i = Some c -> half o i = char_value c) /\
  (Nat.odd (length s) = true -> half o (length s) = 15%N).
Proof.
  rewrite imsi_encode_exact. destruct (_ <=? cap); [|discriminate]. intros H. injection H as <-.
  split; [apply imsi_octets_length|apply imsi_octets_half].
Qed.
(* ---------------- dotted quads ---------------- *)
Lemma dec_octet_ok b : is_byte b = true -> in_decimal (dec_octet b) b.
Proof.
  intros Hb.
  assert (H : forallb (fun b => forallb is_digit (dec_octet b) && negb (Nat.eqb (length (dec_octet b)) 0) &&
      (fold_left (fun v c => v * 10 + (c - 48)) (dec_octet b) 0 =? b)%N &&
      (negb (hd 0 (dec_octet b) =? 48)%N || (b =? 0)%N)) (map N.of_nat (seq 0 256)) = true) by (vm_compute; reflexivity).
  rewrite forallb_forall in H. specialize (H b). unfold is_byte in Hb.
  assert (Hin : In b (map N.of_nat (seq 0 256))).
  { apply in_map_iff. exists (N.to_nat b). split; [lia|]. apply in_seq. lia. }
  specialize (H Hin). apply andb_prop in H as [H H4]. apply andb_prop in H as [H H3]. apply andb_prop in H as [H1 H2].
  repeat split; [exact H1| |apply N.eqb_eq, H3|].
  - intros E. rewrite E in H2. discriminate.
  - intros E. rewrite E in H4. destruct (N.eqb_spec b 0) as [->|]; [reflexivity|discriminate].
Qed.
Lemma dotted_quad_ok a b c d : bytes_ok [a; b; c; d] = true ->
  exists ta tb tc td, dotted_quad [a; b; c; d] = ta ++ [46%N] ++ tb ++ [46%N] ++ tc ++ [46%N] ++ td /\
    in_decimal ta a /\ in_decimal tb b /\ in_decimal tc c /\ in_decimal td d.
Proof.
  intros H. cbn [bytes_ok forallb] in H. rewrite !andb_true_iff in H. destruct H as (Ha&Hb&Hc&Hd&_).
  exists (dec_octet a), (dec_octet b), (dec_octet c), (dec_octet d). split; [reflexivity|]. repeat split; apply dec_octet_ok; assumption.
Qed.
