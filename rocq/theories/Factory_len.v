(* Exact length of containers and PDUs. *)
From Coq Require Import ZifyBool ZifyNat ZifyN.
From Verif Require Import Base Aper Aper_spec Aper_proofs Aper_valid Aper_len Container Container_proofs Factory Factory_spec.
Ltac Zify.zify_post_hook ::= Z.div_mod_to_equations.

Lemma bits_octets_exact : forall fuel b, length b <= fuel -> length (bits_octets_f fuel b) = (length b + 7) / 8.
Proof.
  induction fuel as [|f IH]; intros b Hb; cbn [bits_octets_f].
  - destruct b; [reflexivity|cbn in Hb; lia].
  - destruct b as [|x b]; [reflexivity|]. cbn [length]. rewrite IH by (rewrite skipn_length; cbn [length] in *; lia).
    rewrite skipn_length. cbn [length]. lia.
Qed.
Lemma to_octets_exact b n : b <> [] -> length b = 8 * n -> length (to_octets b) = n.
Proof.
  intros Hb Hl. unfold to_octets. destruct b; [congruence|]. unfold bits_octets. rewrite bits_octets_exact by lia. lia.
Qed.
Lemma to_octets_ge b n : 8 * n < length b -> n < length (to_octets b).
Proof.
  intros Hl. unfold to_octets. destruct b as [|x b]; [cbn in Hl; lia|]. unfold bits_octets. rewrite bits_octets_exact by lia. lia.
Qed.
Definition body_bits (n : nat) : nat := 8 * N.to_nat (len_octets (N.of_nat n)) + 8 * n.
Lemma len_bits_len n : length (len_bits n) = 8 * N.to_nat (len_octets n).
Proof. unfold len_bits, len_octets. destruct (n <? 128)%N; rewrite to_bits_len; reflexivity. Qed.
Lemma open_len o p b : put_list put_octet o p = Some b -> (N.of_nat (length o) < 16384)%N ->
  length b = pad_len p + body_bits (length o).
Proof.
  unfold put_list. intros H Hn.
  assert (Ha : after p (pad p ++ len_bits (N.of_nat (length o))) (put_items put_octet o) = Some b).
  { revert H. generalize (length o) at 1. intros [|f]; cbn [put_frag]; cbv zeta; replace (N.of_nat (length o) <? 16384)%N with true by lia; auto. }
  apply after_inv in Ha as (b2&H2&->). apply put_items_octets in H2. rewrite !app_length, len_bits_len, H2.
  unfold pad, body_bits. rewrite repeat_length. lia.
Qed.
Lemma open_ge o p b : put_list put_octet o p = Some b -> 8 * length o < length b.
Proof. apply put_list_octets_ge. Qed.

Definition std_msg : ty :=
  TSeq false [(false, TInt (Some (mkCon false 0 255))); (false, TEnum false [0; 1; 2]%Z []); (false, TOcts None)] [].
Definition is_std (t : ty) : Prop := exists k, (k = 3 \/ k = 4) /\ t = TChoice true (repeat std_msg k) [].
Lemma ranap_std : is_std (p_pdu ranap). Proof. exists 4. split; [auto|reflexivity]. Qed.
Lemma rua_std : is_std (p_pdu rua). Proof. exists 3. split; [auto|reflexivity]. Qed.
Lemma hnbap_std : is_std (p_pdu hnbap). Proof. exists 3. split; [auto|reflexivity]. Qed.
Lemma sabp_std : is_std (p_pdu sabp). Proof. exists 3. split; [auto|reflexivity]. Qed.

Lemma whole_len range v p b : put_whole range v p = Some b -> (range <= 65536)%N ->
  length b = if (range <=? 255)%N then N.size_nat (range - 1) else if (range =? 256)%N then pad_len p + 8 else pad_len p + 16.
Proof.
  unfold put_whole. intros H Hr. destruct (v <? range)%N; [|discriminate].
  destruct (range <=? 255)%N; [apply some_inv in H; subst b; apply to_bits_len|].
  destruct (range =? 256)%N; [apply some_inv in H; subst b; rewrite app_length, to_bits_len; unfold pad; rewrite repeat_length; reflexivity|].
  replace (range <=? 65536)%N with true in H by lia. apply some_inv in H; subst b. rewrite app_length, to_bits_len; unfold pad; rewrite repeat_length; reflexivity.
Qed.
(* a SEQUENCE of a number, a criticality and an open type *)
Definition trip (ub : Z) : ty :=
  TSeq false [(false, TInt (Some (mkCon false 0 ub))); (false, TEnum false [0; 1; 2]%Z []); (false, TOcts None)] [].
Lemma crit_len c p b : enc (TEnum false [0; 1; 2]%Z []) (VEnum c) p = Some b -> length b = 2.
Proof.
  cbn [enc]. unfold put_enum. destruct (index_of c [0; 1; 2]%Z) as [i|]; [|discriminate]. intros H.
  apply after_inv in H as (b2&H2&->). apply whole_len in H2; [|cbn; lia]. cbn [app length] in *. rewrite H2. reflexivity.
Qed.
Lemma trip_parts ub id c o p b : (0 <= ub)%Z -> enc (trip ub) (VSeq [Some (VInt id); Some (VEnum c); Some (VOcts o)] []) p = Some b ->
  exists b1 b2 b3, b = b1 ++ b2 ++ b3 /\ put_whole (Z.to_N (ub + 1)) (Z.to_N id) p = Some b1 /\ length b2 = 2 /\
    put_list put_octet o (p + length b1 + 2) = Some b3.
Proof.
  intros Hub H. unfold trip in H. cbn [enc present map existsb andb negb length Nat.eqb put_bitmap app] in H.
  apply after_inv in H as (x&H&->). apply opt_inv in H as (y&H&H'). apply after_inv in H' as (z&Hz&->). apply some_inv in Hz. subst z.
  rewrite !app_nil_r. cbn [app length] in *. rewrite Nat.add_0_r in H.
  cbn [put_members] in H. apply opt_inv in H as (b1&H1&H). apply after_inv in H as (u&H&->).
  apply opt_inv in H as (b2&H2&H). apply after_inv in H as (v&H&->).
  apply opt_inv in H as (b3&H3&H). apply after_inv in H as (w&H&->). apply some_inv in H. subst w.
  pose proof (crit_len _ _ _ H2) as L2. rewrite L2 in H3. exists b1, b2, b3. rewrite !app_nil_r.
  split; [reflexivity|]. split; [|split; [exact L2|exact H3]].
  cbn [enc put_int c_ext] in H1. unfold put_con in H1. destruct (in_con _ id) eqn:E; [|discriminate]. cbn [c_lb] in H1.
  unfold con_range in H1. cbn [c_lb c_ub] in H1. rewrite !Z.sub_0_r in H1. exact H1.
Qed.
Lemma ie_len id c o p b : p mod 8 = 0 -> enc (trip 65535) (VSeq [Some (VInt id); Some (VEnum c); Some (VOcts o)] []) p = Some b ->
  ((N.of_nat (length o) < 16384)%N -> length b = 8 * N.to_nat (ie_octets (N.of_nat (length o)))) /\ 8 * length o < length b /\
  length b <> 0.
Proof.
  intros Hp H. destruct (trip_parts 65535 id c o p b ltac:(lia) H) as (b1&b2&b3&->&H1&H2&H3).
  apply whole_len in H1; [|lia]. change (length b1 = pad_len p + 16) in H1.
  assert (Hp0 : pad_len p = 0) by (unfold pad_len; rewrite Hp; reflexivity). rewrite Hp0 in H1.
  rewrite !app_length. split; [|split; [apply open_ge in H3; lia|lia]]. intros Hn. apply open_len in H3; [|exact Hn].
  rewrite H3, H1, H2. unfold body_bits, ie_octets. unfold pad_len. 
  assert ((p + (0 + 16) + 2) mod 8 = 2) by lia. replace (p + (0 + 16) + 2) with (p + 0 + 16 + 2) in * by lia.
  rewrite ?Nat.add_0_l in *. replace ((p + 16 + 2) mod 8) with 2 by lia. change ((8 - 2) mod 8) with 6.
  unfold len_octets. destruct (N.of_nat (length o) <? 128)%N; lia.
Qed.

Lemma nth_put_repeat k : forall i v, i < k -> nth_put enc (repeat std_msg k) i v = enc std_msg v.
Proof. induction k as [|k IH]; intros [|i] v Hi; cbn [repeat nth_put]; try lia; [reflexivity|]. apply IH. lia. Qed.
Lemma pdu_len P d p c o b : is_std (p_pdu P) -> encode (p_pdu P) (pdu_val d p c o) = Some b ->
  ((N.of_nat (length o) < 16384)%N -> N.of_nat (length b) = ie_octets (N.of_nat (length o))) /\ length o < length b.
Proof.
  intros (k&Hk&->) H. unfold encode in H. apply opt_inv in H as (x&H&Hx). apply some_inv in Hx; subst b.
  unfold pdu_val in H. cbn [enc] in H. rewrite repeat_length in H.
  destruct (N.to_nat d - 1 <? k) eqn:Hd.
  2:{ apply opt_inv in H as (u&_&H). apply opt_inv in H as (w&H&_). unfold complete in H. destruct (N.to_nat d - 1 - k); cbn [nth_put] in H; discriminate. }
  apply opt_inv in H as (b1&H1&H). apply after_inv in H as (b2&H2&->). rewrite nth_put_repeat in H2 by lia.
  apply after_inv in H1 as (b3&H3&->). apply whole_len in H3; [|lia].
  assert (L3 : length b3 = 2) by (destruct Hk as [-> | ->]; exact H3). clear H3.
  cbn [app length] in H2. rewrite L3 in H2.
  destruct (trip_parts 255 (Z.of_N p) c o _ _ ltac:(lia) H2) as (c1&c2&c3&->&C1&C2&C3).
  apply whole_len in C1; [|lia]. change (length c1 = 5 + 8) in C1. rewrite C1 in C3. change (0 + 3 + (5 + 8) + 2) with 18 in C3.
  split.
  - intros Hn. apply open_len in C3; [|exact Hn]. change (pad_len 18) with 6 in C3.
    assert (Hb : length ([false] ++ b3 ++ c1 ++ c2 ++ c3) = 8 * N.to_nat (ie_octets (N.of_nat (length o)))).
    { rewrite !app_length, L3, C1, C2, C3. cbn [length]. unfold body_bits, ie_octets, len_octets. destruct (N.of_nat (length o) <? 128)%N; lia. }
    rewrite <- app_assoc. rewrite (to_octets_exact ([false] ++ b3 ++ c1 ++ c2 ++ c3) _ ltac:(discriminate) Hb). lia.
  - apply open_ge in C3. apply to_octets_ge. rewrite !app_length. lia.
Qed.

(* ---------------- containers ---------------- *)
Definition ie_body (ie : val) : option (list N) :=
  match ie with VSeq [Some (VInt _); Some (VEnum _); Some (VOcts o)] [] => Some o | _ => None end.
Definition ie_size (ie : val) : N := match ie_body ie with Some o => ie_octets (N.of_nat (length o)) | None => 0 end.
Definition sizes (l : list val) : N := fold_right (fun ie n => ie_size ie + n)%N 0%N l.
Lemma items_len : forall l p b, p mod 8 = 0 -> (forall ie, In ie l -> ie_body ie <> None) ->
  put_items (fun v p => enc std_ie v p) l p = Some b ->
  ((forall ie o, In ie l -> ie_body ie = Some o -> (N.of_nat (length o) < 16384)%N) -> length b = 8 * N.to_nat (sizes l)) /\
  (forall ie o, In ie l -> ie_body ie = Some o -> 8 * length o < length b).
Proof.
  induction l as [|ie l IH]; intros p b Hp Hf H; cbn [put_items] in H.
  - apply some_inv in H; subst b. split; [reflexivity|intros ie o []].
  - apply opt_inv in H as (b1&H1&H). apply after_inv in H as (b2&H2&->).
    assert (Hie := Hf ie (or_introl eq_refl)). destruct (ie_body ie) as [o|] eqn:Eo; [|congruence].
    assert (Hval : exists id c, ie = VSeq [Some (VInt id); Some (VEnum c); Some (VOcts o)] []).
    { unfold ie_body in Eo. repeat match type of Eo with match ?x with _ => _ end = _ => destruct x; try discriminate end. injection Eo as <-. eauto. }
    destruct Hval as (id&c&Hv). subst ie. destruct (ie_len _ _ _ _ _ Hp H1) as (L1&L2&_).
    (* ends aligned *)
    destruct (N.ltb_spec (N.of_nat (length o)) 16384) as [Hlt|Hge].
    + specialize (L1 Hlt). destruct (IH (p + length b1) b2) as [I1 I2]; [lia|intros; apply Hf; right; assumption|exact H2|].
      split.
      * intros Ha. rewrite app_length, L1, I1 by (intros; eapply Ha; [right|]; eassumption). cbn [sizes fold_right]. fold (sizes l).
        unfold ie_size at 1. cbn [ie_body]. lia.
      * intros ie' o' [<-|Hin] E'; rewrite app_length; [rewrite Eo in E'; injection E' as <-; lia|]. specialize (I2 _ _ Hin E'). lia.
    + split.
      * intros Ha. specialize (Ha _ _ (or_introl eq_refl) Eo). lia.
      * (* only the bound of this element matters if it is that long *)
        intros ie' o' Hin E'. destruct Hin as [<-|Hin]; [rewrite Eo in E'; injection E' as <-; rewrite app_length; lia|].
        rewrite app_length.
        assert (Hg : forall l p b, (forall ie, In ie l -> ie_body ie <> None) -> put_items (fun v p => enc std_ie v p) l p = Some b ->
                   forall ie o, In ie l -> ie_body ie = Some o -> 8 * length o < length b).
        { clear. induction l as [|ie l IH]; intros p b Hf H ie0 o0 Hin E; [destruct Hin|]. cbn [put_items] in H.
          apply opt_inv in H as (b1&H1&H). apply after_inv in H as (b2&H2&->). rewrite app_length. destruct Hin as [<-|Hin].
          - unfold ie_body in E. repeat match type of E with match ?x with _ => _ end = _ => destruct x; try discriminate end. injection E as <-.
            destruct (trip_parts 65535 _ _ _ _ _ ltac:(lia) H1) as (c1&c2&c3&->&_&_&C3). apply open_ge in C3. rewrite !app_length. lia.
          - specialize (IH _ _ (fun ie h => Hf ie (or_intror h)) H2 _ _ Hin E). lia. }
        specialize (Hg l _ _ (fun ie h => Hf ie (or_intror h)) H2 _ _ Hin E'). lia.
Qed.
Lemma cont_len l o : (forall ie, In ie l -> ie_body ie <> None) -> encode std_cont (list_val l) = Some o ->
  ((forall ie o, In ie l -> ie_body ie = Some o -> (N.of_nat (length o) < 16384)%N) -> N.of_nat (length o) = 3 + sizes l)%N /\
  (forall ie o', In ie l -> ie_body ie = Some o' -> length o' < length o).
Proof.
  intros Hf H. unfold encode in H. apply opt_inv in H as (x&H&Hx). apply some_inv in Hx; subst o.
  unfold std_cont, list_val in H. cbn [enc present map existsb andb negb length Nat.eqb put_bitmap app] in H.
  apply after_inv in H as (x1&H&->). apply opt_inv in H as (y&H&H'). apply after_inv in H' as (z&Hz&->). apply some_inv in Hz. subst z.
  cbn [length] in H. cbn [put_members] in H. apply opt_inv in H as (b1&H1&H). apply after_inv in H as (u&Hu&->). apply some_inv in Hu. subst u.
  rewrite !app_nil_r. cbn [enc] in H1. unfold put_sized in H1. cbn [c_ext] in H1. unfold put_root in H1.
  destruct (in_con _ _); [|discriminate]. cbn [c_ub] in H1. change ((65535 <? 65536)%Z) with true in H1. cbv iota in H1.
  apply opt_inv in H1 as (b2&H2&H1). cbn [aligns] in H1. apply after_inv in H1 as (b3&H3&->).
  apply whole_len in H2; [|cbn; lia]. change (length b2 = 7 + 16) in H2. rewrite H2 in H3. change (0 + 1 + (7 + 16)) with 24 in H3.
  destruct (items_len l 24 b3 eq_refl Hf H3) as [I1 I2]. split.
  - intros Ha. specialize (I1 Ha). cbn [app].
    rewrite (to_octets_exact (false :: b2 ++ b3) (N.to_nat (3 + sizes l))); [lia|discriminate|]. cbn [length]. rewrite app_length. lia.
  - intros ie o' Hin E. specialize (I2 _ _ Hin E). apply to_octets_ge. cbn [app length]. rewrite app_length. lia.
Qed.
