From Coq Require Import ZifyBool ZifyNat ZifyN.
From Verif Require Import Base Lai Helpers Helpers_spec Helpers_proofs.
Ltac Zify.zify_post_hook ::= Z.div_mod_to_equations.

Lemma len3 (l : list N) : length l = 3 -> exists a b c, l = [a;b;c].
Proof. intros H. do 3 (destruct l as [|? l]; [discriminate|]). destruct l; [|discriminate]. repeat eexists. Qed.
Lemma len2 (l : list N) : length l = 2 -> exists a b, l = [a;b].
Proof. intros H. do 2 (destruct l as [|? l]; [discriminate|]). destruct l; [|discriminate]. repeat eexists. Qed.

Lemma parse_lai_total_l : forall l, exists rc r,
  parse_lai l = Ok (rc, r) /\ (rc = 0%Z \/ rc = (-1)%Z) /\ ra_rac r = 0%N /\
  (rc = 0%Z <-> length (lai_plmn l) = 3 /\ length (lai_lac l) = 2 /\
     be_value (lai_lac l) <> 0%N /\ be_value (lai_lac l) <> 65534%N).
Proof.
  intros [p c]. unfold parse_lai. cbn [lai_plmn lai_lac].
  destruct (Nat.eqb_spec (length p) 3) as [H3|H3]; cbn [negb].
  - apply len3 in H3 as (b0&b1&b2&->). cbn [rd nth_error obind].
    destruct (Nat.eqb_spec (length c) 2) as [H2|H2]; cbn [negb].
    + apply len2 in H2 as (c0&c1&->). cbn [asn1str_to_u16 obind].
      assert (E : be_value [c0;c1] = be16 c0 c1) by (unfold be_value, be16; cbn [fold_left]; lia).
      rewrite E.
      destruct (N.eqb_spec (be16 c0 c1) 0); cbn [orb].
      * do 2 eexists. split; [reflexivity|]. repeat split; auto; try discriminate. intros (_&_&H&_); contradiction.
      * destruct (N.eqb_spec (be16 c0 c1) 65534).
        -- do 2 eexists. split; [reflexivity|]. repeat split; auto; try discriminate. intros (_&_&_&H); contradiction.
        -- do 2 eexists. split; [reflexivity|]. repeat split; auto.
    + do 2 eexists. split; [reflexivity|]. repeat split; auto; try discriminate. intros (_&H&_); contradiction.
  - do 2 eexists. split; [reflexivity|]. repeat split; auto; try discriminate. intros (H&_); contradiction.
Qed.

Lemma nib_lo a b : (a < 16)%N -> N.land (a + 16 * b) 15 = a.
Proof. intros Ha. rewrite land15_mod. lia. Qed.
Lemma nib_hi a b : (a < 16)%N -> N.shiftr (a + 16 * b) 4 = b.
Proof. intros Ha. rewrite shiftr4_div. lia. Qed.

Lemma parse_lai_value_l : forall m1 m2 m3 f n2 n3 c0 c1,
  (m1 < 16)%N -> (m2 < 16)%N -> (m3 < 16)%N -> (f < 16)%N -> (n2 < 16)%N -> (n3 < 16)%N ->
  be16 c0 c1 <> 0%N -> be16 c0 c1 <> 65534%N ->
  parse_lai (mkRLai [m1 + 16 * m2; m3 + 16 * f; n2 + 16 * n3]%N [c0; c1]) =
    Ok (0%Z, mkRaId (100 * m1 + 10 * m2 + m3)
              (if (f =? 15)%N then (10 * n2 + n3)%N else (100 * f + 10 * n2 + n3)%N)
              false (be16 c0 c1) 0).
Proof.
  intros. unfold parse_lai. cbn [lai_plmn lai_lac length Nat.eqb negb rd nth_error obind asn1str_to_u16].
  rewrite !nib_lo, !nib_hi by assumption.
  destruct (N.eqb_spec (be16 c0 c1) 0); [contradiction|].
  destruct (N.eqb_spec (be16 c0 c1) 65534); [contradiction|]. cbn [orb].
  destruct (f =? 15)%N eqn:E; cbn [negb]; f_equal; f_equal; f_equal; lia.
Qed.

Lemma grnc_value_l : forall m1 m2 m3 f n2 n3 id,
  (m1 < 16)%N -> (m2 < 16)%N -> (m3 < 16)%N -> (f < 16)%N -> (n2 < 16)%N -> (n3 < 16)%N ->
  (id < 65536)%N ->
  grnc_id_parse (mkGrnc [m1 + 16 * m2; m3 + 16 * f; n2 + 16 * n3]%N id) =
    Ok (Some (mkRncId (mkPlmn (100 * m1 + 10 * m2 + m3)
       (if (f =? 15)%N then (10 * n2 + n3)%N else (100 * n2 + 10 * n3 + f)%N) (negb (f =? 15)%N)) id)).
Proof.
  intros. unfold grnc_id_parse, plmn_from_bcd. cbn [g_plmn g_rnc length Nat.eqb negb rd nth_error obind].
  rewrite !nib_lo, !nib_hi by assumption.
  rewrite (N.mod_small id 65536) by assumption.
  destruct (f =? 15)%N eqn:E; cbn [negb]; do 4 f_equal; lia.
Qed.

Lemma grnc_total_l : forall g, exists r, grnc_id_parse g = Ok r /\ (r = None <-> length (g_plmn g) <> 3).
Proof.
  intros [p i]. unfold grnc_id_parse. cbn [g_plmn].
  destruct (Nat.eqb_spec (length p) 3) as [H|H]; cbn [negb].
  - apply len3 in H as (a&b&c&->). cbn [rd nth_error obind]. eexists. split; [reflexivity|].
    split; [discriminate|]. intros H; exfalso; apply H; reflexivity.
  - eexists. split; [reflexivity|]. split; auto.
Qed.

(* equality relations *)
Lemma mnc_eqb_refl a b : mnc_eqb a b a b = true.
Proof. unfold mnc_eqb. rewrite N.eqb_refl, Bool.eqb_reflx, orb_true_r. reflexivity. Qed.
Lemma plmn_eqb_refl a : plmn_eqb a a = true.
Proof. unfold plmn_eqb. rewrite N.eqb_refl, mnc_eqb_refl. reflexivity. Qed.
Lemma lai_eqb_refl a : lai_eqb a a = true.
Proof. unfold lai_eqb. rewrite plmn_eqb_refl, N.eqb_refl. reflexivity. Qed.
Lemma rai_eqb_refl a : rai_eqb a a = true.
Proof. unfold rai_eqb. rewrite lai_eqb_refl, N.eqb_refl. reflexivity. Qed.
Lemma rnc_id_eqb_refl a : rnc_id_eqb a a = true.
Proof. unfold rnc_id_eqb. rewrite plmn_eqb_refl, N.eqb_refl. reflexivity. Qed.

Lemma plmn_eqb_iff a b : plmn_eqb a b = true <->
  p_mcc a = p_mcc b /\ p_mnc a = p_mnc b /\ ((p_mnc a < 100)%N -> p_mnc3 a = p_mnc3 b).
Proof.
  unfold plmn_eqb, mnc_eqb. destruct (p_mnc3 a), (p_mnc3 b); cbn [Bool.eqb];
   rewrite !andb_true_iff, ?orb_true_iff; split; intros H; intuition (try lia; try discriminate); 
   try (exfalso; lia); try (apply N.eqb_eq; assumption).
Qed.
Lemma plmn_eqb_sym a b : plmn_eqb a b = plmn_eqb b a.
Proof.
  destruct (plmn_eqb a b) eqn:E1, (plmn_eqb b a) eqn:E2; auto.
  - rewrite <- E2. symmetry. apply plmn_eqb_iff. apply plmn_eqb_iff in E1 as (H1&H2&H3).
    repeat split; auto. intros H. symmetry. apply H3. rewrite H2. exact H.
  - rewrite <- E1. apply plmn_eqb_iff. apply plmn_eqb_iff in E2 as (H1&H2&H3).
    repeat split; auto. intros H. symmetry. apply H3. rewrite H2. exact H.
Qed.
Lemma plmn_eqb_trans a b c : plmn_eqb a b = true -> plmn_eqb b c = true -> plmn_eqb a c = true.
Proof.
  rewrite !plmn_eqb_iff. intros (H1&H2&H3) (G1&G2&G3). repeat split; try congruence.
  intros H. rewrite H3 by assumption. apply G3. rewrite <- H2. exact H.
Qed.
Lemma lai_eqb_sym a b : lai_eqb a b = lai_eqb b a.
Proof. unfold lai_eqb. rewrite plmn_eqb_sym, (N.eqb_sym (l_lac a)). reflexivity. Qed.
Lemma rai_eqb_sym a b : rai_eqb a b = rai_eqb b a.
Proof. unfold rai_eqb. rewrite lai_eqb_sym, (N.eqb_sym (r_rac a)). reflexivity. Qed.
Lemma rnc_id_eqb_sym a b : rnc_id_eqb a b = rnc_id_eqb b a.
Proof. unfold rnc_id_eqb. rewrite plmn_eqb_sym, (N.eqb_sym (ri_id a)). reflexivity. Qed.
Lemma lai_eqb_trans a b c : lai_eqb a b = true -> lai_eqb b c = true -> lai_eqb a c = true.
Proof.
  unfold lai_eqb. rewrite !andb_true_iff, !N.eqb_eq. intros [H1 H2] [G1 G2].
  split; [eapply plmn_eqb_trans; eauto|congruence].
Qed.
Lemma rai_eqb_trans a b c : rai_eqb a b = true -> rai_eqb b c = true -> rai_eqb a c = true.
Proof.
  unfold rai_eqb. rewrite !andb_true_iff, !N.eqb_eq. intros [H1 H2] [G1 G2].
  split; [eapply lai_eqb_trans; eauto|congruence].
Qed.
Lemma rnc_id_eqb_trans a b c : rnc_id_eqb a b = true -> rnc_id_eqb b c = true -> rnc_id_eqb a c = true.
Proof.
  unfold rnc_id_eqb. rewrite !andb_true_iff, !N.eqb_eq. intros [H1 H2] [G1 G2].
  split; [eapply plmn_eqb_trans; eauto|congruence].
Qed.

(* C13 *)
Lemma be32_inj a b c d a' b' c' d' :
  bytes_ok [a;b;c;d] = true -> bytes_ok [a';b';c';d'] = true ->
  be32 a b c d = be32 a' b' c' d' -> a = a' /\ b = b' /\ c = c' /\ d = d'.
Proof. cbn [bytes_ok forallb]. unfold is_byte, be32. lia. Qed.

Lemma bswap_be32 a b c d : bytes_ok [a;b;c;d] = true -> bswap32 (be32 a b c d) = be32 d c b a.
Proof.
  cbn [bytes_ok forallb]. unfold is_byte. intros H. unfold bswap32.
  replace (be32 a b c d mod 256)%N with d by (unfold be32; lia).
  replace ((be32 a b c d / 256) mod 256)%N with c by (unfold be32; lia).
  replace ((be32 a b c d / 65536) mod 256)%N with b by (unfold be32; lia).
  replace ((be32 a b c d / 16777216) mod 256)%N with a by (unfold be32; lia).
  reflexivity.
Qed.

Lemma ip_plain_x213_l : forall le a b c d, bytes_ok [a;b;c;d] = true ->
  (ip_from_transp_layer_addr le [a;b;c;d] = ip_from_transp_layer_addr le [53;0;1;a;b;c;d]%N
   <-> le = false \/ (a = d /\ b = c)).
Proof.
  intros le a b c d H. cbn [ip_from_transp_layer_addr N.eqb Pos.eqb andb].
  destruct le; cbn [load32 htonl].
  - rewrite bswap_be32 by (cbn [bytes_ok forallb] in *; unfold is_byte in *; lia).
    split.
    + intros E. injection E as E. right.
      apply be32_inj in E; unfold bytes_ok, forallb, is_byte in *; [|lia|lia]. lia.
    + intros [?|[-> ->]]; [discriminate|reflexivity].
  - split; auto.
Qed.

Lemma ip_rejects_own_x213_l : forall le out a, sockaddr_ok a = true ->
  (sa_family a = AF_INET \/ sa_family a = AF_INET6) ->
  ip_from_transp_layer_addr le (snd (new_transp_layer_addr out a true)) = None.
Proof.
  intros le out a Hok Hf. unfold sockaddr_ok in Hok.
  repeat (apply andb_prop in Hok as [Hok ?]). apply Nat.eqb_eq in Hok.
  assert (H6 : length (sa_v6 a) = 16) by (apply Nat.eqb_eq; assumption).
  unfold new_transp_layer_addr. destruct Hf as [Hf|Hf]; rewrite Hf; cbn [N.eqb AF_INET AF_INET6 Pos.eqb snd].
  - apply list_len_4 in Hok as (p&q&r&s&->). reflexivity.
  - apply list_len_16 in H6 as (a0&b&c&d&e&f&g&h&i&j&k&m&n&o&p&q&->). reflexivity.
Qed.

Lemma ip_accepts_l : forall le o,
  ip_from_transp_layer_addr le o <> None <->
    (length o = 4 \/ exists ip, length ip = 4 /\ o = [53; 0; 1]%N ++ ip).
Proof.
  intros le o. split.
  - intros H. unfold ip_from_transp_layer_addr in H.
    do 8 (destruct o as [|? o]; [try (left; reflexivity); try congruence|]);
      try congruence.
    destruct (_ && _) eqn:E in H; [|congruence].
    apply andb_prop in E as [E E3]. apply andb_prop in E as [E1 E2].
    apply N.eqb_eq in E1, E2, E3. subst. right. eexists. split; [|cbn [app]; reflexivity]. reflexivity.
  - intros [H|(ip&H&->)].
    + apply list_len_4 in H as (a&b&c&d&->). discriminate.
    + apply list_len_4 in H as (a&b&c&d&->). discriminate.
Qed.
Lemma ip_value_l : forall a b c d, bytes_ok [a;b;c;d] = true ->
  ip_from_transp_layer_addr false [a;b;c;d] = Some (be_value [a;b;c;d]) /\
  ip_from_transp_layer_addr true [a;b;c;d] = Some (be_value [d;c;b;a]) /\
  (forall le, ip_from_transp_layer_addr le [53;0;1;a;b;c;d]%N = Some (be_value [a;b;c;d])).
Proof.
  intros a b c d H. cbn [ip_from_transp_layer_addr N.eqb Pos.eqb andb].
  assert (E : forall a b c d, be_value [a;b;c;d] = be32 a b c d)
    by (intros; unfold be_value, be32; cbn [fold_left]; lia).
  rewrite !E. repeat split. intros le. destruct le; cbn [load32 htonl]; [|reflexivity].
  rewrite bswap_be32 by (cbn [bytes_ok forallb] in *; unfold is_byte in *; lia). reflexivity.
Qed.
