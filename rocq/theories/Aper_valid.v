(* A value can be encoded exactly if it respects the constraints. *)
From Coq Require Import ZifyBool ZifyNat ZifyN.
From Verif Require Import Base Aper Aper_spec Aper_proofs.
Ltac Zify.zify_post_hook ::= Z.div_mod_to_equations.

Lemma after_some p b k : (exists b', k (p + length b) = Some b') -> exists b', after p b k = Some b'.
Proof. intros (b'&H). unfold after. rewrite H. eauto. Qed.
Lemma put_whole_some range v p : (v < range)%N -> exists b, put_whole range v p = Some b.
Proof.
  intros H. unfold put_whole. replace (v <? range)%N with true by lia. cbv zeta.
  destruct (range <=? 255)%N, (range =? 256)%N, (range <=? 65536)%N; eauto.
Qed.
Section Items.
Context {A : Type} (put : A -> nat -> option bits).
Definition can (a : A) : Prop := forall p, exists b, put a p = Some b.
Lemma put_items_some : forall l, (forall a, In a l -> can a) -> forall p, exists b, put_items put l p = Some b.
Proof.
  induction l as [|a l IH]; intros H p; cbn [put_items]; [eauto|].
  destruct (H a (or_introl eq_refl) p) as (b&Hb). rewrite Hb. cbn [obind2]. apply after_some. apply IH.
  intros x Hx. apply H. right. exact Hx.
Qed.
Lemma put_frag_some : forall fuel l, length l <= fuel -> (forall a, In a l -> can a) -> forall p, exists b, put_frag put fuel l p = Some b.
Proof.
  induction fuel as [|f IH]; intros l Hf H p; cbn [put_frag]; cbv zeta.
  - destruct l; [|cbn in Hf; lia]. apply after_some. apply put_items_some. exact H.
  - destruct (N.of_nat (length l) <? 16384)%N eqn:Hn; [apply after_some, put_items_some, H|].
    set (k := N.to_nat _). assert (Hk : 1 <= k) by (unfold k; lia).
    assert (Hin : forall a, In a (firstn k l) \/ In a (skipn k l) -> In a l).
    { intros a Ha. rewrite <- (firstn_skipn k l). apply in_or_app. exact Ha. }
    destruct (after_some p (pad p ++ to_bits 8 (192 + N.min 4 (N.of_nat (length l) / 16384))) (put_items put (firstn k l))) as (b&Hb).
    { apply put_items_some. intros a Ha. apply H, Hin. auto. }
    rewrite Hb. cbn [obind2]. apply after_some. apply IH; [rewrite skipn_length; lia|].
    intros a Ha. apply H, Hin. auto.
Qed.
Lemma put_list_some l : (forall a, In a l -> can a) -> forall p, exists b, put_list put l p = Some b.
Proof. intros H. apply put_frag_some; [lia|exact H]. Qed.
Lemma put_root_some small c l : (forall a, In a l -> can a) -> (c_lb c <= Z.of_nat (length l) <= c_ub c)%Z ->
  forall p, exists b, put_root put small c l p = Some b.
Proof.
  intros H Hc p. unfold put_root, in_con. replace (_ && _) with true by lia.
  destruct (c_ub c <? 65536)%Z; [|apply put_list_some, H].
  destruct (put_whole_some (con_range c) (Z.to_N (Z.of_nat (length l) - c_lb c)) p) as (b&Hb); [unfold con_range; lia|].
  rewrite Hb. cbn [obind2]. apply after_some, put_items_some, H.
Qed.
Lemma put_sized_some small c l : (forall a, In a l -> can a) -> allowed c (Z.of_nat (length l)) ->
  forall p, exists b, put_sized put small c l p = Some b.
Proof.
  intros H Hc p. destruct c as [c|]; cbn [put_sized allowed] in *; [|apply put_list_some, H].
  destruct (c_ext c) eqn:He.
  - destruct (in_con c (Z.of_nat (length l))) eqn:Hi; apply after_some;
      [apply put_root_some; [exact H|unfold in_con in Hi; lia]|apply put_list_some, H].
  - apply put_root_some; [exact H|]. destruct Hc; [discriminate|assumption].
Qed.
(* converse *)
Lemma put_items_each : forall l p b, put_items put l p = Some b -> forall a, In a l -> exists q b', put a q = Some b'.
Proof.
  induction l as [|x l IH]; intros p b H a []; cbn [put_items] in H; apply opt_inv in H as (b1&H1&H).
  - subst x. eauto.
  - apply after_inv in H as (b2&H2&->). eapply IH; eassumption.
Qed.
Lemma put_frag_each : forall fuel l p b, put_frag put fuel l p = Some b -> forall a, In a l -> exists q b', put a q = Some b'.
Proof.
  induction fuel as [|f IH]; intros l p b H a Ha; cbn [put_frag] in H; cbv zeta in H;
    (destruct (N.of_nat (length l) <? 16384)%N; [apply after_inv in H as (b'&H&->); eapply put_items_each; eassumption|]); [discriminate|].
  apply opt_inv in H as (b1&H1&H). apply after_inv in H as (b3&H3&->). apply after_inv in H1 as (b2&H2&->).
  rewrite <- (firstn_skipn (N.to_nat (N.min 4 (N.of_nat (length l) / 16384) * 16384)) l) in Ha. apply in_app_or in Ha as [Ha|Ha];
    [eapply put_items_each|eapply IH]; eassumption.
Qed.
Lemma put_root_each small c l p b : put_root put small c l p = Some b ->
  (c_lb c <= Z.of_nat (length l) <= c_ub c)%Z /\ forall a, In a l -> exists q b', put a q = Some b'.
Proof.
  unfold put_root. destruct (in_con c (Z.of_nat (length l))) eqn:Hi; [|discriminate]. intros H. split; [unfold in_con in Hi; lia|].
  destruct (c_ub c <? 65536)%Z; [|eapply put_frag_each; exact H].
  apply opt_inv in H as (b1&H1&H). apply after_inv in H as (b2&H2&->). eapply put_items_each; exact H2.
Qed.
Lemma put_sized_each small c l p b : put_sized put small c l p = Some b ->
  allowed c (Z.of_nat (length l)) /\ forall a, In a l -> exists q b', put a q = Some b'.
Proof.
  destruct c as [c|]; cbn [put_sized allowed]; [|intros H; split; [exact I|eapply put_frag_each; exact H]].
  destruct (c_ext c).
  - intros H; split; [left; reflexivity|]. destruct (in_con c _); apply after_inv in H as (b'&H&->);
      [eapply put_root_each|eapply put_frag_each]; exact H.
  - intros H. apply put_root_each in H as [H1 H2]. split; [right; exact H1|exact H2].
Qed.
End Items.
Lemma put_octet_can o : (o < 256)%N -> can put_octet o.
Proof. intros H p. unfold put_octet, is_byte. replace (o <? 256)%N with true by lia. eauto. Qed.
Lemma bytes_in l : bytes_ok l = true -> forall o, In o l -> (o < 256)%N.
Proof. unfold bytes_ok. rewrite forallb_forall. intros H o Ho. specialize (H o Ho). unfold is_byte in H. lia. Qed.
Lemma put_octets_some l : bytes_ok l = true -> forall p, exists b, put_list put_octet l p = Some b.
Proof. intros H. apply put_list_some. intros o Ho. apply put_octet_can. eapply bytes_in; eassumption. Qed.
Lemma put_small_some v p : exists b, put_small v p = Some b.
Proof.
  unfold put_small. destruct (v <? 64)%N; [eauto|]. apply after_some, put_octets_some, bits_octets_bytes.
Qed.
Lemma put_signed_some z p : exists b, put_signed z p = Some b.
Proof. apply put_octets_some, bits_octets_bytes. Qed.
Lemma put_con_some c z p : (c_lb c <= z <= c_ub c)%Z -> exists b, put_con c z p = Some b.
Proof. intros H. unfold put_con, in_con. replace (_ && _) with true by lia. apply put_whole_some. unfold con_range. lia. Qed.
Lemma put_int_some c z p : allowed c z -> exists b, put_int c z p = Some b.
Proof.
  destruct c as [c|]; cbn [allowed put_int]; [|intros; apply put_signed_some]. intros H. destruct (c_ext c).
  - destruct (in_con c z) eqn:Hi; apply after_some; [apply put_con_some; unfold in_con in Hi; lia|apply put_signed_some].
  - apply put_con_some. destruct H; [discriminate|assumption].
Qed.
Lemma put_int_allowed c z p b : put_int c z p = Some b -> allowed c z.
Proof.
  destruct c as [c|]; cbn [allowed put_int]; [|intros; exact I]. destruct (c_ext c); [auto|].
  unfold put_con. destruct (in_con c z) eqn:Hi; [|discriminate]. unfold in_con in Hi. intros _. right. lia.
Qed.
Lemma index_of_some z : forall l, In z l -> exists i, index_of z l = Some i /\ i < length l.
Proof.
  induction l as [|x l IH]; intros []; cbn [index_of length].
  - subst x. rewrite Z.eqb_refl. exists 0. split; [reflexivity|lia].
  - destruct (x =? z)%Z; [exists 0; split; [reflexivity|lia]|]. destruct (IH H) as (i&Hi&Hl). rewrite Hi. exists (S i). split; [reflexivity|lia].
Qed.
Lemma put_enum_root e r m z p : In z r -> exists b, put_enum e r m z p = Some b.
Proof.
  intros H. apply index_of_some in H as (i&Hi&Hl). unfold put_enum. rewrite Hi. cbv zeta. apply after_some, put_whole_some. lia.
Qed.
Lemma put_enum_more r m z p : In z m -> exists b, put_enum true r m z p = Some b.
Proof.
  intros H. apply index_of_some in H as (i&Hi&Hl). unfold put_enum. destruct (index_of z r) as [j|] eqn:Hj.
  - cbv zeta. apply after_some, put_whole_some. apply index_of_nth in Hj.
    assert (j < length r) by (apply nth_error_Some; congruence). lia.
  - rewrite Hi. cbn [obind2]. apply after_some, put_small_some.
Qed.
Lemma to_octets_bytes b : bytes_ok (to_octets b) = true.
Proof. destruct b; [reflexivity|apply bits_octets_bytes]. Qed.

Lemma comps_join root (vr : list (option val)) : length vr = length root ->
  (forall i t, nth_error root i = Some (false, t) -> nth_error vr i <> Some None) ->
  (forall i o t v, nth_error root i = Some (o, t) -> nth_error vr i = Some (Some v) -> valid t v) ->
  (forall i o t, nth_error root i = Some (o, t) -> match nth_error vr i with Some (Some v) => valid t v | _ => o = true end).
Proof.
  intros Hl H1 H2 i o t Hn. assert (Hi : i < length vr) by (rewrite Hl; apply nth_error_Some; congruence).
  specialize (H1 i t). specialize (H2 i o t). destruct (nth_error vr i) as [[v|]|] eqn:Hv; [auto| |apply nth_error_None in Hv; lia].
  destruct o; [reflexivity|]. destruct (H1 Hn eq_refl).
Qed.
Definition encodes (t : ty) : Prop := few_adds t = true -> forall v, valid t v -> forall p, exists b, enc t v p = Some b.
Lemma put_members_some : forall ms vs, Forall (fun m => encodes (snd m)) ms -> forallb (fun m => few_adds (snd m)) ms = true ->
  length vs = length ms ->
  (forall i o t, nth_error ms i = Some (o, t) -> match nth_error vs i with Some (Some v) => valid t v | _ => o = true end) ->
  forall p, exists b, put_members enc ms vs p = Some b.
Proof.
  induction ms as [|[o t] ms IH]; intros [|v vs] HF Hw Hl Hv p; try discriminate; cbn [put_members]; [eauto|].
  inversion HF as [|m l Ht HF']; subst. cbn [snd] in Ht. cbn [forallb snd] in Hw. apply andb_prop in Hw as [Hw1 Hw2].
  assert (Hr : forall p, exists b, put_members enc ms vs p = Some b).
  { apply IH; [exact HF'|exact Hw2|injection Hl; auto|]. intros i. exact (Hv (S i)). }
  specialize (Hv 0 o t eq_refl). cbn [nth_error] in Hv. destruct v as [v|].
  - destruct (Ht Hw1 v Hv p) as (b&Hb). destruct o; rewrite Hb; cbn [obind2]; apply after_some, Hr.
  - subst o. apply Hr.
Qed.
Lemma put_adds_some : forall ms vs, Forall (fun m => encodes (snd m)) ms -> forallb (fun m => few_adds (snd m)) ms = true ->
  length vs = length ms ->
  (forall i o t v, nth_error ms i = Some (o, t) -> nth_error vs i = Some (Some v) -> valid t v) ->
  forall p, exists b, put_adds enc ms vs p = Some b.
Proof.
  induction ms as [|[o t] ms IH]; intros [|v vs] HF Hw Hl Hv p; try discriminate; cbn [put_adds]; [eauto|].
  inversion HF as [|m l Ht HF']; subst. cbn [snd] in Ht. cbn [forallb snd] in Hw. apply andb_prop in Hw as [Hw1 Hw2].
  assert (Hr : forall p, exists b, put_adds enc ms vs p = Some b).
  { apply IH; [exact HF'|exact Hw2|injection Hl; auto|]. intros i. exact (Hv (S i)). }
  destruct v as [v|]; [|apply Hr].
  destruct (Ht Hw1 v (Hv 0 o t v eq_refl eq_refl) 0) as (b&Hb). unfold complete. rewrite Hb. cbn [obind2].
  destruct (put_octets_some (to_octets b) (to_octets_bytes b) p) as (b2&Hb2). unfold put_open. rewrite Hb2. cbn [obind2].
  apply after_some, Hr.
Qed.
Lemma nth_put_some : forall ts i t v, Forall encodes ts -> forallb few_adds ts = true -> nth_error ts i = Some t -> valid t v ->
  forall p, exists b, nth_put enc ts i v p = Some b.
Proof.
  induction ts as [|t0 ts IH]; intros [|i] t v HF Hw Hn Hv p; try discriminate; inversion HF as [|m l Ht HF']; subst;
    cbn [forallb] in Hw; apply andb_prop in Hw as [Hw1 Hw2]; cbn [nth_put].
  - injection Hn as ->. apply (Ht Hw1 v Hv).
  - eapply IH; eassumption.
Qed.
Lemma existsb_present va : existsb (fun b => b) (present va) = true -> exists v, In (Some v) va.
Proof.
  intros H. apply existsb_exists in H as (x&Hx&Ht). subst x. unfold present in Hx. apply in_map_iff in Hx as ([v|]&Hv&Hin); [eauto|discriminate].
Qed.
Lemma valid_encodes : forall t, encodes t.
Proof.
  apply ty_ind2; unfold encodes; intros.
  - inversion H0; subst; cbn [enc]; eauto.
  - inversion H0; subst; cbn [enc]; eauto.
  - inversion H0; subst; cbn [enc]. apply put_int_some. assumption.
  - inversion H0; subst; cbn [enc]; [apply put_enum_root|apply put_enum_more]; assumption.
  - inversion H0; subst; cbn [enc]. apply put_sized_some; [|assumption]. intros a _ q. unfold put_bit. eauto.
  - inversion H0; subst; cbn [enc]. apply put_sized_some; [|assumption]. intros a Ha. apply put_octet_can. auto.
  - cbn [few_adds] in H1. apply andb_prop in H1 as [H1 H64]. apply andb_prop in H1 as [Hw1 Hw2].
    inversion H2 as [| | | | | | | |e' root' adds' vr va Hl1 Hl2 Hr1 Hr2 Ha Hx| |]; subst.
    pose proof (comps_join _ _ Hl1 Hr1 Hr2) as Hr. cbn [enc]. cbv zeta.
    rewrite Hl2, Nat.eqb_refl. cbn [negb].
    destruct (existsb (fun b => b) (present va)) eqn:Hex.
    + destruct (existsb_present _ Hex) as (w&Hw). destruct e; [|destruct (Hx eq_refl w Hw)]. cbn [negb andb].
      apply after_some. 
      match goal with |- exists b, obind2 (put_members enc root vr ?q) _ = _ =>
        destruct (put_members_some root vr H Hw1 Hl1 Hr q) as (b&Hb) end.
      rewrite Hb. cbn [obind2]. apply after_some. rewrite H64. apply after_some. apply put_adds_some; assumption.
    + cbn [andb]. apply after_some.
      match goal with |- exists b, obind2 (put_members enc root vr ?q) _ = _ =>
        destruct (put_members_some root vr H Hw1 Hl1 Hr q) as (b&Hb) end.
      rewrite Hb. cbn [obind2]. apply after_some. eauto.
  - inversion H1; subst; cbn [enc]. cbn [few_adds] in H0. apply put_sized_some; [|assumption]. intros a Ha q.
    apply H; auto.
  - cbn [few_adds] in H1. apply andb_prop in H1 as [Hw1 Hw2]. inversion H2; subst; cbn [enc].
    + assert (Hi : i < length root) by (apply nth_error_Some; congruence).
      replace (i <? length root) with true by lia.
      destruct (after_some p (if e return bits then [false] else []) (put_whole (N.of_nat (length root)) (N.of_nat i))) as (b&Hb); [apply put_whole_some; lia|].
      rewrite Hb. cbn [obind2]. apply after_some. eapply nth_put_some; eassumption.
    + replace (length root + i <? length root) with false by lia. replace (length root + i - length root) with i by lia.
      destruct (after_some p [true] (put_small (N.of_nat i))) as (b&Hb); [apply put_small_some|].
      rewrite Hb. cbn [obind2]. unfold complete.
      destruct (nth_put_some more i t v0 H0 Hw2 ltac:(eassumption) ltac:(eassumption) 0) as (b2&Hb2). rewrite Hb2. cbn [obind2].
      apply after_some, put_octets_some, to_octets_bytes.
Qed.

(* ---------------- converse ---------------- *)
Definition only (t : ty) : Prop := forall v p b, enc t v p = Some b -> valid t v.
Lemma members_valid : forall ms vs p b, Forall (fun m => only (snd m)) ms -> put_members enc ms vs p = Some b ->
  length vs = length ms /\
  (forall i o t, nth_error ms i = Some (o, t) -> match nth_error vs i with Some (Some v) => valid t v | _ => o = true end).
Proof.
  induction ms as [|[o t] ms IH]; intros [|v vs] p b HF H; cbn [put_members] in H; try discriminate.
  - split; [reflexivity|]. intros [|i]; discriminate.
  - destruct o; discriminate.
  - inversion HF as [|m l Ht HF']; subst. cbn [snd] in Ht. destruct v as [v|].
    + assert (He : exists b1 b2, enc t v p = Some b1 /\ put_members enc ms vs (p + length b1) = Some b2).
      { destruct o; apply opt_inv in H as (b1&H1&H); apply after_inv in H as (b2&H2&_); eauto. }
      destruct He as (b1&b2&H1&H2). destruct (IH _ _ _ HF' H2) as [I1 I2]. split; [cbn [length]; congruence|].
      intros [|i] o' t' Hn; [|apply (I2 i o' t' Hn)]. cbn [nth_error] in *. injection Hn as <- <-. eapply Ht; exact H1.
    + destruct o; [|discriminate]. destruct (IH _ _ _ HF' H) as [I1 I2]. split; [cbn [length]; congruence|].
      intros [|i] o' t' Hn; [|apply (I2 i o' t' Hn)]. cbn [nth_error] in *. injection Hn as <- <-. reflexivity.
Qed.
Lemma adds_valid : forall ms vs p b, Forall (fun m => only (snd m)) ms -> put_adds enc ms vs p = Some b ->
  (forall i o t v, nth_error ms i = Some (o, t) -> nth_error vs i = Some (Some v) -> valid t v).
Proof.
  induction ms as [|[o t] ms IH]; intros [|v vs] p b HF H; cbn [put_adds] in H; try discriminate.
  - intros [|i]; discriminate.
  - inversion HF as [|m l Ht HF']; subst. cbn [snd] in Ht. destruct v as [v|].
    + apply opt_inv in H as (oc&Hoc&H). apply opt_inv in H as (b1&H1&H). apply after_inv in H as (b2&H2&->).
      apply opt_inv in Hoc as (b3&H3&_).
      intros [|i] o' t' v' Hn Hv; cbn [nth_error] in *; [|eapply (IH _ _ _ HF' H2 i); eassumption].
      injection Hn as <- <-. injection Hv as <-. eapply Ht; exact H3.
    + intros [|i] o' t' v' Hn Hv; cbn [nth_error] in *; [discriminate|]. eapply (IH _ _ _ HF' H i); eassumption.
Qed.
Lemma nth_put_valid : forall ts i v p b, Forall only ts -> nth_put enc ts i v p = Some b -> exists t, nth_error ts i = Some t /\ valid t v.
Proof.
  induction ts as [|t0 ts IH]; intros [|i] v p b HF H; cbn [nth_put] in H; try discriminate; inversion HF as [|m l Ht HF']; subst.
  - exists t0. split; [reflexivity|eapply Ht; exact H].
  - eapply IH; eassumption.
Qed.
Lemma encodes_valid : forall t, only t.
Proof.
  apply ty_ind2; unfold only; intros.
  - destruct v; try discriminate. constructor.
  - destruct v; try discriminate. constructor.
  - destruct v; try discriminate. constructor. eapply put_int_allowed. exact H.
  - destruct v; try discriminate. cbn [enc] in H. unfold put_enum in H. destruct (index_of z r) as [i|] eqn:Hi.
    + apply v_enum_root. apply index_of_nth in Hi. eapply nth_error_In; exact Hi.
    + destruct e; [|discriminate]. apply opt_inv in H as (i&Hm&H). apply v_enum_more. apply index_of_nth in Hm. eapply nth_error_In; exact Hm.
  - destruct v; try discriminate. constructor. eapply put_sized_each. exact H.
  - destruct v; try discriminate. cbn [enc] in H. apply put_sized_each in H as [H1 H2]. constructor; [exact H1|].
    intros o Ho. destruct (H2 o Ho) as (q&b'&Hb). unfold put_octet in Hb. destruct (is_byte o) eqn:Hy; [|discriminate]. unfold is_byte in Hy. lia.
  - destruct v as [| | | | | |vr va| |]; try discriminate. cbn [enc] in H1. cbv zeta in H1.
    set (x := existsb (fun b => b) (present va)) in *.
    destruct (x && negb e) eqn:Hxe; [discriminate|].
    destruct (negb (length va =? length adds)) eqn:Hla; [discriminate|].
    apply after_inv in H1 as (b1&H1&->). apply opt_inv in H1 as (b2&H2&H1). apply after_inv in H1 as (b3&H3&->).
    destruct (members_valid _ _ _ _ H H2) as [I1 I2].
    assert (Hno : x = false -> forall w, ~ In (Some w) va).
    { intros Hx w Hw. assert (Ht : x = true); [|congruence]. unfold x. apply existsb_exists. exists true. split; [|reflexivity].
      unfold present. apply in_map_iff. exists (Some w). split; [reflexivity|exact Hw]. }
    constructor; [exact I1|lia| | | |].
    + intros i t Hn Hv. specialize (I2 i false t Hn). rewrite Hv in I2. discriminate.
    + intros i o t v Hn Hv. specialize (I2 i o t Hn). rewrite Hv in I2. exact I2.
    + destruct x eqn:Hx.
      * destruct (N.of_nat (length adds) <=? 64)%N; [|discriminate]. apply after_inv in H3 as (b4&H4&->).
        eapply adds_valid; eassumption.
      * intros i o t w _ Hw. destruct (Hno eq_refl w). eapply nth_error_In; exact Hw.
    + intros He. apply Hno. subst e. destruct x; [discriminate|reflexivity].
  - destruct v; try discriminate. cbn [enc] in H0. apply put_sized_each in H0 as [H1 H2]. constructor; [exact H1|].
    intros w Hw. destruct (H2 w Hw) as (q&b'&Hb). eapply H; exact Hb.
  - destruct v; try discriminate. cbn [enc] in H1. destruct (i <? length root) eqn:Hi.
    + apply opt_inv in H1 as (b1&_&H1). apply after_inv in H1 as (b2&H2&->).
      destruct (nth_put_valid _ _ _ _ _ H H2) as (t&Ht&Hv). eapply v_choice_root; eassumption.
    + destruct e; [|discriminate]. apply opt_inv in H1 as (b1&_&H1). apply opt_inv in H1 as (o&Ho&H1).
      apply opt_inv in Ho as (b2&H2&_). destruct (nth_put_valid _ _ _ _ _ H0 H2) as (t&Ht&Hv).
      replace i with (length root + (i - length root)) by lia. eapply v_choice_more; eassumption.
Qed.

Lemma encode_total t v : few_adds t = true -> valid t v -> exists o, encode t v = Some o /\ bytes_ok o = true /\ o <> [].
Proof.
  intros Hf Hv. destruct (valid_encodes t Hf v Hv 0) as (b&Hb). exists (to_octets b). unfold encode, complete. rewrite Hb.
  split; [reflexivity|]. split; [apply to_octets_bytes|]. destruct b; [discriminate|]. cbn. discriminate.
Qed.
Lemma encode_bytes t v o : encode t v = Some o -> bytes_ok o = true.
Proof. intros H. apply opt_inv in H as (b&_&H). apply some_inv in H; subst o. apply to_octets_bytes. Qed.
Lemma encode_valid t v o : encode t v = Some o -> valid t v.
Proof. intros H. apply opt_inv in H as (b&Hb&_). eapply encodes_valid; exact Hb. Qed.
(* trailing octets are ignored *)
Lemma octets_bits_app a b : octets_bits (a ++ b) = octets_bits a ++ octets_bits b.
Proof. apply flat_map_app. Qed.
Lemma decode_encode_rest t v o r : encode t v = Some o -> decode t (o ++ r) = Some v.
Proof.
  intros H. apply opt_inv in H as (b&Hb&H). apply some_inv in H; subst o. unfold decode, of_octets. rewrite octets_bits_app.
  unfold to_octets. destruct b as [|x b].
  - pose proof (round_trip t v 0 [] Hb (octets_bits [0%N] ++ octets_bits r)) as Hr. cbn [List.app] in Hr. rewrite Hr. reflexivity.
  - rewrite octets_bits_octets, <- app_assoc, (round_trip t v 0 _ Hb). reflexivity.
Qed.
