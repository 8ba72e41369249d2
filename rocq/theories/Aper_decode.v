(* The decoder only ever yields values that the type descriptor admits. *)
From Verif Require Import Base Aper Aper_spec Aper_proofs Aper_valid.

(* every size constraint of the type has a lower bound of at least 0 *)
Definition size_ok (c : option con) : bool := match c with Some c => (0 <=? c_lb c)%Z | None => true end.
Fixpoint sizes_ok (t : ty) : bool :=
  match t with
  | TBits c | TOcts c => size_ok c
  | TSeqOf c t => size_ok c && sizes_ok t
  | TSeq _ root adds => forallb (fun m => sizes_ok (snd m)) root && forallb (fun m => sizes_ok (snd m)) adds
  | TChoice _ root more => forallb sizes_ok root && forallb sizes_ok more
  | _ => true
  end.

Definition yields {A} (m : D A) (P : A -> Prop) : Prop := forall p b a p' b', m p b = Some (a, p', b') -> P a.
Lemma y_ret A (a : A) (P : A -> Prop) : P a -> yields (dret a) P.
Proof. intros H p b x p' b' He. unfold dret in He. congruence. Qed.
Lemma y_fail A (P : A -> Prop) : yields dfail P.
Proof. intros p b a p' b' H. discriminate. Qed.
Lemma y_bind A B (m : D A) (k : A -> D B) P Q : yields m P -> (forall a, P a -> yields (k a) Q) -> yields (dbind m k) Q.
Proof.
  intros Hm Hk p b c p' b' H. unfold dbind in H. destruct (m p b) as [[[a q] r]|] eqn:E; [|discriminate].
  exact (Hk a (Hm _ _ _ _ _ E) _ _ _ _ _ H).
Qed.
Lemma y_any A (m : D A) : yields m (fun _ => True).
Proof. intros p b a p' b' _. exact I. Qed.
Lemma y_imp A (m : D A) (P Q : A -> Prop) : yields m P -> (forall a, P a -> Q a) -> yields m Q.
Proof. intros H HQ p b a p' b' He. eapply HQ, H, He. Qed.
Lemma y_dopt A (o : option A) : yields (dopt o) (fun a => o = Some a).
Proof. destruct o; [apply y_ret; reflexivity|apply y_fail]. Qed.
Lemma y_if A (x : bool) (m n : D A) P : (x = true -> yields m P) -> (x = false -> yields n P) -> yields (if x then m else n) P.
Proof. destruct x; auto. Qed.
Ltac step_any := eapply y_bind; [apply y_any|]; intros ? _.

Lemma take_len : forall n b u v, take n b = Some (u, v) -> length u = n.
Proof.
  induction n as [|n IH]; intros b u v H; cbn [take] in H; [injection H as <- <-; reflexivity|].
  destruct b as [|x b]; [discriminate|]. destruct (take n b) as [[u' v']|] eqn:E; [|discriminate]. injection H as <- <-.
  cbn [length]. f_equal. eapply IH, E.
Qed.
Lemma y_raw n : yields (get_raw n) (fun u => length u = n).
Proof. intros p b u p' b' H. unfold get_raw in H. destruct (take n b) as [[u' v']|] eqn:E; [|discriminate]. injection H as <- _ _. eapply take_len, E. Qed.
Lemma y_bits n : yields (get_bits n) (fun v => (v < 2 ^ N.of_nat n)%N).
Proof. eapply y_bind; [apply y_raw|]. intros u Hu. apply y_ret. rewrite <- Hu. apply from_bits_bound. Qed.
Lemma y_whole range : yields (get_whole range) (fun v => (v < range)%N).
Proof. unfold get_whole. eapply y_bind; [apply y_any|]. intros v _. apply y_if; intros E; [apply y_ret; lia|apply y_fail]. Qed.

Section Items.
Context {A : Type}.
Variable getf : D A.
Variable P : A -> Prop.
Hypothesis item : yields getf P.
Lemma y_items n : yields (get_items getf n) (fun l => length l = n /\ forall a, In a l -> P a).
Proof.
  induction n as [|n IH]; cbn [get_items]; [apply y_ret; split; [reflexivity|intros a []]|].
  eapply y_bind; [exact item|]. intros a Ha. eapply y_bind; [exact IH|]. intros l [Hl Hi]. apply y_ret.
  split; [cbn [length]; lia|]. intros x [<-|Hx]; auto.
Qed.
Lemma y_frag : forall fuel, yields (get_frag getf fuel) (fun l => forall a, In a l -> P a).
Proof.
  induction fuel as [|f IH]; cbn [get_frag]; [apply y_fail|].
  step_any. step_any.
  apply y_if; intros _; [eapply y_imp; [apply y_items|]; intros l H; apply H|].
  apply y_if; intros _; [step_any; eapply y_imp; [apply y_items|]; intros l H; apply H|].
  apply y_if; intros _; [|apply y_fail].
  eapply y_bind; [apply y_items|]. intros x [_ Hx]. eapply y_bind; [exact IH|]. intros y Hy. apply y_ret.
  intros z Hz. apply in_app_or in Hz as [Hz|Hz]; auto.
Qed.
Lemma y_list : yields (get_list getf) (fun l => forall a, In a l -> P a).
Proof. intros p b a p' b' H. unfold get_list in H. eapply y_frag, H. Qed.
Lemma y_root small c : (0 <= c_lb c)%Z ->
  yields (get_root getf small c) (fun l => (c_lb c <= Z.of_nat (length l) <= c_ub c)%Z /\ forall a, In a l -> P a).
Proof.
  intros Hc. unfold get_root. apply y_if; intros _.
  - eapply y_bind; [apply y_whole|]. intros v Hv. cbv zeta. step_any.
    eapply y_imp; [apply y_items|]. intros l [Hl Hi]. split; [|exact Hi]. unfold con_range in Hv. lia.
  - eapply y_bind; [apply y_list|]. intros l Hl. apply y_if; intros E; [|apply y_fail]. apply y_ret. split; [unfold in_con in E; lia|exact Hl].
Qed.
Lemma y_sized small c : size_ok c = true ->
  yields (get_sized getf small c) (fun l => allowed c (Z.of_nat (length l)) /\ forall a, In a l -> P a).
Proof.
  destruct c as [c|]; cbn [get_sized allowed size_ok]; intros Hs.
  - assert (Hr := y_root small c ltac:(lia)). destruct (c_ext c) eqn:Ee.
    + step_any. apply y_if; intros _; [eapply y_imp; [apply y_list|]|eapply y_imp; [exact Hr|]].
      * intros l Hl. split; [left; reflexivity|exact Hl].
      * intros l [Hl Hi]. split; [right; exact Hl|exact Hi].
    + eapply y_imp; [exact Hr|]. intros l [Hl Hi]. split; [right; exact Hl|exact Hi].
  - eapply y_imp; [apply y_list|]. intros l Hl. split; [exact I|exact Hl].
Qed.
End Items.

Lemma y_octet : yields get_octet (fun o => (o < 256)%N).
Proof. eapply y_imp; [apply y_bits|]. intros v H. exact H. Qed.
Lemma y_int c : yields (get_int c) (allowed c).
Proof.
  destruct c as [c|]; cbn [get_int]; [|intros p b a p' b' _; exact I].
  assert (Hc : yields (get_con c) (fun z => c_lb c <= z <= c_ub c)%Z).
  { eapply y_bind; [apply y_whole|]. intros v Hv. apply y_ret. unfold con_range in Hv. lia. }
  destruct (c_ext c) eqn:E.
  - intros p b a p' b' _. left. exact E.
  - eapply y_imp; [exact Hc|]. intros z H. right. exact H.
Qed.
Lemma y_ext e : yields (get_ext e) (fun x => x = true -> e = true).
Proof. destruct e; cbn [get_ext]; [intros p b a p' b' _ _; reflexivity|apply y_ret; discriminate]. Qed.
Lemma y_bitmap : forall ms, yields (get_bitmap ms) (fun bm => length bm = length ms /\ forall i t, nth_error ms i = Some (false, t) -> nth_error bm i = Some true).
Proof.
  induction ms as [|[[|] t] ms IH]; cbn [get_bitmap].
  - apply y_ret. split; [reflexivity|]. intros [|i] t H; discriminate.
  - step_any. eapply y_bind; [exact IH|]. intros r [Hr Hi]. apply y_ret. split; [cbn; lia|]. intros [|i] t' H; [discriminate|exact (Hi i t' H)].
  - eapply y_bind; [exact IH|]. intros r [Hr Hi]. apply y_ret. split; [cbn; lia|]. intros [|i] t' H; [reflexivity|exact (Hi i t' H)].
Qed.

Definition sound (t : ty) : Prop := sizes_ok t = true -> yields (dec t) (valid t).
Lemma y_members : forall ms bm, Forall (fun m => sound (snd m)) ms -> forallb (fun m => sizes_ok (snd m)) ms = true -> length bm = length ms ->
  yields (get_members dec ms bm) (fun vs => length vs = length ms /\
    (forall i, nth_error bm i = Some true -> nth_error vs i <> Some None) /\
    (forall i o t v, nth_error ms i = Some (o, t) -> nth_error vs i = Some (Some v) -> valid t v)).
Proof.
  induction ms as [|[o t] ms IH]; intros [|x bm] HF Hs Hl; try discriminate; cbn [get_members].
  - apply y_ret. split; [reflexivity|]. split; [intros [|i]; discriminate|intros [|i]; discriminate].
  - cbn [forallb snd] in Hs. apply andb_prop in Hs as [Hs1 Hs2]. inversion HF as [|m l H1 H2]; subst.
    destruct x.
    + eapply y_bind; [exact (H1 Hs1)|]. intros v Hv. eapply y_bind; [apply IH; [exact H2|exact Hs2|cbn in Hl; lia]|].
      intros vs (Ha&Hb&Hc). apply y_ret. split; [cbn; lia|]. split.
      * intros [|i] Hi; [discriminate|exact (Hb i Hi)].
      * intros [|i] o' t' v' Hm Hv'; [cbn in *; congruence|exact (Hc i o' t' v' Hm Hv')].
    + eapply y_bind; [apply IH; [exact H2|exact Hs2|cbn in Hl; lia]|].
      intros vs (Ha&Hb&Hc). apply y_ret. split; [cbn; lia|]. split.
      * intros [|i] Hi; [discriminate|exact (Hb i Hi)].
      * intros [|i] o' t' v' Hm Hv'; [discriminate|exact (Hc i o' t' v' Hm Hv')].
Qed.
Lemma of_octets_sound t o v : sound t -> sizes_ok t = true -> of_octets (dec t) o = Some v -> valid t v.
Proof.
  intros H Hs Ho. unfold of_octets in Ho. destruct (dec t 0 (octets_bits o)) as [[[a q] r]|] eqn:E; [|discriminate].
  injection Ho as <-. exact (H Hs _ _ _ _ _ E).
Qed.
Lemma y_adds : forall ms pa, Forall (fun m => sound (snd m)) ms -> forallb (fun m => sizes_ok (snd m)) ms = true ->
  yields (get_adds dec ms pa) (fun vs => length vs = length ms /\
    (forall i o t v, nth_error ms i = Some (o, t) -> nth_error vs i = Some (Some v) -> valid t v)).
Proof.
  induction ms as [|[o t] ms IH]; intros pa HF Hs; cbn [get_adds].
  - step_any. apply y_ret. split; [reflexivity|]. intros [|i]; discriminate.
  - cbn [forallb snd] in Hs. apply andb_prop in Hs as [Hs1 Hs2]. inversion HF as [|m l H1 H2]; subst.
    assert (Hnone : forall pa', yields (get r <- get_adds dec ms pa' ;; dret (None :: r)) (fun vs => length vs = length ((o, t) :: ms) /\
      (forall i o' t' v, nth_error ((o, t) :: ms) i = Some (o', t') -> nth_error vs i = Some (Some v) -> valid t' v))).
    { intros pa'. eapply y_bind; [apply IH; [exact H2|exact Hs2]|]. intros vs [Ha Hb]. apply y_ret. split; [cbn; lia|].
      intros [|i] o' t' v Hm Hv; [discriminate|exact (Hb i o' t' v Hm Hv)]. }
    destruct pa as [|[|] pa]; [apply Hnone| |apply Hnone].
    step_any. eapply y_bind; [apply y_dopt|]. intros v Hv. eapply y_bind; [apply IH; [exact H2|exact Hs2]|]. intros vs [Ha Hb]. apply y_ret.
    split; [cbn; lia|]. intros [|i] o' t' v' Hm Hv'; [|exact (Hb i o' t' v' Hm Hv')]. cbn [nth_error] in Hm, Hv'.
    replace t' with t by congruence. replace v' with v by congruence. eapply of_octets_sound; [exact H1|exact Hs1|exact Hv].
Qed.
Lemma y_nth : forall ts i, Forall sound ts -> forallb sizes_ok ts = true ->
  yields (nth_get dec ts i) (fun v => exists t, nth_error ts i = Some t /\ valid t v).
Proof.
  induction ts as [|t ts IH]; intros [|i] HF Hs; cbn [nth_get]; try apply y_fail; inversion HF as [|t0 l0 H1 H2]; subst;
    cbn [forallb] in Hs; apply andb_prop in Hs as [Hs1 Hs2].
  - eapply y_imp; [exact (H1 Hs1)|]. intros v Hv. exists t. split; [reflexivity|exact Hv].
  - apply IH; assumption.
Qed.
Lemma nth_open_sound : forall ts i o v, Forall sound ts -> forallb sizes_ok ts = true -> nth_get_open dec ts i o = Some v ->
  exists t, nth_error ts i = Some t /\ valid t v.
Proof.
  induction ts as [|t ts IH]; intros [|i] o v HF Hs H; cbn [nth_get_open] in H; try discriminate; inversion HF as [|t0 l0 H1 H2]; subst;
    cbn [forallb] in Hs; apply andb_prop in Hs as [Hs1 Hs2].
  - exists t. split; [reflexivity|]. eapply of_octets_sound; eassumption.
  - eapply IH; eassumption.
Qed.
Lemma decode_sound : forall t, sound t.
Proof.
  apply ty_ind2; unfold sound; intros; cbn [dec]; cbn [sizes_ok] in *.
  - apply y_ret. constructor.
  - step_any. apply y_ret. constructor.
  - eapply y_bind; [apply y_int|]. intros z Hz. apply y_ret. constructor. exact Hz.
  - eapply y_bind; [|intros z Hz; apply y_ret; exact Hz]. unfold get_enum. eapply y_bind; [apply y_ext|]. intros x Hx. apply y_if; intros E.
    + step_any. eapply y_imp; [apply y_dopt|]. intros z Hz. rewrite (Hx E). apply v_enum_more. eapply nth_error_In, Hz.
    + step_any. eapply y_imp; [apply y_dopt|]. intros z Hz. apply v_enum_root. eapply nth_error_In, Hz.
  - eapply y_bind; [eapply y_sized; [apply y_any|assumption]|]. intros l [Hl _]. apply y_ret. constructor. exact Hl.
  - eapply y_bind; [eapply y_sized; [apply y_octet|assumption]|]. intros l [Hl Hb]. apply y_ret. constructor; assumption.
  - match goal with H : forallb _ _ && _ = true |- _ => apply andb_prop in H as [Hr Ha] end.
    eapply y_bind; [apply y_ext|]. intros x Hx. eapply y_bind; [apply y_bitmap|]. intros bm [Hbl Hbm].
    eapply y_bind; [apply y_members; [eassumption|exact Hr|exact Hbl]|]. intros vr (H1&H2&H3).
    apply y_if; intros E.
    + step_any. apply y_if; intros _; [apply y_fail|]. step_any. step_any.
      eapply y_bind; [apply y_adds; [eassumption|exact Ha]|]. intros va [H4 H5]. apply y_ret. constructor; auto.
      * intros i t Hi. apply H2. eapply Hbm, Hi.
      * intros He. rewrite (Hx E) in He. discriminate.
    + apply y_ret. constructor; auto.
      * apply map_length.
      * intros i t Hi. apply H2. eapply Hbm, Hi.
      * intros i o t v _ Hv. rewrite nth_error_map in Hv. destruct (nth_error _ i); discriminate.
      * intros _ v Hv. apply in_map_iff in Hv as (?&Hv&_). discriminate.
  - match goal with H : _ && _ = true |- _ => apply andb_prop in H as [Hc Ht] end.
    eapply y_bind; [eapply y_sized; [match goal with H : _ -> yields _ _ |- _ => exact (H Ht) end|exact Hc]|].
    intros l [Hl Hv]. apply y_ret. constructor; assumption.
  - match goal with H : forallb _ _ && _ = true |- _ => apply andb_prop in H as [Hr Hm] end.
    eapply y_bind; [apply y_ext|]. intros x Hx. apply y_if; intros E.
    + step_any. step_any. eapply y_bind; [apply y_dopt|]. intros v Hv. apply y_ret. rewrite (Hx E).
      apply nth_open_sound in Hv as (t&Hn&Hv); [|assumption|assumption]. econstructor; eassumption.
    + step_any. eapply y_bind; [apply y_nth; assumption|]. intros v (t&Hn&Hv). apply y_ret. econstructor; eassumption.
Qed.
Lemma decode_valid t o v : sizes_ok t = true -> decode t o = Some v -> valid t v.
Proof. intros Hs H. exact (of_octets_sound t o v (decode_sound t) Hs H). Qed.
