(* Round trip of the generated containers, for any table that passes [tab_ok];
   every table of the repository does. *)
From Coq Require Import ZifyBool ZifyNat ZifyN.
From Verif Require Import Base Aper Aper_spec Aper_proofs Aper_valid Container.
From Verif Require Export Container_spec.

Definition std_ie : ty :=
  TSeq false [(false, TInt (Some (mkCon false 0 65535))); (false, TEnum false [0; 1; 2]%Z []); (false, TOcts None)] [].
Definition std_cont : ty := TSeq true [(false, TSeqOf (Some (mkCon false 0 65535)) std_ie)] [].
Fixpoint nodupN (l : list N) : bool :=
  match l with [] => true | x :: r => negb (existsb (N.eqb x) r) && nodupN r end.
Definition pow16 (f : N) : bool := existsb (fun k => (f =? 2 ^ N.of_nat k)%N) (seq 0 16).
Definition opt_rows (m : msgdef) : list row := filter is_opt (m_rows m).
Definition tab_ok (m : msgdef) : bool :=
  nodupN (map r_id (m_rows m)) &&
  nodupN (map (flag m) (opt_rows m)) &&
  forallb (fun r => (r_id r <=? 65535)%N && (0 <=? r_crit r)%Z && (r_crit r <=? 2)%Z && few_adds (r_ty r) &&
                    (negb (is_opt r) || pow16 (flag m r))) (m_rows m) &&
  (length (m_rows m) <=? 100).

Lemma nodupN_ok l : nodupN l = true -> NoDup l.
Proof.
  induction l as [|x l IH]; intros H; constructor; cbn [nodupN] in H; apply andb_prop in H as [H1 H2].
  - intros Hin. apply negb_true_iff in H1. assert (existsb (N.eqb x) l = true); [|congruence].
    apply existsb_exists. exists x. split; [exact Hin|apply N.eqb_refl].
  - apply IH. exact H2.
Qed.
Lemma pow16_ok f : pow16 f = true -> exists k, k < 16 /\ f = (2 ^ N.of_nat k)%N.
Proof.
  unfold pow16. intros H. apply existsb_exists in H as (k&Hk&He). apply in_seq in Hk. exists k. split; [lia|lia].
Qed.
Lemma tab_parts m : tab_ok m = true ->
  NoDup (map r_id (m_rows m)) /\ NoDup (map (flag m) (opt_rows m)) /\ length (m_rows m) <= 100 /\
  forall r, In r (m_rows m) -> (r_id r <= 65535)%N /\ In (r_crit r) [0; 1; 2]%Z /\ few_adds (r_ty r) = true /\
    (is_opt r = true -> exists k, k < 16 /\ flag m r = (2 ^ N.of_nat k)%N).
Proof.
  unfold tab_ok. intros H. apply andb_prop in H as [H H4]. apply andb_prop in H as [H H3]. apply andb_prop in H as [H1 H2].
  split; [apply nodupN_ok, H1|]. split; [apply nodupN_ok, H2|]. split; [lia|].
  intros r Hr. rewrite forallb_forall in H3. specialize (H3 r Hr).
  apply andb_prop in H3 as [H3 Hp]. apply andb_prop in H3 as [H3 Hf]. 
  split; [lia|]. split; [|split; [exact Hf|]].
  - assert (Hc : (0 <= r_crit r <= 2)%Z) by lia. assert (Hd : r_crit r = 0%Z \/ r_crit r = 1%Z \/ r_crit r = 2%Z) by lia.
    cbn [In]. intuition.
  - intros Ho. rewrite Ho in Hp. apply pow16_ok. exact Hp.
Qed.

(* ---------------- the container ---------------- *)
Lemma new_ie_valid r v ie : (r_id r <= 65535)%N -> In (r_crit r) [0; 1; 2]%Z -> new_ie r v = Some ie -> valid std_ie ie.
Proof.
  unfold new_ie. intros Hi Hc H. destruct (encode (r_ty r) v) as [o|] eqn:Ho; [|discriminate]. apply some_inv in H; subst ie.
  constructor; try reflexivity.
  - intros [|[|[|i]]] t; cbn; try discriminate. destruct i; discriminate.
  - intros [|[|[|i]]] op t w Hn Hv; cbn [nth_error] in *; try (injection Hn as <- <-; injection Hv as <-).
    + constructor. right. cbn. lia.
    + apply v_enum_root. exact Hc.
    + constructor; [exact I|]. eapply bytes_in. eapply encode_bytes. exact Ho.
    + destruct i; discriminate.
  - intros [|i]; discriminate.
  - intros _ w [].
Qed.
Lemma encode_rows_valid m s : forall rows fields l, (forall r, In r rows -> (r_id r <= 65535)%N /\ In (r_crit r) [0; 1; 2]%Z) ->
  encode_rows m s rows fields = Some l -> length l <= length rows /\ forall ie, In ie l -> valid std_ie ie.
Proof.
  induction rows as [|r rows IH]; intros fields l Hr H; cbn [encode_rows] in H.
  - apply some_inv in H; subst l. split; [reflexivity|intros ie []].
  - destruct fields as [|f fields]; [discriminate|].
    assert (Hrest : forall r, In r rows -> (r_id r <= 65535)%N /\ In (r_crit r) [0; 1; 2]%Z) by (intros; apply Hr; right; assumption).
    destruct (wanted m s r).
    + destruct f as [v|]; [|discriminate]. apply opt_inv in H as (ie&Hie&H). apply opt_inv in H as (rest&Hre&H). apply some_inv in H; subst l.
      destruct (IH _ _ Hrest Hre) as [I1 I2]. cbn [length]. split; [lia|]. intros x [<-|Hx]; [|apply I2, Hx].
      destruct (Hr r (or_introl eq_refl)). eapply new_ie_valid; eassumption.
    + destruct (IH _ _ Hrest H) as [I1 I2]. cbn [length]. split; [lia|exact I2].
Qed.
Lemma cont_valid l : length l <= 100 -> (forall ie, In ie l -> valid std_ie ie) -> valid std_cont (VSeq [Some (VList l)] []).
Proof.
  intros Hl H. constructor; try reflexivity.
  - intros [|[|i]] t; cbn; try discriminate.
  - intros [|[|i]] op t w Hn Hv; cbn [nth_error] in *; try discriminate; injection Hn as <- <-; injection Hv as <-.
    constructor; [right; cbn; lia|exact H].
  - intros [|i]; discriminate.
  - intros _ w [].
Qed.
Lemma encode_rows_some m s : forall rows fields, (forall r, In r rows -> few_adds (r_ty r) = true) ->
  length fields = length rows ->
  (forall i r, nth_error rows i = Some r -> wanted m s r = true -> exists v, nth_error fields i = Some (Some v) /\ valid (r_ty r) v) ->
  exists l, encode_rows m s rows fields = Some l.
Proof.
  induction rows as [|r rows IH]; intros [|f fields] Hf Hl H; try discriminate; cbn [encode_rows]; [eauto|].
  destruct (IH fields) as (l&Hl').
  { intros; apply Hf; right; assumption. } { injection Hl; auto. } { intros i. exact (H (S i)). }
  destruct (wanted m s r) eqn:Hw; [|eauto].
  destruct (H 0 r eq_refl Hw) as (v&Hv&Hval). cbn in Hv. injection Hv as ->.
  destruct (encode_total (r_ty r) v (Hf r (or_introl eq_refl)) Hval) as (o&Ho&_). unfold new_ie. rewrite Ho. cbn [obind2]. rewrite Hl'. cbn [obind2]. eauto.
Qed.

(* ---------------- decoding what was encoded ---------------- *)
Lemma find_row_skip id : forall pre suf k, (forall r, In r pre -> r_id r <> id) -> find_row id (pre ++ suf) k = find_row id suf (k + length pre).
Proof.
  induction pre as [|r pre IH]; intros suf k H; cbn [List.app find_row length].
  - f_equal. lia.
  - destruct (N.eqb_spec (r_id r) id); [destruct (H r (or_introl eq_refl)); assumption|]. rewrite IH; [f_equal; lia|]. intros; apply H; right; assumption.
Qed.
Lemma find_row_at rows pre r suf : rows = pre ++ r :: suf -> NoDup (map r_id rows) -> find_row (r_id r) rows 0 = Some (length pre, r).
Proof.
  intros -> Hnd. rewrite find_row_skip.
  - cbn [find_row]. rewrite N.eqb_refl. reflexivity.
  - intros x Hx He. rewrite map_app in Hnd. cbn [map] in Hnd. apply NoDup_remove_2 in Hnd. apply Hnd. apply in_or_app. left.
    rewrite <- He. apply in_map. exact Hx.
Qed.
Lemma set_nth_app {A} (a x : A) : forall pre suf, set_nth (length pre) a (pre ++ x :: suf) = pre ++ a :: suf.
Proof. induction pre as [|y pre IH]; intros suf; cbn; [reflexivity|]. rewrite IH. reflexivity. Qed.
Lemma nth_error_mid {A} (x : A) pre suf : nth_error (pre ++ x :: suf) (length pre) = Some x.
Proof. rewrite nth_error_app2 by lia. rewrite Nat.sub_diag. reflexivity. Qed.

(* the fields that survive *)
Fixpoint keep (m : msgdef) (s : ies) (rows : list row) (fields : list (option val)) : list (option val) :=
  match rows, fields with
  | r :: rs, f :: fs => (if wanted m s r then f else None) :: keep m s rs fs
  | _, _ => []
  end.
Definition mask_step (m : msgdef) (s : ies) (a : N) (r : row) : N :=
  if is_opt r && wanted m s r then N.land (N.lor a (flag m r)) 65535 else a.

Lemma decode_rows m s : NoDup (map r_id (m_rows m)) ->
  forall suf fs pre kept msk l, m_rows m = pre ++ suf -> length kept = length pre -> length fs = length suf ->
  encode_rows m s suf fs = Some l ->
  decode_list m (mkIes msk (kept ++ map (fun _ => None) suf)) [] l =
    mkDres true (mkIes (fold_left (mask_step m s) suf msk) (kept ++ keep m s suf fs)) [].
Proof.
  intros Hnd. induction suf as [|r suf IH]; intros [|f fs] pre kept msk l Hrows Hk Hl H; try discriminate; cbn [encode_rows] in H.
  - apply some_inv in H; subst l. reflexivity.
  - injection Hl as Hl. cbn [keep fold_left map].
    assert (Hpre : m_rows m = (pre ++ [r]) ++ suf) by (rewrite Hrows, <- app_assoc; reflexivity).
    destruct (wanted m s r) eqn:Hw.
    + destruct f as [v|]; [|discriminate]. apply opt_inv in H as (ie&Hie&H). apply opt_inv in H as (rest&Hre&H). apply some_inv in H; subst l.
      unfold new_ie in Hie. destruct (encode (r_ty r) v) as [o|] eqn:Ho; [|discriminate]. apply some_inv in Hie; subst ie.
      cbn [decode_list ie_parts]. rewrite N2Z.id. rewrite (find_row_at _ _ _ _ Hrows Hnd).
      rewrite (decode_encode _ _ _ Ho). cbv zeta.
      replace (add_flag m r (mkIes msk (kept ++ None :: map (fun _ => None) suf)))
        with (mkIes (mask_step m s msk r) (kept ++ None :: map (fun _ => None) suf)).
      2:{ unfold mask_step, add_flag. rewrite Hw, andb_true_r. destruct (is_opt r); reflexivity. }
      cbn [i_fields i_mask]. rewrite <- Hk, nth_error_mid, set_nth_app.
      specialize (IH fs (pre ++ [r]) (kept ++ [Some v]) (mask_step m s msk r) rest Hpre).
      rewrite <- !app_assoc in IH. cbn [List.app] in IH. apply IH; [|exact Hl|exact Hre]. rewrite !app_length, Hk. reflexivity.
    + specialize (IH fs (pre ++ [r]) (kept ++ [None]) (mask_step m s msk r) l Hpre).
      rewrite <- !app_assoc in IH. cbn [List.app] in IH.
      unfold mask_step in IH at 1. rewrite Hw, andb_false_r in IH. apply IH; [|exact Hl|exact H]. rewrite !app_length, Hk. reflexivity.
Qed.

(* ---------------- the mask ---------------- *)
Lemma lor_small a k : (a < 65536)%N -> k < 16 -> N.land (N.lor a (2 ^ N.of_nat k)) 65535 = N.lor a (2 ^ N.of_nat k) /\ (N.lor a (2 ^ N.of_nat k) < 65536)%N.
Proof.
  intros Ha Hk. change 65535%N with (N.ones 16). rewrite N.land_ones.
  assert (Hb : (N.lor a (2 ^ N.of_nat k) < 2 ^ 16)%N).
  { destruct (N.eq_dec a 0) as [->|Hz].
    - rewrite N.lor_0_l. apply N.pow_lt_mono_r; lia.
    - apply N.log2_lt_pow2.
      + destruct (N.eq_dec (N.lor a (2 ^ N.of_nat k)) 0) as [He|He]; [apply N.lor_eq_0_iff in He; lia|lia].
      + rewrite N.log2_lor. rewrite N.log2_pow2 by lia. assert (N.log2 a < 16)%N by (apply N.log2_lt_pow2; lia). lia. }
  split; [apply N.mod_small, Hb|exact Hb].
Qed.
Lemma mask_fold m s : forall rows a, (a < 65536)%N ->
  (forall r, In r rows -> is_opt r = true -> exists k, k < 16 /\ flag m r = (2 ^ N.of_nat k)%N) ->
  let b := fold_left (mask_step m s) rows a in
  (b < 65536)%N /\ forall n, N.testbit b n = true <-> N.testbit a n = true \/ exists r, In r rows /\ is_opt r = true /\ wanted m s r = true /\ flag m r = (2 ^ n)%N.
Proof.
  induction rows as [|r rows IH]; intros a Ha Hf; cbn [fold_left].
  - cbv zeta. split; [exact Ha|]. intros n. split; [auto|]. intros [H|(r&[]&_)]. exact H.
  - assert (Hf' : forall r, In r rows -> is_opt r = true -> exists k, k < 16 /\ flag m r = (2 ^ N.of_nat k)%N) by (intros; apply Hf; [right|]; assumption).
    destruct (is_opt r && wanted m s r) eqn:Hc.
    + pose proof Hc as Hc'. apply andb_prop in Hc' as [Ho Hw]. destruct (Hf r (or_introl eq_refl) Ho) as (k&Hk&Hfl).
      destruct (lor_small a k Ha Hk) as [H1 H2].
      assert (Hs : mask_step m s a r = N.lor a (2 ^ N.of_nat k)) by (unfold mask_step; rewrite Hc, Hfl; exact H1).
      rewrite Hs. specialize (IH _ H2 Hf'). cbv zeta in *. destruct IH as [I1 I2]. split; [exact I1|].
      intros n. rewrite I2. rewrite N.lor_spec, orb_true_iff. split.
      * intros [[Hl|Hl]|(x&Hx&Hy)]; [left; exact Hl| |right; exists x; split; [right; exact Hx|exact Hy]].
        right. exists r. repeat split; [left; reflexivity|exact Ho|exact Hw|]. rewrite Hfl. f_equal.
        destruct (N.eq_dec n (N.of_nat k)) as [->|Hne]; [reflexivity|]. rewrite N.pow2_bits_false in Hl by lia. discriminate.
      * intros [Hl|(x&[<-|Hx]&Hy)]; [left; left; exact Hl| |right; exists x; split; [exact Hx|exact Hy]].
        left. right. destruct Hy as (_&_&Hy). rewrite Hfl in Hy. rewrite Hy. apply N.pow2_bits_true.
    + assert (Hs : mask_step m s a r = a) by (unfold mask_step; rewrite Hc; reflexivity). rewrite Hs.
      specialize (IH _ Ha Hf'). cbv zeta in *. destruct IH as [I1 I2]. split; [exact I1|]. intros n. rewrite I2. split.
      * intros [Hl|(x&Hx&Hy)]; [left; exact Hl|right; exists x; split; [right; exact Hx|exact Hy]].
      * intros [Hl|(x&[<-|Hx]&Ho&Hw&Hy)]; [left; exact Hl|rewrite Ho, Hw in Hc; discriminate|].
        right; exists x; split; [exact Hx|auto].
Qed.
Lemma land_pow a k : ((N.land a (2 ^ k) =? 2 ^ k) = N.testbit a k)%N.
Proof.
  destruct (N.testbit a k) eqn:Ht.
  - apply N.eqb_eq. apply N.bits_inj. intros n. rewrite N.land_spec. destruct (N.eq_dec n k) as [->|Hn].
    + rewrite Ht. reflexivity.
    + rewrite N.pow2_bits_false by congruence. apply andb_false_r.
  - apply N.eqb_neq. intros He. assert (Hb : N.testbit (N.land a (2 ^ k)) k = true) by (rewrite He; apply N.pow2_bits_true).
    rewrite N.land_spec, Ht in Hb. discriminate.
Qed.
Lemma nodup_flag m r x : NoDup (map (flag m) (opt_rows m)) -> In r (m_rows m) -> In x (m_rows m) -> is_opt r = true -> is_opt x = true ->
  flag m r = flag m x -> r = x.
Proof.
  intros Hnd Hr Hx Hor Hox He. unfold opt_rows in Hnd.
  assert (Hr' : In r (filter is_opt (m_rows m))) by (apply filter_In; auto).
  assert (Hx' : In x (filter is_opt (m_rows m))) by (apply filter_In; auto).
  revert Hnd Hr' Hx'. generalize (filter is_opt (m_rows m)). induction l as [|y l IH]; intros Hnd [] []; subst; try reflexivity; cbn [map] in Hnd; inversion Hnd; subst.
  - destruct H2. rewrite He. apply in_map. assumption.
  - destruct H2. rewrite <- He. apply in_map. assumption.
  - apply IH; assumption.
Qed.
Lemma has_flag_kept m s : tab_ok m = true -> forall fl r, In r (m_rows m) -> is_opt r = true ->
  has_flag m (mkIes (fold_left (mask_step m s) (m_rows m) 0%N) fl) r = has_flag m s r.
Proof.
  intros Hok fl r Hr Ho. destruct (tab_parts m Hok) as (_&Hnd&_&Hrow). destruct (Hrow r Hr) as (_&_&_&Hf). destruct (Hf Ho) as (k&Hk&Hfl).
  assert (Hmf := mask_fold m s (m_rows m) 0 eq_refl (fun r Hr => proj2 (proj2 (proj2 (Hrow r Hr))))). cbv zeta in Hmf. destruct Hmf as [_ Hb].
  unfold has_flag at 1. cbn [i_mask]. rewrite Hfl, land_pow.
  specialize (Hb (N.of_nat k)). destruct (N.testbit _ (N.of_nat k)) eqn:Ht.
  - destruct (proj1 Hb eq_refl) as [H0|(x&Hx&Hox&Hw&Hfx)]; [rewrite N.bits_0 in H0; discriminate|].
    assert (r = x) by (eapply nodup_flag; eauto; congruence). subst x. unfold wanted in Hw. rewrite Ho in Hw. symmetry. exact Hw.
  - destruct (has_flag m s r) eqn:Hh; [|reflexivity]. assert (false = true); [|discriminate]. apply Hb. right. exists r.
    repeat split; auto. unfold wanted. rewrite Hh. apply orb_true_r.
Qed.
Lemma keep_nth m s : forall rows fields i r, length fields = length rows -> nth_error rows i = Some r ->
  nth_error (keep m s rows fields) i = Some (if wanted m s r then match nth_error fields i with Some f => f | None => None end else None).
Proof.
  induction rows as [|x rows IH]; intros [|f fields] [|i] r Hl Hn; try discriminate; cbn [nth_error keep] in *.
  - injection Hn as ->. reflexivity.
  - apply IH; [injection Hl; auto|exact Hn].
Qed.

Lemma round_trip_msg m s : tab_ok m = true -> m_cont m = std_cont -> length (i_fields s) = length (m_rows m) ->
  (forall i r, nth_error (m_rows m) i = Some r -> wanted m s r = true -> exists v, nth_error (i_fields s) i = Some (Some v) /\ valid (r_ty r) v) ->
  exists o s', encode_msg m s = Some o /\ (forall rest, decode_msg m (o ++ rest) = mkDres true s' []) /\
    (i_mask s' < 65536)%N /\
    (forall n, N.testbit (i_mask s') n = true <-> exists r, In r (m_rows m) /\ is_opt r = true /\ has_flag m s r = true /\ flag m r = (2 ^ n)%N) /\
    forall i r, nth_error (m_rows m) i = Some r ->
      (is_opt r = true -> has_flag m s' r = has_flag m s r) /\
      nth_error (i_fields s') i = (if wanted m s r then nth_error (i_fields s) i else Some None).
Proof.
  intros Hok Hc Hl H. destruct (tab_parts m Hok) as (Hid&Hnd&H100&Hrow).
  destruct (encode_rows_some m s (m_rows m) (i_fields s)) as (l&Hel); [intros r Hr; apply Hrow, Hr|exact Hl|exact H|].
  destruct (encode_rows_valid m s _ _ _ (fun r Hr => conj (proj1 (Hrow r Hr)) (proj1 (proj2 (Hrow r Hr)))) Hel) as [Hlen Hval].
  destruct (encode_total std_cont (VSeq [Some (VList l)] [])) as (o&Ho&_); [reflexivity|apply cont_valid; [lia|exact Hval]|].
  exists o, (mkIes (fold_left (mask_step m s) (m_rows m) 0%N) (keep m s (m_rows m) (i_fields s))).
  split.
  { unfold encode_msg, encode_ies. rewrite Hel. cbn [obind2]. rewrite Hc. exact Ho. }
  assert (Hmf := mask_fold m s (m_rows m) 0 eq_refl (fun r Hr => proj2 (proj2 (proj2 (Hrow r Hr))))). cbv zeta in Hmf. destruct Hmf as [Hsm Hb].
  split; [|split; [exact Hsm|split]].
  - intros rest. unfold decode_msg. rewrite Hc, (decode_encode_rest _ _ _ rest Ho).
    exact (decode_rows m s Hid (m_rows m) (i_fields s) [] [] 0%N l eq_refl eq_refl Hl Hel).
  - intros n. cbn [i_mask]. rewrite Hb. rewrite N.bits_0. split.
    + intros [Hd|(r&Hr&Ho'&Hw&Hfl)]; [discriminate|]. exists r. repeat split; try assumption. unfold wanted in Hw. rewrite Ho' in Hw. exact Hw.
    + intros (r&Hr&Ho'&Hw&Hfl). right. exists r. repeat split; try assumption. unfold wanted. rewrite Hw. apply orb_true_r.
  - intros i r Hn. assert (Hr : In r (m_rows m)) by (eapply nth_error_In; exact Hn). split.
    + intros Ho'. apply has_flag_kept; assumption.
    + cbn [i_fields]. rewrite (keep_nth m s _ _ i r Hl Hn). destruct (wanted m s r); [|reflexivity].
      destruct (nth_error (i_fields s) i) as [f|] eqn:Hf; [reflexivity|]. apply nth_error_None in Hf.
      assert (i < length (m_rows m)) by (apply nth_error_Some; congruence). lia.
Qed.

(* ---------------- arbitrary input ---------------- *)
(* the element names an IE of the table and its value decodes *)
Definition ie_good (m : msgdef) (ie : val) : Prop :=
  exists id o r v, ie_parts ie = Some (id, o) /\ In r (m_rows m) /\ r_id r = id /\ decode (r_ty r) o = Some v.
Lemma find_row_in id : forall rows k j r, find_row id rows k = Some (j, r) -> In r rows /\ r_id r = id /\ nth_error rows (j - k) = Some r /\ k <= j.
Proof.
  induction rows as [|x rows IH]; intros k j r H; cbn [find_row] in H; [discriminate|].
  destruct (N.eqb_spec (r_id x) id).
  - injection H as <- <-. rewrite Nat.sub_diag. repeat split; auto. left; reflexivity.
  - apply IH in H as (H1&H2&H3&H4). split; [right; exact H1|]. split; [exact H2|]. split; [|lia].
    replace (j - k) with (S (j - S k)) by lia. exact H3.
Qed.
Lemma find_row_none id : forall rows k, find_row id rows k = None -> forall r, In r rows -> r_id r <> id.
Proof.
  induction rows as [|x rows IH]; intros k H r [] ; cbn [find_row] in H; destruct (N.eqb_spec (r_id x) id); try discriminate.
  - subst. assumption.
  - eapply IH; eassumption.
Qed.
Lemma nodup_id m r x : NoDup (map r_id (m_rows m)) -> In r (m_rows m) -> In x (m_rows m) -> r_id r = r_id x -> r = x.
Proof.
  generalize (m_rows m). induction l as [|y l IH]; intros Hnd [] [] He; subst; try reflexivity; cbn [map] in Hnd; inversion Hnd; subst.
  - destruct H2. rewrite He. apply in_map. assumption.
  - destruct H2. rewrite <- He. apply in_map. assumption.
  - apply IH; assumption.
Qed.
Lemma decode_list_ok m : NoDup (map r_id (m_rows m)) -> forall l s lost,
  d_ok (decode_list m s lost l) = true <-> Forall (ie_good m) l.
Proof.
  intros Hnd. induction l as [|ie l IH]; intros s lost; cbn [decode_list].
  - cbn [d_ok]. split; [constructor|reflexivity].
  - destruct (ie_parts ie) as [[id o]|] eqn:Hp.
    + destruct (find_row id (m_rows m) 0) as [[k r]|] eqn:Hf.
      * destruct (find_row_in _ _ _ _ _ Hf) as (Hin&Hid&_&_). cbv zeta. destruct (decode (r_ty r) o) as [v|] eqn:Hd.
        -- rewrite IH. split.
           ++ intros H. constructor; [|exact H]. exists id, o, r, v. auto.
           ++ intros H. inversion H; assumption.
        -- cbn [d_ok]. split; [discriminate|]. intros H. inversion H as [|? ? (id'&o'&r'&v'&H1&H2&H3&H4) _]; subst.
           assert (r' = r) by (apply (nodup_id m); [exact Hnd|assumption|assumption|congruence]). subst r'. congruence.
      * cbn [d_ok]. split; [discriminate|]. intros H. inversion H as [|? ? (id'&o'&r'&v'&H1&H2&H3&H4) _]; subst.
        destruct (find_row_none _ _ _ Hf r' H2). congruence.
    + cbn [d_ok]. split; [discriminate|]. intros H. inversion H as [|? ? (id'&o'&r'&v'&H1&_) _]; subst. congruence.
Qed.
Lemma decode_msg_body m o : decode_msg m o = match body m o with Some l => decode_list m (zero_ies m) [] l | None => mkDres false (zero_ies m) [] end.
Proof.
  unfold decode_msg, body. destruct (decode (m_cont m) o) as [[| | | | | |[|[[| | | | | | |l|]|] [|]] ?| |]|]; reflexivity.
Qed.
Lemma decode_msg_ok m o : tab_ok m = true -> d_ok (decode_msg m o) = true <-> exists l, body m o = Some l /\ Forall (ie_good m) l.
Proof.
  intros Hok. destruct (tab_parts m Hok) as (Hid&_). rewrite decode_msg_body. destruct (body m o) as [l|].
  - rewrite (decode_list_ok m Hid). split; [intros H; exists l; auto|]. intros (l'&H1&H2). injection H1 as <-. exact H2.
  - cbn [d_ok]. split; [discriminate|intros (l&H&_); discriminate].
Qed.

(* ---------------- what is held, what is freed ---------------- *)
Lemma freed_all m s : forall rows fields,
  (forall i r v, nth_error rows i = Some r -> nth_error fields i = Some (Some v) -> wanted m s r = true) ->
  length fields = length rows ->
  freed_rows m s rows fields = flat_map (fun f => match f with Some v => [v] | None => [] end) fields.
Proof.
  induction rows as [|r rows IH]; intros [|f fields] H Hl; try discriminate; cbn [freed_rows flat_map]; [reflexivity|].
  rewrite (IH fields); [|intros i; exact (H (S i))|injection Hl; auto]. destruct f as [v|]; [|reflexivity].
  rewrite (H 0 r v eq_refl eq_refl). reflexivity.
Qed.
Definition held_ok (m : msgdef) (s : ies) : Prop :=
  length (i_fields s) = length (m_rows m) /\ (i_mask s < 65536)%N /\
  forall i r v, nth_error (m_rows m) i = Some r -> nth_error (i_fields s) i = Some (Some v) -> wanted m s r = true.
Lemma set_nth_len {A} (a : A) : forall l k, length (set_nth k a l) = length l.
Proof. induction l as [|x l IH]; intros [|k]; cbn; auto. Qed.
Lemma set_nth_spec {A} (a : A) : forall l k i x, nth_error (set_nth k a l) i = Some x -> (i = k /\ x = a) \/ nth_error l i = Some x.
Proof.
  induction l as [|y l IH]; intros [|k] [|i] x H; cbn [set_nth nth_error] in *; auto; try discriminate.
  - injection H as <-. auto.
  - destruct (IH _ _ _ H) as [[-> ->]|Hx]; auto.
Qed.
Lemma add_flag_ok m r s : tab_ok m = true -> In r (m_rows m) -> (i_mask s < 65536)%N ->
  (i_mask (add_flag m r s) < 65536)%N /\ wanted m (add_flag m r s) r = true /\
  forall x, In x (m_rows m) -> wanted m s x = true -> wanted m (add_flag m r s) x = true.
Proof.
  intros Hok Hr Hs. destruct (tab_parts m Hok) as (_&_&_&Hrow). unfold add_flag. destruct (is_opt r) eqn:Ho.
  - destruct (Hrow r Hr) as (_&_&_&Hf). destruct (Hf Ho) as (k&Hk&Hfl). rewrite Hfl.
    destruct (lor_small (i_mask s) k Hs Hk) as [H1 H2]. rewrite H1. cbn [i_mask]. split; [exact H2|]. split.
    + unfold wanted, has_flag. cbn [i_mask]. rewrite Hfl, land_pow, N.lor_spec, N.pow2_bits_true. rewrite !orb_true_r. reflexivity.
    + intros x Hx. unfold wanted, has_flag. cbn [i_mask]. destruct (is_opt x) eqn:Hox; [|reflexivity]. cbn [negb orb].
      destruct (Hrow x Hx) as (_&_&_&Hfx). destruct (Hfx Hox) as (kx&Hkx&Hflx). rewrite Hflx, !land_pow, N.lor_spec. intros ->. reflexivity.
  - split; [exact Hs|]. split; [|auto]. unfold wanted. rewrite Ho. reflexivity.
Qed.
Lemma decode_list_held m : tab_ok m = true -> forall l s lost, held_ok m s -> held_ok m (d_ies (decode_list m s lost l)).
Proof.
  intros Hok. induction l as [|ie l IH]; intros s lost Hs; cbn [decode_list]; [exact Hs|].
  destruct (ie_parts ie) as [[id o]|]; [|exact Hs].
  destruct (find_row id (m_rows m) 0) as [[k r]|] eqn:Hf; [|exact Hs].
  destruct (find_row_in _ _ _ _ _ Hf) as (Hin&Hid&Hn&_). rewrite Nat.sub_0_r in Hn. cbv zeta.
  destruct Hs as (H1&H2&H3). destruct (add_flag_ok m r s Hok Hin H2) as (A1&A2&A3).
  assert (Hfe : i_fields (add_flag m r s) = i_fields s) by (unfold add_flag; destruct (is_opt r); reflexivity).
  destruct (decode (r_ty r) o) as [v|].
  - apply IH. split; [|split].
    + cbn [i_fields]. rewrite set_nth_len, Hfe. exact H1.
    + exact A1.
    + cbn [i_fields]. intros i x w Hx Hw.
      change (wanted m (mkIes (i_mask (add_flag m r s)) (set_nth k (Some v) (i_fields (add_flag m r s)))) x) with (wanted m (add_flag m r s) x).
      rewrite Hfe in Hw. destruct (set_nth_spec _ _ _ _ _ Hw) as [[-> _]|Hold].
      * assert (x = r) by congruence. subst x. exact A2.
      * apply A3; [eapply nth_error_In; exact Hx|]. eapply H3; eassumption.
  - split; [|split]; cbn [d_ies].
    + rewrite Hfe. exact H1.
    + exact A1.
    + intros i x w Hx Hw. rewrite Hfe in Hw. apply A3; [eapply nth_error_In; exact Hx|]. eapply H3; eassumption.
Qed.
Lemma zero_held m : held_ok m (zero_ies m).
Proof.
  split; [apply map_length|]. split; [reflexivity|]. intros i r v _ H. cbn [zero_ies i_fields] in H.
  rewrite nth_error_map in H. destruct (nth_error (m_rows m) i); discriminate.
Qed.
Lemma free_exact m o : tab_ok m = true -> free_ies m (d_ies (decode_msg m o)) = contents (d_ies (decode_msg m o)).
Proof.
  intros Hok. rewrite decode_msg_body. 
  assert (H : held_ok m (d_ies (match body m o with Some l => decode_list m (zero_ies m) [] l | None => mkDres false (zero_ies m) [] end))).
  { destruct (body m o); [apply decode_list_held; [exact Hok|apply zero_held]|apply zero_held]. }
  destruct H as (H1&_&H3). apply freed_all; [exact H3|exact H1].
Qed.

(* contents lost: only by an IE that comes twice *)
Lemma set_nth_same {A} (a : A) : forall l k, k < length l -> nth_error (set_nth k a l) k = Some a.
Proof. induction l as [|x l IH]; intros [|k] H; cbn in *; try lia; [reflexivity|apply IH; lia]. Qed.
Lemma decode_list_lost m : NoDup (map r_id (m_rows m)) -> forall l s lost,
  length (i_fields s) = length (m_rows m) ->
  NoDup (ids_of l) ->
  (forall i r w, nth_error (m_rows m) i = Some r -> nth_error (i_fields s) i = Some (Some w) -> ~ In (Some (r_id r)) (ids_of l)) ->
  d_lost (decode_list m s lost l) = lost.
Proof.
  intros Hnd. induction l as [|ie l IH]; intros s lost Hlen Hd Hs; cbn [decode_list]; [reflexivity|].
  destruct (ie_parts ie) as [[id o]|] eqn:Hp; [|reflexivity].
  destruct (find_row id (m_rows m) 0) as [[k r]|] eqn:Hf; [|reflexivity].
  destruct (find_row_in _ _ _ _ _ Hf) as (Hin&Hid&Hn&_). rewrite Nat.sub_0_r in Hn. cbv zeta.
  assert (Hfe : i_fields (add_flag m r s) = i_fields s) by (unfold add_flag; destruct (is_opt r); reflexivity).
  destruct (decode (r_ty r) o) as [v|]; [|reflexivity]. rewrite Hfe.
  assert (Hhead : ids_of (ie :: l) = Some id :: ids_of l).
  { unfold ids_of at 1. cbn [map]. fold (ids_of l). f_equal. revert Hp. unfold ie_parts.
    repeat match goal with |- context [match ?x with _ => _ end] => destruct x; try discriminate end. intros H. injection H as <- _. reflexivity. }
  rewrite Hhead in *. inversion Hd as [|? ? Hni Hd']; subst.
  assert (Hno : match nth_error (i_fields s) k with Some (Some w) => lost ++ [w] | _ => lost end = lost).
  { destruct (nth_error (i_fields s) k) as [[w|]|] eqn:Hk; try reflexivity. destruct (Hs k r w Hn Hk). left. reflexivity. }
  rewrite Hno. apply IH; [cbn [i_fields]; rewrite set_nth_len; exact Hlen|exact Hd'|].
  cbn [i_fields]. intros i x w Hx Hw Hc. destruct (set_nth_spec _ _ _ _ _ Hw) as [[-> _]|Hold].
  - assert (x = r) by congruence. subst x. exact (Hni Hc).
  - apply (Hs i x w Hx Hold). right. exact Hc.
Qed.
Lemma lost_none m o l : tab_ok m = true -> body m o = Some l -> NoDup (ids_of l) -> d_lost (decode_msg m o) = [].
Proof.
  intros Hok Hb Hd. destruct (tab_parts m Hok) as (Hid&_). rewrite decode_msg_body, Hb. apply decode_list_lost; [exact Hid|apply map_length|exact Hd|].
  intros i r w _ H. cbn [zero_ies i_fields] in H. rewrite nth_error_map in H. destruct (nth_error (m_rows m) i); discriminate.
Qed.
