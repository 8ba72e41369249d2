(* Lengths and contents of cause texts. *)
From Coq Require Import String Ascii List ZArith NArith Bool Lia.
From Verif Require Import NameSpec NameTab CauseStr_spec CauseStr.
Import ListNotations.
Local Open Scope list_scope.
Local Open Scope string_scope.

Lemma len_app a b : String.length (a ++ b) = String.length a + String.length b.
Proof. induction a as [|c a IH]; [reflexivity|]. cbn [append String.length]. rewrite IH. reflexivity. Qed.
Lemma sub_len : forall n s, String.length (substring 0 n s) <= n.
Proof. induction n as [|n IH]; intros [|c s]; cbn [substring String.length]; try lia. specialize (IH s). lia. Qed.
Lemma sub_all : forall n s, String.length s <= n -> substring 0 n s = s.
Proof. induction n as [|n IH]; intros [|c s] H; cbn [substring String.length] in *; try reflexivity; [lia|]. f_equal. apply IH. lia. Qed.
Lemma sub_begins : forall n s, begins (substring 0 n s) s.
Proof.
  induction n as [|n IH]; intros [|c s]; cbn [substring]; try (eexists; reflexivity). destruct (IH s) as (r&Hr). exists r. cbn [append]. f_equal. exact Hr.
Qed.
Lemma sub_cut : forall n s, n <= String.length s -> String.length (substring 0 n s) = n.
Proof. induction n as [|n IH]; intros [|c s] H; cbn [substring String.length] in *; try reflexivity; [lia|]. f_equal. apply IH. lia. Qed.
Lemma digits_len base : forall fuel n acc, String.length (digits base fuel n acc) <= fuel + String.length acc.
Proof.
  induction fuel as [|f IH]; intros n acc; cbn [digits]; [lia|]. destruct (_ <? _)%N; [cbn [String.length]; lia|].
  etransitivity; [apply IH|]. cbn [String.length]. lia.
Qed.
Lemma find_in (vs : list (Z * string)) v e : find (fun e => Z.eqb (fst e) v) vs = Some e -> In e vs /\ fst e = v.
Proof. intros H. apply find_some in H as [H1 H2]. apply Z.eqb_eq in H2. auto. Qed.
Definition longest (vs : list (Z * string)) : nat := fold_right Nat.max 0 (map (fun e => String.length (snd e)) vs).
Lemma longest_in vs e : In e vs -> String.length (snd e) <= longest vs.
Proof. unfold longest. induction vs as [|x vs IH]; intros H; [destruct H|]. destruct H as [-> | H]; cbn [map fold_right]; [lia|]. specialize (IH H). lia. Qed.
Lemma gvs_len vs v : String.length (get_value_string vs v) <= Nat.max 18 (longest vs).
Proof.
  unfold get_value_string. destruct (find _ vs) as [e|] eqn:E.
  - apply find_in in E as [E _]. apply longest_in in E. lia.
  - rewrite len_app. unfold hex. pose proof (digits_len 16 8 (Z.to_N (u32 v)) ""). cbn [String.length] in *. lia.
Qed.
Lemma snprintf_fits size t : 0 < size -> fits size (snprintf size t).
Proof. intros H. unfold fits, snprintf. pose proof (sub_len (size - 1) t). lia. Qed.
Lemma snprintf_begins size t : begins (snprintf size t) t.
Proof. apply sub_begins. Qed.
Lemma snprintf_all size t : String.length t < size -> snprintf size t = t.
Proof. intros H. apply sub_all. lia. Qed.
Lemma snprintf_cut size t : 0 < size -> size <= String.length t -> snprintf size t <> t.
Proof.
  intros H0 H E. assert (L : String.length (snprintf size t) = size - 1) by (apply sub_cut; lia). rewrite E in L. lia.
Qed.
Lemma in_class_len c t : String.length (in_class c t) = String.length c + String.length t + 2.
Proof. unfold in_class. rewrite !len_app. cbn [String.length]. lia. Qed.
Lemma call_all size c vs v : String.length c + Nat.max 18 (longest vs) + 2 < size -> call size c vs v = in_class c (get_value_string vs v).
Proof.
  intros H. unfold call. fold (in_class c (get_value_string vs v)). apply snprintf_all. rewrite in_class_len. pose proof (gvs_len vs v). lia.
Qed.
(* tables without a number twice *)
Fixpoint once (vs : list (Z * string)) : bool :=
  match vs with [] => true | (n, _) :: r => negb (existsb (fun e => Z.eqb (fst e) n) r) && (0 <=? n)%Z && (n <? 2 ^ 32)%Z && once r end.
Lemma gvs_in : forall vs n t, once vs = true -> In (n, t) vs -> get_value_string vs n = t.
Proof.
  intros vs n t Ho Hi. assert (Hu : u32 n = n).
  { clear -Ho Hi. induction vs as [|[m x] vs IH]; [contradiction|]. cbn [once] in Ho. apply andb_prop in Ho as [Ho H4]. apply andb_prop in Ho as [Ho H3].
    apply andb_prop in Ho as [_ H2]. destruct Hi as [E|Hi]; [|exact (IH H4 Hi)]. injection E as -> ->.
    apply Z.leb_le in H2. apply Z.ltb_lt in H3. unfold u32. apply Z.mod_small. split; assumption. }
  unfold get_value_string. rewrite Hu. clear Hu. induction vs as [|[m x] vs IH]; [contradiction|]. cbn [find fst snd].
  cbn [once] in Ho. apply andb_prop in Ho as [Ho H4]. apply andb_prop in Ho as [Ho _]. apply andb_prop in Ho as [Ho _].
  destruct (Z.eqb_spec m n) as [->|Hne].
  - destruct Hi as [E|Hi]; [injection E as ->; reflexivity|]. exfalso. apply negb_true_iff in Ho.
    assert (existsb (fun e => Z.eqb (fst e) n) vs = true) by (apply existsb_exists; exists (n, t); split; [exact Hi|apply Z.eqb_refl]). congruence.
  - destruct Hi as [E|Hi]; [injection E as -> _; congruence|]. exact (IH H4 Hi).
Qed.
Lemma dec_len v : (- 2 ^ 63 <= v < 2 ^ 63)%Z -> String.length (dec v) <= 21.
Proof.
  intros _. unfold dec. destruct (v <? 0)%Z; rewrite ?len_app; pose proof (digits_len 10 20 (Z.abs_N v) ""); pose proof (digits_len 10 20 (Z.to_N v) ""); cbn [String.length] in *; lia.
Qed.
Ltac cases H := unfold ranap_classes, rua_classes, hnbap_classes in H; cbn [In] in H;
  repeat match type of H with _ \/ _ => destruct H as [H|H] end; try contradiction; injection H as <- <- <-.
Lemma ranap_fits p v : fits 128 (ranap_cause_str p v).
Proof.
  unfold ranap_cause_str, call. destruct p as [|[[[?|?|]|[?|?|]|]|[[?|?|]|[?|?|]|]|]]; try (apply snprintf_fits; lia); unfold fits; cbn [String.length]; lia.
Qed.
Lemma ranap_full p c en v : In (p, c, en) ranap_classes -> ranap_cause_str p v = in_class c (get_value_string (ranap_table p) v).
Proof. intros H. cases H; cbn [ranap_cause_str ranap_table]; apply call_all; vm_compute; lia. Qed.
Lemma ranap_row p c en n t : In (p, c, en) ranap_classes -> In (n, t) (ranap_table p) -> ranap_cause_str p n = in_class c t.
Proof.
  intros H Ht. rewrite (ranap_full p c en n H). f_equal. apply gvs_in; [|exact Ht]. cases H; reflexivity.
Qed.
Lemma non_standard v : (- 2 ^ 63 <= v < 2 ^ 63)%Z -> ranap_cause_str 6 v = in_class "non-standard" (dec v).
Proof.
  intros H. cbn [ranap_cause_str]. change ("non-standard(" ++ dec v ++ ")") with (in_class "non-standard" (dec v)). apply snprintf_all. rewrite in_class_len.
  pose proof (dec_len v H). cbn [String.length]. lia.
Qed.
Lemma rua_fits p v : fits 32 (rua_cause_str p v).
Proof.
  unfold rua_cause_str, call. destruct p as [|[[[?|?|]|[?|?|]|]|[[?|?|]|[?|?|]|]|]]; try (apply snprintf_fits; lia); unfold fits; cbn [String.length]; lia.
Qed.
Lemma call_row size c vs n t : 0 < size -> once vs = true -> In (n, t) vs ->
  begins (call size c vs n) (in_class c t) /\ (call size c vs n = in_class c t <-> fits size (in_class c t)).
Proof.
  intros H0 Ho Hi. unfold call. rewrite (gvs_in vs n t Ho Hi). fold (in_class c t). split; [apply snprintf_begins|]. split.
  - intros E. unfold fits. destruct (Nat.lt_ge_cases (String.length (in_class c t)) size) as [H|H]; [exact H|]. destruct (snprintf_cut size _ H0 H E).
  - apply snprintf_all.
Qed.
Lemma rua_row p c en n t : In (p, c, en) rua_classes -> In (n, t) (rua_table p) ->
  begins (rua_cause_str p n) (in_class c t) /\ (rua_cause_str p n = in_class c t <-> fits 32 (in_class c t)).
Proof. intros H Ht. cases H; cbn [rua_cause_str rua_table] in *; (apply call_row; [lia|reflexivity|exact Ht]). Qed.
Lemma hnbap_fits prev p v : fits 32 prev -> fits 32 (hnbap_cause_str prev p v).
Proof.
  intros Hp. unfold hnbap_cause_str, call. destruct p as [|[[[?|?|]|[?|?|]|]|[[?|?|]|[?|?|]|]|]]; try (apply snprintf_fits; lia); exact Hp.
Qed.
Lemma hnbap_row prev p c en n t : In (p, c, en) hnbap_classes -> In (n, t) (hnbap_table p) ->
  begins (hnbap_cause_str prev p n) (in_class c t) /\ (hnbap_cause_str prev p n = in_class c t <-> fits 32 (in_class c t)).
Proof. intros H Ht. cases H; cbn [hnbap_cause_str hnbap_table] in *; (apply call_row; [lia|reflexivity|exact Ht]). Qed.

(* ---------------- tables against enumerations ---------------- *)
Definition named (vs : list (Z * string)) (e : string * Z) : bool := existsb (fun x => Z.eqb (fst x) (snd e)) vs.
Lemma named_ok vs e : named vs e = true -> exists t, In (snd e, t) vs.
Proof. intros H. apply existsb_exists in H as ([n t]&Hi&E). apply Z.eqb_eq in E. cbn [fst] in E. subst n. exists t. exact Hi. Qed.
Fixpoint texts_once (vs : list (Z * string)) : bool :=
  match vs with [] => true | (_, t) :: r => negb (existsb (fun e => String.eqb (snd e) t) r) && texts_once r end.
Lemma texts_once_ok : forall vs n n' t, texts_once vs = true -> In (n, t) vs -> In (n', t) vs -> n = n'.
Proof.
  induction vs as [|[m x] vs IH]; intros n n' t Ho H H'; [contradiction|]. cbn [texts_once] in Ho. apply andb_prop in Ho as [H1 H2].
  assert (K : forall k, In (k, x) vs -> False).
  { intros k Hk. apply negb_true_iff in H1. assert (existsb (fun e => String.eqb (snd e) x) vs = true) by (apply existsb_exists; exists (k, x); split; [exact Hk|apply String.eqb_refl]). congruence. }
  destruct H as [E|H], H' as [E'|H'].
  - congruence.
  - injection E as -> ->. destruct (K _ H').
  - injection E' as -> ->. destruct (K _ H).
  - exact (IH n n' t H2 H H').
Qed.
Lemma complete_b vs en : forallb (named vs) en && texts_once vs && once vs = true -> complete vs en.
Proof.
  intros H. apply andb_prop in H as [H H3]. apply andb_prop in H as [H1 H2]. split; [|split].
  - intros name n Hi. exact (named_ok vs (name, n) (proj1 (forallb_forall _ _) H1 _ Hi)).
  - intros. eapply texts_once_ok; eassumption.
  - intros n t t' H H'. rewrite <- (gvs_in vs n t H3 H), <- (gvs_in vs n t' H3 H'). reflexivity.
Qed.
(* texts of all enumerated causes of RANAP differ *)
Definition all_of (cl : list (N * string * list (string * Z))) : list (N * Z) := flat_map (fun x => map (fun e => (fst (fst x), snd e)) (snd x)) cl.
Lemma all_of_in cl p c en name n : In (p, c, en) cl -> In (name, n) en -> In (p, n) (all_of cl).
Proof. intros H1 H2. unfold all_of. apply in_flat_map. exists (p, c, en). split; [exact H1|]. cbn [fst snd]. apply in_map_iff. exists (name, n). split; [reflexivity|exact H2]. Qed.
Fixpoint all_differ (f : N -> Z -> string) (l : list (N * Z)) : bool :=
  match l with [] => true | (p, n) :: r => negb (existsb (fun x => String.eqb (f (fst x) (snd x)) (f p n)) r) && all_differ f r end.
Lemma all_differ_ok f : forall l p n p' n', all_differ f l = true -> In (p, n) l -> In (p', n') l -> f p n = f p' n' -> (p, n) = (p', n').
Proof.
  induction l as [|[q m] l IH]; intros p n p' n' Hd H H' E; [contradiction|]. cbn [all_differ] in Hd. apply andb_prop in Hd as [H1 H2]. apply negb_true_iff in H1.
  assert (K : forall q' m', In (q', m') l -> f q' m' <> f q m).
  { intros q' m' Hi Hf. assert (existsb (fun x => String.eqb (f (fst x) (snd x)) (f q m)) l = true) by (apply existsb_exists; exists (q', m'); split; [exact Hi|apply String.eqb_eq, Hf]). congruence. }
  destruct H as [H|H], H' as [H'|H'].
  - congruence.
  - injection H as -> ->. symmetry in E. destruct (K _ _ H' E).
  - injection H' as -> ->. destruct (K _ _ H E).
  - exact (IH p n p' n' H2 H H' E).
Qed.
Lemma ranap_differ : all_differ ranap_cause_str (all_of ranap_classes) = true.
Proof. vm_compute. reflexivity. Qed.
Lemma ranap_complete p c en : In (p, c, en) ranap_classes -> complete (ranap_table p) en.
Proof. intros H. cases H; apply complete_b; vm_compute; reflexivity. Qed.
Lemma rua_complete p c en : In (p, c, en) rua_classes -> complete (rua_table p) en.
Proof. intros H. cases H; apply complete_b; vm_compute; reflexivity. Qed.

(* ---------------- numbers ---------------- *)
Lemma str_app_assoc : forall a b c : string, (a ++ b) ++ c = a ++ (b ++ c).
Proof. induction a as [|x a IH]; intros b c; [reflexivity|]. cbn [append]. f_equal. apply IH. Qed.
Lemma digit_ok d : (d < 16)%N -> digit_value (digit d) = Some d.
Proof.
  intros H. assert (K : forallb (fun d => match digit_value (digit d) with Some x => N.eqb x d | None => false end) (map N.of_nat (List.seq 0 16)) = true) by (vm_compute; reflexivity).
  rewrite forallb_forall in K. specialize (K d). destruct (digit_value (digit d)).
  - f_equal. apply N.eqb_eq. apply K. apply in_map_iff. exists (N.to_nat d). split; [lia|]. apply in_seq. lia.
  - exfalso. assert (X : false = true); [|discriminate X]. apply K. apply in_map_iff. exists (N.to_nat d). split; [lia|]. apply in_seq. lia.
Qed.
Lemma digit_zero d : (d < 16)%N -> digit d = "0"%char -> d = 0%N.
Proof. intros H E. pose proof (digit_ok d H) as K. rewrite E in K. vm_compute in K. injection K as <-. reflexivity. Qed.
Lemma value_app b : forall s t acc, value b acc (s ++ t) = match value b acc s with Some x => value b x t | None => None end.
Proof.
  induction s as [|c s IH]; intros t acc; [reflexivity|]. cbn [append value]. destruct (digit_value c) as [d|]; [|reflexivity]. destruct (d <? b)%N; [apply IH|reflexivity].
Qed.
Lemma digits_written b : (1 < b <= 16)%N -> forall fuel n acc, (n < b ^ N.of_nat fuel)%N -> fuel <> 0 -> exists t, digits b fuel n acc = t ++ acc /\ written b n t.
Proof.
  intros Hb. induction fuel as [|f IH]; intros n acc Hn Hf; [congruence|]. cbn [digits].
  assert (Hm : (n mod b < b)%N) by (apply N.mod_lt; lia).
  destruct (N.ltb_spec n b) as [Hl|Hl].
  - exists (String (digit (n mod b)) ""). split; [reflexivity|]. rewrite N.mod_small by exact Hl. split; [discriminate|]. split.
    + cbn [value]. rewrite digit_ok by lia. replace (n <? b)%N with true by (symmetry; apply N.ltb_lt; exact Hl). f_equal. lia.
    + intros E. cbn [String.get] in E. injection E as E. apply digit_zero in E; [|lia]. subst n. reflexivity.
  - destruct f as [|f'].
    { exfalso. replace (b ^ N.of_nat 1)%N with b in Hn by (cbn; lia). lia. }
    destruct (IH (n / b)%N (String (digit (n mod b)) acc)) as (t&Ht&H0&H1&H2).
    { apply N.div_lt_upper_bound; [lia|]. rewrite <- N.pow_succ_r'. replace (N.succ (N.of_nat (S f'))) with (N.of_nat (S (S f'))) by lia. exact Hn. }
    { congruence. }
    exists (t ++ String (digit (n mod b)) ""). rewrite Ht. split; [rewrite str_app_assoc; reflexivity|]. split; [|split].
    + destruct t; discriminate.
    + rewrite value_app, H1. cbn [value]. rewrite digit_ok by lia. replace (n mod b <? b)%N with true by (symmetry; apply N.ltb_lt; exact Hm).
      f_equal. symmetry. apply N.div_mod. lia.
    + intros E. destruct t as [|c t]; [congruence|]. cbn [append String.get] in E, H2. specialize (H2 E). injection H2 as -> ->. exfalso.
      cbn [value] in H1. change (digit_value "0"%char) with (Some 0%N) in H1. cbv iota in H1. destruct (N.ltb_spec 0 b); [|lia]. injection H1 as H1.
      assert (Hz : (n / b = 0)%N) by lia. apply N.div_small_iff in Hz; lia.
Qed.
Lemma app_nil_s (s : string) : s ++ "" = s.
Proof. induction s as [|c s IH]; [reflexivity|]. cbn [append]. f_equal. exact IH. Qed.
Lemma hex_written n : (n < 2 ^ 32)%N -> written 16 n (hex n).
Proof.
  intros H. unfold hex. destruct (digits_written 16 ltac:(lia) 8 n "") as (t&Ht&Hw); [exact H|congruence|]. rewrite Ht, app_nil_s. exact Hw.
Qed.
Lemma dec_decimal v : (- 2 ^ 63 <= v < 2 ^ 63)%Z -> decimal v (dec v).
Proof.
  intros H. unfold decimal, dec. destruct (Z.ltb_spec v 0).
  - destruct (digits_written 10 ltac:(lia) 20 (Z.abs_N v) "") as (t&Ht&Hw); [change (10 ^ N.of_nat 20)%N with 100000000000000000000%N; lia|congruence|].
    exists t. rewrite Ht, app_nil_s. split; [reflexivity|exact Hw].
  - destruct (digits_written 10 ltac:(lia) 20 (Z.to_N v) "") as (t&Ht&Hw); [change (10 ^ N.of_nat 20)%N with 100000000000000000000%N; lia|congruence|].
    rewrite Ht, app_nil_s. exact Hw.
Qed.
Lemma gvs_nameless vs v : nameless vs v -> exists t, written 16 (Z.to_N (v mod 2 ^ 32)) t /\ get_value_string vs v = "unknown 0x" ++ t.
Proof.
  intros H. exists (hex (Z.to_N (u32 v))). split.
  - apply hex_written. pose proof (Z.mod_pos_bound v (2 ^ 32) ltac:(lia)). unfold u32. lia.
  - unfold get_value_string. destruct (find _ vs) as [[n t]|] eqn:E; [|reflexivity]. apply find_in in E as [E1 E2]. cbn [fst] in E2. subst n. destruct (H t E1).
Qed.
Lemma hex_len n : String.length (hex n) <= 8.
Proof. unfold hex. pose proof (digits_len 16 8 n ""). cbn [String.length] in *. lia. Qed.
Lemma call_nameless size c vs v : nameless vs v -> String.length c + 20 < size ->
  exists t, written 16 (Z.to_N (v mod 2 ^ 32)) t /\ call size c vs v = in_class c ("unknown 0x" ++ t).
Proof.
  intros H Hc. exists (hex (Z.to_N (u32 v))). split.
  - apply hex_written. pose proof (Z.mod_pos_bound v (2 ^ 32) ltac:(lia)). unfold u32. lia.
  - unfold call. assert (Hg : get_value_string vs v = "unknown 0x" ++ hex (Z.to_N (u32 v))).
    { unfold get_value_string. destruct (find _ vs) as [[n t]|] eqn:E; [|reflexivity]. apply find_in in E as [E1 E2]. cbn [fst] in E2. subst n. destruct (H t E1). }
    rewrite Hg. fold (in_class c ("unknown 0x" ++ hex (Z.to_N (u32 v)))). apply snprintf_all. rewrite in_class_len, len_app. cbn [String.length].
    pose proof (hex_len (Z.to_N (u32 v))). lia.
Qed.
Lemma ranap_nameless p c en v : In (p, c, en) ranap_classes -> nameless (ranap_table p) v ->
  exists t, written 16 (Z.to_N (v mod 2 ^ 32)) t /\ ranap_cause_str p v = in_class c ("unknown 0x" ++ t).
Proof. intros H Hn. cases H; cbn [ranap_cause_str ranap_table] in *; apply call_nameless; try exact Hn; cbn [String.length]; lia. Qed.
Lemma rua_nameless p c en v : In (p, c, en) rua_classes -> nameless (rua_table p) v ->
  exists t, written 16 (Z.to_N (v mod 2 ^ 32)) t /\ rua_cause_str p v = in_class c ("unknown 0x" ++ t).
Proof. intros H Hn. cases H; cbn [rua_cause_str rua_table] in *; apply call_nameless; try exact Hn; cbn [String.length]; lia. Qed.
Lemma hnbap_nameless prev p c en v : In (p, c, en) hnbap_classes -> nameless (hnbap_table p) v ->
  exists t, written 16 (Z.to_N (v mod 2 ^ 32)) t /\ hnbap_cause_str prev p v = in_class c ("unknown 0x" ++ t).
Proof. intros H Hn. cases H; cbn [hnbap_cause_str hnbap_table] in *; apply call_nameless; try exact Hn; cbn [String.length]; lia. Qed.
