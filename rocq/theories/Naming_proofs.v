From Verif Require Import Base Aper Container Regex Generator Generator_spec Generator_proofs Generator_files Naming Naming_spec
  RanapTab RuaTab HnbapTab SabpTab AllTypes DispatchTab UsedNames.
From Coq Require Import String.
Local Open Scope list_scope.
Local Open Scope nat_scope.

(* ---------------- substitution ---------------- *)
Lemma starts_spec s : forall t, starts s t = true <-> exists b, t = s ++ b.
Proof.
  induction s as [|a s IH]; intros t; cbn [starts].
  - split; [intros _; now exists t|reflexivity].
  - destruct t as [|b t]; [split; [discriminate|intros (b&H); discriminate]|].
    rewrite Bool.andb_true_iff, N.eqb_eq, IH. split.
    + intros (->&x&->). now exists x.
    + intros (x&H). injection H as -> ->. split; [reflexivity|now exists x].
Qed.
Lemma sub_none pat rep t : ~ contains pat t -> sub_from pat rep 0 t = t.
Proof.
  induction t as [|c t IH]; intros H; [reflexivity|]. cbn [sub_from].
  destruct (starts pat (c :: t)) eqn:E.
  - apply starts_spec in E as (b&E). destruct H. exists [], b. exact E.
  - rewrite IH; [reflexivity|]. intros (a&b&E'). apply H. exists (c :: a), b. now rewrite E'.
Qed.
Lemma sub_skip pat rep : forall k t, k <= List.length t -> sub_from pat rep k t = sub_from pat rep 0 (skipn k t).
Proof.
  induction k as [|k IH]; intros [|c t] H; try reflexivity; cbn [List.length] in H; try lia.
  cbn [sub_from skipn]. apply IH. lia.
Qed.
Lemma sub_head pat rep t : pat <> [] -> sub_from pat rep 0 (pat ++ t) = rep ++ sub_from pat rep 0 t.
Proof.
  intros H. destruct pat as [|c p]; [congruence|]. cbn [app sub_from].
  replace (starts (c :: p) (c :: p ++ t)) with true by (symmetry; apply starts_spec; now exists t).
  f_equal. cbn [List.length pred]. rewrite sub_skip by (rewrite app_length; lia). f_equal.
  rewrite skipn_app, skipn_all, Nat.sub_diag. reflexivity.
Qed.
Lemma under_map t : under t = map hyphen_out t.
Proof.
  unfold under, sub. change (codes "-") with [45%N]. change (codes "_") with [95%N].
  induction t as [|c t IH]; [reflexivity|]. cbn [sub_from starts List.length pred map app]. unfold hyphen_out at 1.
  rewrite Bool.andb_true_r, N.eqb_sym. destruct (c =? 45)%N; now rewrite IH.
Qed.
Lemma sub_length pat rep : List.length rep <= List.length pat -> pat <> [] -> forall n t, List.length t <= n -> List.length (sub_from pat rep 0 t) <= List.length t.
Proof.
  intros Hr Hp. induction n as [|n IH]; intros [|c t] H; try (cbn [sub_from List.length] in *; lia).
  destruct (starts pat (c :: t)) eqn:E.
  - apply starts_spec in E as (b&E). rewrite E, sub_head by exact Hp. rewrite app_length, app_length.
    assert (List.length (c :: t) = List.length pat + List.length b) by (rewrite E; apply app_length).
    assert (List.length pat <> 0) by (destruct pat; [congruence|discriminate]).
    specialize (IH b ltac:(lia)). lia.
  - cbn [sub_from]. rewrite E. cbn [List.length] in H |- *. specialize (IH t ltac:(lia)). lia.
Qed.
Lemma sub_shorter pat rep t : List.length rep < List.length pat -> contains pat t -> List.length (sub_from pat rep 0 t) < List.length t.
Proof.
  intros Hr (a&b&->). assert (Hp : pat <> []) by (destruct pat; [cbn in Hr; lia|discriminate]).
  assert (L : forall t, List.length (sub_from pat rep 0 t) <= List.length t).
  { intros t. apply sub_length with (n := List.length t); [lia|exact Hp|lia]. }
  induction a as [|c a IH].
  - cbn [app]. rewrite sub_head by exact Hp. rewrite !app_length. specialize (L b). lia.
  - destruct (starts pat (c :: a ++ pat ++ b)) eqn:E.
    + apply starts_spec in E as (d&E). change ((c :: a) ++ pat ++ b) with (c :: a ++ pat ++ b). rewrite E, sub_head by exact Hp.
      rewrite !app_length. specialize (L d). lia.
    + cbn [app sub_from]. rewrite E. cbn [List.length]. lia.
Qed.

(* ---------------- the first word ---------------- *)
Lemma small_is c : small c = is_small c. Proof. reflexivity. Qed.
Lemma capital_is c : capital c = is_capital c. Proof. reflexivity. Qed.
Lemma lower_map t : lower t = map to_small t.
Proof. reflexivity. Qed.
Lemma not_both c : is_capital c = true -> is_small c = false.
Proof. unfold is_capital, is_small. rewrite Bool.andb_true_iff, N.leb_le, N.leb_le. intros [_ H]. apply Bool.andb_false_iff. left. apply N.leb_gt. lia. Qed.
Lemma small_spec c : is_small c = true <-> (97 <= c <= 122)%N.
Proof. unfold is_small. rewrite Bool.andb_true_iff, !N.leb_le. tauto. Qed.
Lemma capital_spec c : is_capital c = true <-> (65 <= c <= 90)%N.
Proof. unfold is_capital. rewrite Bool.andb_true_iff, !N.leb_le. tauto. Qed.
Lemma swap_lower w : swapcase w = lower w <-> forall c, In c w -> is_small c = false.
Proof.
  unfold swapcase, lower. split.
  - intros H c I. destruct (is_small c) eqn:S; [|reflexivity]. exfalso.
    assert (Hc : (if capital c then (c + 32)%N else if small c then (c - 32)%N else c) = (if capital c then (c + 32)%N else c)).
    { revert H I. clear. induction w as [|x w IH]; intros H I; [destruct I|]. cbn [map] in H. injection H as H1 H2.
      destruct I as [->|I]; [exact H1|apply IH; assumption]. }
    change (small c) with (is_small c) in Hc. rewrite S in Hc. apply small_spec in S.
    destruct (capital c) eqn:C; [apply capital_spec in C; lia|]. lia.
  - intros H. apply map_ext_in. intros c I. change (small c) with (is_small c). rewrite (H c I). reflexivity.
Qed.
Definition swap1 (c : N) : N := if capital c then (c + 32)%N else if small c then (c - 32)%N else c.
Lemma swap_small c : small (swap1 c) = is_capital c.
Proof.
  unfold swap1. change (capital c) with (is_capital c). change (small c) with (is_small c).
  destruct (is_capital c) eqn:C.
  - apply capital_spec in C. apply small_spec. lia.
  - destruct (is_small c) eqn:S; [|exact S]. apply small_spec in S. destruct (small (c - 32)) eqn:E; [|reflexivity].
    apply small_spec in E. lia.
Qed.
Lemma capitals_split w : exists cs r, w = cs ++ r /\ forallb is_capital cs = true /\
  match r with c :: _ => is_capital c = false | [] => True end /\ leading (swapcase w) = List.length cs.
Proof.
  induction w as [|c w (cs&r&E&F&B&L)]; [exists [], []; repeat split|].
  destruct (is_capital c) eqn:C.
  - exists (c :: cs), r. split; [now rewrite E|]. split; [cbn [forallb]; now rewrite C, F|]. split; [exact B|].
    unfold swapcase. cbn [map leading]. fold (swap1 c). rewrite swap_small, C. cbn [List.length]. f_equal. exact L.
  - exists [], (c :: w). split; [reflexivity|]. split; [reflexivity|]. split; [exact C|].
    unfold swapcase. cbn [map leading]. fold (swap1 c). rewrite swap_small, C. reflexivity.
Qed.
Lemma swap_capitals cs : forallb is_capital cs = true -> swapcase cs = map to_small cs.
Proof.
  intros H. apply map_ext_in. intros c I. rewrite forallb_forall in H. specialize (H c I). unfold to_small.
  change (capital c) with (is_capital c). now rewrite H.
Qed.
Lemma lower_first_spec w : first_word_small w (lower_first w).
Proof.
  unfold lower_first. destruct (teq (swapcase w) (lower w)) eqn:E.
  - left. apply teq_eq in E. split; [now apply swap_lower|reflexivity].
  - right. split.
    + destruct (existsb is_small w) eqn:X; [apply existsb_exists in X; exact X|]. exfalso.
      assert (teq (swapcase w) (lower w) = true); [|congruence]. apply teq_eq, swap_lower.
      intros c I. destruct (is_small c) eqn:S; [|reflexivity]. rewrite <- X. symmetry. apply existsb_exists. now exists c.
    + clear E. destruct (capitals_split w) as (cs&r&E&F&B&L). exists cs, r. split; [exact E|]. split; [exact F|]. split; [exact B|].
      rewrite L, E. unfold swapcase. rewrite map_app. change (map (fun c => if capital c then (c + 32)%N else if small c then (c - 32)%N else c) cs) with (swapcase cs).
      rewrite swap_capitals by exact F.
      assert (Hf : forall x, firstn (List.length cs) (map to_small cs ++ x) = map to_small cs).
      { intros x. rewrite firstn_app, map_length, Nat.sub_diag, firstn_all2 by (rewrite map_length; lia). now rewrite app_nil_r. }
      rewrite Hf. destruct (List.length cs <? 2) eqn:K.
      * apply Nat.ltb_lt in K. left. split; [lia|]. rewrite skipn_app, skipn_all, Nat.sub_diag. reflexivity.
      * apply Nat.ltb_ge in K. right. destruct (@exists_last _ cs) as (f&c&->); [intros ->; cbn in K; lia|].
        exists f, c. split; [reflexivity|]. rewrite app_length in *. cbn [List.length] in *.
        split; [intros ->; cbn in K; lia|]. rewrite map_app. cbn [map]. rewrite removelast_last. f_equal.
        replace (List.length f + 1 - 1) with (List.length f) by lia. rewrite <- app_assoc. cbn [app].
        rewrite skipn_app, skipn_all, Nat.sub_diag. reflexivity.
Qed.
(* there is only one such word *)
Lemma first_word_folds w v : first_word_small w v -> map to_small v = map to_small w.
Proof.
  assert (I : forall c, to_small (to_small c) = to_small c).
  { intros c. unfold to_small. destruct (is_capital c) eqn:C; [|now rewrite C]. apply capital_spec in C.
    destruct (is_capital (c + 32)) eqn:D; [apply capital_spec in D; lia|reflexivity]. }
  assert (M : forall l, map to_small (map to_small l) = map to_small l) by (intros l; rewrite map_map; now apply map_ext).
  intros [[_ ->]|(_&cs&r&->&_&_&[[_ ->]|(f&c&->&_&->)])].
  - apply M.
  - rewrite !map_app, M. reflexivity.
  - rewrite !map_app, M. cbn [map]. rewrite <- app_assoc. reflexivity.
Qed.

Lemma member_l x : ~ contains (chars "id-") x -> first_word_small (map hyphen_out x) (member (chars "id-" ++ x)).
Proof.
  intros H. unfold member, sub. change (chars "id-") with (codes "id-") in *. rewrite sub_head by discriminate. cbn [codes app].
  rewrite sub_none by exact H. rewrite under_map. apply lower_first_spec.
Qed.
Lemma member_alike x y : ~ contains (chars "id-") x -> ~ contains (chars "id-") y ->
  member (chars "id-" ++ x) = member (chars "id-" ++ y) -> alike x y.
Proof.
  intros Hx Hy E. unfold alike. rewrite <- (first_word_folds _ _ (member_l x Hx)), <- (first_word_folds _ _ (member_l y Hy)). now rewrite E.
Qed.
Lemma declared_l f k : decode_declared f k = decode_defined f k <-> ~ contains (chars "ies") k.
Proof.
  unfold decode_declared, decode_defined. split.
  - intros E C. apply app_inv_head, app_inv_head in E. apply (f_equal (@List.length N)) in E. rewrite !under_map, !map_length in E.
    unfold lower in E. rewrite !map_length in E. unfold struct_key, sub in E.
    assert (List.length (sub_from (codes "ies") (codes "") 0 k) < List.length k) by (apply sub_shorter; [cbn; lia|exact C]). lia.
  - intros H. unfold struct_key, sub. rewrite sub_none by exact H. reflexivity.
Qed.

(* ---------------- the first word is determined ---------------- *)
Lemma split_unique (cs : list N) : forall cs' r r', cs ++ r = cs' ++ r' -> forallb is_capital cs = true -> forallb is_capital cs' = true ->
  match r with c :: _ => is_capital c = false | [] => True end -> match r' with c :: _ => is_capital c = false | [] => True end -> cs = cs' /\ r = r'.
Proof.
  induction cs as [|c cs IH]; intros [|c' cs'] r r' E F F' B B'; cbn [app forallb] in *.
  - split; [reflexivity|exact E].
  - subst r. apply Bool.andb_true_iff in F' as [F' _]. congruence.
  - subst r'. apply Bool.andb_true_iff in F as [F _]. congruence.
  - injection E as -> E. apply Bool.andb_true_iff in F as [_ F]. apply Bool.andb_true_iff in F' as [_ F'].
    destruct (IH cs' r r' E F F' B B') as [-> ->]. split; reflexivity.
Qed.
Lemma first_word_unique w v v' : first_word_small w v -> first_word_small w v' -> v = v'.
Proof.
  intros [[A ->]|((c&Ic&Sc)&cs&r&E&F&B&K)] [[A' ->]|((c'&Ic'&Sc')&cs'&r'&E'&F'&B'&K')]; try reflexivity.
  - rewrite (A _ Ic') in Sc'. discriminate.
  - rewrite (A' _ Ic) in Sc. discriminate.
  - rewrite E in E'. destruct (split_unique cs cs' r r' E' F F' B B') as [<- <-].
    destruct K as [[L ->]|(f&x&Ef&Nf&->)], K' as [[L' ->]|(f'&x'&Ef'&Nf'&->)]; try reflexivity.
    + rewrite Ef', app_length in L. destruct f'; [congruence|cbn [List.length] in L; lia].
    + rewrite Ef, app_length in L'. destruct f; [congruence|cbn [List.length] in L'; lia].
    + rewrite Ef in Ef'. apply app_inj_tail in Ef' as [-> ->]. reflexivity.
Qed.
Lemma member_iff x v : ~ contains (chars "id-") x -> (member (chars "id-" ++ x) = v <-> first_word_small (map hyphen_out x) v).
Proof. intros H. split; [intros <-; now apply member_l|intros K; apply (first_word_unique _ _ _ (member_l x H) K)]. Qed.
Lemma union_member_iff k v : union_member k = v <-> first_word_small (map hyphen_out k) v.
Proof.
  unfold union_member. rewrite under_map. split; [intros <-; apply lower_first_spec|intros K; apply (first_word_unique _ _ _ (lower_first_spec _) K)].
Qed.

(* ---------------- the four protocols ---------------- *)
Definition mem (x : list N) (l : list (list N)) : bool := existsb (teq x) l.
Lemma mem_In x l : mem x l = true -> In x l.
Proof. intros H. apply existsb_exists in H as (y&I&E). apply teq_eq in E. now subst. Qed.
Lemma mem_not x l : mem x l = false -> ~ In x l.
Proof. intros H I. assert (mem x l = true); [|congruence]. apply existsb_exists. exists x. split; [exact I|now apply teq_eq]. Qed.
Definition nodup (l : list (list N)) : bool := (fix f (l : list text) : bool := match l with [] => true | x :: r => negb (existsb (teq x) r) && f r end) l.
Lemma nodup_l l : nodup l = true -> NoDup l. Proof. exact (nodup_b l). Qed.
Definition identifier_b (t : list N) : bool :=
  match t with c :: r => is_c_letter c && forallb is_c_char r | [] => false end && negb (mem t (map chars keywords)).
Lemma identifier_l t : identifier_b t = true -> identifier t.
Proof.
  unfold identifier_b. rewrite Bool.andb_true_iff, Bool.negb_true_iff. intros [A B]. split; [|now apply mem_not].
  destruct t as [|c r]; [discriminate|]. apply Bool.andb_true_iff in A as [A A']. now exists c, r.
Qed.
Lemma all_l {A} (p : A -> bool) (P : A -> Prop) l : (forall x, p x = true -> P x) -> forallb p l = true -> forall x, In x l -> P x.
Proof. intros H F x I. rewrite forallb_forall in F. apply H, F, I. Qed.
Lemma Forall_l {A} (p : A -> bool) (P : A -> Prop) l : (forall x, p x = true -> P x) -> forallb p l = true -> Forall P l.
Proof. intros H F. apply Forall_forall. exact (all_l p P l H F). Qed.
Lemma ex_l {A} (p : A -> bool) (P : A -> Prop) l : (forall x, In x l -> p x = true -> P x) -> existsb p l = true -> exists x, In x l /\ P x.
Proof. intros H F. apply existsb_exists in F as (x&I&F). exists x. split; [exact I|now apply H]. Qed.

Lemma members_l : forall I m, In I interfaces -> In m (if_msgs I) ->
  NoDup (mask :: map member_of (m_rows m)) /\ Forall identifier (map member_of (m_rows m)).
Proof.
  intros I m HI Hm.
  assert (B : forallb (fun I => forallb (fun m => nodup (mask :: map member_of (m_rows m)) && forallb identifier_b (map member_of (m_rows m))) (if_msgs I)) interfaces = true)
    by (vm_compute; reflexivity).
  rewrite forallb_forall in B. specialize (B I HI). rewrite forallb_forall in B. specialize (B m Hm).
  apply Bool.andb_true_iff in B as [B C]. split; [exact (nodup_l _ B)|exact (Forall_l _ _ _ identifier_l C)].
Qed.
Lemma messages_l : forall I, In I interfaces ->
  NoDup (map (fun m => union_member (key m)) (if_msgs I)) /\ Forall identifier (map (fun m => union_member (key m)) (if_msgs I)) /\
  Forall identifier (map (struct_of I) (if_msgs I)) /\ Forall identifier (functions I) /\
  (forall m, In m (if_msgs I) -> ~ In (struct_of I m) (map chars (if_types I)) /\
     decode_declared (chars (if_file I)) (key m) = function_of I Decode m).
Proof.
  intros I HI.
  assert (B : forallb (fun I => (nodup (map (fun m => union_member (key m)) (if_msgs I)) && forallb identifier_b (map (fun m => union_member (key m)) (if_msgs I))) &&
     (forallb identifier_b (map (struct_of I) (if_msgs I)) && forallb identifier_b (functions I)) &&
     forallb (fun m => negb (mem (struct_of I m) (map chars (if_types I))) && teq (decode_declared (chars (if_file I)) (key m)) (function_of I Decode m)) (if_msgs I)) interfaces = true)
    by (vm_compute; reflexivity).
  rewrite forallb_forall in B. specialize (B I HI). rewrite !Bool.andb_true_iff in B. destruct B as [[[B1 B2] [B3 B4]] B5].
  split; [exact (nodup_l _ B1)|]. split; [exact (Forall_l _ _ _ identifier_l B2)|]. split; [exact (Forall_l _ _ _ identifier_l B3)|].
  split; [exact (Forall_l _ _ _ identifier_l B4)|]. intros m Hm. rewrite forallb_forall in B5. specialize (B5 m Hm).
  apply Bool.andb_true_iff in B5 as [C D]. split; [apply mem_not; now apply Bool.negb_true_iff|now apply teq_eq].
Qed.
Lemma apart_l : NoDup (flat_map functions interfaces) /\ NoDup (flat_map (fun I => map (struct_of I) (if_msgs I)) interfaces).
Proof. split; apply nodup_l; vm_compute; reflexivity. Qed.

(* what the code written here takes from the files of asn1c is there, and is what the model says *)
Definition described (t : list N) : option ty := option_map snd (List.find (fun p => teq t (chars (fst p) ++ chars "_t")) all_types).
Lemma described_l t d : described t = Some d -> exists n, In (n, d) all_types /\ chars n ++ chars "_t" = t.
Proof.
  unfold described. destruct (List.find _ all_types) as [[n d']|] eqn:F; [|discriminate]. intros E. injection E as ->.
  apply List.find_some in F as [I F]. apply teq_eq in F. exists n. split; [exact I|]. symmetry. exact F.
Qed.
Lemma map_flat_eq {A B C} (f g : A -> B -> C) (h : A -> list B) l :
  flat_map (fun a => map (f a) (h a)) l = flat_map (fun a => map (g a) (h a)) l -> forall a b, In a l -> In b (h a) -> f a b = g a b.
Proof.
  assert (S : forall (f g : B -> C) k x y, map f k ++ x = map g k ++ y -> (forall b, In b k -> f b = g b) /\ x = y).
  { intros f' g'. induction k as [|b k IH]; intros x y E; [split; [intros ? []|exact E]|]. cbn [map app] in E. injection E as E1 E2.
    destruct (IH _ _ E2) as [K ->]. split; [|reflexivity]. intros c [<-|I]; [exact E1|now apply K]. }
  induction l as [|a l IH]; intros E b c; [intros []|]. cbn [flat_map] in E. apply S in E as [E1 E2]. intros [<-|I] J; [now apply E1|now apply IH].
Qed.
Lemma fits_message_l I m : In I interfaces -> In m (if_msgs I) ->
  (exists t, In (t, m_cont m) all_types /\ chars t ++ chars "_t" = message_type (chars (if_prefix I)) (key m)) /\
  exists t l e, In (t, l, e) (if_lists I) /\ chars t = message_type (chars (if_prefix I)) (key m) /\
    chars l = list_member (key m) /\ chars e = element_type (chars (if_prefix I)).
Proof.
  intros HI Hm. split.
  - apply described_l. revert I m HI Hm. apply (map_flat_eq (fun I m => described (message_type (chars (if_prefix I)) (key m))) (fun _ m => Some (m_cont m)) if_msgs).
    vm_cast_no_check (eq_refl (flat_map (fun I => map (fun m => Some (m_cont m)) (if_msgs I)) interfaces)).
  - assert (B : forallb (fun I => forallb (fun m => existsb (fun p => teq (chars (fst (fst p))) (message_type (chars (if_prefix I)) (key m)) &&
        teq (chars (snd (fst p))) (list_member (key m)) && teq (chars (snd p)) (element_type (chars (if_prefix I)))) (if_lists I)) (if_msgs I)) interfaces = true)
      by (vm_compute; reflexivity).
    rewrite forallb_forall in B. specialize (B I HI). rewrite forallb_forall in B. specialize (B m Hm).
    apply existsb_exists in B as ([[t l] e]&J&B). cbn [fst snd] in B. rewrite !Bool.andb_true_iff, !teq_eq in B. exists t, l, e. tauto.
Qed.
Lemma fits_ie_l I m r : In I interfaces -> In m (if_msgs I) -> In r (m_rows m) ->
  (exists t, In (t, r_ty r) all_types /\ chars t ++ chars "_t" = type_name (chars (if_prefix I)) (chars (r_tyname r))) /\
  (exists t, In t (if_types I) /\ chars t = type_name (chars (if_prefix I)) (chars (r_tyname r))) /\
  (exists c, In (c, r_id r) (if_ids I) /\ chars c = id_constant (chars (if_prefix I)) (chars (r_ie r))) /\
  (exists c, In (c, r_crit r) (if_crits I) /\ chars c = criticality_constant (chars (if_prefix I)) (chars (criticality_of (r_crit r)))).
Proof.
  intros HI Hm Hr. assert (Hr' : In r (flat_map m_rows (if_msgs I))) by (apply in_flat_map; now exists m). split.
  - apply described_l. clear m Hm Hr. revert I r HI Hr'.
    apply (map_flat_eq (fun I r => described (type_name (chars (if_prefix I)) (chars (r_tyname r)))) (fun _ r => Some (r_ty r)) (fun I => flat_map m_rows (if_msgs I))).
    vm_cast_no_check (eq_refl (flat_map (fun I => map (fun r => Some (r_ty r)) (flat_map m_rows (if_msgs I))) interfaces)).
  - assert (B : forallb (fun I => forallb (fun r =>
        existsb (fun t => teq (chars t) (type_name (chars (if_prefix I)) (chars (r_tyname r)))) (if_types I) &&
        existsb (fun p => (snd p =? r_id r)%N && teq (chars (fst p)) (id_constant (chars (if_prefix I)) (chars (r_ie r)))) (if_ids I) &&
        existsb (fun p => (snd p =? r_crit r)%Z && teq (chars (fst p)) (criticality_constant (chars (if_prefix I)) (chars (criticality_of (r_crit r))))) (if_crits I))
        (flat_map m_rows (if_msgs I))) interfaces = true) by (vm_compute; reflexivity).
    rewrite forallb_forall in B. specialize (B I HI). rewrite forallb_forall in B. specialize (B r Hr').
    rewrite !Bool.andb_true_iff in B. destruct B as [[B1 B2] B3].
    apply existsb_exists in B1 as (t&J1&B1). apply teq_eq in B1.
    apply existsb_exists in B2 as ([c n]&J2&B2). cbn [fst snd] in B2. rewrite Bool.andb_true_iff, N.eqb_eq, teq_eq in B2. destruct B2 as [-> B2].
    apply existsb_exists in B3 as ([d z]&J3&B3). cbn [fst snd] in B3. rewrite Bool.andb_true_iff, Z.eqb_eq, teq_eq in B3. destruct B3 as [-> B3].
    split; [now exists t|]. split; [now exists c|now exists d].
Qed.

(* ---------------- inside of the functions ---------------- *)
Lemma locals_l I m : In I interfaces -> In m (if_msgs I) ->
  NoDup (ies_parameter (key m) :: message_variable (key m) :: decoder_locals) /\
  (forall r, In r (m_rows m) -> ~ In (value_variable (chars (if_prefix I)) (chars (r_tyname r))) (ies_parameter (key m) :: message_variable (key m) :: decoder_locals)) /\
  NoDup [message_parameter (key m); ies_parameter (key m); chars "ie"].
Proof.
  intros HI Hm.
  assert (B : forallb (fun I => forallb (fun m => nodup (ies_parameter (key m) :: message_variable (key m) :: decoder_locals) &&
      forallb (fun r => negb (mem (value_variable (chars (if_prefix I)) (chars (r_tyname r))) (ies_parameter (key m) :: message_variable (key m) :: decoder_locals))) (m_rows m) &&
      nodup [message_parameter (key m); ies_parameter (key m); chars "ie"]) (if_msgs I)) interfaces = true) by (vm_compute; reflexivity).
  rewrite forallb_forall in B. specialize (B I HI). rewrite forallb_forall in B. specialize (B m Hm).
  rewrite !Bool.andb_true_iff in B. destruct B as [[B1 B2] B3]. split; [exact (nodup_l _ B1)|]. split; [|exact (nodup_l _ B3)].
  intros r Hr. rewrite forallb_forall in B2. apply mem_not, Bool.negb_true_iff, (B2 r Hr).
Qed.

(* ---------------- the code written by hand ---------------- *)
Lemma in_interfaces (p : interface -> msgdef -> bool) : existsb (fun I => existsb (p I) (if_msgs I)) interfaces = true ->
  exists I m, In I interfaces /\ In m (if_msgs I) /\ p I m = true.
Proof. intros H. apply existsb_exists in H as (I&HI&H). apply existsb_exists in H as (m&Hm&H). now exists I, m. Qed.
Lemma members_used_l f l t x : In (f, l, t, x) members_used ->
  exists I m, In I interfaces /\ In m (if_msgs I) /\ chars t = struct_of I m /\ In (chars x) (members m).
Proof.
  intros H.
  assert (B : forallb (fun u : string * N * string * string => existsb (fun I => existsb (fun m => teq (chars (snd (fst u))) (struct_of I m) && mem (chars (snd u)) (members m)) (if_msgs I)) interfaces)
    members_used = true) by (vm_compute; reflexivity).
  rewrite forallb_forall in B. apply B, in_interfaces in H as (I&m&HI&Hm&H). exists I, m. apply Bool.andb_true_iff in H as [H1 H2].
  apply teq_eq in H1. apply mem_In in H2. tauto.
Qed.
Lemma union_members_used_l f l t x : In (f, l, t, x) union_members_used ->
  exists I m, In I interfaces /\ In m (if_msgs I) /\ chars t = union_member (key m) /\ In (chars x) (members m).
Proof.
  intros H.
  assert (B : forallb (fun u : string * N * string * string => existsb (fun I => existsb (fun m => teq (chars (snd (fst u))) (union_member (key m)) && mem (chars (snd u)) (members m)) (if_msgs I)) interfaces)
    union_members_used = true) by (vm_compute; reflexivity).
  rewrite forallb_forall in B. apply B, in_interfaces in H as (I&m&HI&Hm&H). exists I, m. apply Bool.andb_true_iff in H as [H1 H2].
  apply teq_eq in H1. apply mem_In in H2. tauto.
Qed.
Lemma flags_used_l f l x : In (f, l, x) flags_used ->
  exists I m r, In I interfaces /\ In m (if_msgs I) /\ In r (m_rows m) /\ is_opt r = true /\ flag_define m r = x.
Proof.
  intros H.
  assert (B : forallb (fun u : string * N * string => existsb (fun I => existsb (fun m => existsb (fun r => is_opt r && String.eqb (flag_define m r) (snd u)) (m_rows m)) (if_msgs I)) interfaces)
    flags_used = true) by (vm_compute; reflexivity).
  rewrite forallb_forall in B. apply B, in_interfaces in H as (I&m&HI&Hm&H). apply existsb_exists in H as (r&Hr&H).
  apply Bool.andb_true_iff in H as [H1 H2]. apply String.eqb_eq in H2. exists I, m, r. tauto.
Qed.
Lemma calls_l f l x t : In (f, l, x, t) calls ->
  exists I m k, In I interfaces /\ In m (if_msgs I) /\ chars x = function_of I k m /\ chars t = struct_of I m.
Proof.
  intros H.
  assert (B : forallb (fun u : string * N * string * string => existsb (fun I => existsb (fun m => teq (chars (snd u)) (struct_of I m) && existsb (fun k => teq (chars (snd (fst u))) (function_of I k m)) [Decode; Encode; Free]) (if_msgs I)) interfaces)
    calls = true) by (vm_compute; reflexivity).
  rewrite forallb_forall in B. apply B, in_interfaces in H as (I&m&HI&Hm&H). apply Bool.andb_true_iff in H as [H1 H2].
  apply existsb_exists in H2 as (k&_&H2). apply teq_eq in H1, H2. exists I, m, k. tauto.
Qed.
Lemma union_calls_l f l x t : In (f, l, x, t) union_calls ->
  exists I m k, In I interfaces /\ In m (if_msgs I) /\ chars x = function_of I k m /\ chars t = union_member (key m).
Proof.
  intros H.
  assert (B : forallb (fun u : string * N * string * string => existsb (fun I => existsb (fun m => teq (chars (snd u)) (union_member (key m)) && existsb (fun k => teq (chars (snd (fst u))) (function_of I k m)) [Decode; Encode; Free]) (if_msgs I)) interfaces)
    union_calls = true) by (vm_compute; reflexivity).
  rewrite forallb_forall in B. apply B, in_interfaces in H as (I&m&HI&Hm&H). apply Bool.andb_true_iff in H as [H1 H2].
  apply existsb_exists in H2 as (k&_&H2). apply teq_eq in H1, H2. exists I, m, k. tauto.
Qed.
Lemma switches_l : Forall2 (fun p s => fst (fst p) = fst s /\ Forall2 (same_case (snd (fst p))) (snd p) (snd s)) paths switches.
Proof.
  assert (F : forall {A B} (p : A -> B -> bool) (P : A -> B -> Prop), (forall a b, p a b = true -> P a b) -> forall l k,
    (fix all2 a b := match a, b with x :: a, y :: b => p x y && all2 a b | [], [] => true | _, _ => false end) l k = true -> Forall2 P l k).
  { intros A B p P H. induction l as [|a l IH]; intros [|b k] E; try discriminate; constructor; apply andb_prop in E as [E1 E2]; auto. }
  revert F. intros F.
  apply (F _ _ (fun p s => String.eqb (fst (fst p)) (fst s) &&
    (fix all2 a b := match a, b with x :: a, y :: b =>
       (existsb (fun q => String.eqb (fst q) (fst (fst y)) && (snd q =? fst x)%N) ranap_procedures_c &&
        teq (chars (snd (fst y))) (function_of ranap_interface (snd (fst p)) (snd x)) && teq (chars (snd y)) (union_member (key (snd x)))) && all2 a b
       | [], [] => true | _, _ => false end) (snd p) (snd s))).
  - intros p s H. apply andb_prop in H as [H1 H2]. apply String.eqb_eq in H1. split; [exact H1|].
    eapply F; [|exact H2]. intros x y H. cbn beta in H. rewrite !Bool.andb_true_iff in H. destruct H as [[H3 H4] H5].
    apply existsb_exists in H3 as ([c n]&J&H3). cbn [fst snd] in H3. rewrite Bool.andb_true_iff, String.eqb_eq, N.eqb_eq in H3. destruct H3 as [-> ->].
    apply teq_eq in H4, H5. destruct y as [[c f] u], x as [n m]. cbn [fst snd] in *. split; [exact J|]. split; [exact H4|exact H5].
  - vm_compute. reflexivity.
Qed.

(* ---------------- other files ---------------- *)
Lemma refuted_members : exists x y, ~ contains (chars "id-") x /\ ~ contains (chars "id-") y /\ x <> y /\ member (chars "id-" ++ x) = member (chars "id-" ++ y).
Proof.
  exists (chars "UEInfo"), (chars "UeInfo").
  assert (D : forall x, ~ In 105%N x -> ~ contains (chars "id-") x).
  { intros x H (a&b&->). apply H. apply in_or_app. right. left. reflexivity. }
  repeat split.
  - apply D. vm_compute. intuition discriminate.
  - apply D. vm_compute. intuition discriminate.
  - discriminate.
Qed.
Lemma refuted_declared : exists k, decode_declared (chars "ranap") k <> decode_defined (chars "ranap") k.
Proof. exists (chars "SeriesIEs"). vm_compute. discriminate. Qed.
Lemma alike_iff k k' : under (lower k) = under (lower k') <-> alike k k'.
Proof.
  unfold alike. rewrite !under_map, !lower_map.
  assert (H : forall l, map hyphen_out (map to_small l) = map to_small (map hyphen_out l)).
  { intros l. rewrite !map_map. apply map_ext. intros c. unfold hyphen_out, to_small. destruct (N.eqb_spec c 45); [subst; reflexivity|].
    destruct (is_capital c) eqn:C; [|apply N.eqb_neq in n; rewrite n, ?C; reflexivity].
    apply capital_spec in C. destruct (N.eqb_spec (c + 32) 45); [lia|]. reflexivity. }
  rewrite !H. reflexivity.
Qed.
Lemma functions_alike f k k' : ~ contains (chars "ies") k -> ~ contains (chars "ies") k' ->
  (decode_defined f k = decode_defined f k' <-> alike k k') /\ (encode_name f k = encode_name f k' <-> alike k k') /\ (free_name f k = free_name f k' <-> alike k k').
Proof.
  intros H H'. unfold decode_defined, encode_name, free_name, struct_key, sub. rewrite !sub_none by assumption.
  assert (A : forall x, f ++ x ++ under (lower k) = f ++ x ++ under (lower k') <-> alike k k').
  { intros x. rewrite <- alike_iff. split; [intros E; now apply app_inv_head, app_inv_head in E|now intros ->]. }
  split; [apply A|]. split; apply A.
Qed.
Lemma structs_alike p k k' : struct_type p k = struct_type p k' <-> map hyphen_out k = map hyphen_out k'.
Proof.
  unfold struct_type. rewrite !under_map. split; [intros E; apply app_inv_head in E; now apply app_inv_tail in E|now intros ->].
Qed.
