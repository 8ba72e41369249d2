(* Texts with their layout: a checked way to show that a text is written as
   Generator_spec.v says, used for the examples. *)
From Verif Require Import Base Generator_spec Generator_proofs.
From Coq Require Import String Ascii.
Local Open Scope nat_scope.
Local Open Scope list_scope.

(* the words of an element, and the space in front of each and behind the last *)
Record ie_layout := mkIeL { y_id : string; y_crit : string; y_kind : string; y_type : string; y_pres : string; y_gaps : list string }.
Record set_layout := mkSetL { y_name : string; y_class : string; y_ies : list (ie_layout * string * string); y_end : bool;
  y_before : string; y_set_gaps : list string; y_dots : option (string * string) }.
Definition gp (l : list string) (k : nat) : list N := chars (nth k l EmptyString).
Definition ie_of (y : ie_layout) : ie_def := mkIeDef (chars (y_id y)) (chars (y_crit y)) (chars (y_type y)) (chars (y_pres y)).
Definition ie_text (y : ie_layout) : list N := let g := gp (y_gaps y) in
  chars "{" ++ g 0 ++ chars "ID" ++ g 1 ++ chars (y_id y) ++ g 2 ++ chars "CRITICALITY" ++ g 3 ++ chars (y_crit y) ++ g 4 ++
  chars (y_kind y) ++ g 5 ++ chars (y_type y) ++ g 6 ++ chars "PRESENCE" ++ g 7 ++ chars (y_pres y) ++ g 8 ++ chars "}".
Definition nonempty (l : list N) : bool := match l with [] => false | _ => true end.
Definition name_b (l : list N) : bool := forallb is_name_char l && nonempty l.
Definition class_b (l : list N) : bool := forallb is_class_char l && nonempty l.
Definition field_b (l : list N) : bool := forallb is_capital l && nonempty l.
Definition gap_b (l : list N) : bool := forallb is_gap_char l.
Definition gap1_b (l : list N) : bool := forallb is_gap_char l && nonempty l.
Definition one_line (y : ie_layout) : bool := let g := gp (y_gaps y) in negb (existsb has_newline [g 1; g 2; g 3; g 4; g 5; g 6; g 7]).
Definition ie_ok (y : ie_layout) : bool := let g := gp (y_gaps y) in
  name_b (chars (y_id y)) && name_b (chars (y_crit y)) && field_b (chars (y_kind y)) && name_b (chars (y_type y)) && name_b (chars (y_pres y)) &&
  gap_b (g 0) && gap1_b (g 1) && gap1_b (g 2) && gap1_b (g 3) && gap1_b (g 4) && gap1_b (g 5) && gap1_b (g 6) && gap1_b (g 7) && gap_b (g 8).
Lemma and_nonempty f l : forallb f l && nonempty l = true -> forallb f l = true /\ l <> [].
Proof. intros H. apply andb_prop in H as [H N]. split; [exact H|]. intros ->. discriminate. Qed.
Lemma ie_layout_ok y : ie_ok y = true -> ie_written (ie_of y) (one_line y) (ie_text y).
Proof.
  unfold ie_ok, name_b, field_b, gap1_b. cbn zeta. intros H. repeat (apply andb_prop in H as [H ?]).
  unfold ie_text, one_line. cbn zeta.
  apply (ie_written_intro (ie_of y) (chars (y_kind y))); unfold name, field_name, gap1, gap; try assumption; apply and_nonempty; rewrite ?H; auto with bool.
  all: apply andb_true_intro; auto.
Qed.
Fixpoint ies_text (l : list (ie_layout * string * string)) : list N :=
  match l with
  | [] => []
  | [(y, _, _)] => ie_text y
  | (y, g, g') :: r => ie_text y ++ chars g ++ chars "|" ++ chars g' ++ ies_text r
  end.
Definition ies_ok (l : list (ie_layout * string * string)) : bool :=
  match l with [] => false | _ => true end && forallb (fun p => ie_ok (fst (fst p)) && gap_b (chars (snd (fst p))) && gap_b (chars (snd p))) l.
Definition ies_of_layout (l : list (ie_layout * string * string)) : list (ie_def * bool) :=
  map (fun p => (ie_of (fst (fst p)), one_line (fst (fst p)))) l.
Lemma ies_layout_ok l : ies_ok l = true -> ies_written (ies_of_layout l) (ies_text l).
Proof.
  unfold ies_ok. intros H. apply andb_prop in H as [N H]. induction l as [|[[y g] g'] l IH]; [discriminate|].
  cbn [forallb fst snd] in H. apply andb_prop in H as [H Hl]. apply andb_prop in H as [H G']. apply andb_prop in H as [H G].
  destruct l as [|p l].
  - cbn. constructor. now apply ie_layout_ok.
  - change (ies_text ((y, g, g') :: p :: l)) with (ie_text y ++ chars g ++ chars "|" ++ chars g' ++ ies_text (p :: l)).
    change (ies_of_layout ((y, g, g') :: p :: l)) with ((ie_of y, one_line y) :: ies_of_layout (p :: l)).
    constructor; [now apply ie_layout_ok|exact G|exact G'|]. now apply IH.
Qed.
Definition body_text (y : set_layout) : list N :=
  match y_ies y, y_dots y with
  | [], _ => chars "..."
  | l, None => ies_text l
  | l, Some (g, g') => ies_text l ++ chars g ++ chars "," ++ chars g' ++ chars "..."
  end.
Definition body_ok (y : set_layout) : bool :=
  match y_ies y with [] => true | l => ies_ok l end && match y_dots y with Some (g, g') => gap_b (chars g) && gap_b (chars g') | None => true end.
Lemma body_layout_ok y : body_ok y = true -> body_written (ies_of_layout (y_ies y)) (body_text y).
Proof.
  unfold body_ok, body_text. intros H. apply andb_prop in H as [H D]. destruct (y_ies y) as [|p l] eqn:E; [apply body_empty|].
  destruct (y_dots y) as [[g g']|]; [|constructor; now apply ies_layout_ok].
  apply andb_prop in D as [G G']. constructor; [now apply ies_layout_ok|exact G|exact G'].
Qed.
Definition set_of (y : set_layout) : obj_set := mkObjSet (chars (y_name y)) (chars (y_class y)) (ies_of_layout (y_ies y)) (y_end y).
Definition set_text (y : set_layout) : list N := let g := gp (y_set_gaps y) in
  chars (y_name y) ++ g 0 ++ chars (y_class y) ++ g 1 ++ chars "::=" ++ g 2 ++ chars "{" ++ g 3 ++ body_text y ++ g 4 ++ chars "}" ++
  (if y_end y then [10%N] else []).
Definition set_ok (y : set_layout) : bool := let g := gp (y_set_gaps y) in
  name_b (chars (y_name y)) && class_b (chars (y_class y)) && body_ok y && gap1_b (g 0) && gap_b (g 1) && gap_b (g 2) && gap1_b (g 3) && gap1_b (g 4) &&
  (y_end y || negb (contains [125; 10]%N (body_text y ++ g 4))).
Lemma starts_app s t : starts s (s ++ t) = true.
Proof. induction s as [|c s IH]; [reflexivity|]. cbn [app starts]. now rewrite N.eqb_refl. Qed.
Lemma contains_app x s y : contains s (x ++ s ++ y) = true.
Proof.
  induction x as [|c x IH]; cbn [app].
  - destruct (s ++ y) as [|c l] eqn:E; cbn [contains]; rewrite <- E, starts_app; reflexivity.
  - cbn [contains]. rewrite IH. apply orb_true_r.
Qed.
Lemma set_layout_ok y : set_ok y = true -> set_written (set_of y) (set_text y).
Proof.
  unfold set_ok, name_b, class_b, gap1_b. cbn zeta. intros H. apply andb_prop in H as [H E]. do 7 (apply andb_prop in H as [H ?]).
  apply and_nonempty in H, H0, H1, H4, H6. unfold set_text. cbn zeta. destruct (y_end y) eqn:L.
  - apply (set_ends_line (set_of y)); auto. now apply body_layout_ok.
  - rewrite app_nil_r. apply (set_ends_before (set_of y)); auto; [now apply body_layout_ok|].
    intros a b X. cbn [orb] in E. rewrite X in E. change (chars "}" ++ 10%N :: b) with ([125; 10]%N ++ b) in E. rewrite contains_app in E. discriminate.
Qed.

(* other text *)
Fixpoint drop_gap (t : list N) : list N := match t with c :: r => if is_gap_char c then drop_gap r else t | [] => [] end.
Fixpoint assigns (t : list N) : bool :=
  (starts (chars "::=") t && starts (chars "{") (drop_gap (skipn 3 t))) || match t with [] => false | _ :: r => assigns r end.
Fixpoint last_b (t : list N) : bool := match t with [] => true | [c] => negb (is_name_char c) | _ :: r => last_b r end.
Definition other_b (t : list N) : bool := negb (assigns t) && last_b t && forallb (fun c => is_gap_char c || (33 <=? c)%N) t.
Lemma drop_gap_app g t : gap g -> drop_gap (g ++ 123%N :: t) = 123%N :: t.
Proof. unfold gap. induction g as [|c g IH]; intros H; [reflexivity|]. cbn [forallb] in H. apply andb_prop in H as [Hc H]. cbn [app drop_gap]. rewrite Hc. auto. Qed.
Lemma other_ok t : other_b t = true -> other t.
Proof.
  unfold other_b. intros H. apply andb_prop in H as [H F]. apply andb_prop in H as [A L]. apply negb_true_iff in A. split; [|split; [|exact F]].
  - intros a g b G ->. clear L F. induction a as [|c a IH].
    + change (([] ++ chars "::=" ++ g ++ chars "{" ++ b)) with (58%N :: 58%N :: 61%N :: g ++ 123%N :: b) in A. cbn [assigns] in A. apply orb_false_elim in A as [A _].
      cbn [skipn] in A. rewrite (drop_gap_app g b G) in A. discriminate A.
    + cbn [app assigns] in A. apply orb_false_elim in A as [_ A]. exact (IH A).
  - intros a c ->. clear A F. induction a as [|x a IH]; [cbn in L; now apply negb_true_iff in L|].
    cbn [app last_b] in L. destruct (a ++ [c]) as [|z l] eqn:Z; [destruct a; discriminate|]. exact (IH L).
Qed.
Fixpoint quiet_b (t : list N) : bool := match t with [] => true | c :: r => if (c =? 58)%N then true else negb (c =? 125)%N && quiet_b r end.
Lemma quiet_ok t : quiet_b t = true -> quiet t.
Proof.
  intros H a b ->. revert H. induction a as [|c a IH]; cbn [app quiet_b]; intros H; [discriminate|].
  destruct (N.eqb_spec c 58) as [->|N]; [now left|]. apply andb_prop in H as [_ H]. right. exact (IH H).
Qed.
Fixpoint file_text (l : list set_layout) (e : string) : list N :=
  match l with [] => chars e | y :: r => chars (y_before y) ++ set_text y ++ file_text r e end.
Fixpoint file_ok (l : list set_layout) (e : string) : bool :=
  match l with
  | [] => other_b (chars e)
  | y :: r => let rest := file_text r e in
      other_b (chars (y_before y)) && set_ok y && quiet_b rest &&
      (y_end y || match rest with 10%N :: _ => false | _ => true end) && file_ok r e
  end.
Lemma file_layout_ok l e : file_ok l e = true -> file_written (map set_of l) (file_text l e).
Proof.
  induction l as [|y l IH]; cbn [file_ok file_text map]; cbn zeta; intros H; [constructor; now apply other_ok|].
  apply andb_prop in H as [H R]. apply andb_prop in H as [H L]. apply andb_prop in H as [H Q]. apply andb_prop in H as [B S].
  constructor; [now apply other_ok|now apply set_layout_ok|now apply quiet_ok| |auto].
  cbn [set_of o_ends_line]. intros E r X. rewrite E, X in L. discriminate.
Qed.
