(* C105 and C106: computing with the tables *)
From Verif Require Import Base Asn1_spec CDecl HeaderTab DescTab NamedNumbers RanapAsn RuaAsn HnbapAsn SabpAsn Header_spec.
From Coq Require Import String Ascii List.
Import ListNotations.
Local Open Scope Z_scope.
Local Open Scope list_scope.

(* ---------------- all types, with their C names ---------------- *)
Definition inner (p : string) (m : string) : string := (p ++ "__" ++ c_name m)%string.
Definition children (x : string * asn) : list (string * asn) :=
  match snd x with
  | ASeq _ root adds => map (fun f => (inner (fst x) (fst f), snd (snd f))) (root ++ adds)
  | AChoice _ root more => map (fun f => (inner (fst x) (fst f), snd f)) (root ++ more)
  | ASeqOf _ a => [((fst x ++ "__Member")%string, a)]
  | _ => []
  end.
Definition tops (prefix : string) (G : grammar) : list (string * asn) := map (fun x => ((prefix ++ c_name (fst x))%string, snd x)) (g_types G).
Fixpoint levels (k : nat) (l : list (string * asn)) : list (string * asn) :=
  match k with O => l | S k => l ++ levels k (flat_map children l) end.
Fixpoint level (k : nat) (l : list (string * asn)) : list (string * asn) :=
  match k with O => l | S k => level k (flat_map children l) end.

Lemma levels_level k l x : In x (levels k l) <-> exists i, (i <= k)%nat /\ In x (level i l).
Proof.
  revert l. induction k as [|k IH]; intro l; cbn [levels].
  - split; [intro H; exists O; auto|]. intros (i & Hi & H). replace i with O in H by lia. exact H.
  - rewrite in_app_iff, IH. split.
    + intros [H|(i & Hi & H)]; [exists O; split; [lia|exact H]|exists (S i); split; [lia|exact H]].
    + intros (i & Hi & H). destruct i; [left; exact H|right; exists i; split; [lia|exact H]].
Qed.
Lemma level_child i l x y : In x (level i l) -> In y (children x) -> In y (level (S i) l).
Proof.
  revert l. induction i as [|i IH]; intros l Hx Hy; cbn [level] in *.
  - apply in_flat_map. exists x; auto.
  - exact (IH _ Hx Hy).
Qed.
Lemma level_end k l i : level k l = [] -> (k <= i)%nat -> level i l = [].
Proof.
  revert l i. induction k as [|k IH]; intros l i H Hi; cbn [level] in H.
  - subst l. clear. induction i; [reflexivity|exact IHi].
  - destruct i; [lia|]. cbn [level]. apply IH; [exact H|lia].
Qed.
Lemma levels_child k l x y : level (S k) l = [] -> In x (levels k l) -> In y (children x) -> In y (levels k l).
Proof.
  intros He Hx Hy. apply levels_level in Hx as (i & Hi & Hx). apply levels_level.
  pose proof (level_child i l x y Hx Hy) as H1.
  exists (S i). split; [|exact H1]. destruct (Nat.eq_dec i k) as [->|]; [|lia]. rewrite He in H1. destruct H1.
Qed.

Lemma occurs_levels prefix G k p a :
  level (S k) (tops prefix G) = [] -> (occurs prefix G p a <-> In (p, a) (levels k (tops prefix G))).
Proof.
  intro He. split.
  - induction 1 as [n a H|p ext root adds m o a _ IH H|p ext root more m a _ IH H|p r a _ IH].
    + apply levels_level. exists O. split; [lia|]. apply in_map_iff. exists (n, a). auto.
    + eapply levels_child; [exact He|exact IH|]. apply in_map_iff. exists (m, (o, a)). auto.
    + eapply levels_child; [exact He|exact IH|]. apply in_map_iff. exists (m, a). auto.
    + eapply levels_child; [exact He|exact IH|]. left. reflexivity.
  - intro H. apply levels_level in H as (i & _ & H). clear He.
    assert (Gen : forall i l, (forall x, In x l -> occurs prefix G (fst x) (snd x)) -> forall x, In x (level i l) -> occurs prefix G (fst x) (snd x)).
    { clear. induction i as [|i IH]; intros l Hl x Hx; [exact (Hl x Hx)|]. cbn [level] in Hx. refine (IH _ _ x Hx).
      intros y Hy. apply in_flat_map in Hy as ((q, b) & Hz & Hy). apply Hl in Hz. cbn [fst snd] in Hz. unfold children in Hy. cbn [fst snd] in Hy.
      destruct b; try (destruct Hy; fail).
      - apply in_map_iff in Hy as ((m & o & a) & <- & Hm). exact (oc_field _ _ _ _ _ _ _ _ _ Hz Hm).
      - destruct Hy as [<-|[]]. exact (oc_member _ _ _ _ _ Hz).
      - apply in_map_iff in Hy as ((m & a) & <- & Hm). exact (oc_alt _ _ _ _ _ _ _ _ Hz Hm). }
    refine (Gen i _ _ (p, a) H). intros x Hx. apply in_map_iff in Hx as ((n & b) & <- & Hb). exact (oc_type _ _ _ _ Hb).
Qed.

(* ---------------- enumerations ---------------- *)
Definition enums_of (x : string * asn) : list (string * list (string * Z)) :=
  match snd x with
  | AEnum _ root more => [(fst x, in_order (map (fun i => (fst x ++ "_" ++ c_name i)%string) (root ++ more)))]
  | AChoice _ root more => [((fst x ++ "_PR")%string, in_order ((fst x ++ "_PR_NOTHING")%string :: map (fun i => (fst x ++ "_PR_" ++ c_name (fst i))%string) (root ++ more)))]
  | _ => []
  end.
Definition named_of (prefix : string) (n : string * list (string * Z)) : string * list (string * Z) :=
  ((prefix ++ c_name (fst n))%string, map (fun i => ((prefix ++ c_name (fst n) ++ "_" ++ c_name (fst i))%string, snd i)) (snd n)).
Definition expected (P : proto) : list (string * list (string * Z)) :=
  flat_map enums_of (levels 4 (tops (pr_prefix P) (pr_grammar P))) ++ map (named_of (pr_prefix P)) (pr_named P).
Definition found (P : proto) : list (string * list (string * Z)) := map (fun e => (fst e, c_enum (snd e))) (dl_enums (pr_headers P)).

Definition int_type (G : grammar) (n : string) : bool :=
  existsb (fun x => String.eqb (fst x) n && match snd x with AInt _ => true | _ => false end) (g_types G).
Definition pair_eqb (a b : string * Z) : bool := String.eqb (fst a) (fst b) && (snd a =? snd b).
Fixpoint list_eqb {A} (f : A -> A -> bool) (x y : list A) : bool :=
  match x, y with [], [] => true | a :: x, b :: y => f a b && list_eqb f x y | _, _ => false end.
Definition enum_eqb (a b : string * list (string * Z)) : bool := String.eqb (fst a) (fst b) && list_eqb pair_eqb (snd a) (snd b).
Lemma list_eqb_ok {A} (f : A -> A -> bool) : (forall a b, f a b = true -> a = b) -> forall x y, list_eqb f x y = true -> x = y.
Proof.
  intros Hf. induction x as [|a x IH]; intros [|b y] H; try discriminate; [reflexivity|]. cbn in H. apply andb_prop in H as [H1 H2].
  f_equal; [exact (Hf _ _ H1)|exact (IH _ H2)].
Qed.
Lemma pair_eqb_ok a b : pair_eqb a b = true -> a = b.
Proof. destruct a, b. unfold pair_eqb. cbn [fst snd]. intro H. apply andb_prop in H as [H1 H2]. apply String.eqb_eq in H1. apply Z.eqb_eq in H2. congruence. Qed.
Lemma enum_eqb_ok a b : enum_eqb a b = true -> a = b.
Proof.
  destruct a, b. unfold enum_eqb. cbn [fst snd]. intro H. apply andb_prop in H as [H1 H2]. apply String.eqb_eq in H1.
  apply (list_eqb_ok _ pair_eqb_ok) in H2. congruence.
Qed.
Definition subset (x y : list (string * list (string * Z))) : bool := forallb (fun a => existsb (enum_eqb a) y) x.
Lemma subset_ok x y : subset x y = true -> forall a, In a x -> In a y.
Proof. intros H a Ha. unfold subset in H. rewrite forallb_forall in H. apply H in Ha. apply existsb_exists in Ha as (b & Hb & E). apply enum_eqb_ok in E. now subst. Qed.

Definition enums_ok (P : proto) : bool :=
  match level 5 (tops (pr_prefix P) (pr_grammar P)) with [] => true | _ => false end &&
  forallb (fun n => int_type (pr_grammar P) (fst n)) (pr_named P) && subset (expected P) (found P) && subset (found P) (expected P).
Lemma enums_checked : forallb enums_ok header_protos = true.
Proof. vm_compute. reflexivity. Qed.
Lemma deep P : In P header_protos -> level 5 (tops (pr_prefix P) (pr_grammar P)) = [].
Proof.
  intro H. pose proof enums_checked as E. rewrite forallb_forall in E. apply E in H. unfold enums_ok in H.
  do 3 (apply andb_prop in H as [H _]). destruct (level 5 _); [reflexivity|discriminate].
Qed.

Lemma enum_for_expected P e l : In P header_protos -> (enum_for (pr_prefix P) (pr_grammar P) (pr_named P) e l <-> In (e, l) (expected P)).
Proof.
  intro HP. pose proof (deep P HP) as Hd. unfold expected. rewrite in_app_iff, in_flat_map, in_map_iff. split.
  - intros [p ext root more H|p ext root more H|n l' H _].
    + left. exists (p, AEnum ext root more). split; [apply (proj1 (occurs_levels _ _ 4 _ _ Hd) H)|left; reflexivity].
    + left. exists (p, AChoice ext root more). split; [apply (proj1 (occurs_levels _ _ 4 _ _ Hd) H)|left; reflexivity].
    + right. exists (n, l'). split; [reflexivity|exact H].
  - intros [((p, a) & Ho & H)|((n, l') & E & H)].
    + apply (proj2 (occurs_levels _ _ 4 _ _ Hd)) in Ho. unfold enums_of in H. cbn [fst snd] in H. destruct a; try (destruct H; fail).
      * destruct H as [H|[]]. injection H as <- <-. exact (ef_enumerated _ _ _ _ _ _ _ Ho).
      * destruct H as [H|[]]. injection H as <- <-. exact (ef_choice _ _ _ _ _ _ _ Ho).
    + unfold named_of in E. cbn [fst snd] in E. injection E as <- <-. apply ef_integer; [exact H|].
      pose proof enums_checked as Q. rewrite forallb_forall in Q. apply Q in HP. unfold enums_ok in HP.
      do 2 (apply andb_prop in HP as [HP _]). apply andb_prop in HP as [_ HP]. rewrite forallb_forall in HP. apply HP in H. cbn [fst] in H.
      unfold int_type in H. apply existsb_exists in H as ((n' & a) & Ha & H). cbn [fst snd] in H. apply andb_prop in H as [H1 H2].
      apply String.eqb_eq in H1. subst n'. destruct a; try discriminate. exists r. exact Ha.
Qed.
Lemma headers_enums P e l : In P header_protos ->
  (enum_for (pr_prefix P) (pr_grammar P) (pr_named P) e l <-> exists body, In (e, body) (dl_enums (pr_headers P)) /\ c_enum body = l).
Proof.
  intro HP. rewrite (enum_for_expected P e l HP). pose proof enums_checked as Q. rewrite forallb_forall in Q. apply Q in HP. unfold enums_ok in HP.
  apply andb_prop in HP as [HP H2]. apply andb_prop in HP as [_ H1]. split.
  - intro H. apply (subset_ok _ _ H1) in H. unfold found in H. apply in_map_iff in H as ((n, b) & E & H). cbn [fst snd] in E. injection E as <- <-. eauto.
  - intros (b & H & <-). apply (subset_ok _ _ H2). apply in_map_iff. exists (e, b). auto.
Qed.

(* ---------------- names are names of one thing ---------------- *)
Definition all_enumerators : list string := flat_map (fun P => flat_map (fun e => map fst (snd e)) (dl_enums (pr_headers P))) header_protos.
Fixpoint mem (s : string) (l : list string) : bool := match l with [] => false | x :: r => String.eqb s x || mem s r end.
Fixpoint distinct (l : list string) : bool := match l with [] => true | x :: r => negb (mem x r) && distinct r end.
Lemma mem_In s l : mem s l = true <-> In s l.
Proof.
  induction l as [|x l IH]; cbn [mem In]; [split; [discriminate|tauto]|]. rewrite orb_true_iff, IH, String.eqb_eq. intuition.
Qed.
Lemma distinct_ok l : distinct l = true -> NoDup l.
Proof.
  induction l as [|x l IH]; cbn [distinct]; [constructor|]. intro H. apply andb_prop in H as [H1 H2]. constructor; [|exact (IH H2)].
  intro Hin. apply mem_In in Hin. rewrite Hin in H1. discriminate.
Qed.
Lemma enumerators_distinct : NoDup all_enumerators.
Proof. apply distinct_ok. vm_compute. reflexivity. Qed.
Fixpoint zmem (s : Z) (l : list Z) : bool := match l with [] => false | x :: r => (s =? x) || zmem s r end.
Fixpoint zdistinct (l : list Z) : bool := match l with [] => true | x :: r => negb (zmem x r) && zdistinct r end.
Lemma zmem_In s l : zmem s l = true <-> In s l.
Proof.
  induction l as [|x l IH]; cbn [zmem In]; [split; [discriminate|tauto]|]. rewrite orb_true_iff, IH, Z.eqb_eq. intuition.
Qed.
Lemma zdistinct_ok l : zdistinct l = true -> NoDup l.
Proof.
  induction l as [|x l IH]; cbn [zdistinct]; [constructor|]. intro H. apply andb_prop in H as [H1 H2]. constructor; [|exact (IH H2)].
  intro Hin. apply zmem_In in Hin. rewrite Hin in H1. discriminate.
Qed.
Lemma numbers_distinct P e l : In P header_protos -> In (e, l) (dl_enums (pr_headers P)) -> NoDup (map snd (c_enum l)).
Proof.
  assert (E : forallb (fun P => forallb (fun e => zdistinct (map snd (c_enum (snd e)))) (dl_enums (pr_headers P))) header_protos = true) by (vm_compute; reflexivity).
  intros HP He. rewrite forallb_forall in E. apply E in HP. rewrite forallb_forall in HP. apply HP in He. exact (zdistinct_ok _ He).
Qed.
Definition ids (P : proto) : list (string * Z) :=
  flat_map (fun n => if String.eqb (fst n) "ProcedureCode" || String.eqb (fst n) "ProtocolIE-ID" then snd n else []) (pr_named P).
Lemma ids_consts P n l i z : In P header_protos -> In (n, l) (pr_named P) -> n = "ProcedureCode"%string \/ n = "ProtocolIE-ID"%string ->
  In (i, z) l -> In (i, z) (g_consts (pr_grammar P)).
Proof.
  assert (E : forallb (fun P => forallb (fun x => existsb (pair_eqb x) (g_consts (pr_grammar P))) (ids P)) header_protos = true) by (vm_compute; reflexivity).
  intros HP Hn Hc Hi. rewrite forallb_forall in E. apply E in HP. rewrite forallb_forall in HP.
  assert (H : In (i, z) (ids P)).
  { apply in_flat_map. exists (n, l). split; [exact Hn|]. cbn [fst snd].
    assert (String.eqb n "ProcedureCode" || String.eqb n "ProtocolIE-ID" = true) as -> by (destruct Hc as [-> | ->]; reflexivity). exact Hi. }
  apply HP in H. apply existsb_exists in H as (y & Hy & Ey). apply pair_eqb_ok in Ey. now subst.
Qed.
Lemma tables_functions P : In P header_protos ->
  NoDup (map fst (dl_enums (pr_headers P))) /\ NoDup (map fst (dl_typedefs (pr_headers P))) /\ NoDup (map fst (dl_structs (pr_headers P))) /\
  NoDup (map fst (dl_unions (pr_headers P))) /\ NoDup (map de_name (pr_descs P)).
Proof.
  assert (E : forallb (fun P => distinct (map fst (dl_enums (pr_headers P))) && distinct (map fst (dl_typedefs (pr_headers P))) &&
     distinct (map fst (dl_structs (pr_headers P))) && distinct (map fst (dl_unions (pr_headers P))) && distinct (map de_name (pr_descs P))) header_protos = true)
    by (vm_compute; reflexivity).
  intro HP. rewrite forallb_forall in E. apply E in HP. repeat (apply andb_prop in HP as [HP ?]). repeat split; apply distinct_ok; assumption.
Qed.

(* ---------------- descriptors ---------------- *)
Fixpoint look {A} (s : string) (l : list (string * A)) : option A :=
  match l with [] => None | (n, x) :: r => if String.eqb s n then Some x else look s r end.
Lemma look_In {A} s (l : list (string * A)) x : look s l = Some x -> In (s, x) l.
Proof.
  induction l as [|(n, y) l IH]; cbn [look]; [discriminate|]. destruct (String.eqb s n) eqn:E; intro H.
  - apply String.eqb_eq in E. injection H as <-. subst. now left.
  - right. exact (IH H).
Qed.
Fixpoint ctype_eqb (a b : ctype) : bool :=
  match a, b with
  | CName x, CName y | CStruct x, CStruct y | CUnion x, CUnion y | CEnum x, CEnum y => String.eqb x y
  | CList a, CList b => ctype_eqb a b
  | _, _ => false
  end.
Lemma ctype_eqb_ok a b : ctype_eqb a b = true -> a = b.
Proof. revert b. induction a; intros [] H; try discriminate; cbn in H; try (apply String.eqb_eq in H; congruence). f_equal. exact (IHa _ H). Qed.

Section Fits.
Context (H : decls) (D : list desc).
Fixpoint resolve (k : nat) (t : ctype) : ctype :=
  match k, t with
  | S k, CName n => match look n (dl_typedefs H) with Some u => resolve k u | None => t end
  | _, _ => t
  end.
Lemma resolve_is k t : is_type H t (resolve k t).
Proof.
  revert t. induction k as [|k IH]; intro t; [destruct t; apply it_same|]. destruct t; try apply it_same. cbn [resolve].
  destruct (look n (dl_typedefs H)) eqn:E; [|apply it_same]. eapply it_defined; [exact (look_In _ _ _ E)|apply IH].
Qed.
Definition res := resolve 4.
Definition struct_of (t : ctype) : option (string * list cmember) :=
  match res t with CStruct s => match look s (dl_structs H) with Some ms => Some (s, ms) | None => None end | _ => None end.
Lemma struct_of_ok t s ms : struct_of t = Some (s, ms) -> is_type H t (CStruct s) /\ In (s, ms) (dl_structs H).
Proof.
  unfold struct_of. pose proof (resolve_is 4 t) as R. fold (res t) in R. destruct (res t) eqn:E; try discriminate.
  destruct (look n (dl_structs H)) eqn:L; [|discriminate]. intro Q. injection Q as <- <-. split; [exact R|exact (look_In _ _ _ L)].
Qed.
Definition is_list_first (ms : list cmember) : bool :=
  match ms with CM n false (CList _) :: _ => String.eqb n "list" | _ => false end.
Definition castb (c : string) (t : ctype) : bool :=
  String.eqb c "" || String.eqb c "none" || ctype_eqb (res t) (CName c) ||
  String.eqb c "A_SEQUENCE_OF" && match struct_of t with Some (_, ms) => is_list_first ms | None => false end.
Lemma castb_ok c t : castb c t = true -> may_cast H c t.
Proof.
  unfold castb, may_cast. rewrite !orb_true_iff, andb_true_iff, !String.eqb_eq. intros [[[->| ->]|Q]|[-> Q]]; auto.
  - right; right; left. apply ctype_eqb_ok in Q. rewrite <- Q. apply resolve_is.
  - right; right; right. split; [reflexivity|]. destruct (struct_of t) as [[s ms]|] eqn:E; [|discriminate].
    apply struct_of_ok in E as [E1 E2]. destruct ms as [|[n [] u] ms]; try discriminate; destruct u; try discriminate.
    cbn [is_list_first] in Q. apply String.eqb_eq in Q. subst n. exists s, u, ms. auto.
Qed.
Definition checkb (k : check) (f : string) (t : ctype) : bool :=
  match k with Of g => String.eqb g f | Cast c => negb (String.eqb c "") && castb c t | NoLook => true end.
Lemma checkb_ok k f t : checkb k f t = true -> may_check H k f t.
Proof.
  destruct k; cbn [checkb may_check]; [apply String.eqb_eq| |auto]. intro Q. apply andb_prop in Q as [Q1 Q2]. split; [|exact (castb_ok _ _ Q2)].
  intros ->. discriminate.
Qed.
Definition desc_of (f : string) : option desc := List.find (fun d => String.eqb (de_name d) f) D.
Lemma desc_of_ok f d : desc_of f = Some d -> In d D /\ de_name d = f.
Proof. intro Q. apply find_some in Q as [Q1 Q2]. apply String.eqb_eq in Q2. auto. Qed.
Definition same_ops (d : desc) : option string :=
  match de_ops d with [a; b; c; e] => if String.eqb a b && String.eqb a c && String.eqb a e then Some a else None | _ => None end.
Lemma same_ops_ok d f : same_ops d = Some f -> all_ops d f.
Proof.
  unfold same_ops, all_ops. destruct (de_ops d) as [|a [|b [|c [|e [|]]]]]; try discriminate. destruct (_ && _) eqn:E; [|discriminate].
  intro Q. injection Q as ->. apply andb_prop in E as [E E3]. apply andb_prop in E as [E1 E2].
  apply String.eqb_eq in E1, E2, E3. subst. reflexivity.
Qed.
Definition member_eqb (a b : cmember) : bool := String.eqb (cm_name a) (cm_name b) && Bool.eqb (cm_pointer a) (cm_pointer b) && ctype_eqb (cm_type a) (cm_type b).
Lemma member_eqb_ok a b : member_eqb a b = true -> a = b.
Proof.
  destruct a as [a1 a2 a3], b as [b1 b2 b3]. unfold member_eqb. cbn [cm_name cm_pointer cm_type]. intro Q. apply andb_prop in Q as [Q Q3]. apply andb_prop in Q as [Q1 Q2].
  apply String.eqb_eq in Q1. apply eqb_prop in Q2. apply ctype_eqb_ok in Q3. congruence.
Qed.
(* the members before the context *)
Fixpoint before_context (ms : list cmember) : option (list cmember) :=
  match ms with
  | [] => None
  | [m] => if member_eqb m context then Some [] else None
  | m :: r => match before_context r with Some l => Some (m :: l) | None => None end
  end.
Lemma before_context_ok ms l : before_context ms = Some l -> ms = l ++ [context].
Proof.
  revert l. induction ms as [|m ms IH]; intros l Q; [discriminate|]. cbn [before_context] in Q. destruct ms as [|m' ms].
  - destruct (member_eqb m context) eqn:E; [|discriminate]. apply member_eqb_ok in E. injection Q as <-. subst. reflexivity.
  - destruct (before_context (m' :: ms)) eqn:E; [|discriminate]. injection Q as <-. rewrite (IH _ eq_refl). reflexivity.
Qed.
Definition strs_eqb := list_eqb String.eqb.
Lemma strs_eqb_ok a b : strs_eqb a b = true -> a = b.
Proof. apply list_eqb_ok. intros. now apply String.eqb_eq. Qed.
Fixpoint all2 {A B} (f : A -> B -> bool) (x : list A) (y : list B) : bool :=
  match x, y with [], [] => true | a :: x, b :: y => f a b && all2 f x y | _, _ => false end.
Lemma all2_ok {A B} (f : A -> B -> bool) (R : A -> B -> Prop) x y : (forall a b, f a b = true -> R a b) -> all2 f x y = true -> Forall2 R x y.
Proof.
  intro Hf. revert y. induction x as [|a x IH]; intros [|b y] Q; try discriminate; constructor; cbn in Q; apply andb_prop in Q as [Q1 Q2]; auto.
Qed.
Definition place (s : string) (path : list string) (fit : string -> ctype -> bool) (e : elem) (m : cmember) : bool :=
  String.eqb (el_struct e) s && strs_eqb (el_path e) (path ++ [cm_name m]) && Bool.eqb (el_pointer e) (cm_pointer m) &&
  castb (el_check e) (cm_type m) && fit (el_def e) (cm_type m).
Definition two_eqb (a b : string * string) : bool := String.eqb (fst a) (fst b) && String.eqb (snd a) (snd b).
Lemma two_eqb_ok a b : two_eqb a b = true -> a = b.
Proof. destruct a, b. unfold two_eqb. cbn [fst snd]. intro Q. apply andb_prop in Q as [Q1 Q2]. apply String.eqb_eq in Q1, Q2. congruence. Qed.

Context (known : list string) (Hknown : forall f, In f known -> fits H D f (CName (f ++ "_t"))).
Definition is_known (f : string) (t : ctype) : bool := match t with CName n => String.eqb n (f ++ "_t") && mem f known | _ => false end.
Fixpoint fitsb (k : nat) (f : string) (t : ctype) : bool :=
  match k with
  | O => false
  | S k =>
    if is_known f t then true else
    match look f library with
    | Some c => ctype_eqb (res t) (CName c)
    | None =>
      match desc_of f with
      | None => false
      | Some d =>
        match same_ops d with
        | None => false
        | Some g =>
          checkb (de_check d) g t &&
          match de_specs d with
          | SpNone | SpInt false => match de_elems d with [] => fitsb k g t | _ => false end
          | SpInt true => String.eqb g "NativeInteger" && match de_elems d with [] => ctype_eqb (res t) (CName "unsigned long") | _ => false end
          | SpSeq s0 c _ _ _ =>
              String.eqb g "SEQUENCE" &&
              match struct_of t with
              | Some (s, ms) => String.eqb s0 s && two_eqb c (s, "_asn_ctx"%string) &&
                  match before_context ms with Some l => all2 (place s [] (fitsb k)) (de_elems d) l | None => false end
              | None => false
              end
          | SpChoice s0 c p1 p2 =>
              String.eqb g "CHOICE" &&
              match struct_of t with
              | Some (s, ms) => String.eqb s0 s && two_eqb c (s, "_asn_ctx"%string) && two_eqb p1 (s, "present"%string) && two_eqb p2 (s, "present"%string) &&
                  list_eqb member_eqb ms [CM "present" false (CName (s ++ "_PR")); CM "choice" false (CUnion (s ++ "_u")); context] &&
                  match look (s ++ "_u") (dl_unions H) with Some l => all2 (place s ["choice"%string] (fitsb k)) (de_elems d) l | None => false end
              | None => false
              end
          | SpList s0 c =>
              String.eqb g "SEQUENCE_OF" &&
              match struct_of t with
              | Some (s, ms) => String.eqb s0 s && two_eqb c (s, "_asn_ctx"%string) &&
                  match ms, de_elems d with
                  | [CM n false (CList u); x], [e] => String.eqb n "list" && member_eqb x context && strs_eqb (el_path e) [] && el_pointer e && castb (el_check e) u && fitsb k (el_def e) u
                  | _, _ => false
                  end
              | None => false
              end
          end
        end
      end
    end
  end.
Ltac bs Q := repeat match goal with
  | X : _ && _ = true |- _ => apply andb_prop in X as [? ?]
  | X : String.eqb _ _ = true |- _ => apply String.eqb_eq in X
  | X : two_eqb _ _ = true |- _ => apply two_eqb_ok in X
  | X : strs_eqb _ _ = true |- _ => apply strs_eqb_ok in X
  | X : Bool.eqb _ _ = true |- _ => apply eqb_prop in X
  end.
Lemma fitsb_ok k f t : fitsb k f t = true -> fits H D f t.
Proof.
  revert f t. induction k as [|k IH]; intros f t Q; [discriminate|]. cbn [fitsb] in Q.
  destruct (is_known f t) eqn:K.
  { unfold is_known in K. destruct t; try discriminate. apply andb_prop in K as [K1 K2]. apply String.eqb_eq in K1. subst n. apply Hknown. now apply mem_In. }
  destruct (look f library) eqn:L.
  - apply look_In in L. apply ctype_eqb_ok in Q. eapply fi_library; [exact L|]. rewrite <- Q. apply resolve_is.
  - destruct (desc_of f) as [d|] eqn:Ed; [|discriminate]. apply desc_of_ok in Ed as [Hd <-].
    destruct (same_ops d) as [g|] eqn:Eo; [|discriminate]. apply same_ops_ok in Eo. apply andb_prop in Q as [Qc Q]. apply checkb_ok in Qc.
    assert (PL : forall s path es ms, all2 (place s path (fitsb k)) es ms = true ->
      Forall2 (fun e m => el_struct e = s /\ el_path e = path ++ [cm_name m] /\ el_pointer e = cm_pointer m /\ may_cast H (el_check e) (cm_type m) /\ fits H D (el_def e) (cm_type m)) es ms).
    { intros s path es ms. apply all2_ok. intros e m Q'. unfold place in Q'. bs Q'. repeat (split; [assumption|]). split; [now apply castb_ok|now apply IH]. }
    destruct (de_specs d) as [|u|s0 c oms ro ao|s0 c p1 p2|s0 c] eqn:Es.
    + destruct (de_elems d) eqn:Ee; [|discriminate]. eapply fi_like; eauto.
    + destruct u.
      * apply andb_prop in Q as [Qg Q]. apply String.eqb_eq in Qg. subst g. destruct (de_elems d) eqn:Ee; [|discriminate]. apply ctype_eqb_ok in Q.
        eapply fi_unsigned; eauto. rewrite <- Q. apply resolve_is.
      * destruct (de_elems d) eqn:Ee; [|discriminate]. eapply fi_like; eauto.
    + apply andb_prop in Q as [Qg Q]. apply String.eqb_eq in Qg. subst g. destruct (struct_of t) as [[s ms]|] eqn:Et; [|discriminate].
      apply struct_of_ok in Et as [Et1 Et2]. destruct (before_context ms) as [l|] eqn:Eb; [|rewrite andb_false_r in Q; discriminate].
      apply before_context_ok in Eb. bs Q. subst. eapply fi_seq; [exact Hd|exact Eo|exact Qc|exact Es|exact Et1|exact Et2|].
      match goal with X : all2 _ _ _ = true |- _ => exact (PL _ [] _ _ X) end.
    + apply andb_prop in Q as [Qg Q]. apply String.eqb_eq in Qg. subst g. destruct (struct_of t) as [[s ms]|] eqn:Et; [|discriminate].
      apply struct_of_ok in Et as [Et1 Et2]. destruct (look (s ++ "_u") (dl_unions H)) as [l|] eqn:Eb; [|rewrite andb_false_r in Q; discriminate].
      apply look_In in Eb. apply andb_prop in Q as [Q Qp]. apply andb_prop in Q as [Q Qm]. apply (list_eqb_ok _ member_eqb_ok) in Qm. bs Q. subst.
      eapply fi_choice; [exact Hd|exact Eo|exact Qc|exact Es|exact Et1|exact Et2|exact Eb|exact (PL _ [_] _ _ Qp)].
    + apply andb_prop in Q as [Qg Q]. apply String.eqb_eq in Qg. subst g. destruct (struct_of t) as [[s ms]|] eqn:Et; [|discriminate].
      apply struct_of_ok in Et as [Et1 Et2]. apply andb_prop in Q as [Q Qm].
      destruct ms as [|[n [] u] [|x [|]]]; try discriminate Qm; destruct u as [| | | |u]; try discriminate Qm. destruct (de_elems d) as [|e [|]] eqn:Ee; try discriminate Qm.
      bs Q. match goal with X : member_eqb _ _ = true |- _ => apply member_eqb_ok in X end. subst. eapply fi_list; [exact Hd|exact Eo|exact Qc|exact Es|exact Et1|exact Et2|exact Ee|assumption|assumption|now apply castb_ok|now apply IH].
Qed.
End Fits.

(* round by round, the exported descriptors whose parts are known to fit *)
Fixpoint rounds (H : decls) (D : list desc) (n : nat) (known : list string) : list string :=
  match n with
  | O => known
  | S n => rounds H D n (map de_name (List.filter (fun d => negb (has_colon (de_name d)) && fitsb H D known 6 (de_name d) (CName (de_name d ++ "_t"))) D))
  end.
Lemma rounds_ok H D n known : (forall f, In f known -> fits H D f (CName (f ++ "_t"))) -> forall f, In f (rounds H D n known) -> fits H D f (CName (f ++ "_t")).
Proof.
  revert known. induction n as [|n IH]; intros known Hk; [exact Hk|]. cbn [rounds]. apply IH. intros f Hf.
  apply in_map_iff in Hf as (d & <- & Hd). apply filter_In in Hd as [_ Hd]. apply andb_prop in Hd as [_ Hd]. exact (fitsb_ok _ _ _ Hk _ _ _ Hd).
Qed.
Definition descs_ok (P : proto) : bool :=
  let k := rounds (pr_headers P) (pr_descs P) 7 [] in forallb (fun d => has_colon (de_name d) || mem (de_name d) k) (pr_descs P).
Lemma descs_checked : forallb descs_ok header_protos = true.
Proof. vm_compute. reflexivity. Qed.
Lemma descs_fit P d : In P header_protos -> In d (pr_descs P) -> exported d -> fits (pr_headers P) (pr_descs P) (de_name d) (CName (de_name d ++ "_t")).
Proof.
  intros HP Hd He. pose proof descs_checked as E. rewrite forallb_forall in E. apply E in HP. unfold descs_ok in HP. rewrite forallb_forall in HP. apply HP in Hd.
  unfold exported in He. rewrite He in Hd. cbn [orb] in Hd. apply mem_In in Hd. refine (rounds_ok _ _ _ [] _ _ Hd). intros ? [].
Qed.

(* ---------------- structures and ASN.1 ---------------- *)
Section Decl.
Context (prefix : string) (G : grammar) (H : decls).
Definition bound_of (b : bound) : option Z := match b with Num z => Some z | Cst n => look n (g_consts G) end.
Lemma bound_of_ok b z : bound_of b = Some z -> bound_is G b z.
Proof. destruct b; cbn [bound_of]; intro Q; [injection Q as <-; constructor|constructor; exact (look_In _ _ _ Q)]. Qed.
Definition within (r : range) (lo hi : Z) : bool :=
  match bound_of (r_lo r), bound_of (r_hi r) with Some a, Some b => (lo <=? a) && (b <=? hi) | _, _ => false end.
Definition ctypeb (p : string) (a : asn) (t : ctype) : bool :=
  match a with
  | ANull => ctype_eqb t (CName "NULL_t")
  | ABool => ctype_eqb t (CName "BOOLEAN_t")
  | AAny => ctype_eqb t (CName "ANY_t")
  | AOid => ctype_eqb t (CName "OBJECT_IDENTIFIER_t")
  | AInt (Some r) => ctype_eqb t (CName "long") && within r (-2147483648) 2147483647 || ctype_eqb t (CName "unsigned long") && within r 0 4294967295
  | AInt None => false
  | AEnum _ _ _ => ctype_eqb t (CName "long")
  | ABits _ => ctype_eqb t (CName "BIT_STRING_t")
  | AOcts _ => ctype_eqb t (CName "OCTET_STRING_t")
  | ASeq _ _ _ | ASeqOf _ _ | AChoice _ _ _ => ctype_eqb t (CStruct p)
  | ARef n => ctype_eqb t (CName (prefix ++ c_name n ++ "_t"))
  end.
Lemma ctypeb_ok p a t : ctypeb p a t = true -> c_type_for prefix G p a t.
Proof.
  destruct a; cbn [ctypeb]; try (intro Q; apply ctype_eqb_ok in Q; subst t; constructor).
  destruct r as [r|]; [|discriminate]. unfold within. rewrite orb_true_iff, !andb_true_iff.
  destruct (bound_of (r_lo r)) eqn:L; [|intros [[_ Q]|[_ Q]]; discriminate].
  destruct (bound_of (r_hi r)) eqn:U; [|intros [[_ Q]|[_ Q]]; discriminate].
  apply bound_of_ok in L, U. rewrite !andb_true_iff, !Z.leb_le.
  intros [[Q [Q1 Q2]]|[Q [Q1 Q2]]]; apply ctype_eqb_ok in Q; subst t; eapply ct_int; eauto; constructor.
Qed.
Definition componentb (p : string) (f : string * (bool * asn)) (m : cmember) : bool :=
  String.eqb (cm_name m) (c_name (fst f)) && Bool.eqb (cm_pointer m) (fst (snd f)) && ctypeb (inner p (fst f)) (snd (snd f)) (cm_type m).
Definition alternativeb (p : string) (f : string * asn) (m : cmember) : bool :=
  String.eqb (cm_name m) (c_name (fst f)) && Bool.eqb (cm_pointer m) false && ctypeb (inner p (fst f)) (snd f) (cm_type m).
Definition declaredb (x : string * asn) : bool :=
  let p := fst x in
  match snd x with
  | ASeq _ root adds => match look p (dl_structs H) with Some ms => match before_context ms with Some l => all2 (componentb p) (root ++ map absent_ok adds) l | None => false end | None => false end
  | AChoice _ root more =>
      match look p (dl_structs H), look (p ++ "_u") (dl_unions H) with
      | Some ms, Some l => list_eqb member_eqb ms [CM "present" false (CName (p ++ "_PR")); CM "choice" false (CUnion (p ++ "_u")); context] && all2 (alternativeb p) (root ++ more) l
      | _, _ => false
      end
  | ASeqOf _ a => match look p (dl_structs H) with Some [CM n false (CList t); c] => String.eqb n "list" && member_eqb c context && ctypeb (p ++ "__Member") a t | _ => false end
  | _ => true
  end.
Lemma declaredb_ok p a : declaredb (p, a) = true -> declared prefix G H p a.
Proof.
  unfold declaredb. cbn [fst snd]. destruct a; try (intros _; apply de_other; exact I).
  - destruct (look p (dl_structs H)) as [ms|] eqn:L; [|discriminate]. apply look_In in L. destruct (before_context ms) as [l|] eqn:B; [|discriminate].
    apply before_context_ok in B. subst ms. intro Q. eapply de_seq; [|exact L]. revert Q. apply all2_ok. intros f m Q. unfold componentb in Q.
    apply andb_prop in Q as [Q Q3]. apply andb_prop in Q as [Q1 Q2]. apply String.eqb_eq in Q1. apply eqb_prop in Q2. apply ctypeb_ok in Q3.
    repeat split; assumption.
  - destruct (look p (dl_structs H)) as [ms|] eqn:L; [|discriminate]. apply look_In in L.
    destruct ms as [|[n [] u] [|x [|]]]; try discriminate; destruct u as [| | | |u]; try discriminate.
    intro Q. apply andb_prop in Q as [Q Q3]. apply andb_prop in Q as [Q1 Q2]. apply String.eqb_eq in Q1. apply member_eqb_ok in Q2. subst.
    eapply de_list; [exact (ctypeb_ok _ _ _ Q3)|exact L].
  - destruct (look p (dl_structs H)) as [ms|] eqn:L; [|discriminate]. apply look_In in L.
    destruct (look (p ++ "_u") (dl_unions H)) as [l|] eqn:U; [|discriminate]. apply look_In in U. intro Q. apply andb_prop in Q as [Q1 Q2].
    apply (list_eqb_ok _ member_eqb_ok) in Q1. subst ms. eapply de_choice; [|exact U|exact L]. revert Q2. apply all2_ok. intros f m Q. unfold alternativeb in Q.
    apply andb_prop in Q as [Q Q3]. apply andb_prop in Q as [Q1 Q2]. apply String.eqb_eq in Q1. apply eqb_prop in Q2. apply ctypeb_ok in Q3.
    repeat split; assumption.
Qed.
End Decl.
Lemma structures P p a : In P header_protos -> occurs (pr_prefix P) (pr_grammar P) p a -> declared (pr_prefix P) (pr_grammar P) (pr_headers P) p a.
Proof.
  assert (E : forallb (fun P => forallb (declaredb (pr_prefix P) (pr_grammar P) (pr_headers P)) (levels 4 (tops (pr_prefix P) (pr_grammar P)))) header_protos = true)
    by (vm_compute; reflexivity).
  intros HP Ho. apply (occurs_levels _ _ 4 _ _ (deep P HP)) in Ho. rewrite forallb_forall in E. apply E in HP. rewrite forallb_forall in HP. apply HP in Ho.
  exact (declaredb_ok _ _ _ _ _ Ho).
Qed.
Lemma typedefs P n a : In P header_protos -> In (n, a) (g_types (pr_grammar P)) ->
  exists t, In ((pr_prefix P ++ c_name n ++ "_t")%string, t) (dl_typedefs (pr_headers P)) /\ c_type_for (pr_prefix P) (pr_grammar P) (pr_prefix P ++ c_name n) a t.
Proof.
  assert (E : forallb (fun P => forallb (fun x => match look (pr_prefix P ++ c_name (fst x) ++ "_t") (dl_typedefs (pr_headers P)) with
      Some t => ctypeb (pr_prefix P) (pr_grammar P) (pr_prefix P ++ c_name (fst x)) (snd x) t | None => false end) (g_types (pr_grammar P))) header_protos = true)
    by (vm_compute; reflexivity).
  intros HP Ha. rewrite forallb_forall in E. apply E in HP. rewrite forallb_forall in HP. apply HP in Ha. cbn [fst snd] in Ha.
  destruct (look _ _) as [t|] eqn:L; [|discriminate]. exists t. split; [exact (look_In _ _ _ L)|exact (ctypeb_ok _ _ _ _ _ Ha)].
Qed.
(* the library's types and those of C are not defined anew *)
Lemma library_types P c : In P header_protos -> In c ("long" :: "unsigned long" :: "asn_struct_ctx_t" :: map snd library)%string ->
  ~ In c (map fst (dl_typedefs (pr_headers P))).
Proof.
  assert (E : forallb (fun P => forallb (fun c => negb (mem c (map fst (dl_typedefs (pr_headers P))))) ("long" :: "unsigned long" :: "asn_struct_ctx_t" :: map snd library)%string) header_protos = true)
    by (vm_compute; reflexivity).
  intros HP Hc Hi. rewrite forallb_forall in E. apply E in HP. rewrite forallb_forall in HP. apply HP in Hc. apply mem_In in Hi. rewrite Hi in Hc. discriminate.
Qed.

(* ---------------- optional components ---------------- *)
Definition structure_of (d : desc) : list string := match de_specs d with SpSeq s _ _ _ _ | SpChoice s _ _ _ | SpList s _ => [s] | _ => [] end.
Definition ns_eqb := list_eqb N.eqb.
Definition bs_eqb := list_eqb Bool.eqb.
Definition optb (p : string) (root adds : list (string * (bool * asn))) (d : desc) : bool :=
  match de_specs d with
  | SpSeq s _ oms ro ao => String.eqb s p && ns_eqb oms (positions 0%N (fun f => fst (snd f)) (root ++ map absent_ok adds)) &&
      (ro =? N.of_nat (List.length (filter (fun f => fst (snd f)) root)))%N && (ao =? N.of_nat (List.length adds))%N &&
      bs_eqb (map (fun e => negb (el_optional e =? 0)%N) (de_elems d)) (map (fun f => fst (snd f)) (root ++ map absent_ok adds))
  | _ => false
  end.
Lemma optb_ok p root adds d : optb p root adds d = true -> optional_right p root adds d.
Proof.
  unfold optb, optional_right. destruct (de_specs d) eqn:E; try discriminate. intro Q.
  apply andb_prop in Q as [Q Q5]. apply andb_prop in Q as [Q Q4]. apply andb_prop in Q as [Q Q3]. apply andb_prop in Q as [Q1 Q2].
  apply String.eqb_eq in Q1. apply N.eqb_eq in Q3, Q4. apply list_eqb_ok in Q2; [|intros; now apply N.eqb_eq].
  apply list_eqb_ok in Q5; [|intros; now apply eqb_prop]. subst. split; [eexists; reflexivity|exact Q5].
Qed.
Lemma optionals P p ext root adds : In P header_protos -> occurs (pr_prefix P) (pr_grammar P) p (ASeq ext root adds) ->
  exists d, In d (pr_descs P) /\ optional_right p root adds d.
Proof.
  assert (E : forallb (fun P => forallb (fun x => match snd x with ASeq _ root adds => existsb (optb (fst x) root adds) (pr_descs P) | _ => true end)
     (levels 4 (tops (pr_prefix P) (pr_grammar P)))) header_protos = true) by (vm_compute; reflexivity).
  intros HP Ho. apply (occurs_levels _ _ 4 _ _ (deep P HP)) in Ho. rewrite forallb_forall in E. apply E in HP. rewrite forallb_forall in HP. apply HP in Ho.
  cbn [fst snd] in Ho. apply existsb_exists in Ho as (d & Hd & Q). exists d. split; [exact Hd|exact (optb_ok _ _ _ _ Q)].
Qed.
Lemma nodup_flat {A B} (f : A -> list B) l a b x : NoDup (flat_map f l) -> In a l -> In b l -> In x (f a) -> In x (f b) -> a = b.
Proof.
  induction l as [|c l IH]; [intros _ []|]. cbn [flat_map]. intros N Ha Hb Xa Xb.
  assert (N2 : NoDup (flat_map f l)) by (clear - N; induction (f c) as [|y r IHr]; [exact N|inversion N; auto]).
  assert (Dis : forall y, In y (f c) -> ~ In y (flat_map f l)).
  { clear - N. intros y Hy Hf. apply in_split in Hy as (u & v & E). rewrite E, <- app_assoc in N. cbn in N. apply NoDup_remove_2 in N. apply N.
    rewrite !in_app_iff. auto. }
  destruct Ha as [<-|Ha], Hb as [<-|Hb]; auto.
  - exfalso. apply (Dis x Xa). apply in_flat_map. eauto.
  - exfalso. apply (Dis x Xb). apply in_flat_map. eauto.
Qed.
Lemma one_desc P p d e : In P header_protos -> In d (pr_descs P) -> In e (pr_descs P) -> for_structure p d -> for_structure p e -> d = e.
Proof.
  assert (E : forallb (fun P => distinct (flat_map structure_of (pr_descs P))) header_protos = true) by (vm_compute; reflexivity).
  intros HP Hd He Fd Fe. rewrite forallb_forall in E. apply E in HP. apply distinct_ok in HP.
  refine (nodup_flat structure_of _ d e p HP Hd He _ _); unfold for_structure, structure_of in *.
  - destruct (de_specs d); cbn; tauto.
  - destruct (de_specs e); cbn; tauto.
Qed.
