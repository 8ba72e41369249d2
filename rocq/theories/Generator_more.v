(* Proofs for C97: several files, and names that are defined more than once *)
From Verif Require Import Base Regex Generator Generator_spec Generator_repo_spec Generator_proofs Generator_layout AsnText AsnLayout Generator_files.
From Coq Require Import String.
Local Open Scope list_scope.

Definition nk (k x : text) : bool := if list_eq_dec N.eq_dec x k then false else true.
Lemma nk_true k x : nk k x = true <-> x <> k.
Proof. unfold nk. destruct (list_eq_dec N.eq_dec x k); split; congruence. Qed.
Lemma firsts_cons k l : firsts (k :: l) = k :: filter (nk k) (firsts l).
Proof. reflexivity. Qed.
Lemma firsts_in l x : In x (firsts l) <-> In x l.
Proof.
  induction l as [|k l IH]; [reflexivity|]. rewrite firsts_cons. cbn [In]. rewrite filter_In, IH, nk_true.
  destruct (list_eq_dec N.eq_dec x k) as [->|N]; intuition congruence.
Qed.
Lemma firsts_nodup l : NoDup (firsts l).
Proof.
  induction l as [|k l IH]; [constructor|]. rewrite firsts_cons. constructor; [|now apply NoDup_filter]. rewrite filter_In, nk_true. tauto.
Qed.
Lemma firsts_app a b : firsts (a ++ b) = firsts a ++ filter (fun x => if in_dec (list_eq_dec N.eq_dec) x a then false else true) (firsts b).
Proof.
  induction a as [|k a IH].
  - cbn [app firsts]. induction (firsts b) as [|x l IHl]; [reflexivity|]. cbn [filter in_dec]. destruct (in_dec (list_eq_dec N.eq_dec) x []) as [[]|_]. now rewrite <- IHl.
  - cbn [app]. rewrite !firsts_cons, IH, filter_app. cbn [app]. f_equal. f_equal. clear IH. induction (firsts b) as [|x l IHl]; [reflexivity|].
    cbn [filter]. destruct (in_dec (list_eq_dec N.eq_dec) x (k :: a)) as [I|I], (in_dec (list_eq_dec N.eq_dec) x a) as [J|J]; cbn [filter]; rewrite ?IHl; auto.
    + destruct I as [<-|I]; [|contradiction]. unfold nk at 1. destruct (list_eq_dec N.eq_dec k k); [reflexivity|congruence].
    + exfalso. apply I. now right.
    + rewrite (proj2 (nk_true k x)); [reflexivity|]. intros ->. apply I. now left.
Qed.
Lemma filter_nil {A} (f : A -> bool) l : (forall x, In x l -> f x = false) -> filter f l = [].
Proof. induction l as [|x l IH]; intros H; [reflexivity|]. cbn [filter]. rewrite H by now left. apply IH. intros y I. apply H. now right. Qed.
Lemma firsts_again p q : firsts (p ++ p ++ q) = firsts (p ++ q).
Proof.
  rewrite (firsts_app p (p ++ q)), (firsts_app p q), filter_app, (filter_nil _ (firsts p)).
  - cbn [app]. f_equal. induction (firsts q) as [|x l IH]; [reflexivity|]. cbn [filter]. destruct (in_dec (list_eq_dec N.eq_dec) x p) eqn:E; cbn [filter]; rewrite ?E, IH; reflexivity.
  - intros x I. apply (proj1 (firsts_in p x)) in I. destruct (in_dec (list_eq_dec N.eq_dec) x p) as [J|J]; [reflexivity|]. exfalso. exact (J I).
Qed.

Lemma put_in {A} k (v : A) r : NoDup (map fst r) -> forall k' v', In (k', v') (put k v r) <-> k' = k /\ v' = v \/ k' <> k /\ In (k', v') r.
Proof.
  induction r as [|[a b] r IH]; intros D k' v'; cbn [put].
  - cbn [In]. split; [intros [E|[]]; injection E as -> ->; auto|intros [[-> ->]|[_ []]]; auto].
  - cbn [map fst] in D. inversion D as [|? ? N D']; subst. destruct (teq k a) eqn:E.
    + apply teq_eq in E as <-. cbn [In]. split.
      * intros [E|I]; [injection E as -> ->; auto|]. right. split; [|now right]. intros ->. apply N. apply (in_map fst) in I. exact I.
      * intros [[-> ->]|[M [E|I]]]; [now left|injection E as -> ->; congruence|now right].
    + assert (k <> a) by (intros ->; rewrite (proj2 (teq_eq a a) eq_refl) in E; discriminate). cbn [In]. rewrite (IH D').
      split; [intros [X|[[-> ->]|[M I]]]; auto; [injection X as -> ->; auto]|intros [[-> ->]|[M [X|I]]]; auto].
Qed.
Lemma put_keys {A} (k : list N) (v : A) (r : list (list N * A)) : map (@fst (list N) A) (put k v r) = if in_dec (list_eq_dec N.eq_dec) k (map fst r) then map fst r else map fst r ++ [k].
Proof.
  destruct (in_dec (list_eq_dec N.eq_dec) k (map fst r)) as [I|I]; [|rewrite (put_new (k : text) v (r : list (text * A))) by exact I; exact (map_app _ _ _)].
  induction r as [|[a b] r IH]; [destruct I|]. cbn [put]. destruct (teq k a) eqn:E; cbn [map fst].
  - apply teq_eq in E as ->. reflexivity.
  - f_equal. apply IH. cbn [map fst In] in I. destruct I as [->|I]; [|exact I]. rewrite (proj2 (teq_eq k k) eq_refl) in E. discriminate.
Qed.
Lemma snoc_split {A} (l a b : list A) x y : l ++ [x] = a ++ y :: b -> b = [] /\ l = a /\ x = y \/ exists b', b = b' ++ [x] /\ l = a ++ y :: b'.
Proof.
  intros E. destruct b as [|z b] using rev_ind; [left; apply app_inj_tail in E as [-> ->]; auto|]. right. exists b.
  rewrite app_comm_cons, app_assoc in E. apply app_inj_tail in E as [-> ->]. auto.
Qed.
Lemma in_force_put {A} k (v : A) l r : in_force l r -> in_force (l ++ [(k, v)]) (put k v r).
Proof.
  intros [K V]. assert (D : NoDup (map fst r)) by (rewrite K; apply firsts_nodup). split.
  - rewrite put_keys, map_app, firsts_app, K. cbn [map fst firsts filter].
    destruct (in_dec (list_eq_dec N.eq_dec) k (firsts (map fst l))) as [I|I], (in_dec (list_eq_dec N.eq_dec) k (map fst l)) as [J|J]; rewrite ?app_nil_r; auto;
      exfalso; [apply J, firsts_in, I|apply I, firsts_in, J].
  - intros k' v'. rewrite (put_in k v r D), V. split.
    + intros [[-> ->]|[N (a&b&E&M)]]; [exists l, []; cbn; auto|]. exists a, (b ++ [(k, v)]). rewrite E, <- app_assoc. split; [reflexivity|].
      rewrite map_app, in_app_iff. cbn [map fst In]. intros [I|[I|[]]]; [contradiction|congruence].
    + intros (a&b&E&M). apply snoc_split in E as [(->&->&E)|(b'&->&E)]; [injection E as -> ->; auto|]. right. rewrite map_app, in_app_iff in M. cbn [map fst In] in M.
      split; [intros ->; tauto|]. exists a, b'. tauto.
Qed.
Definition tab {A} (l : list (list N * A)) (d : list (list N * A)) : list (list N * A) := fold_left (fun d kv => put (fst kv) (snd kv) d) l d.
Lemma in_force_tab {A} (x : list (list N * A)) : forall l r, in_force l r -> in_force (l ++ x) (tab x r).
Proof.
  induction x as [|[k v] x IH]; intros l r H; [rewrite app_nil_r; exact H|]. cbn [tab fold_left fst snd]. change ((k, v) :: x) with ([(k, v)] ++ x). rewrite app_assoc. apply IH.
  now apply in_force_put.
Qed.
Lemma in_force_again {A} (p q r : list (list N * A)) : in_force (p ++ p ++ q) r -> in_force (p ++ q) r.
Proof.
  intros [K V]. split; [rewrite K, !map_app; apply firsts_again|]. intros k v. rewrite V. split.
  - intros (a&b&E&N). revert E N. assert (X : forall s a, s ++ p ++ q = a ++ (k, v) :: b -> (forall y, In y (map fst s) -> In y (map fst p)) -> ~ In k (map fst b) -> exists a', p ++ q = a' ++ (k, v) :: b).
    { induction s as [|y s IH]; intros a' E S N; [now exists a'|]. cbn [app] in E. destruct a' as [|z a'].
      - cbn [app] in E. injection E as -> E. exfalso. apply N. rewrite <- E, !map_app, !in_app_iff. right. left. apply S. now left.
      - cbn [app] in E. injection E as -> E. apply (IH a' E); [|exact N]. intros w I. apply S. now right. }
    intros E N. destruct (X p a E (fun _ I => I) N) as (a'&E'). eauto.
  - intros (a&b&E&N). exists (p ++ a), b. rewrite E, <- app_assoc. auto.
Qed.
Lemma in_force_nil {A} : in_force (A := A) [] [].
Proof. split; [reflexivity|]. intros k v. split; [intros []|]. intros ([|? ?]&b&E&_); discriminate. Qed.

(* ---------------- the sets ---------------- *)
Definition prefix_in (cls : text) : text := lower (match find (codes "-") cls with Some k => firstn k cls | None => removelast cls end).
Lemma add_sets' l gss : Forall2 seen l gss -> forall s,
  t_defs (fold_left add_set gss s) = tab (map set_row (filter keeps l)) (t_defs s) /\
  (t_prefix s <> [] -> t_prefix (fold_left add_set gss s) = t_prefix s) /\
  (forall o r, t_prefix s = [] -> filter (fun o => negb (extension o)) l = o :: r -> prefix_in (o_class o) <> [] -> t_prefix (fold_left add_set gss s) = prefix_in (o_class o)) /\
  (filter (fun o => negb (extension o)) l = [] -> t_prefix (fold_left add_set gss s) = t_prefix s).
Proof.
  induction 1 as [|o gs l gss (body&->&B) Hl IH]; intros s; [repeat split; auto; discriminate|].
  cbn [fold_left filter]. unfold keeps at 1.
  destruct (find (codes "EXTENSION") (o_class o)) eqn:F.
  - assert (C : extension o = true).
    { unfold extension. destruct (contains (chars "EXTENSION") (o_class o)) eqn:C; [reflexivity|]. apply find_contains in C. change (chars "EXTENSION") with (codes "EXTENSION") in C. congruence. }
    rewrite C. cbn [negb andb]. replace (add_set s [o_name o; o_class o; body]) with s by (unfold add_set; rewrite F; reflexivity). apply IH.
  - pose proof F as F'. apply find_contains in F. change (extension o = false) in F. rewrite F. cbn [negb andb].
    set (p := match t_prefix s with [] => prefix_in (o_class o) | p => p end).
    assert (E : add_set s [o_name o; o_class o; body] = mkTables (match one_line_ies o with [] => t_defs s | _ => put (o_name o) (map entry (one_line_ies o)) (t_defs s) end) (t_lists s) p).
    { unfold add_set. rewrite F', B. unfold p, prefix_in. destruct (one_line_ies o); cbn [map]; reflexivity. }
    rewrite E. destruct (IH (mkTables (match one_line_ies o with [] => t_defs s | _ => put (o_name o) (map entry (one_line_ies o)) (t_defs s) end) (t_lists s) p)) as (I1&I2&I3&I4).
    cbn [t_defs t_prefix] in *. repeat split.
    + rewrite I1. destruct (one_line_ies o) as [|i l0] eqn:O; cbn [negb]; [reflexivity|]. cbn [map]. unfold tab. cbn [fold_left]. replace (snd (set_row o)) with (map entry (i :: l0)) by (unfold set_row; cbn [snd]; now rewrite O). reflexivity.
    + intros N. assert (P : p = t_prefix s) by (unfold p; destruct (t_prefix s); [congruence|reflexivity]). rewrite P in *. now apply I2.
    + intros o' r Z Q N. injection Q as <- <-. assert (P : p = prefix_in (o_class o)) by (unfold p; now rewrite Z). rewrite P in *. now apply I2.
    + discriminate.
Qed.

Definition row_of (o : obj_set) : list N * list ie_def := (o_name o, one_line_ies o).
Definition rows_of (l : list asn_file) : list (list N * list found) := map set_row (filter useful (flat_map a_sets l)).
Definition texts_of (l : list asn_file) : text := flat_map (fun f => List.concat (a_texts f)) l.
Definition plain (o : obj_set) : bool := o_ends_line o && negb (extension o).
Lemma plain_filter l : filter (fun o => negb (extension o)) (filter o_ends_line l) = filter plain l.
Proof. induction l as [|o l IH]; [reflexivity|]. cbn [filter]. unfold plain at 1. destruct (o_ends_line o); cbn [andb filter]; rewrite ?IH; reflexivity. Qed.
Lemma files_read : forall b a s t, files_written (a ++ b) -> snd (s, t) = texts_of a -> in_force (rows_of a) (t_defs s) ->
  (t_prefix s = [] /\ filter plain (flat_map a_sets a) = [] \/
   exists o r, filter plain (flat_map a_sets a) = o :: r /\ (prefix_in (o_class o) <> [] -> t_prefix s = prefix_in (o_class o))) ->
  in_force (rows_of (a ++ b)) (t_defs (fst (fold_left add_file (map a_lines b) (s, t)))) /\
  (t_prefix (fst (fold_left add_file (map a_lines b) (s, t))) = [] /\ filter plain (flat_map a_sets (a ++ b)) = [] \/
   exists o r, filter plain (flat_map a_sets (a ++ b)) = o :: r /\ (prefix_in (o_class o) <> [] -> t_prefix (fst (fold_left add_file (map a_lines b) (s, t))) = prefix_in (o_class o))).
Proof.
  induction b as [|f b IH]; intros a s t W T D P; [rewrite !app_nil_r in *; auto|]. cbn [map fold_left]. cbn [snd] in T. subst t.
  replace (a ++ f :: b) with ((a ++ [f]) ++ b) in * by now rewrite <- app_assoc.
  destruct W as [U W]. assert (Tf : read_lines (a_lines f) = List.concat (a_texts f)) by (apply read_uncommented, U; rewrite !in_app_iff; cbn; tauto).
  assert (Wf : file_written (flat_map a_sets (a ++ [f])) (texts_of (a ++ [f]))) by (apply (W _ b eq_refl); destruct a; discriminate).
  assert (Ea : add_file (s, texts_of a) (a_lines f) = (add_text s (texts_of (a ++ [f])), texts_of (a ++ [f]))).
  { unfold add_file. cbn [fst snd]. rewrite Tf. unfold texts_of. rewrite flat_map_app. cbn [flat_map]. rewrite app_nil_r. reflexivity. }
  rewrite Ea. apply IH; [split; assumption|reflexivity| |].
  - unfold add_text. set (s' := fold_left add_list _ _). assert (D' : t_defs s' = t_defs s) by (unfold s'; rewrite !(proj1 (add_lists _ _)); reflexivity).
    destruct (add_sets' _ _ (file_read _ _ Wf) s') as (E&_). rewrite E, D', keeps_useful.
    unfold rows_of in *. rewrite flat_map_app, filter_app, map_app in *. cbn [flat_map] in *. rewrite app_nil_r in *. apply in_force_again. now apply in_force_tab.
  - unfold add_text. set (s' := fold_left add_list _ _). assert (D' : t_prefix s' = t_prefix s) by (unfold s'; rewrite !(proj2 (add_lists _ _)); reflexivity).
    destruct (add_sets' _ _ (file_read _ _ Wf) s') as (_&E1&E2&E3). rewrite D' in *. rewrite plain_filter in *.
    rewrite flat_map_app, filter_app in *. cbn [flat_map] in *. rewrite app_nil_r in *.
    destruct P as [[Z Pa]|(o&r&Pa&Po)]; rewrite Pa in *; cbn [app] in *.
    + destruct (filter plain (a_sets f)) as [|o r] eqn:Q; [left; split; [|reflexivity]; rewrite E3; auto|]. right. exists o, r. split; [reflexivity|]. intros N. exact (E2 o r Z eq_refl N).
    + right. exists o. eexists. split; [reflexivity|]. intros N. rewrite E1; [now apply Po|]. rewrite Po by exact N. exact N.
Qed.
Lemma in_force_map {A B} (f : A -> B) (g : B -> A) (gf : forall x, g (f x) = x) l r : in_force l r -> in_force (map (fun x => (fst x, f (snd x))) l) (map (fun x => (fst x, f (snd x))) r).
Proof.
  intros [K V]. split; [rewrite !map_map; exact K|]. intros k v. rewrite in_map_iff. split.
  - intros ([a b]&E&I). cbn [fst snd] in E. injection E as -> <-. apply V in I as (x&y&->&N). exists (map (fun x => (fst x, f (snd x))) x), (map (fun x => (fst x, f (snd x))) y).
    rewrite map_app. cbn [map fst snd]. split; [reflexivity|]. rewrite map_map. exact N.
  - intros (a&b&E&N). assert (X : exists a' b' w, l = a' ++ (k, w) :: b' /\ f w = v /\ b = map (fun x => (fst x, f (snd x))) b').
    { clear V K N. revert a E. induction l as [|[p q] l IH]; intros [|z a] E; try discriminate; cbn [map fst snd app] in E.
      - injection E as -> <- <-. exists [], l, q. auto.
      - injection E as <- E. destruct (IH a E) as (a'&b'&w&->&F&G). exists ((p, q) :: a'), b', w. auto. }
    destruct X as (a'&b'&w&->&F&->). exists (k, w). cbn [fst snd]. rewrite F. split; [reflexivity|]. apply V. exists a', b'. split; [reflexivity|]. rewrite map_map in N. exact N.
Qed.
Definition back (d : ie_def) : found := mkFound (d_id d) (d_crit d) (d_type d) (d_pres d).
Lemma as_read_force T l : in_force (map set_row l) (t_defs T) -> in_force (map row_of l) (as_read T).
Proof.
  intros H. apply (in_force_map (map (fun f => mkIeDef (f_id f) (f_crit f) (f_type f) (f_pres f))) (map back)) in H.
  - rewrite map_map in H. unfold as_read. erewrite map_ext; [exact H|]. intros o. unfold row_of, set_row. cbn [fst snd]. f_equal. rewrite map_map.
    induction (one_line_ies o) as [|[a b c d] r IH]; [reflexivity|]. cbn [map]. rewrite <- IH. reflexivity.
  - intros x. rewrite map_map. induction x as [|[a b c d] r IH]; [reflexivity|]. cbn [map]. rewrite IH. reflexivity.
Qed.
Lemma files_l : forall files, files_written files ->
  generate_tables (map a_lines files) = None /\ filter useful (flat_map a_sets files) = [] \/
  exists T, generate_tables (map a_lines files) = Some T /\ in_force (map (fun o => (o_name o, one_line_ies o)) (filter useful (flat_map a_sets files))) (as_read T).
Proof.
  intros files W. destruct (files_read files [] (mkTables [] [] []) [] W eq_refl in_force_nil (or_introl (conj eq_refl eq_refl))) as [D _]. cbn [app] in D.
  unfold generate_tables. match goal with |- context [t_defs ?x] => assert (D' : in_force (rows_of files) (t_defs x)) by exact D; destruct (t_defs x) as [|y d] eqn:E end.
  - left. split; [reflexivity|]. destruct D' as [K _]. unfold rows_of in K. destruct (filter useful (flat_map a_sets files)); [reflexivity|]. cbn [map firsts] in K. discriminate.
  - right. eexists. split; [reflexivity|]. apply as_read_force. rewrite E. exact D'.
Qed.
Lemma find_hyphen p q : ~ In 45%N p -> find (codes "-") (p ++ 45%N :: q) = Some (List.length p).
Proof.
  induction p as [|c p IH]; intros N; [reflexivity|]. cbn [app]. rewrite find_unfold. change (codes "-") with [45%N] in *. cbn [starts].
  destruct (N.eqb_spec 45 c) as [<-|_]; [exfalso; apply N; now left|]. cbn [andb]. rewrite IH by (intros I; apply N; now right). reflexivity.
Qed.
Lemma prefix_l : forall files T o r p q, files_written files -> generate_tables (map a_lines files) = Some T ->
  filter (fun o => o_ends_line o && negb (extension o)) (flat_map a_sets files) = o :: r -> o_class o = p ++ 45%N :: q -> ~ In 45%N p -> p <> [] ->
  t_prefix T = map (fun c => if is_capital c then (c + 32)%N else c) p.
Proof.
  intros files T o r p q W G F C N Z. destruct (files_read files [] (mkTables [] [] []) [] W eq_refl in_force_nil (or_introl (conj eq_refl eq_refl))) as [_ P]. cbn [app] in P.
  unfold generate_tables in G. destruct (t_defs _); [discriminate|]. injection G as <-.
  assert (E : prefix_in (o_class o) = map (fun c => if is_capital c then (c + 32)%N else c) p).
  { unfold prefix_in. rewrite C, find_hyphen, firstn_app, firstn_all, Nat.sub_diag by exact N. cbn [firstn]. rewrite app_nil_r. reflexivity. }
  fold plain in F. destruct P as [[_ P]|(o'&r'&P&Q)]; change (fun o => o_ends_line o && negb (extension o)) with plain in F; rewrite F in P; [discriminate|].
  injection P as <- <-. etransitivity; [apply Q|exact E]. rewrite E. destruct p; [congruence|discriminate].
Qed.

(* ---------------- for the examples ---------------- *)
(* a second file, in which a set of the RUA file is defined again *)
Definition again_layout : list set_layout :=
  [ mkSetL "DisconnectIEs" "OTHER-PROTOCOL-IES" [(mkIeL "id-Cause" "ignore" "TYPE" "Cause" "optional" [" "; " "; " "; " "; " "; " "; " "; " "; " "]%string, ""%string, ""%string)] true ""
      [" "; " "; " "; " "; " "]%string (Some ("", " ")%string) ].
Definition again_rest : string := "".
Definition again_lines : list (list N) := [file_text again_layout again_rest].
Definition rua_again : list set_layout :=
  match again_layout with y :: r => rua_layout ++ mkSetL (y_name y) (y_class y) (y_ies y) (y_end y) (rua_rest ++ y_before y)%string (y_set_gaps y) (y_dots y) :: r | [] => [] end.
Definition two_files : list asn_file :=
  [ mkAsnFile (file_lines rua_lines) (map cut (file_lines rua_lines)) (map set_of rua_layout);
    mkAsnFile again_lines (map cut again_lines) (map set_of again_layout) ].
Lemma rua_again_ok : file_ok rua_again again_rest && teq (texts_of two_files) (file_text rua_again again_rest) && lines_b again_lines (file_text again_layout again_rest) = true.
Proof. vm_compute. reflexivity. Qed.
Lemma two_files_written : files_written two_files.
Proof.
  pose proof rua_again_ok as H. apply andb_prop in H as [H A]. apply andb_prop in H as [F E]. apply teq_eq in E. apply lines_ok in A as [A _].
  pose proof rua_written as R. apply andb_prop in R as [FR R]. apply lines_ok in R as [R ER]. split.
  - intros f [<-|[<-|[]]]; assumption.
  - intros a b S N. destruct a as [|x [|y [|z a]]]; [congruence| | |destruct b; discriminate].
    + unfold two_files in S. cbn [app] in S. injection S as <- _. change (file_written (map set_of rua_layout ++ []) (List.concat (map cut (file_lines rua_lines)) ++ [])). rewrite !app_nil_r, ER. now apply file_layout_ok.
    + unfold two_files in S. cbn [app] in S. injection S as <- <- _.
      change (file_written (map set_of rua_again) (texts_of two_files)). rewrite E. now apply file_layout_ok.
Qed.
