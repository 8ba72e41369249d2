(* The files of the repository: what the generator makes of them, and that three of them
   are written as Generator_spec.v says. *)
From Verif Require Import Base Regex Generator Generator_spec Generator_proofs Generator_layout AsnText AsnLayout Generator_repo_spec.
From Coq Require Import String.
Local Open Scope nat_scope.
Local Open Scope list_scope.

(* the line without its comment *)
Fixpoint cut (t : list N) : list N :=
  match t with
  | [] => []
  | c :: r => if starts (chars "--") t then [] else c :: cut r
  end.
Definition lines_b (l : list (list N)) (t : list N) : bool :=
  forallb (fun x => negb (existsb (N.eqb 13) (cut x))) l && teq (List.concat (map cut l)) t.
Lemma cut_uncommented x : existsb (N.eqb 13) (cut x) = false -> uncommented x (cut x).
Proof.
  intros H. split.
  - intros I. rewrite (proj2 (existsb_exists _ _) (ex_intro _ 13%N (conj I eq_refl))) in H. discriminate.
  - clear H. induction x as [|c x IH]; [now left|]. cbn [cut]. destruct (starts (chars "--") (c :: x)) eqn:S.
    + right. change (chars "--") with [45%N; 45%N] in S. cbn [starts] in S. apply andb_prop in S as [S1 S2]. apply N.eqb_eq in S1 as <-.
      destruct x as [|d x]; [discriminate|]. apply andb_prop in S2 as [S2 _]. apply N.eqb_eq in S2 as <-. exists x. split; reflexivity.
    + destruct IH as [[E C]|(r&E&C)].
      * left. rewrite <- E in *. split; [reflexivity|]. cbn [contains]. rewrite S, C. reflexivity.
      * right. exists r. split; [cbn [app]; now rewrite <- E|]. cbn [app contains]. rewrite C, orb_false_r.
        destruct (cut x) as [|d y] eqn:K.
        -- destruct (N.eq_dec c 45) as [->|N]; [|change (chars "--") with [45%N; 45%N]; cbn [app starts]; destruct (N.eqb_spec 45 c); [congruence|reflexivity]].
           rewrite E in S. discriminate S.
        -- rewrite E in S. change (chars "--") with [45%N; 45%N] in *. cbn [app starts] in S |- *. exact S.
Qed.
Lemma lines_ok l t : lines_b l t = true -> Forall2 uncommented l (map cut l) /\ List.concat (map cut l) = t.
Proof.
  unfold lines_b. intros H. apply andb_prop in H as [H E]. apply teq_eq in E. split; [|exact E]. clear E.
  induction l as [|x l IH]; [constructor|]. cbn [forallb] in H. apply andb_prop in H as [Hx H]. cbn [map]. constructor; [|auto].
  apply cut_uncommented. now apply negb_true_iff in Hx.
Qed.
Lemma written_so lines l e : file_ok l e && lines_b (file_lines lines) (file_text l e) = true ->
  exists ts, Forall2 uncommented (file_lines lines) ts /\ file_written (map set_of l) (List.concat ts).
Proof.
  intros H. apply andb_prop in H as [F L]. apply lines_ok in L as [L E]. exists (map cut (file_lines lines)). split; [exact L|].
  rewrite E. now apply file_layout_ok.
Qed.
Lemma rua_written : file_ok rua_layout rua_rest && lines_b (file_lines rua_lines) (file_text rua_layout rua_rest) = true.
Proof. vm_compute. reflexivity. Qed.
Lemma hnbap_written : file_ok hnbap_layout hnbap_rest && lines_b (file_lines hnbap_lines) (file_text hnbap_layout hnbap_rest) = true.
Proof. vm_compute. reflexivity. Qed.
Lemma sabp_written : file_ok sabp_layout sabp_rest && lines_b (file_lines sabp_lines) (file_text sabp_layout sabp_rest) = true.
Proof. vm_compute. reflexivity. Qed.

(* the tables of the four files *)
Definition same_table (o : option tables) (ms : list Container.msgdef) (prefix : string) : Prop :=
  exists T, o = Some T /\ as_read T = map msg_set ms /\ t_lists T = [] /\ t_prefix T = chars prefix.
Lemma rua_table : same_table (generate_tables [file_lines rua_lines]) RuaTab.rua_msgs "rua".
Proof. eexists. split; [vm_compute; reflexivity|]. vm_compute. auto. Qed.
Lemma hnbap_table : same_table (generate_tables [file_lines hnbap_lines]) HnbapTab.hnbap_msgs "hnbap".
Proof. eexists. split; [vm_compute; reflexivity|]. vm_compute. auto. Qed.
Lemma sabp_table : same_table (generate_tables [file_lines sabp_lines]) SabpTab.sabp_msgs "sabp".
Proof. eexists. split; [vm_compute; reflexivity|]. vm_compute. auto. Qed.
Lemma ranap_table : same_table (generate_tables [file_lines ranap_lines]) RanapTab.ranap_msgs "ranap".
Proof. eexists. split; [vm_compute; reflexivity|]. vm_compute. auto. Qed.

(* ---------------- for the theorems ---------------- *)
Lemma as_read_rows T l : t_defs T = map set_row l -> as_read T = map (fun o => (o_name o, one_line_ies o)) l.
Proof.
  unfold as_read. intros ->. rewrite map_map. apply map_ext. intros o. cbn [set_row fst snd]. f_equal.
  induction (one_line_ies o) as [|[i c t p] r IH]; [reflexivity|]. cbn [map]. rewrite IH. reflexivity.
Qed.
Lemma tables_read' lines ts sets : Forall2 uncommented lines ts -> file_written sets (List.concat ts) -> NoDup (map o_name (filter useful sets)) ->
  generate_tables [lines] = None /\ filter useful sets = [] \/
  exists T, generate_tables [lines] = Some T /\ as_read T = map (fun o => (o_name o, one_line_ies o)) (filter useful sets).
Proof.
  intros U W N. destruct (tables_read lines ts sets U W N) as [H|(T&E&D)]; [now left|]. right. exists T. split; [exact E|]. now apply as_read_rows.
Qed.
Lemma nodup_b l : (fix f (l : list text) : bool := match l with [] => true | x :: r => negb (existsb (teq x) r) && f r end) l = true -> NoDup l.
Proof.
  induction l as [|x l IH]; intros H; [constructor|]. apply andb_prop in H as [N H]. constructor; [|auto].
  intros I. apply negb_true_iff in N. rewrite (proj2 (existsb_exists _ _)) in N; [discriminate|]. exists x. split; [exact I|]. now apply teq_eq.
Qed.
Lemma sabp_nodup : NoDup (map o_name (filter useful (map set_of sabp_layout))).
Proof. apply nodup_b. vm_compute. reflexivity. Qed.
Definition broken_def : ie_def := mkIeDef (chars "id-Broadcast-Message-Content") (chars "reject") (chars "Broadcast-Message-Content") (chars "mandatory").
Definition nul_set : obj_set := mkObjSet [] [] [] false.
Definition sabp_set (n : string) : obj_set := match List.find (fun o => teq (o_name o) (chars n)) (map set_of sabp_layout) with Some o => o | None => nul_set end.
Lemma sabp_lost : exists ts, Forall2 uncommented (file_lines sabp_lines) ts /\ file_written (map set_of sabp_layout) (List.concat ts) /\
  NoDup (map o_name (filter useful (map set_of sabp_layout))) /\
  In (sabp_set "Write-Replace-IEs") (map set_of sabp_layout) /\ o_name (sabp_set "Write-Replace-IEs") = chars "Write-Replace-IEs" /\
  extension (sabp_set "Write-Replace-IEs") = false /\ In broken_def (all_ies (sabp_set "Write-Replace-IEs")) /\
  In (sabp_set "Failure-IEs") (map set_of sabp_layout) /\ o_name (sabp_set "Failure-IEs") = chars "Failure-IEs" /\
  extension (sabp_set "Failure-IEs") = false /\ all_ies (sabp_set "Failure-IEs") <> [].
Proof.
  destruct (written_so _ _ _ sabp_written) as (ts&U&W). exists ts. split; [exact U|]. split; [exact W|]. split; [exact sabp_nodup|].
  split; [vm_compute; tauto|]. split; [reflexivity|]. split; [reflexivity|]. split; [vm_compute; tauto|].
  split; [vm_compute; tauto|]. split; [reflexivity|]. split; [reflexivity|]. vm_compute. discriminate.
Qed.
Definition has (T : option tables) (n : list N) (d : ie_def) : bool :=
  match T with
  | Some T => existsb (fun p => teq (fst p) n && existsb (fun e => teq (d_id e) (d_id d)) (snd p)) (as_read T)
  | None => false
  end.
Definition has_key (T : option tables) (n : list N) : bool :=
  match T with Some T => existsb (fun p => teq (fst p) n) (as_read T) | None => false end.
Lemma has_not T n d : has T n d = false -> forall T', T = Some T' -> forall l, In (n, l) (as_read T') -> ~ In d l.
Proof.
  intros H T' -> l I J. cbn [has] in H. rewrite (proj2 (existsb_exists _ _)) in H; [discriminate|]. exists (n, l). split; [exact I|].
  cbn [fst snd]. rewrite (proj2 (teq_eq n n) eq_refl). apply existsb_exists. exists d. split; [exact J|]. now apply teq_eq.
Qed.
Lemma has_key_not T n : has_key T n = false -> forall T', T = Some T' -> forall l, ~ In (n, l) (as_read T').
Proof.
  intros H T' -> l I. cbn [has_key] in H. rewrite (proj2 (existsb_exists _ _)) in H; [discriminate|]. exists (n, l). split; [exact I|]. now apply teq_eq.
Qed.
Lemma sabp_not_read : has (generate_tables [file_lines sabp_lines]) (chars "Write-Replace-IEs") broken_def = false /\
  has_key (generate_tables [file_lines sabp_lines]) (chars "Failure-IEs") = false.
Proof. vm_compute. auto. Qed.

(* a comment that ends in its line *)
Local Open Scope string_scope.
Definition comment_lines : list string :=
  [ "Some-IEs RANAP-PROTOCOL-IES ::= {";
    " { ID id-A CRITICALITY reject TYPE A PRESENCE conditional";
    " -- if so -- } |";
    " { ID id-B CRITICALITY ignore TYPE B PRESENCE mandatory },";
    " ...";
    "}" ].
Definition nl : string := String (Ascii.ascii_of_N 10) "".
Definition comment_layout : list set_layout :=
  [ mkSetL "Some-IEs" "RANAP-PROTOCOL-IES"
      [(mkIeL "id-A" "reject" "TYPE" "A" "conditional" [" "; " "; " "; " "; " "; " "; " "; " "; nl ++ "  "], " ", nl ++ " ");
       (mkIeL "id-B" "ignore" "TYPE" "B" "mandatory" [" "; " "; " "; " "; " "; " "; " "; " "; " "], "", "")] true
      "" [" "; " "; " "; nl ++ " "; nl] (Some ("", nl ++ " ")) ].
Local Close Scope string_scope.
Definition comment_texts : list (list N) :=
  map (fun s => chars s ++ [10%N]) (firstn 2 comment_lines) ++ [chars "  } |" ++ [10%N]] ++ map (fun s => chars s ++ [10%N]) (skipn 3 comment_lines).
Lemma comment_written : Forall2 x680_uncommented (file_lines comment_lines) comment_texts /\
  file_written (map set_of comment_layout) (List.concat comment_texts).
Proof.
  split.
  - assert (P : forall x, existsb (N.eqb 13) x = false -> contains (chars "--") x = false -> x680_uncommented x x).
    { intros x C D. left. split; [|left; split; [reflexivity|exact D]]. intros I. rewrite (proj2 (existsb_exists _ _) (ex_intro _ 13%N (conj I eq_refl))) in C. discriminate. }
    unfold file_lines, comment_lines, comment_texts. cbn [map firstn skipn app]. repeat (constructor; [try (apply P; vm_compute; reflexivity)|]); [|constructor].
    right. exists (chars " "), (chars " if so "), (chars " } |" ++ [10%N]). repeat split; vm_compute; intuition discriminate.
  - replace (List.concat comment_texts) with (file_text comment_layout "") by (vm_compute; reflexivity). apply file_layout_ok. vm_compute. reflexivity.
Qed.
Lemma comment_not_read : has (generate_tables [file_lines comment_lines]) (chars "Some-IEs") (mkIeDef (chars "id-A") (chars "reject") (chars "A") (chars "conditional")) = false /\
  has_key (generate_tables [file_lines comment_lines]) (chars "Some-IEs") = true.
Proof. vm_compute. auto. Qed.
Definition plain_b (l : list obj_set) : bool := forallb (fun o => o_ends_line o && forallb snd (o_ies o)) l.
Lemma all_plain l : plain_b l = true -> Forall (fun o => o_ends_line o = true /\ forall d b, In (d, b) (o_ies o) -> b = true) l.
Proof.
  unfold plain_b. rewrite forallb_forall. intros H. apply Forall_forall. intros o I. specialize (H o I). apply andb_prop in H as [H F]. split; [exact H|].
  intros d b J. rewrite forallb_forall in F. exact (F (d, b) J).
Qed.
Lemma one_line_all o : (forall d b, In (d, b) (o_ies o) -> b = true) -> one_line_ies o = all_ies o.
Proof.
  unfold one_line_ies, all_ies. intros H. f_equal. induction (o_ies o) as [|[d b] l IH]; [reflexivity|]. cbn [filter snd].
  rewrite (H d b (or_introl eq_refl)). f_equal. apply IH. intros d' b' I. apply (H d' b'). now right.
Qed.
Lemma nodup_filter f (l : list obj_set) : NoDup (map o_name l) -> NoDup (map o_name (filter f l)).
Proof.
  induction l as [|o l IH]; intros H; [constructor|]. cbn [map] in H. apply NoDup_cons_iff in H as [N H]. cbn [filter]. destruct (f o); [|auto].
  cbn [map]. constructor; [|auto]. intros I. apply N. apply in_map_iff in I as (x&E&I). apply filter_In in I as [I _]. rewrite <- E. now apply in_map.
Qed.
Lemma same_name (l : list obj_set) a b : NoDup (map o_name l) -> In a l -> In b l -> o_name a = o_name b -> a = b.
Proof.
  induction l as [|o l IH]; intros N Ia Ib E; [destruct Ia|]. cbn [map] in N. apply NoDup_cons_iff in N as [No N].
  destruct Ia as [->|Ia], Ib as [->|Ib]; auto; exfalso; apply No; [rewrite E|rewrite <- E]; now apply in_map.
Qed.
Lemma read_in_full : forall lines ts sets,
  Forall2 uncommented lines ts -> file_written sets (List.concat ts) -> NoDup (map o_name sets) ->
  (forall o, In o sets -> o_ends_line o = true /\ forall d b, In (d, b) (o_ies o) -> b = true) ->
  forall o, In o sets -> extension o = false -> all_ies o <> [] ->
  exists T, generate_tables [lines] = Some T /\ In (o_name o, all_ies o) (as_read T) /\
    forall l, In (o_name o, l) (as_read T) -> l = all_ies o.
Proof.
  intros lines ts sets U W N P o I X A. destruct (P o I) as [L B]. pose proof (one_line_all o B) as E.
  assert (Us : In o (filter useful sets)).
  { apply filter_In. split; [exact I|]. unfold useful. rewrite L, X, E. destruct (all_ies o); [now destruct A|reflexivity]. }
  destruct (tables_read' lines ts sets U W (nodup_filter _ _ N)) as [[_ Z]|(T&ET&D)]; [rewrite Z in Us; destruct Us|].
  exists T. split; [exact ET|]. rewrite D. split.
  - apply in_map_iff. exists o. rewrite E. auto.
  - intros l J. apply in_map_iff in J as (o'&Eo&J). apply filter_In in J as [J _]. injection Eo as En <-.
    assert (o' = o) as -> by (apply (same_name sets); assumption). exact E.
Qed.
