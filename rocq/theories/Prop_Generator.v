(* Property C97: what the code generator reads from the ASN.1 files *)
From Verif Require Import Base Container Generator Generator_spec Generator_repo_spec Generator_proofs Generator_layout AsnText AsnLayout Generator_files Generator_more.
From Coq Require Import String.
Local Open Scope list_scope.

(* the tables of the four protocols, over which the properties of the generated code are
   stated, are what the script reads from the files of the repository *)
Theorem C97_repository : forall lines ms prefix, In (lines, ms, prefix) repository ->
  exists T, generate_tables [file_lines lines] = Some T /\ as_read T = map msg_set ms /\ t_lists T = [] /\ t_prefix T = chars prefix.
Proof. intros lines ms prefix [E|[E|[E|[E|[]]]]]; injection E as <- <- <-; [exact ranap_table|exact rua_table|exact hnbap_table|exact sabp_table]. Qed.
Print Assumptions C97_repository.
Example C97_repository_ex : map (fun x => (List.length (fst (fst x)), List.length (snd (fst x)))) repository = [(3599, 105); (195, 5); (561, 18); (447, 16)]%nat.
Proof. vm_compute. reflexivity. Qed.

(* every file that is written in this way: the sets for extensions are left out, and so are
   the sets that are not the end of their line, and the elements that are not on one line;
   everything else is read, in order, and nothing that is not there *)
Theorem C97_read_partial : forall lines ts sets,
  Forall2 uncommented lines ts -> file_written sets (List.concat ts) -> NoDup (map o_name (filter useful sets)) ->
  generate_tables [lines] = None /\ filter useful sets = [] \/
  exists T, generate_tables [lines] = Some T /\ as_read T = map (fun o => (o_name o, one_line_ies o)) (filter useful sets).
Proof. exact tables_read'. Qed.
Print Assumptions C97_read_partial.
(* three files of the repository are written in this way *)
Example C97_read_ex : forall lines layout e, In (lines, layout, e) [(rua_lines, rua_layout, rua_rest); (hnbap_lines, hnbap_layout, hnbap_rest); (sabp_lines, sabp_layout, sabp_rest)] ->
  exists ts, Forall2 uncommented (file_lines lines) ts /\ file_written (map set_of layout) (List.concat ts) /\
    NoDup (map o_name (filter useful (map set_of layout))) /\ (5 <= List.length (filter useful (map set_of layout)))%nat.
Proof.
  intros lines layout e [E|[E|[E|[]]]]; injection E as <- <- <-.
  - destruct (written_so _ _ _ rua_written) as (ts&U&W). exists ts. split; [exact U|]. split; [exact W|]. split; [apply nodup_b; vm_compute; reflexivity|]. apply Nat.leb_le. vm_compute. reflexivity.
  - destruct (written_so _ _ _ hnbap_written) as (ts&U&W). exists ts. split; [exact U|]. split; [exact W|]. split; [apply nodup_b; vm_compute; reflexivity|]. apply Nat.leb_le. vm_compute. reflexivity.
  - destruct (written_so _ _ _ sabp_written) as (ts&U&W). exists ts. split; [exact U|]. split; [exact W|]. split; [exact sabp_nodup|]. apply Nat.leb_le. vm_compute. reflexivity.
Qed.

(* so a file with its elements on one line each and its sets at the end of their lines is
   read in full *)
Theorem C97_complete_partial : forall lines ts sets,
  Forall2 uncommented lines ts -> file_written sets (List.concat ts) -> NoDup (map o_name sets) ->
  (forall o, In o sets -> o_ends_line o = true /\ forall d b, In (d, b) (o_ies o) -> b = true) ->
  forall o, In o sets -> extension o = false -> all_ies o <> [] ->
  exists T, generate_tables [lines] = Some T /\ In (o_name o, all_ies o) (as_read T) /\
    forall l, In (o_name o, l) (as_read T) -> l = all_ies o.
Proof. exact read_in_full. Qed.
Print Assumptions C97_complete_partial.
Example C97_complete_ex : exists ts, Forall2 uncommented (file_lines hnbap_lines) ts /\ file_written (map set_of hnbap_layout) (List.concat ts) /\
  NoDup (map o_name (map set_of hnbap_layout)) /\
  (forall o, In o (map set_of hnbap_layout) -> o_ends_line o = true /\ forall d b, In (d, b) (o_ies o) -> b = true).
Proof.
  destruct (written_so _ _ _ hnbap_written) as (ts&U&W). exists ts. split; [exact U|]. split; [exact W|]. split; [apply nodup_b; vm_compute; reflexivity|].
  apply Forall_forall. apply all_plain. vm_compute. reflexivity.
Qed.

(* not everything: of the SABP file, an element over two lines is not in the table of its
   set, and a set with a blank behind its brace has no table *)
Theorem C97_everything_read_refuted : exists lines ts sets o d o',
  Forall2 uncommented lines ts /\ file_written sets (List.concat ts) /\
  In o sets /\ extension o = false /\ In d (all_ies o) /\ d_pres d = chars "mandatory" /\
  In o' sets /\ extension o' = false /\ all_ies o' <> [] /\
  forall T, generate_tables [lines] = Some T -> forall l, ~ (In (o_name o, l) (as_read T) /\ In d l) /\ ~ In (o_name o', l) (as_read T).
Proof.
  destruct sabp_lost as (ts&U&W&_&I&N&X&D&I'&N'&X'&D'). exists (file_lines sabp_lines), ts, (map set_of sabp_layout), (sabp_set "Write-Replace-IEs"), broken_def, (sabp_set "Failure-IEs").
  split; [exact U|]. split; [exact W|]. split; [exact I|]. split; [exact X|]. split; [exact D|]. split; [reflexivity|]. split; [exact I'|]. split; [exact X'|]. split; [exact D'|].
  intros T E l. split.
  - intros [A B]. rewrite N in A. exact (has_not _ _ _ (proj1 sabp_not_read) T E l A B).
  - rewrite N'. exact (has_key_not _ _ (proj2 sabp_not_read) T E l).
Qed.
Print Assumptions C97_everything_read_refuted.
(* and a comment that ends before its line takes what follows with it, here the closing
   brace of an element, although the element is on one line and the set ends its line *)
Theorem C97_comment_refuted : exists lines ts sets o d,
  Forall2 x680_uncommented lines ts /\ file_written sets (List.concat ts) /\
  In o sets /\ useful o = true /\ In d (one_line_ies o) /\
  forall T, generate_tables [lines] = Some T -> forall l, In (o_name o, l) (as_read T) -> ~ In d l.
Proof.
  destruct comment_written as [U W]. exists (file_lines comment_lines), comment_texts, (map set_of comment_layout).
  eexists _, (mkIeDef (chars "id-A") (chars "reject") (chars "A") (chars "conditional")). split; [exact U|]. split; [exact W|]. split; [left; reflexivity|].
  split; [reflexivity|]. split; [vm_compute; tauto|]. intros T E l I. exact (has_not _ _ _ (proj1 comment_not_read) T E l I).
Qed.
Print Assumptions C97_comment_refuted.

(* several files, and names that are defined more than once, in one file or in two: each
   set is where its name is first, as it is defined last *)
Theorem C97_files_partial : forall files, files_written files ->
  generate_tables (map a_lines files) = None /\ filter useful (flat_map a_sets files) = [] \/
  exists T, generate_tables (map a_lines files) = Some T /\
    in_force (map (fun o => (o_name o, one_line_ies o)) (filter useful (flat_map a_sets files))) (as_read T).
Proof. exact files_l. Qed.
Print Assumptions C97_files_partial.
(* the protocol is named by the class of the first set, up to its first hyphen *)
Theorem C97_protocol : forall files T o r p q, files_written files -> generate_tables (map a_lines files) = Some T ->
  filter (fun o => o_ends_line o && negb (extension o)) (flat_map a_sets files) = o :: r ->
  o_class o = p ++ chars "-" ++ q -> ~ In 45%N p -> p <> [] ->
  t_prefix T = map (fun c => if is_capital c then (c + 32)%N else c) p.
Proof. exact prefix_l. Qed.
Print Assumptions C97_protocol.
(* the RUA file, and a second file which defines a set of the first again, in another class *)
Example C97_files_ex : files_written two_files /\
  exists T d, generate_tables (map a_lines two_files) = Some T /\ map fst (as_read T) = map fst (map msg_set RuaTab.rua_msgs) /\
    In (chars "DisconnectIEs", [d]) (as_read T) /\ d_pres d = chars "optional" /\ t_prefix T = chars "rua".
Proof.
  split; [exact two_files_written|]. eexists. exists (mkIeDef (chars "id-Cause") (chars "ignore") (chars "Cause") (chars "optional")). split; [vm_compute; reflexivity|].
  split; [vm_compute; reflexivity|]. split; [vm_compute; tauto|]. split; reflexivity.
Qed.
