(* Property C97: the lists of information objects that the code generator reads *)
From Verif Require Import Base Generator Generator_spec Generator_lists_spec Generator_proofs Generator_files Generator_lists.
From Coq Require Import String.
Local Open Scope list_scope.

(* of any file: each list once, only lists that are defined there, and all of them *)
Theorem C97_lists : forall lines ts T, Forall2 uncommented lines ts -> generate_tables [lines] = Some T ->
  NoDup (map fst (t_lists T)) /\ (forall n s, In (n, s) (t_lists T) -> defines_list (List.concat ts) n s) /\
  (forall n s, defines_list (List.concat ts) n s -> exists s', In (n, s') (t_lists T)).
Proof. exact lists_read. Qed.
Print Assumptions C97_lists.
(* if a name is defined more than once: as it is defined last, and as a container list if at all *)
Theorem C97_lists_last : forall lines ts T a x b n s, Forall2 uncommented lines ts -> generate_tables [lines] = Some T ->
  List.concat ts = a ++ x ++ b -> (forall a' c, a = a' ++ [c] -> is_name_char c = false) ->
  (container_list_of n s x -> (forall s', ~ has_definition container_list_of b n s') -> In (n, s) (t_lists T)) /\
  (sequence_of n s x -> (forall s', ~ has_definition sequence_of b n s') ->
   (forall s', ~ has_definition container_list_of (List.concat ts) n s') -> In (n, s) (t_lists T)).
Proof.
  intros lines ts T a x b n s U G E A. split; [intros H; exact (container_last _ _ _ _ _ _ _ _ U G E H A)|intros H; exact (sequence_last _ _ _ _ _ _ _ _ U G E H A)].
Qed.
Print Assumptions C97_lists_last.
Example C97_lists_ex : exists ts T, Forall2 uncommented lists_file ts /\ generate_tables [lists_file] = Some T /\
  t_lists T = [(chars "L", chars "C"); (chars "M", chars "B-IEs")] /\ defines_list (List.concat ts) (chars "L") (chars "A-IEs").
Proof.
  exists (map cut lists_file). eexists. split; [exact (proj1 (lines_ok lists_file (List.concat (map cut lists_file)) ltac:(vm_compute; reflexivity)))|].
  split; [vm_compute; reflexivity|]. split; [reflexivity|]. left.
  exists [], (chars "L ::= SEQUENCE (SIZE (1..maxNrOf1)) OF Single-Container { {A-IEs} }"). eexists. split; [vm_compute; reflexivity|]. split.
  - refine (sequence_of_intro (chars "L") (chars "A-IEs") (chars "1") (chars "maxNrOf1") (chars "Single-Container") (chars " ") (chars " ") (chars " ") [] (chars " ") [] [] [] [] [] (chars " ") (chars " ") (chars " ")
      (chars " ") [] [] (chars " ") _ _ _ _ _ _ _ _ _ _ _ _ _ _ _ _ _ _ _ _ _ _); repeat split; try reflexivity; discriminate.
  - intros [|? ?] c E; discriminate.
Qed.
