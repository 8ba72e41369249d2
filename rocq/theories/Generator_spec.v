(* How ASN.1 information object sets are written, as in TS 25.413 clause 9.3.3 (X.681):
     Name CLASS ::= {
       { ID id-A CRITICALITY reject TYPE A PRESENCE mandatory } |
       { ID id-B CRITICALITY ignore TYPE B PRESENCE optional },
       ...
     }
   This file does not use the model; a text is a list of character codes. *)
From Verif Require Import Base.
From Coq Require Import String Ascii.
Local Open Scope nat_scope.
Local Open Scope list_scope.

(* the characters of a literal *)
Fixpoint chars (s : string) : list N := match s with EmptyString => [] | String c r => N_of_ascii c :: chars r end.
Definition is_gap_char (c : N) : bool := (c =? 32)%N || (c =? 9)%N || (c =? 10)%N.
(* space between words: blanks, tabs and newlines *)
Definition gap (g : list N) : Prop := forallb is_gap_char g = true.
Definition gap1 (g : list N) : Prop := gap g /\ g <> [].
Definition has_newline (g : list N) : bool := existsb (N.eqb 10) g.
(* names: letters, digits and hyphens; the names of classes and their fields: capitals *)
Definition is_capital (c : N) : bool := ((65 <=? c) && (c <=? 90))%N.
Definition is_class_char (c : N) : bool := (is_capital c || (48 <=? c) && (c <=? 57) || (c =? 45))%N.
Definition is_name_char (c : N) : bool := (is_class_char c || (97 <=? c) && (c <=? 122))%N.
Definition name (t : list N) : Prop := forallb is_name_char t = true /\ t <> [].
Definition class_name (t : list N) : Prop := forallb is_class_char t = true /\ t <> [].
Definition field_name (t : list N) : Prop := forallb is_capital t = true /\ t <> [].

(* an element of an object set *)
Record ie_def := mkIeDef { d_id : list N; d_crit : list N; d_type : list N; d_pres : list N }.
(* an object set, with for each element whether its words are all on one line, and
   whether the line ends directly behind the closing brace of the set *)
Record obj_set := mkObjSet { o_name : list N; o_class : list N; o_ies : list (ie_def * bool); o_ends_line : bool }.

(* one element; [one_line]: no newline between its first and its last word *)
Inductive ie_written : ie_def -> bool -> list N -> Prop :=
| ie_written_intro : forall d kind g0 g1 g2 g3 g4 g5 g6 g7 g8,
    name (d_id d) -> name (d_crit d) -> field_name kind -> name (d_type d) -> name (d_pres d) ->
    gap g0 -> gap1 g1 -> gap1 g2 -> gap1 g3 -> gap1 g4 -> gap1 g5 -> gap1 g6 -> gap1 g7 -> gap g8 ->
    ie_written d (negb (existsb has_newline [g1; g2; g3; g4; g5; g6; g7]))
      (chars "{" ++ g0 ++ chars "ID" ++ g1 ++ d_id d ++ g2 ++ chars "CRITICALITY" ++ g3 ++ d_crit d ++ g4 ++
       kind ++ g5 ++ d_type d ++ g6 ++ chars "PRESENCE" ++ g7 ++ d_pres d ++ g8 ++ chars "}").
(* elements with bars between them *)
Inductive ies_written : list (ie_def * bool) -> list N -> Prop :=
| ies_last : forall d b t, ie_written d b t -> ies_written [(d, b)] t
| ies_more : forall d b t g g' l rest, ie_written d b t -> gap g -> gap g' -> ies_written l rest ->
    ies_written ((d, b) :: l) (t ++ g ++ chars "|" ++ g' ++ rest).
(* between the braces of the set: elements, elements and an ellipsis, or only an ellipsis *)
Inductive body_written : list (ie_def * bool) -> list N -> Prop :=
| body_closed : forall l t, ies_written l t -> body_written l t
| body_open : forall l t g g', ies_written l t -> gap g -> gap g' -> body_written l (t ++ g ++ chars "," ++ g' ++ chars "...")
| body_empty : body_written [] (chars "...").
(* a set, with space inside of its braces.  If the line does not end behind it, no closing
   brace within it is the last of its line. *)
Inductive set_written : obj_set -> list N -> Prop :=
| set_ends_line : forall o b g1 g2 g3 g4 g5,
    name (o_name o) -> class_name (o_class o) -> body_written (o_ies o) b ->
    gap1 g1 -> gap g2 -> gap g3 -> gap1 g4 -> gap1 g5 -> o_ends_line o = true ->
    set_written o (o_name o ++ g1 ++ o_class o ++ g2 ++ chars "::=" ++ g3 ++ chars "{" ++ g4 ++ b ++ g5 ++ chars "}" ++ [10%N])
| set_ends_before : forall o b g1 g2 g3 g4 g5,
    name (o_name o) -> class_name (o_class o) -> body_written (o_ies o) b ->
    gap1 g1 -> gap g2 -> gap g3 -> gap1 g4 -> gap1 g5 -> o_ends_line o = false ->
    (forall x y, b ++ g5 <> x ++ chars "}" ++ 10%N :: y) ->
    set_written o (o_name o ++ g1 ++ o_class o ++ g2 ++ chars "::=" ++ g3 ++ chars "{" ++ g4 ++ b ++ g5 ++ chars "}").

(* other text: not the beginning of a set, and not the beginning of its name *)
Definition other (t : list N) : Prop :=
  (forall a g b, gap g -> t <> a ++ chars "::=" ++ g ++ chars "{" ++ b) /\
  (forall a c, t = a ++ [c] -> is_name_char c = false) /\
  forallb (fun c => is_gap_char c || (33 <=? c)%N) t = true.
(* no closing brace before the next assignment *)
Definition quiet (t : list N) : Prop := forall a b, t = a ++ chars "}" ++ b -> In 58%N a.
Inductive file_written : list obj_set -> list N -> Prop :=
| file_end : forall t, other t -> file_written [] t
| file_set : forall o l before t rest, other before -> set_written o t -> quiet rest ->
    (o_ends_line o = false -> forall r, rest <> 10%N :: r) -> file_written l rest ->
    file_written (o :: l) (before ++ t ++ rest).

(* a text contains another *)
Fixpoint starts (s t : list N) : bool :=
  match s, t with [], _ => true | _, [] => false | a :: s', b :: t' => (a =? b)%N && starts s' t' end.
Fixpoint contains (s t : list N) : bool := starts s t || match t with [] => false | _ :: t' => contains s t' end.
(* sets of extensions, which the script leaves out on purpose *)
Definition extension (o : obj_set) : bool := contains (chars "EXTENSION") (o_class o).
(* the elements whose words are on one line *)
Definition one_line_ies (o : obj_set) : list ie_def := map fst (filter snd (o_ies o)).
Definition all_ies (o : obj_set) : list ie_def := map fst (o_ies o).

(* a line, and what is left of it without its comment, which runs to the end of the line;
   no carriage return in it *)
Definition uncommented (line t : list N) : Prop :=
  ~ In 13%N t /\
  (line = t /\ contains (chars "--") t = false \/
   exists c, line = t ++ chars "--" ++ c /\ contains (chars "--") (t ++ chars "-") = false).
(* the sets that have something to be kept *)
Definition useful (o : obj_set) : bool := o_ends_line o && negb (extension o) && negb (match one_line_ies o with [] => true | _ => false end).

(* X.680 12.6.3: a comment ends at the end of the line or, before, at the next two hyphens *)
Definition x680_uncommented (line t : list N) : Prop :=
  uncommented line t \/
  exists a c b, line = a ++ chars "--" ++ c ++ chars "--" ++ b /\ t = a ++ b /\
    contains (chars "--") (a ++ chars "-") = false /\ contains (chars "--") (c ++ chars "-") = false /\
    contains (chars "--") (a ++ b) = false /\ ~ In 13%N (a ++ b).

(* definitions in force: each name where it is defined first, as it is defined last *)
Fixpoint firsts (l : list (list N)) : list (list N) :=
  match l with [] => [] | k :: r => k :: filter (fun x => if list_eq_dec N.eq_dec x k then false else true) (firsts r) end.
Definition in_force {A} (l r : list (list N * A)) : Prop :=
  map fst r = firsts (map fst l) /\
  forall k v, In (k, v) r <-> exists a b, l = a ++ (k, v) :: b /\ ~ In k (map fst b).
(* a file: its lines, what is left of them, and the sets *)
Record asn_file := mkAsnFile { a_lines : list (list N); a_texts : list (list N); a_sets : list obj_set }.
(* files that are read one after the other *)
Definition files_written (l : list asn_file) : Prop :=
  (forall f, In f l -> Forall2 uncommented (a_lines f) (a_texts f)) /\
  forall a b, l = a ++ b -> a <> [] -> file_written (flat_map a_sets a) (flat_map (fun f => List.concat (a_texts f)) a).
