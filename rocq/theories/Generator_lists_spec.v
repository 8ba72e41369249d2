(* How lists of information objects are written (TS 25.413 9.3.2, 36.413 9.3.2), without the
   model:
     Name ::= SEQUENCE (SIZE (1..maxNrOfX)) OF ProtocolIE-SingleContainer { {Set} }
     Name ::= E-RAB-IE-ContainerList { {Set} }                                        *)
From Verif Require Import Base Generator_spec.
From Coq Require Import String.
Local Open Scope list_scope.

(* whitespace of ASCII *)
Definition is_white (c : N) : bool := ((9 <=? c) && (c <=? 13) || (28 <=? c) && (c <=? 32))%N.
Definition white (g : list N) : Prop := forallb is_white g = true.
Definition white1 (g : list N) : Prop := white g /\ g <> [].
Definition number (t : list N) : Prop := forallb (fun c => (48 <=? c) && (c <=? 57))%N t = true /\ t <> [].
Definition letters (t : list N) : Prop := forallb (fun c => is_capital c || (97 <=? c) && (c <=? 122) || (c =? 45))%N t = true /\ t <> [].

(* the name of the list, the object set of its elements, and the text *)
Inductive sequence_of : list N -> list N -> list N -> Prop :=
| sequence_of_intro : forall n s lo hi ty g1 g2 g3 g4 g5 g6 g7 g8 g9 g10 g11 g12 g13 g14 g15 g16 g17,
    name n -> name s -> number lo -> name hi -> letters ty ->
    white g1 -> white1 g2 -> white1 g3 -> white g4 -> white g5 -> white g6 -> white g7 -> white g8 -> white g9 -> white g10 ->
    white g11 -> white1 g12 -> white g13 -> white g14 -> white g15 -> white g16 -> white g17 ->
    sequence_of n s (n ++ g1 ++ chars "::=" ++ g2 ++ chars "SEQUENCE" ++ g3 ++ chars "(" ++ g4 ++ chars "SIZE" ++ g5 ++ chars "(" ++ g6 ++
      lo ++ g7 ++ chars ".." ++ g8 ++ hi ++ g9 ++ chars ")" ++ g10 ++ chars ")" ++ g11 ++ chars "OF" ++ g12 ++ ty ++ g13 ++
      chars "{" ++ g14 ++ chars "{" ++ g15 ++ s ++ g16 ++ chars "}" ++ g17 ++ chars "}").
Inductive container_list_of : list N -> list N -> list N -> Prop :=
| container_list_intro : forall n s g1 g2 g3 g4 g5 g6 g7,
    name n -> name s -> white g1 -> white1 g2 -> white g3 -> white g4 -> white g5 -> white g6 -> white g7 ->
    container_list_of n s (n ++ g1 ++ chars "::=" ++ g2 ++ chars "E-RAB-IE-ContainerList" ++ g3 ++ chars "{" ++ g4 ++ chars "{" ++ g5 ++ s ++
      g6 ++ chars "}" ++ g7 ++ chars "}").

(* a text has such a definition, and its name is not the end of a longer one *)
Definition has_definition (written : list N -> list N -> list N -> Prop) (t n s : list N) : Prop :=
  exists a x b, t = a ++ x ++ b /\ written n s x /\ forall a' c, a = a' ++ [c] -> is_name_char c = false.
Definition defines_list (t n s : list N) : Prop := has_definition sequence_of t n s \/ has_definition container_list_of t n s.
(* a file with two lists of one name, one of another, and a set *)
Definition lists_file : list (list N) :=
  [chars "L ::= SEQUENCE (SIZE (1..maxNrOf1)) OF Single-Container { {A-IEs} }" ++ [10%N];
   chars "M  ::= E-RAB-IE-ContainerList { {B-IEs} } -- L ::= " ++ [10%N];
   chars "L::= SEQUENCE  ( SIZE(0 .. 16))OF X{{C}}" ++ [10%N];
   chars "A-IEs X-PROTOCOL-IES ::= {" ++ [10%N];
   chars " { ID id-A CRITICALITY reject TYPE A PRESENCE mandatory }," ++ [10%N]; chars " ..." ++ [10%N]; chars "}" ++ [10%N]].
