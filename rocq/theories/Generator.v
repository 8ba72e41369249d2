(* The part of asn1/utils/asn1tostruct.py that reads the ASN.1 files.  What the code does
   that the script then writes from these tables is modelled in Container.v. *)
From Verif Require Import Base Regex.
From Coq Require Import String.
Local Open Scope nat_scope.

(* ---------------- the expressions ---------------- *)
(* [a-zA-Z0-9-], asn1tostruct.py:136, 138, 141, 150 *)
Definition word (c : N) : bool := small c || capital c || digit c || (c =? 45)%N.
(* [A-Z0-9-], asn1tostruct.py:141 *)
Definition caps (c : N) : bool := capital c || digit c || (c =? 45)%N.
(* [a-zA-Z-], asn1tostruct.py:136 *)
Definition alpha_dash (c : N) : bool := small c || capital c || (c =? 45)%N.
(* [\,\|\{\}\t\n\.{3}\ \-a-zA-Z0-9], asn1tostruct.py:141 *)
Definition set_char (c : N) : bool := word c || (c =? 9)%N || (c =? 10)%N || one_of ",|{}.{3} " c.
(* [a-zA-Z0-9-\ \t], asn1tostruct.py:149 *)
Definition ie_char (c : N) : bool := word c || (c =? 32)%N || (c =? 9)%N.
(* \s* *)
(* asn1tostruct.py:136-150 *)
Definition sp0 := Rep space 0 false.
(* \s+ *)
(* asn1tostruct.py:136-150 *)
Definition sp1 := Rep space 1 false.
(* a newline in an expression, asn1tostruct.py:141 *)
Definition newline := One (N.eqb 10).

(* asn1tostruct.py:136 *)
Definition seq_of_re : list item :=
  [Rep word 1 true; sp0] ++ lit "::=" ++ [sp1] ++ lit "SEQUENCE" ++ [sp1] ++ lit "(" ++ [sp0] ++ lit "SIZE" ++ [sp0] ++
  lit "(" ++ [sp0; Rep digit 1 false; sp0] ++ lit ".." ++ [sp0; Rep word 1 false; sp0] ++ lit ")" ++ [sp0] ++ lit ")" ++
  [sp0] ++ lit "OF" ++ [sp1; Rep alpha_dash 1 false; sp0] ++ lit "{" ++ [sp0] ++ lit "{" ++ [sp0; Rep word 1 true; sp0] ++
  lit "}" ++ [sp0] ++ lit "}".
(* asn1tostruct.py:138 *)
Definition e_rab_re : list item :=
  [Rep word 1 true; sp0] ++ lit "::=" ++ [sp1] ++ lit "E-RAB-IE-ContainerList" ++ [sp0] ++ lit "{" ++ [sp0] ++ lit "{" ++
  [sp0; Rep word 1 true; sp0] ++ lit "}" ++ [sp0] ++ lit "}".
(* asn1tostruct.py:141 *)
Definition set_re : list item :=
  [Rep word 1 true; sp1; Rep caps 1 true; sp0] ++ lit "::=" ++ [sp0] ++ lit "{" ++ [sp1; Rep set_char 1 true; sp1] ++
  lit "}" ++ [newline].
(* asn1tostruct.py:149 *)
Definition braces_re : list item :=
  [sp0] ++ lit "{" ++ [sp0; Rep ie_char 1 true; sp0] ++ lit "}" ++ [sp0; Rep (one_of "|,") 0 false].
(* asn1tostruct.py:150 *)
Definition ie_re : list item :=
  lit "ID" ++ [sp0; Rep word 1 true; sp0] ++ lit "CRITICALITY" ++ [sp0; Rep word 1 true; sp1; Rep capital 1 false; sp1;
  Rep word 1 true; sp0] ++ lit "PRESENCE" ++ [sp0; Rep word 1 true].

(* ---------------- reading ---------------- *)
(* str.find, asn1tostruct.py:131, 145, 148 *)
Fixpoint find (s t : text) : option nat :=
  if (fix prefix (s t : text) : bool :=
        match s, t with [], _ => true | _, [] => false | a :: s', b :: t' => (a =? b)%N && prefix s' t' end) s t
  then Some 0
  else match t with [] => None | _ :: t' => option_map S (find s t') end.
(* asn1tostruct.py:130-134: one line, with its newline *)
Definition clean (line : text) : text :=
  filter (fun c => negb (c =? 13)%N)
    (match find (codes "--") line with Some k => firstn k line | None => line end).
(* asn1tostruct.py:127-134 *)
Definition read_lines (file : list text) : text := List.concat (map clean file).

(* a dictionary: an entry that is replaced keeps its place; keys are compared as Python does *)
(* asn1tostruct.py:137, 139, 157 *)
Fixpoint teq (a b : text) : bool :=
  match a, b with [], [] => true | x :: a', y :: b' => (x =? y)%N && teq a' b' | _, _ => false end.
(* asn1tostruct.py:137, 139, 157 *)
Fixpoint put {A} (k : text) (v : A) (d : list (text * A)) : list (text * A) :=
  match d with
  | [] => [(k, v)]
  | (k', v') :: d' => if teq k k' then (k, v) :: d' else (k', v') :: put k v d'
  end.

(* the tuple k of asn1tostruct.py:150: name, criticality, type, presence *)
Record found := mkFound { f_id : text; f_crit : text; f_type : text; f_pres : text }.
(* asn1tostruct.py:150-154 *)
Definition tuple (gs : list text) : list found :=
  match gs with [a; b; c; d] => [mkFound a b c d] | _ => [] end.
(* asn1tostruct.py:149-154: the IEs between the braces of an object set *)
Definition ies_of (body : text) : list found :=
  flat_map (fun j => flat_map tuple (findall ie_re (nth 0 j []))) (findall braces_re body).

(* asn1tostruct.py:10-11, 24: the global variables *)
Record tables := mkTables {
  t_defs : list (text * list found);   (* iesDefs, without the padding "length" *)
  t_lists : list (text * text);        (* ieofielist *)
  t_prefix : text }.                   (* fileprefix *)
(* str.lower, asn1tostruct.py:148 *)
Definition lower (t : text) : text := map (fun c => if capital c then (c + 32)%N else c) t.
(* asn1tostruct.py:141-159: one object set.  A set without any IE gives a warning. *)
Definition add_set (s : tables) (gs : list text) : tables :=
  match gs with
  | [name; cls; body] =>
      match find (codes "EXTENSION") cls with
      | Some _ => s
      | None =>
          let prefix := match t_prefix s with
                        | [] => lower (match find (codes "-") cls with Some k => firstn k cls | None => removelast cls end)
                        | p => p end in
          match ies_of body with
          | [] => mkTables (t_defs s) (t_lists s) prefix
          | ies => mkTables (put name ies (t_defs s)) (t_lists s) prefix
          end
      end
  | _ => s
  end.
(* asn1tostruct.py:136-139 *)
Definition add_list (s : tables) (gs : list text) : tables :=
  match gs with
  | [name; set] => mkTables (t_defs s) (put name set (t_lists s)) (t_prefix s)
  | _ => s
  end.
(* asn1tostruct.py:136-159 *)
Definition add_text (s : tables) (t : text) : tables :=
  fold_left add_set (findall set_re t) (fold_left add_list (findall e_rab_re t) (fold_left add_list (findall seq_of_re t) s)).
(* asn1tostruct.py:127-159; the text of one file is read again with the next *)
Definition add_file (st : tables * text) (file : list text) : tables * text :=
  let t := snd st ++ read_lines file in (add_text (fst st) t, t).
(* asn1tostruct.py:9-11, 24, 127-163; None: the script ends because it found nothing *)
Definition generate_tables (files : list (list text)) : option tables :=
  let s := fst (fold_left add_file files (mkTables [] [] [], [])) in
  match t_defs s with [] => None | _ => Some s end.
