(* The regular expressions of Python's module re as far as asn1/utils/asn1tostruct.py
   uses them: sequences of characters out of a class, once, or as often as possible and
   at least [min] times; groups contain exactly one such repetition.
   Simplification: characters are numbers of octets; whitespace beyond ASCII is left out (the
   files have other characters than ASCII only in comments). *)
From Verif Require Import Base.
From Coq Require Import String Ascii.
Local Open Scope nat_scope.

(* a Python string, asn1tostruct.py:128-134 *)
Definition text := list N.
(* a Python string literal, asn1tostruct.py:136-150 *)
Fixpoint codes (s : string) : text := match s with EmptyString => [] | String c r => N_of_ascii c :: codes r end.

(* asn1tostruct.py:136-150: an element of an expression *)
Inductive item :=
| One (f : N -> bool)
| Rep (f : N -> bool) (min : nat) (group : bool).
(* literal characters of an expression, asn1tostruct.py:136-150 *)
Definition lit (s : string) : list item := map (fun c => One (N.eqb c)) (codes s).

(* \s, asn1tostruct.py:136-150 *)
Definition space (c : N) : bool := ((9 <=? c) && (c <=? 13) || (28 <=? c) && (c <=? 32))%N.
(* [A-Z], asn1tostruct.py:150 *)
Definition capital (c : N) : bool := ((65 <=? c) && (c <=? 90))%N.
(* a-z, asn1tostruct.py:136-150 *)
Definition small (c : N) : bool := ((97 <=? c) && (c <=? 122))%N.
(* \d, 0-9, asn1tostruct.py:136-150 *)
Definition digit (c : N) : bool := ((48 <=? c) && (c <=? 57))%N.
(* a listed character, asn1tostruct.py:136-150 *)
Definition one_of (s : string) (c : N) : bool := existsb (N.eqb c) (codes s).

(* re: an expression at the beginning of a text.  A repetition first takes as much as it
   can, and gives back one character at a time if the remainder does not match.  The
   result is the contents of the groups and what follows the match. *)
(* re.findall in asn1tostruct.py:136, 138, 141, 149, 150, at one position *)
Fixpoint matches (p : list item) (t : text) : option (list text * text) :=
  match p with
  | [] => Some ([], t)
  | One f :: p' => match t with c :: r => if f c then matches p' r else None | [] => None end
  | Rep f min group :: p' =>
      (fix go (t : text) (taken : text) (min : nat) : option (list text * text) :=
         match (match t with c :: r => if f c then go r (c :: taken) (pred min) else None | [] => None end) with
         | Some x => Some x
         | None =>
             match min with
             | O => match matches p' t with
                    | Some (gs, r) => Some (if group then rev taken :: gs else gs, r)
                    | None => None
                    end
             | S _ => None
             end
         end) t [] min
  end.

(* re.findall: from left to right; the next match starts where the last one ended.  None of
   the expressions matches the empty string. *)
(* asn1tostruct.py:136, 138, 141, 149, 150 *)
Fixpoint findall_from (p : list item) (skip : nat) (t : text) : list (list text) :=
  match t with
  | [] => []
  | _ :: r =>
      match skip with
      | S k => findall_from p k r
      | O => match matches p t with
             | Some (gs, rest) => gs :: findall_from p (List.length r - List.length rest) r
             | None => findall_from p O r
             end
      end
  end.
(* asn1tostruct.py:136, 138, 141, 149, 150 *)
Definition findall (p : list item) (t : text) : list (list text) := findall_from p O t.
