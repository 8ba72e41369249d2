(* Independent specification vocabulary for the properties of iu_helpers.c.
   Nothing here refers to the model. *)
From Coq Require Import String Ascii.
From Verif Require Import Base.

(* The sixteen symbols, in order of value. *)
Definition symbols : list N :=
  [48;49;50;51;52;53;54;55;56;57; 65;66;67;68;69;70]%N.  (* "0123456789ABCDEF" *)
Definition symbol (d : N) : N := nth (N.to_nat d) symbols 0%N.

(* The text carried by packed BCD octets: low nibble first, high nibble 15 in
   any octet ends the text. *)
Fixpoint packed_text (o : list N) : list N :=
  match o with
  | [] => []
  | b :: r =>
      symbol (b mod 16) ::
      if (b / 16 =? 15)%N then [] else symbol (b / 16) :: packed_text r
  end.

(* The value of a character: its place among the symbols, or, if it is a small
   letter, that of the capital; 0 for anything else. *)
Fixpoint place (c : N) (l : list N) : option N :=
  match l with [] => None | x :: r => if (x =? c)%N then Some 0%N else option_map N.succ (place c r) end.
Definition char_value (c : N) : N :=
  match place c symbols with
  | Some v => v
  | None => match place c [97;98;99;100;101;102]%N with Some v => 10 + v | None => 0 end   (* "abcdef" *)
  end%N.
(* the half octets, low one first *)
Definition half (o : list N) (i : nat) : N :=
  let b := nth (i / 2) o 0%N in if Nat.even i then (b mod 16)%N else (b / 16)%N.

(* decimal digit characters *)
Definition is_digit (c : N) : bool := ((48 <=? c) && (c <=? 57))%N.

(* The transport layer address formats (X.213 annex A / RFC 1888, or plain):
   [tla octets x213 v6 ip] says that [octets] carry the address [ip]. *)
Inductive tla : list N -> bool -> bool -> list N -> Prop :=
| tla_raw4 ip : length ip = 4 -> tla ip false false ip
| tla_raw6 ip : length ip = 16 -> tla ip false true ip
| tla_x4_short ip : length ip = 4 -> tla ([53; 0; 1]%N ++ ip) true false ip
| tla_x4_long ip fill : length ip = 4 -> length fill = 13 ->
    tla ([53; 0; 1]%N ++ ip ++ fill) true false ip
| tla_x6 ip fill : length ip = 16 -> length fill = 1 ->
    tla ([53; 0; 0]%N ++ ip ++ fill) true true ip.

(* value of a big-endian octet string *)
Definition be_value (o : list N) : N := fold_left (fun v b => v * 256 + b)%N o 0%N.

(* [t] is [b] in decimal, without superfluous zeros *)
Definition in_decimal (t : list N) (b : N) : Prop :=
  forallb is_digit t = true /\ t <> [] /\ fold_left (fun v c => v * 10 + (c - 48))%N t 0%N = b /\
  (hd 0%N t = 48%N -> t = [48%N]).
