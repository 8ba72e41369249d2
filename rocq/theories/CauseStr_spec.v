(* Vocabulary for the texts of causes: what a complete text is.  Nothing here refers
   to the functions that produce them. *)
From Coq Require Import String Ascii List ZArith NArith Bool.
From Verif Require Import NameSpec.
Import ListNotations.
Local Open Scope list_scope.
Local Open Scope string_scope.

(* "class(text)" *)
Definition in_class (class text : string) : string := class ++ "(" ++ text ++ ")".
(* a C string with its terminator within [size] characters *)
Definition fits (size : nat) (s : string) : Prop := String.length s < size.
(* a text is the beginning of another *)
Definition begins (s t : string) : Prop := exists r, t = s ++ r.
(* The classes of causes of the three protocols: number in the CHOICE (see
   RANAP_Cause.h, RUA_Cause.h, HNBAP_Cause.h), name in the text, enumeration *)
Definition ranap_classes : list (N * string * list (string * Z)) :=
  [ (1%N, "radio", E_RANAP_CauseRadioNetwork); (2%N, "transmission", E_RANAP_CauseTransmissionNetwork);
    (3%N, "nas", E_RANAP_CauseNAS); (4%N, "protocol", E_RANAP_CauseProtocol); (5%N, "misc", E_RANAP_CauseMisc) ].
Definition rua_classes : list (N * string * list (string * Z)) :=
  [ (1%N, "radio", E_RUA_CauseRadioNetwork); (2%N, "transport", E_RUA_CauseTransport);
    (3%N, "protocol", E_RUA_CauseProtocol); (4%N, "misc", E_RUA_CauseMisc) ].
Definition hnbap_classes : list (N * string * list (string * Z)) :=
  [ (1%N, "radio", E_HNBAP_CauseRadioNetwork); (2%N, "transport", E_HNBAP_CauseTransport);
    (3%N, "protocol", E_HNBAP_CauseProtocol); (4%N, "misc", E_HNBAP_CauseMisc) ].
(* A table names every number of an enumeration, no two numbers alike and no number
   in two ways *)
Definition complete (vs : list (Z * string)) (en : list (string * Z)) : Prop :=
  (forall name n, In (name, n) en -> exists t, In (n, t) vs) /\ (forall n n' t, In (n, t) vs -> In (n', t) vs -> n = n') /\
  (forall n t t', In (n, t) vs -> In (n, t') vs -> t = t').

(* Numbers in text: [s] is [n] written in base [b] (at most 16) with digits and lower
   case letters, without leading zeros *)
Definition digit_value (c : ascii) : option N :=
  let n := N_of_ascii c in
  if (48 <=? n)%N && (n <=? 57)%N then Some (n - 48)%N else if (97 <=? n)%N && (n <=? 102)%N then Some (n - 87)%N else None.
Fixpoint value (b acc : N) (s : string) : option N :=
  match s with
  | EmptyString => Some acc
  | String c r => match digit_value c with Some d => if (d <? b)%N then value b (b * acc + d)%N r else None | None => None end
  end.
Definition written (b n : N) (s : string) : Prop :=
  s <> "" /\ value b 0 s = Some n /\ (String.get 0 s = Some "0"%char -> s = "0").
Definition decimal (z : Z) (s : string) : Prop :=
  if (z <? 0)%Z then exists t, s = "-" ++ t /\ written 10 (Z.abs_N z) t else written 10 (Z.to_N z) s.
(* a number that a table has no text for *)
Definition nameless (vs : list (Z * string)) (v : Z) : Prop := forall text, ~ In ((v mod 2 ^ 32)%Z, text) vs.
