(* Vocabulary for the VTY property: text, lines and words, and the settings. *)
From Coq Require Import String Ascii List ZArith Bool.
Import ListNotations.
Local Open Scope list_scope.
Local Open Scope string_scope.
Local Open Scope list_scope.

Definition nl : ascii := "010"%char.
Definition is_blank (c : ascii) : bool := Ascii.eqb c " " || Ascii.eqb c "009".
(* an indent: blanks only *)
Fixpoint blank (s : string) : bool := match s with "" => true | String c r => is_blank c && blank r end.
(* the lines of a text, and the words of a line *)
Fixpoint lines_from (cur s : string) : list string :=
  match s with
  | "" => match cur with "" => [] | _ => [cur] end
  | String c r => if Ascii.eqb c nl then cur :: lines_from "" r else lines_from (cur ++ String c "") r
  end%string.
Definition lines (text : string) : list string := lines_from "" text.
Definition flush (cur : string) : list string := match cur with "" => [] | _ => [cur] end.
Fixpoint words_from (cur s : string) : list string :=
  match s with
  | "" => flush cur
  | String c r => if is_blank c then (flush cur ++ words_from "" r)%list else words_from (cur ++ String c "") r
  end%string.
Definition words (line : string) : list string := words_from "" line.

(* The settings: *rab_assign_addr_enc (None: no pointer was given to
   ranap_iu_vty_init), asn_debug, asn1_xer_print *)
Record settings := mkSet { s_enc : option Z; s_debug : Z; s_xer : Z }.
(* RANAP_NSAP_ADDR_ENC_* ranap_common.h:599-602 *)
Definition ENC_X213 : Z := 0.
Definition ENC_V4RAW : Z := 1.
(* a freshly started program: iu_helpers.c:38, 43 and the documented default *)
Definition fresh : settings := mkSet (Some ENC_X213) 0 0.

(* The commands: their words, and what they change. *)
Definition commands : list (list string * (settings -> settings)) :=
  [ (["asn1"; "debug"; "1"], fun s => mkSet (s_enc s) 1 (s_xer s));
    (["asn1"; "debug"; "0"], fun s => mkSet (s_enc s) 0 (s_xer s));
    (["asn1"; "xer-print"; "1"], fun s => mkSet (s_enc s) (s_debug s) 1);
    (["asn1"; "xer-print"; "0"], fun s => mkSet (s_enc s) (s_debug s) 0) ].
(* those that need the pointer *)
Definition enc_commands : list (list string * Z) :=
  [ (["iu"; "rab-assign-addr-enc"; "x213"], ENC_X213); (["iu"; "rab-assign-addr-enc"; "v4raw"], ENC_V4RAW) ].
(* the value of a flag as C's if reads it *)
Definition flag (z : Z) : Z := if (z =? 0)%Z then 0%Z else 1%Z.
