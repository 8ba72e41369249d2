(* Model of ranap_cause_str, rua_cause_str, hnbap_cause_str and of the look-up in
   value_string tables.  snprintf and get_value_string (libosmocore) are modelled;
   the static buffer is the result. *)
From Coq Require Import String Ascii List ZArith NArith Bool.
From Verif Require Import NameTab.
Import ListNotations.
Local Open Scope list_scope.
Local Open Scope string_scope.

(* numbers in text, at most [fuel] digits: %x and %ld *)
(* part of snprintf, called at ranap_common.c:257-283, rua_common.c:76-92, hnbap_common.c:87-107 *)
Definition digit (d : N) : ascii := ascii_of_N (if (d <? 10)%N then 48 + d else 87 + d)%N.
(* part of snprintf, called at ranap_common.c:257-283, rua_common.c:76-92, hnbap_common.c:87-107 *)
Fixpoint digits (base : N) (fuel : nat) (n : N) (acc : string) : string :=
  match fuel with
  | O => acc
  | S f => let acc' := String (digit (n mod base)) acc in if (n <? base)%N then acc' else digits base f (n / base) acc'
  end.
(* part of get_value_string, called at ranap_common.c:257-283, rua_common.c:76-92, hnbap_common.c:87-107 *)
Definition hex (n : N) : string := digits 16 8 n "".
(* %ld at ranap_common.c:282 *)
Definition dec (z : Z) : string := if (z <? 0)%Z then "-" ++ digits 10 20 (Z.abs_N z) "" else digits 10 20 (Z.to_N z) "".
(* get_value_string(vs, val) of libosmocore: val is a uint32_t, to which the long of
   the cause is converted *)
(* the argument of get_value_string, called at ranap_common.c:257-283, rua_common.c:76-92, hnbap_common.c:87-107 *)
Definition u32 (v : Z) : Z := (v mod 2 ^ 32)%Z.
(* called at ranap_common.c:257-283, rua_common.c:76-92, hnbap_common.c:87-107 *)
Definition get_value_string (vs : list (Z * string)) (v : Z) : string :=
  match find (fun e => Z.eqb (fst e) (u32 v)) vs with
  | Some e => snd e
  | None => "unknown 0x" ++ hex (Z.to_N (u32 v))
  end.
(* snprintf(buf, size, ...) *)
(* called at ranap_common.c:257-283, rua_common.c:76-92, hnbap_common.c:87-107 *)
Definition snprintf (size : nat) (text : string) : string := substring 0 (size - 1) text.
(* ranap_common.c:257-283, rua_common.c:76-92, hnbap_common.c:87-107 *)
Definition call (size : nat) (class : string) (vs : list (Z * string)) (v : Z) : string :=
  snprintf size (class ++ "(" ++ get_value_string vs v ++ ")").

(* ranap_cause_str ranap_common.c:251-290; [present] is RANAP_Cause_PR (1
   radioNetwork ... 6 non_Standard), [v] the long in the union *)
Definition ranap_cause_str (present : N) (v : Z) : string :=
  match present with
  | 1%N => call 128 "radio" ranap_cause_radio_vals v
  | 2%N => call 128 "transmission" ranap_cause_transm_vals v
  | 3%N => call 128 "nas" ranap_cause_nas_vals v
  | 4%N => call 128 "protocol" ranap_cause_prot_vals v
  | 5%N => call 128 "misc" ranap_cause_misc_vals v
  | 6%N => snprintf 128 ("non-standard(" ++ dec v ++ ")")
  | _ => "unknown"
  end.
(* rua_cause_str rua_common.c:70-100 *)
Definition rua_cause_str (present : N) (v : Z) : string :=
  match present with
  | 1%N => call 32 "radio" rua_cause_radio_vals v
  | 2%N => call 32 "transport" rua_cause_transp_vals v
  | 3%N => call 32 "protocol" rua_cause_prot_vals v
  | 4%N => call 32 "misc" rua_cause_misc_vals v
  | _ => "unknown"
  end.
(* hnbap_cause_str hnbap_common.c:81-111; [prev] is the content of the static buffer
   before the call, which other values of present leave as it is *)
Definition hnbap_cause_str (prev : string) (present : N) (v : Z) : string :=
  match present with
  | 0%N => snprintf 32 "NOTHING"
  | 1%N => call 32 "radio" hnbap_cause_radio_vals v
  | 2%N => call 32 "transport" hnbap_cause_transp_vals v
  | 3%N => call 32 "protocol" hnbap_cause_prot_vals v
  | 4%N => call 32 "misc" hnbap_cause_misc_vals v
  | _ => prev
  end.
(* the table each class is looked up in *)
(* ranap_common.c:251-290 *)
Definition ranap_table (present : N) : list (Z * string) :=
  match present with
  | 1%N => ranap_cause_radio_vals | 2%N => ranap_cause_transm_vals | 3%N => ranap_cause_nas_vals
  | 4%N => ranap_cause_prot_vals | 5%N => ranap_cause_misc_vals | _ => []
  end.
(* rua_common.c:70-100 *)
Definition rua_table (present : N) : list (Z * string) :=
  match present with
  | 1%N => rua_cause_radio_vals | 2%N => rua_cause_transp_vals | 3%N => rua_cause_prot_vals | 4%N => rua_cause_misc_vals | _ => []
  end.
(* hnbap_common.c:81-111 *)
Definition hnbap_table (present : N) : list (Z * string) :=
  match present with
  | 1%N => hnbap_cause_radio_vals | 2%N => hnbap_cause_transp_vals | 3%N => hnbap_cause_prot_vals | 4%N => hnbap_cause_misc_vals | _ => []
  end.
