(* What is required of the names in generated code: the lexical rules of C, and what belongs
   together. *)
From Verif Require Import Base Aper Container Generator_spec Naming RanapTab RuaTab HnbapTab SabpTab AllTypes DispatchTab UsedNames.
From Coq Require Import String.
Local Open Scope list_scope.
Local Open Scope nat_scope.

(* ---------------- C ---------------- *)
Definition is_small (c : N) : bool := ((97 <=? c) && (c <=? 122))%N.
Definition is_c_letter (c : N) : bool := is_capital c || is_small c || (c =? 95)%N.
Definition is_c_char (c : N) : bool := is_c_letter c || ((48 <=? c) && (c <=? 57))%N.
(* the keywords of C11 *)
Definition keywords : list string :=
  ["auto"; "break"; "case"; "char"; "const"; "continue"; "default"; "do"; "double"; "else"; "enum"; "extern"; "float"; "for";
   "goto"; "if"; "inline"; "int"; "long"; "register"; "restrict"; "return"; "short"; "signed"; "sizeof"; "static"; "struct";
   "switch"; "typedef"; "union"; "unsigned"; "void"; "volatile"; "while"; "_Alignas"; "_Alignof"; "_Atomic"; "_Bool";
   "_Complex"; "_Generic"; "_Imaginary"; "_Noreturn"; "_Static_assert"; "_Thread_local"]%string.
Definition identifier (t : list N) : Prop :=
  (exists c r, t = c :: r /\ is_c_letter c = true /\ forallb is_c_char r = true) /\ ~ In t (map chars keywords).

(* ---------------- names made from names ---------------- *)
Definition contains (s t : list N) : Prop := exists a b, t = a ++ s ++ b.
Definition to_small (c : N) : N := if is_capital c then (c + 32)%N else c.
Definition hyphen_out (c : N) : N := if (c =? 45)%N then 95%N else c.
(* the same name but for capitals and hyphens *)
Definition alike (x y : list N) : Prop := map to_small (map hyphen_out x) = map to_small (map hyphen_out y).
(* [v] is [w] with its first word in small letters: XMLInfoTest and xmlInfoTest; a word without
   small letters is one word *)
Definition first_word_small (w v : list N) : Prop :=
  (forall c, In c w -> is_small c = false) /\ v = map to_small w \/
  (exists c, In c w /\ is_small c = true) /\
  exists capitals rest, w = capitals ++ rest /\ forallb is_capital capitals = true /\
    match rest with c :: _ => is_capital c = false | [] => True end /\
    (List.length capitals <= 1 /\ v = map to_small capitals ++ rest \/
     exists first c, capitals = first ++ [c] /\ first <> [] /\ v = map to_small first ++ c :: rest).

(* ---------------- the interface of the repository ---------------- *)
(* the beginning of the functions' names, the messages, and what asn1c generated: types,
   lists, numbers of IEs and criticalities *)
Record interface := mkInterface {
  if_file : string; if_prefix : string; if_msgs : list msgdef;
  if_types : list string; if_lists : list (string * string * string); if_ids : list (string * N); if_crits : list (string * Z) }.
Definition ranap_interface : interface := mkInterface "ranap" "RANAP_" ranap_msgs UsedNames.ranap_types ranap_lists ranap_ids ranap_criticalities.
Definition interfaces : list interface :=
  [ranap_interface;
   mkInterface "rua" "RUA_" rua_msgs UsedNames.rua_types rua_lists rua_ids rua_criticalities;
   mkInterface "hnbap" "HNBAP_" hnbap_msgs UsedNames.hnbap_types hnbap_lists hnbap_ids hnbap_criticalities;
   mkInterface "sabp" "SABP_" sabp_msgs UsedNames.sabp_types sabp_lists sabp_ids sabp_criticalities].
Definition key (m : msgdef) : list N := chars (m_key m).
Definition member_of (r : row) : list N := member (chars (r_ie r)).
Definition struct_of (I : interface) (m : msgdef) : list N := struct_type (chars (if_prefix I)) (key m).
Inductive kind := Decode | Encode | Free.
Definition function_of (I : interface) (k : kind) (m : msgdef) : list N :=
  match k with
  | Decode => decode_defined (chars (if_file I)) (key m)
  | Encode => encode_name (chars (if_file I)) (key m)
  | Free => free_name (chars (if_file I)) (key m)
  end.
Definition functions (I : interface) : list (list N) := flat_map (fun m => map (fun k => function_of I k m) [Decode; Encode; Free]) (if_msgs I).
Definition criticality_of (c : Z) : string := if (c =? 0)%Z then "reject" else if (c =? 1)%Z then "ignore" else "notify".
(* the other names in the functions that are written *)
Definition mask : list N := chars "presenceMask".
(* the members of the structure: the mask is there only if it is needed *)
Definition members (m : msgdef) : list (list N) := (if existsb is_opt (m_rows m) then [mask] else []) ++ map member_of (m_rows m).
Definition decoder_locals : list (list N) := map chars ["i"; "decoded"; "tempDecoded"; "rc"; "any_p"; "ie_p"]%string.

(* the switch statements of the receive paths as the model has them *)
Definition paths : list (string * kind * list (N * msgdef)) :=
  [("cn_ranap_rx_initiating_msg_co", Decode, cn_ranap_rx_initiating_msg_co); ("cn_ranap_free_initiating_msg_co", Free, cn_ranap_free_initiating_msg_co);
   ("cn_ranap_rx_successful_msg_co", Decode, cn_ranap_rx_successful_msg_co); ("cn_ranap_free_successful_msg_co", Free, cn_ranap_free_successful_msg_co);
   ("cn_ranap_rx_outcome_msg_co", Decode, cn_ranap_rx_outcome_msg_co); ("cn_ranap_free_outcome_msg_co", Free, cn_ranap_free_outcome_msg_co);
   ("cn_ranap_rx_unsuccessful_msg_co", Decode, cn_ranap_rx_unsuccessful_msg_co); ("cn_ranap_free_unsuccessful_msg_co", Free, cn_ranap_free_unsuccessful_msg_co);
   ("cn_ranap_rx_initiating_msg_cl", Decode, cn_ranap_rx_initiating_msg_cl); ("cn_ranap_free_initiating_msg_cl", Free, cn_ranap_free_initiating_msg_cl);
   ("cn_ranap_rx_successful_msg_cl", Decode, cn_ranap_rx_successful_msg_cl); ("cn_ranap_free_successful_msg_cl", Free, cn_ranap_free_successful_msg_cl);
   ("ran_ranap_rx_initiating_msg_co", Decode, ran_ranap_rx_initiating_msg_co); ("ran_ranap_free_initiating_msg_co", Free, ran_ranap_free_initiating_msg_co);
   ("ran_ranap_rx_successful_msg_co", Decode, ran_ranap_rx_successful_msg_co); ("ran_ranap_free_successful_msg_co", Free, ran_ranap_free_successful_msg_co);
   ("ran_ranap_rx_unsuccessful_msg_co", Decode, ran_ranap_rx_unsuccessful_msg_co); ("ran_ranap_free_unsuccessful_msg_co", Free, ran_ranap_free_unsuccessful_msg_co)]%string.
(* a case of such a statement: the procedure with its number, the function called, and the
   member of the union of all messages *)
Definition same_case (k : kind) (e : N * msgdef) (c : string * string * string) : Prop :=
  let '(procedure, f, u) := c in
  In (procedure, fst e) ranap_procedures_c /\ chars f = function_of ranap_interface k (snd e) /\ chars u = union_member (key (snd e)).
