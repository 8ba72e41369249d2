(* The names in the C code that asn1/utils/asn1tostruct.py writes for the tables it has read
   (Generator.v).  What the functions of these names do is modelled in Container.v. *)
From Verif Require Import Base Regex Generator.
From Coq Require Import String.
Local Open Scope nat_scope.

(* re.sub with an expression that is just characters: from left to right *)
(* asn1tostruct.py:102, 205-207, 233, 240-244, 308-316, 475-478 *)
Fixpoint starts (s t : text) : bool :=
  match s, t with
  | [], _ => true
  | a :: s', b :: t' => (a =? b)%N && starts s' t'
  | _ :: _, [] => false
  end.
(* asn1tostruct.py:102, 205-207, 233, 240-244, 308-316, 475-478 *)
Fixpoint sub_from (pat rep : text) (skip : nat) (t : text) : text :=
  match t with
  | [] => []
  | c :: r =>
      match skip with
      | S k => sub_from pat rep k r
      | O => if starts pat t then rep ++ sub_from pat rep (pred (List.length pat)) r else c :: sub_from pat rep O r
      end
  end.
(* asn1tostruct.py:102, 205-207, 233, 240-244, 308-316, 475-478 *)
Definition sub (pat rep : string) (t : text) : text := sub_from (codes pat) (codes rep) O t.
(* re.sub('-', '_', ...), asn1tostruct.py:102 and throughout *)
Definition under (t : text) : text := sub "-" "_" t.

(* str.swapcase, asn1tostruct.py:50 *)
Definition swapcase (t : text) : text :=
  map (fun c => if capital c then (c + 32)%N else if small c then (c - 32)%N else c) t.
(* str.islower of one character in the loop of asn1tostruct.py:59-64: how many there are *)
Fixpoint leading (t : text) : nat := match t with c :: r => if small c then S (leading r) else 0 | [] => 0 end.
(* lowerFirstCamelWord, asn1tostruct.py:44-70 *)
Definition lower_first (word : text) : text :=
  let swapped := swapcase word in
  let lowered := lower word in
  if teq swapped lowered then lowered
  else
    let idx := leading swapped in
    let new := firstn idx swapped in
    if idx <? 2 then new ++ skipn idx word
    else removelast new ++ skipn (idx - 1) word.

(* ---------------- the header, asn1tostruct.py:165-287 ---------------- *)
(* the member for an IE of the structure of a message, asn1tostruct.py:206-211; the same name
   in the functions: 350-351, 417-418, 498-500 *)
Definition member (ie : text) : text := lower_first (under (sub "id-" "" ie)).
(* the type of this member, asn1tostruct.py:205, 211; its descriptor: 365, 419, 512, 526 *)
Definition type_name (prefix ty : text) : text := prefix ++ under ty ++ codes "_t".
(* the structure of a message, asn1tostruct.py:218 *)
Definition struct_type (prefix key : text) : text := prefix ++ under key ++ codes "_t".
(* its member of the union of all messages, asn1tostruct.py:233 *)
Definition union_member (key : text) : text := lower_first (under key).
(* asn1tostruct.py:240, 291, 308, 396, 475 structName *)
Definition struct_key (key : text) : text := sub "ies" "" key.
(* asn1tostruct.py:243, 250: the decoder as it is declared *)
Definition decode_declared (file key : text) : text := file ++ codes "_decode_" ++ under (lower key).
(* asn1tostruct.py:322: the decoder as it is defined *)
Definition decode_defined (file key : text) : text := file ++ codes "_decode_" ++ under (lower (struct_key key)).
(* asn1tostruct.py:263, 491, the same name in both files *)
Definition encode_name (file key : text) : text := file ++ codes "_encode_" ++ under (lower (struct_key key)).
(* asn1tostruct.py:296, 401 *)
Definition free_name (file key : text) : text := file ++ codes "_free_" ++ under (lower (struct_key key)).

(* ---------------- names that must exist elsewhere ---------------- *)
(* asn1tostruct.py:309, 476 *)
Definition message_key (key : text) : text := under (sub "IEs" "" (sub "-IEs" "" key)).
(* the message in the files of asn1c, asn1tostruct.py:316, 478; used in 327, 339, 389, 492 *)
Definition message_type (prefix key : text) : text := prefix ++ sub "Item" "List" (message_key key) ++ codes "_t".
(* the list of IEs in it, asn1tostruct.py:315, 318-320, 477, 481-483; used in 345, 347, 516, 533 *)
Definition list_member (key : text) : text := sub "Item" "List" (sub "enb" "eNB" (lower_first (message_key key))) ++ codes "_ies".
(* the elements of the list, asn1tostruct.py:346, 495 *)
Definition element_type (prefix : text) : text := prefix ++ codes "IE_t".
(* the number of an IE, asn1tostruct.py:360, 510, 524 *)
Definition id_constant (prefix ie : text) : text := prefix ++ codes "ProtocolIE_ID_" ++ under ie.
(* its criticality, asn1tostruct.py:511, 525 *)
Definition criticality_constant (prefix crit : text) : text := prefix ++ codes "Criticality_" ++ crit.
(* ---------------- inside of the functions ---------------- *)
(* the parameter for the structure, asn1tostruct.py:324, 403, 493 *)
Definition ies_parameter (key : text) : text := lower_first (under key).
(* the parameter for the message, asn1tostruct.py:477, 492 *)
Definition message_parameter (key : text) : text := sub "Item" "List" (sub "enb" "eNB" (lower_first (message_key key))).
(* the message in the decoder, asn1tostruct.py:312, 327; [:1].lower() *)
Definition message_variable (key : text) : text :=
  match message_key key with [] => [] | c :: r => lower [c] ++ r end ++ codes "_p".
(* a value in the decoder, asn1tostruct.py:353, 362 *)
Definition value_variable (prefix ty : text) : text := lower_first (prefix ++ sub "-" "" ty) ++ codes "_p".
