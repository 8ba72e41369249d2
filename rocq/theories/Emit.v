(* What asn1/utils/asn1tostruct.py writes for the tables it has read, as C code in which
   everything is referred to by name, and what such code does.
   Simplifications: only the parts of the code that act are kept, not logging, assertions and XER
   output; sets that are used as lists (ieofielist, asn1tostruct.py:136-139) are left out, the
   files of the repository have none (C97); the sum of octets a decoder returns is not kept, only
   whether it is negative. *)
From Verif Require Import Base Aper Container Regex Generator Naming.
From Coq Require Import String.
Local Open Scope list_scope.

(* ---------------- the text ---------------- *)
(* str.upper, asn1tostruct.py:102, 184 *)
Definition upper_text (t : text) : text := map (fun c => if small c then (c - 32)%N else c) t.
(* equality of tuples, asn1tostruct.py:89 *)
Definition found_eqb (a b : found) : bool :=
  teq (f_id a) (f_id b) && teq (f_crit a) (f_crit b) && teq (f_type a) (f_type b) && teq (f_pres a) (f_pres b).
(* getUniqueIENameForDefine, asn1tostruct.py:82-103; None: the assertion of line 93 fails *)
Definition unique_name (ies : list found) (ie : found) : option text :=
  let others := filter (fun o => negb (found_eqb o ie)) ies in
  if existsb (fun o => teq (f_id o) (f_id ie)) others then None
  else Some (under (upper_text (if existsb (fun o => teq (f_type o) (f_type ie)) others then f_id ie else f_type ie))).
(* the macro for the flag of an IE, asn1tostruct.py:195; its uses: 364, 413-414, 508-509 *)
Definition flag_macro (prefix key : text) (name : text) : text :=
  under (upper_text key) ++ codes "_" ++ prefix ++ name ++ codes "_PRESENT".
(* asn1tostruct.py:194 *)
Definition marked (ie : found) : bool := teq (f_pres ie) (codes "optional") || teq (f_pres ie) (codes "conditional").
(* asn1tostruct.py:363, 408, 503 *)
Definition not_mandatory (ie : found) : bool := negb (teq (f_pres ie) (codes "mandatory")).

(* asn_DEF_TYPE, asn1tostruct.py:339, 365, 419, 512, 526 *)
Definition desc_name (prefix ty : text) : text := codes "asn_DEF_" ++ prefix ++ under ty.
(* asn_DEF of the message, asn1tostruct.py:316, 339 *)
Definition message_desc (prefix key : text) : text := codes "asn_DEF_" ++ prefix ++ sub "Item" "List" (message_key key).

(* #define NAME (1 << n), asn1tostruct.py:191-197 *)
Fixpoint macros_of (prefix key : text) (all ies : list found) (shift : N) : option (list (text * N)) :=
  match ies with
  | [] => Some []
  | ie :: r =>
      opt u <- unique_name all ie ;;
      if marked ie then opt ms <- macros_of prefix key all r (shift + 1)%N ;; Some ((flag_macro prefix key u, 2 ^ shift)%N :: ms)
      else macros_of prefix key all r shift
  end.
(* a structure: whether it has a mask, and type and name of its other members, asn1tostruct.py:201-218 *)
Record struct_c := mkStruct { sc_name : text; sc_mask : bool; sc_members : list (text * text) }.
(* asn1tostruct.py:201-218 *)
Definition struct_text (prefix key : text) (ies : list found) : struct_c :=
  mkStruct (struct_type prefix key) (existsb marked ies)
    (map (fun ie => (type_name prefix (f_type ie), member (f_id ie))) ies).
(* the members as they are declared, asn1tostruct.py:202-217 *)
Definition declared (St : struct_c) : list (text * text) :=
  (if sc_mask St then [(codes "uint16_t", codes "presenceMask")] else []) ++ sc_members St.

(* case LABEL: { TYPE_t *p = NULL; s->presenceMask |= FLAG; ANY_to_type_aper(&ie_p->value, &DESC, &p);
   memcpy(&s->MEMBER, p, sizeof(TYPE_t)); } break; asn1tostruct.py:348-380 *)
Record case_c := mkCase { k_label : text; k_flag : option text; k_type : text; k_desc : text; k_member : text }.
(* the function: its name, the structure it fills, the type of the message and its descriptor, the
   member of the message that is the list, the type of its elements; asn1tostruct.py:322-391 *)
Record decoder_c := mkDecoder { dc_name : text; dc_struct : text; dc_message : text; dc_desc : text; dc_list : text; dc_element : text; dc_cases : list case_c }.
(* asn1tostruct.py:505-534: if ((s->presenceMask & FLAG) == FLAG) { ie = new_ie(ID, CRIT, &DESC, &s->MEMBER) ... } *)
Record step_c := mkStep { p_flag : option text; p_id : text; p_crit : text; p_desc : text; p_member : text }.
(* asn1tostruct.py:491-538 *)
Record encoder_c := mkEncoder { ec_name : text; ec_struct : text; ec_message : text; ec_list : text; ec_element : text; ec_steps : list step_c }.
(* asn1tostruct.py:408-419: if ((s->presenceMask & FLAG) == FLAG) ASN_STRUCT_FREE_CONTENTS_ONLY(DESC, &s->MEMBER) *)
Record drop_c := mkDrop { q_flag : option text; q_desc : text; q_member : text }.
(* asn1tostruct.py:401-422 *)
Record free_c := mkFree { fc_name : text; fc_struct : text; fc_drops : list drop_c }.
(* asn1tostruct.py:354-378 *)
Fixpoint each {A} (f : found -> option text -> A) (prefix key : text) (all ies : list found) : option (list A) :=
  match ies with
  | [] => Some []
  | ie :: r =>
      opt u <- unique_name all ie ;;
      opt rest <- each f prefix key all r ;;
      Some (f ie (if not_mandatory ie then Some (flag_macro prefix key u) else None) :: rest)
  end.
(* asn1tostruct.py:348-380 *)
Definition case_text (prefix : text) (ie : found) (flag : option text) : case_c :=
  mkCase (id_constant prefix (f_id ie)) flag (type_name prefix (f_type ie)) (desc_name prefix (f_type ie)) (member (f_id ie)).
(* asn1tostruct.py:322-391 *)
Definition decoder_text (prefix file key : text) (ies : list found) : option decoder_c :=
  opt cases <- each (case_text prefix) prefix key ies ies ;;
  Some (mkDecoder (decode_defined file key) (struct_type prefix key) (message_type prefix key) (message_desc prefix key) (list_member key) (element_type prefix) cases).
(* asn1tostruct.py:497-534 *)
Definition step_text (prefix : text) (ie : found) (flag : option text) : step_c :=
  mkStep flag (id_constant prefix (f_id ie)) (criticality_constant prefix (f_crit ie)) (desc_name prefix (f_type ie)) (member (f_id ie)).
(* asn1tostruct.py:491-538 *)
Definition encoder_text (prefix file key : text) (ies : list found) : option encoder_c :=
  opt steps <- each (step_text prefix) prefix key ies ies ;;
  Some (mkEncoder (encode_name file key) (struct_type prefix key) (message_type prefix key) (list_member key) (element_type prefix) steps).
(* asn1tostruct.py:405-419 *)
Definition drop_text (prefix : text) (ie : found) (flag : option text) : drop_c := mkDrop flag (desc_name prefix (f_type ie)) (member (f_id ie)).
(* asn1tostruct.py:401-422 *)
Definition free_text (prefix file key : text) (ies : list found) : option free_c :=
  opt drops <- each (drop_text prefix) prefix key ies ies ;;
  Some (mkFree (free_name file key) (struct_type prefix key) drops).

(* Sets without IEs are passed over, lines 188-189 and the like; the tables have none, line 156. *)
(* all that is written: the macros and structures of the header and the functions of the three
   kinds, asn1tostruct.py:183-538 *)
Record code := mkCode {
  cd_macros : list (text * N); cd_structs : list struct_c;
  cd_decoders : list decoder_c; cd_encoders : list encoder_c; cd_frees : list free_c }.
(* asn1tostruct.py:183-218, 305-391, 391-422, 471-538 *)
Fixpoint write_code (prefix file : text) (defs : list (text * list found)) : option code :=
  match defs with
  | [] => Some (mkCode [] [] [] [] [])
  | (key, ies) :: r =>
      opt ms <- macros_of prefix key ies ies 0 ;;
      opt d <- decoder_text prefix file key ies ;;
      opt e <- encoder_text prefix file key ies ;;
      opt f <- free_text prefix file key ies ;;
      opt c <- write_code prefix file r ;;
      Some (mkCode (ms ++ cd_macros c) (struct_text prefix key ies :: cd_structs c) (d :: cd_decoders c) (e :: cd_encoders c) (f :: cd_frees c))
  end.
(* the whole script: -p PREFIX -f FILE, asn1tostruct.py:105-538; what it writes for sets that are
   used as lists is not modelled, so None then *)
Definition script (prefix : text) (files : list (list text)) : option code :=
  opt T <- generate_tables files ;;
  match t_lists T with [] => write_code prefix (t_prefix T) (t_defs T) | _ => None end.

(* ---------------- names are looked up: the C compiler ---------------- *)
(* what the headers of asn1c define: types with the names of their descriptors and what they
   describe, lists in types (type, member, type of the elements), and constants.  include/osmocom/{ranap,rua,hnbap,sabp}/*.h *)
Record headers := mkHeaders {
  h_types : list (text * (text * ty)); h_lists : list (text * text * text); h_ids : list (text * N); h_crits : list (text * Z) }.
(* vocabulary: the declaration of a name *)
Fixpoint named_in {A} (t : text) (l : list (text * A)) : option A :=
  match l with [] => None | (n, a) :: r => if teq n t then Some a else named_in t r end.
(* vocabulary: a macro; the last definition counts *)
Fixpoint macro_value (t : text) (l : list (text * N)) : option N :=
  match l with
  | [] => None
  | (n, v) :: r => match macro_value t r with Some w => Some w | None => if teq n t then Some v else None end
  end.
(* vocabulary: the list of a type of asn1c has this name and these elements *)
Definition is_list (H : headers) (t l e : text) : bool :=
  existsb (fun x => teq (fst (fst x)) t && teq (snd (fst x)) l && teq (snd x) e) (h_lists H).
(* a value of the type is read or written by the descriptor: they belong together *)
(* asn1tostruct.py:327 and 339, 362 and 365 *)
Definition described (H : headers) (t d : text) : option ty :=
  opt x <- named_in t (h_types H) ;; if teq (fst x) d then Some (snd x) else None.
(* the use of a flag: the macro exists and the structure has a mask *)
(* asn1tostruct.py:364, 413, 508 *)
Definition flag_value (C : code) (St : struct_c) (f : option text) : option (option N) :=
  match f with
  | None => Some None
  | Some n =>
      opt v <- macro_value n (cd_macros C) ;;
      match filter (fun d => teq (snd d) (codes "presenceMask")) (declared St) with
      | [(t, _)] => if teq t (codes "uint16_t") then Some (Some v) else None
      | _ => None
      end
  end.
(* the use of a member as one of this type: it is declared once, with this type *)
(* asn1tostruct.py:378 *)
Definition has_member (St : struct_c) (n t : text) : bool :=
  match filter (fun d => teq (snd d) n) (declared St) with [(t', _)] => teq t' t | _ => false end.
(* the use of a member with this descriptor, asn1tostruct.py:419, 513, 528 *)
Definition member_desc (H : headers) (St : struct_c) (n d : text) : option ty :=
  match filter (fun x => teq (snd x) n) (declared St) with [(t, _)] => described H t d | _ => None end.
(* vocabulary: the definition of a structure *)
Definition struct_named (C : code) (n : text) : option struct_c :=
  match filter (fun s => teq (sc_name s) n) (cd_structs C) with [s] => Some s | _ => None end.

(* the functions as compiled *)
(* asn1tostruct.py:348-380 *)
Record case_x := mkCaseX { x_label : N; x_or : option N; x_desc : ty; x_member : text }.
(* asn1tostruct.py:322-391 *)
Record decoder_x := mkDecoderX { x_message : ty; x_members : list text; x_cases : list case_x }.
(* asn1tostruct.py:497-534 *)
Record step_x := mkStepX { y_flag : option N; y_id : N; y_crit : Z; y_desc : ty; y_member : text }.
(* asn1tostruct.py:405-419 *)
Record drop_x := mkDropX { z_flag : option N; z_member : text }.
(* vocabulary: each of a list *)
Fixpoint all_some {A B} (f : A -> option B) (l : list A) : option (list B) :=
  match l with [] => Some [] | a :: r => opt b <- f a ;; opt rest <- all_some f r ;; Some (b :: rest) end.
(* vocabulary: no label occurs twice in a switch statement *)
Fixpoint labels_differ (l : list N) : bool := match l with [] => true | a :: r => negb (existsb (N.eqb a) r) && labels_differ r end.
(* asn1tostruct.py:348-380 *)
Definition compile_case (H : headers) (C : code) (St : struct_c) (k : case_c) : option case_x :=
  opt n <- named_in (k_label k) (h_ids H) ;;
  opt f <- flag_value C St (k_flag k) ;;
  opt t <- described H (k_type k) (k_desc k) ;;
  if has_member St (k_member k) (k_type k) then Some (mkCaseX n f t (k_member k)) else None.
(* asn1tostruct.py:322-391 *)
Definition compile_decoder (H : headers) (C : code) (d : decoder_c) : option decoder_x :=
  opt St <- struct_named C (dc_struct d) ;;
  opt t <- described H (dc_message d) (dc_desc d) ;;
  opt cases <- all_some (compile_case H C St) (dc_cases d) ;;
  if is_list H (dc_message d) (dc_list d) (dc_element d) && labels_differ (map x_label cases)
  then Some (mkDecoderX t (map snd (sc_members St)) cases) else None.
(* asn1tostruct.py:497-534 *)
Definition compile_step (H : headers) (C : code) (St : struct_c) (p : step_c) : option step_x :=
  opt f <- flag_value C St (p_flag p) ;;
  opt n <- named_in (p_id p) (h_ids H) ;;
  opt c <- named_in (p_crit p) (h_crits H) ;;
  opt t <- member_desc H St (p_member p) (p_desc p) ;;
  Some (mkStepX f n c t (p_member p)).
(* asn1tostruct.py:491-538 *)
Definition compile_encoder (H : headers) (C : code) (e : encoder_c) : option (list step_x) :=
  opt St <- struct_named C (ec_struct e) ;;
  opt t <- named_in (ec_message e) (h_types H) ;;
  if is_list H (ec_message e) (ec_list e) (ec_element e) then all_some (compile_step H C St) (ec_steps e) else None.
(* asn1tostruct.py:405-419 *)
Definition compile_drop (H : headers) (C : code) (St : struct_c) (q : drop_c) : option drop_x :=
  opt f <- flag_value C St (q_flag q) ;;
  opt t <- member_desc H St (q_member q) (q_desc q) ;;
  Some (mkDropX f (q_member q)).
(* asn1tostruct.py:401-422 *)
Definition compile_free (H : headers) (C : code) (f : free_c) : option (list drop_x) :=
  opt St <- struct_named C (fc_struct f) ;; all_some (compile_drop H C St) (fc_drops f).
(* the function of a name: the linker; it must be defined once *)
(* vocabulary: the definition that a call such as ranap_common_cn.c:46 reaches *)
Definition decoder_named (H : headers) (C : code) (n : text) : option decoder_x :=
  match filter (fun d => teq (dc_name d) n) (cd_decoders C) with [d] => compile_decoder H C d | _ => None end.
(* vocabulary: the definition that a call such as ranap_msg_factory.c:73 reaches *)
Definition encoder_named (H : headers) (C : code) (n : text) : option (list step_x) :=
  match filter (fun d => teq (ec_name d) n) (cd_encoders C) with [d] => compile_encoder H C d | _ => None end.
(* vocabulary: the definition that a call such as iu_client.c:640 reaches *)
Definition free_named (H : headers) (C : code) (n : text) : option (list drop_x) :=
  match filter (fun d => teq (fc_name d) n) (cd_frees C) with [d] => compile_free H C d | _ => None end.

(* ---------------- what the code does ---------------- *)
(* the structure in memory: the mask, 0 if there is none, and the members; None: all zero *)
(* asn1tostruct.py:201-218 *)
Record object := mkObject { o_mask : N; o_members : list (text * option val) }.
(* vocabulary: read and write a member *)
Definition load (o : object) (n : text) : option val := match named_in n (o_members o) with Some v => v | None => None end.
(* asn1tostruct.py:378 *)
Definition store (o : object) (n : text) (v : option val) : object :=
  mkObject (o_mask o) (map (fun x => if teq (fst x) n then (fst x, v) else x) (o_members o)).
(* p->presenceMask |= FLAG on a uint16_t, asn1tostruct.py:364 *)
Definition or_mask (o : object) (f : option N) : object :=
  match f with Some v => mkObject (N.land (N.lor (o_mask o) v) 65535) (o_members o) | None => o end.
(* (p->presenceMask & FLAG) == FLAG, asn1tostruct.py:413-414, 508-509 *)
Definition test_mask (o : object) (f : option N) : bool :=
  match f with Some v => (N.land (o_mask o) v =? v)%N | None => true end.
(* switch(ie_p->id), asn1tostruct.py:348 *)
Definition select (id : N) (cases : list case_x) : option case_x := List.find (fun c => (x_label c =? id)%N) cases.
(* asn1tostruct.py:345-391: result, structure and what was overwritten *)
Fixpoint run_cases (cases : list case_x) (o : object) (lost : list val) (l : list val) : bool * object * list val :=
  match l with
  | [] => (true, o, lost)
  | ie :: rest =>
      match ie_parts ie with
      | None => (false, o, lost)
      | Some (id, octets) =>
          match select id cases with
          | None => (false, o, lost)
          | Some c =>
              let o := or_mask o (x_or c) in
              match decode (x_desc c) octets with
              | None => (false, o, lost)
              | Some v =>
                  run_cases cases (store o (x_member c) (Some v))
                    (match load o (x_member c) with Some w => lost ++ [w] | None => lost end) rest
              end
          end
      end
  end.
(* asn1tostruct.py:322-391 *)
Definition run_decoder (d : decoder_x) (octets : list N) : bool * object * list val :=
  let zero := mkObject 0 (map (fun n => (n, None)) (x_members d)) in
  match decode (x_message d) octets with
  | Some (VSeq [Some (VList l)] _) => run_cases (x_cases d) zero [] l
  | _ => (false, zero, [])
  end.
(* asn1tostruct.py:497-535; new_ie: ranap_common.c:426-455 and the like *)
Fixpoint run_steps (steps : list step_x) (o : object) : option (list val) :=
  match steps with
  | [] => Some []
  | p :: r =>
      if test_mask o (y_flag p) then
        match load o (y_member p) with
        | Some v =>
            match encode (y_desc p) v with
            | Some octets =>
                opt rest <- run_steps r o ;;
                Some (VSeq [Some (VInt (Z.of_N (y_id p))); Some (VEnum (y_crit p)); Some (VOcts octets)] [] :: rest)
            | None => None
            end
        | None => None
        end
      else run_steps r o
  end.
(* asn1tostruct.py:491-538 *)
Definition run_encoder (steps : list step_x) (o : object) : option val :=
  opt l <- run_steps steps o ;; Some (VSeq [Some (VList l)] []).
(* asn1tostruct.py:405-419: the contents that are released *)
Definition run_free (drops : list drop_x) (o : object) : list val :=
  flat_map (fun q => if test_mask o (z_flag q) then match load o (z_member q) with Some v => [v] | None => [] end else []) drops.
