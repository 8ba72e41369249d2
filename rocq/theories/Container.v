(* The IE container code that asn1/utils/asn1tostruct.py generates for every
   message type (the generated C is not in the repository; what is modelled is
   the text the script emits).
   Simplifications: a field of the C structure that was never filled (zeroed by
   memset) is [None], and encoding such a field is taken to fail; debug output
   and XER printing are left out; `decoded' (the return value on success) is 0
   because ANY_to_type_aper returns 0 on success. *)
From Verif Require Import Base Aper.
From Coq Require Import String Ascii.
Local Open Scope nat_scope.
Local Open Scope list_scope.

(* asn1tostruct.py:150, the fourth component *)
Inductive presence := Mandatory | Optional | Conditional.
(* one tuple (ID, CRITICALITY, TYPE, PRESENCE), asn1tostruct.py:150-154, with the
   number and the descriptor that its generated names denote *)
Record row := mkRow {
  r_ie : string; r_id : N; r_crit : Z; r_tyname : string; r_ty : ty; r_pres : presence }.
(* asn1tostruct.py:141-157 iesDefs *)
Record msgdef := mkMsg {
  m_prefix : string;      (* -p option *)
  m_key : string;         (* name of the object set *)
  m_cont : ty;            (* asn_DEF of the message body *)
  m_rows : list row }.

(* asn1tostruct.py:194, 363, 408, 503 *)
Definition is_opt (r : row) : bool := match r_pres r with Mandatory => false | _ => true end.

(* ---------------- presence flags ---------------- *)
(* str.upper and re.sub('-', '_', ...) on one character *)
(* asn1tostruct.py:102 *)
Definition up (c : ascii) : ascii :=
  let n := nat_of_ascii c in
  if (97 <=? n) && (n <=? 122) then ascii_of_nat (n - 32)
  else if (n =? 45) then ascii_of_nat 95 else c.
(* asn1tostruct.py:102 *)
Fixpoint upper (s : string) : string :=
  match s with EmptyString => EmptyString | String c r => String (up c) (upper r) end.
(* asn1tostruct.py:89, one of the four components *)
Definition pres_eqb (a b : presence) : bool :=
  match a, b with Mandatory, Mandatory | Optional, Optional | Conditional, Conditional => true | _, _ => false end.
(* equality of the four-tuples *)
(* asn1tostruct.py:89 *)
Definition row_eqb (a b : row) : bool :=
  (String.eqb (r_ie a) (r_ie b) && (r_crit a =? r_crit b)%Z && String.eqb (r_tyname a) (r_tyname b) &&
   pres_eqb (r_pres a) (r_pres b))%bool.
(* getUniqueIENameForDefine, asn1tostruct.py:82-103: the type, or the IE's own
   name if another IE of the message has the same type *)
Definition flag_name (rows : list row) (r : row) : string :=
  if existsb (fun o => negb (row_eqb o r) && String.eqb (r_tyname o) (r_tyname r)) rows
  then upper (r_ie r) else upper (r_tyname r).
(* asn1tostruct.py:191-197: #define KEY_PREFIX+NAME_PRESENT (1 << shift) *)
Definition flag_define (m : msgdef) (r : row) : string :=
  (upper (m_key m) ++ "_" ++ m_prefix m ++ flag_name (m_rows m) r ++ "_PRESENT")%string.
(* asn1tostruct.py:191-197 *)
Fixpoint defines (m : msgdef) (rows : list row) (shift : N) : list (string * N) :=
  match rows with
  | [] => []
  | r :: rs => if is_opt r then (flag_define m r, 2 ^ shift)%N :: defines m rs (shift + 1) else defines m rs shift
  end.
(* value of the macro: of several definitions of one name the last counts *)
(* the value of a macro written by asn1tostruct.py:195 *)
Definition flag (m : msgdef) (r : row) : N :=
  fold_left (fun acc d => if String.eqb (fst d) (flag_define m r) then snd d else acc)
    (defines m (m_rows m) 0) 0%N.

(* ---------------- the C structure ---------------- *)
(* asn1tostruct.py:201-218 *)
Record ies := mkIes { i_mask : N; i_fields : list (option val) }.
(* memset(p, 0, sizeof) *)
(* asn1tostruct.py:336 *)
Definition zero_ies (m : msgdef) : ies := mkIes 0 (map (fun _ => None) (m_rows m)).
(* (p->presenceMask & FLAG) == FLAG *)
(* asn1tostruct.py:413-414, 508-509 *)
Definition has_flag (m : msgdef) (s : ies) (r : row) : bool := (N.land (i_mask s) (flag m r) =? flag m r)%N.
(* the field is looked at by the generated encoder and free function *)
(* asn1tostruct.py:408-414, 503-509 *)
Definition wanted (m : msgdef) (s : ies) (r : row) : bool := negb (is_opt r) || has_flag m s r.

(* ---------------- encoder, asn1tostruct.py:491-538 ---------------- *)
(* xxx_new_ie (ranap_common.c, rua_common.c, hnbap_common.c, sabp_common.c):
   ANY_fromType_aper of the value; NULL if that fails *)
(* ranap_common.c:426-455, rua_common.c:207-237, hnbap_common.c:219-249, sabp_common.c:181-210 *)
Definition new_ie (r : row) (v : val) : option val :=
  match encode (r_ty r) v with
  | Some o => Some (VSeq [Some (VInt (Z.of_N (r_id r))); Some (VEnum (r_crit r)); Some (VOcts o)] [])
  | None => None
  end.
(* asn1tostruct.py:497-535 *)
Fixpoint encode_rows (m : msgdef) (s : ies) (rows : list row) (fields : list (option val)) : option (list val) :=
  match rows, fields with
  | [], _ => Some []
  | r :: rs, f :: fs =>
      if wanted m s r then
        match f with
        | Some v => opt ie <- new_ie r v ;; opt rest <- encode_rows m s rs fs ;; Some (ie :: rest)
        | None => None
        end
      else encode_rows m s rs fs
  | _ :: _, [] => None
  end.
(* asn1tostruct.py:491-538 *)
Definition encode_ies (m : msgdef) (s : ies) : option val :=
  opt l <- encode_rows m s (m_rows m) (i_fields s) ;; Some (VSeq [Some (VList l)] []).
(* the message body as put into the PDU by ANY_fromType_aper *)
(* ranap_common.c:332 and the same call of the other protocols *)
Definition encode_msg (m : msgdef) (s : ies) : option (list N) :=
  opt v <- encode_ies m s ;; encode (m_cont m) v.

(* ---------------- decoder, asn1tostruct.py:322-391 ---------------- *)
(* asn1tostruct.py:348-360 *)
Fixpoint find_row (id : N) (rows : list row) (k : nat) : option (nat * row) :=
  match rows with
  | [] => None
  | r :: rs => if (r_id r =? id)%N then Some (k, r) else find_row id rs (S k)
  end.
(* asn1tostruct.py:378 *)
Fixpoint set_nth {A} (k : nat) (a : A) (l : list A) : list A :=
  match l, k with
  | [], _ => []
  | _ :: r, O => a :: r
  | x :: r, S k' => x :: set_nth k' a r
  end.
(* p->presenceMask |= FLAG on uint16_t *)
(* asn1tostruct.py:363-364, 203 *)
Definition add_flag (m : msgdef) (r : row) (s : ies) : ies :=
  if is_opt r then mkIes (N.land (N.lor (i_mask s) (flag m r)) 65535) (i_fields s) else s.
(* id and value octets of an element of the decoded container *)
(* asn1tostruct.py:346-348, 365 *)
Definition ie_parts (v : val) : option (N * list N) :=
  match v with
  | VSeq [Some (VInt id); Some (VEnum _); Some (VOcts o)] [] => Some (Z.to_N id, o)
  | _ => None
  end.
(* result of a decoder: return code 0 or -1, the structure as it was left, and
   the contents that no pointer leads to any more (an IE that came twice) *)
(* result of the function written by asn1tostruct.py:322-391 *)
Record dres := mkDres { d_ok : bool; d_ies : ies; d_lost : list val }.
(* asn1tostruct.py:345-391 *)
Fixpoint decode_list (m : msgdef) (s : ies) (lost : list val) (l : list val) : dres :=
  match l with
  | [] => mkDres true s lost
  | ie :: rest =>
      match ie_parts ie with
      | None => mkDres false s lost
      | Some (id, o) =>
          match find_row id (m_rows m) 0 with
          | None => mkDres false s lost                       (* default: *)
          | Some (k, r) =>
              let s := add_flag m r s in
              match decode (r_ty r) o with
              | None => mkDres false s lost
              | Some v =>
                  let lost := match nth_error (i_fields s) k with Some (Some w) => lost ++ [w] | _ => lost end in
                  decode_list m (mkIes (i_mask s) (set_nth k (Some v) (i_fields s))) lost rest
              end
          end
      end
  end.
(* asn1tostruct.py:322-391 *)
Definition decode_msg (m : msgdef) (octets : list N) : dres :=
  match decode (m_cont m) octets with
  | Some (VSeq [Some (VList l)] _) => decode_list m (zero_ies m) [] l
  | _ => mkDres false (zero_ies m) []
  end.

(* ---------------- free function, asn1tostruct.py:401-422 ---------------- *)
(* the contents released: of every mandatory field, and of the optional ones
   whose flag is set *)
(* asn1tostruct.py:405-419 *)
Fixpoint freed_rows (m : msgdef) (s : ies) (rows : list row) (fields : list (option val)) : list val :=
  match rows, fields with
  | r :: rs, f :: fs =>
      match f with
      | Some v => if wanted m s r then v :: freed_rows m s rs fs else freed_rows m s rs fs
      | None => freed_rows m s rs fs
      end
  | _, _ => []
  end.
(* asn1tostruct.py:401-422 *)
Definition free_ies (m : msgdef) (s : ies) : list val := freed_rows m s (m_rows m) (i_fields s).
(* all contents a structure holds *)
(* the members written by asn1tostruct.py:204-216 *)
Definition contents (s : ies) : list val :=
  flat_map (fun f => match f with Some v => [v] | None => [] end) (i_fields s).
