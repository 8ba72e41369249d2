(* What is required of the generated code: what the headers of asn1c declare, and a structure
   of the model as an object in memory whose members have names. *)
From Verif Require Import Base Aper Container Generator Generator_spec Generator_repo_spec AsnText Naming Naming_spec Emit AllTypes.
From Coq Require Import String.
Local Open Scope list_scope.

(* the files with the interface each belongs to *)
Definition sources : list (interface * list string) := combine interfaces [ranap_lines; rua_lines; hnbap_lines; sabp_lines].
(* the code the script writes: asn1tostruct.py -p PREFIX -f FILE *)
Definition code_of (I : interface) (lines : list string) : option code := script (chars (if_prefix I)) [file_lines lines].
(* typedef ... NAME_t and extern asn_TYPE_descriptor_t asn_DEF_NAME *)
Definition headers_of (I : interface) : headers :=
  mkHeaders
    (map (fun nt => (chars (fst nt) ++ chars "_t", (chars "asn_DEF_" ++ chars (fst nt), snd nt)))
       (filter (fun nt => existsb (String.eqb (fst nt ++ "_t")) (if_types I)) all_types))
    (map (fun x => (chars (fst (fst x)), chars (snd (fst x)), chars (snd x))) (if_lists I))
    (map (fun x => (chars (fst x), snd x)) (if_ids I))
    (map (fun x => (chars (fst x), snd x)) (if_crits I)).

(* the members of the structure of a message, with their types *)
Definition members_of (I : interface) (m : msgdef) : list (list N * list N) :=
  (if existsb is_opt (m_rows m) then [(chars "uint16_t", mask)] else []) ++
  map (fun r => (type_name (chars (if_prefix I)) (chars (r_tyname r)), member_of r)) (m_rows m).
(* the structure in memory *)
Definition in_memory (m : msgdef) (s : ies) : object := mkObject (i_mask s) (combine (map member_of (m_rows m)) (i_fields s)).
(* there is a member for each IE *)
Definition shaped (m : msgdef) (s : ies) : Prop := List.length (i_fields s) = List.length (m_rows m).

(* ---------------- any file of ASN.1 ---------------- *)
Definition optional (f : found) : Prop := f_pres f <> chars "mandatory".
Definition presence_known (f : found) : Prop := In (f_pres f) (map chars ["mandatory"; "optional"; "conditional"]%string).
(* the IEs of a message that may be absent, and the place of one among them *)
Definition optionals (l : list found) : list found := filter (fun f => if list_eq_dec N.eq_dec (f_pres f) (chars "mandatory") then false else true) l.
Fixpoint place (l : list found) (name : list N) : N :=
  match l with
  | [] => 0
  | f :: r => if list_eq_dec N.eq_dec (f_id f) name then 0 else 1 + place r name
  end%N.
Definition bit_of (l : list found) (f : found) : N := place (optionals l) (f_id f).
(* the structure says that the IE is there *)
Definition there (l : list found) (o : object) (f : found) : bool :=
  if list_eq_dec N.eq_dec (f_pres f) (chars "mandatory") then true else N.testbit (o_mask o) (bit_of l f).
(* what the names of an IE stand for: number, criticality and type *)
Definition means (H : headers) (prefix : list N) (f : found) (n : N) (c : Z) (t : ty) : Prop :=
  named_in (id_constant prefix (f_id f)) (h_ids H) = Some n /\ named_in (criticality_constant prefix (f_crit f)) (h_crits H) = Some c /\
  described H (type_name prefix (f_type f)) (desc_name prefix (f_type f)) = Some t.
Definition element (n : N) (c : Z) (octets : list N) : val := VSeq [Some (VInt (Z.of_N n)); Some (VEnum c); Some (VOcts octets)] [].
(* a message of a file, and the code the script writes for the file, which the compiler accepts *)
Record compiled (H : headers) (prefix file : list N) (defs : list (list N * list found)) (k : list N) (l : list found)
    (d : decoder_x) (e : list step_x) (f : list drop_x) : Prop := {
  co_code : exists C, write_code prefix file defs = Some C /\ NoDup (map fst (cd_macros C)) /\
    decoder_named H C (decode_defined file k) = Some d /\ encoder_named H C (encode_name file k) = Some e /\ free_named H C (free_name file k) = Some f;
  co_set : In (k, l) defs;
  co_words : Forall presence_known l }.
(* the members a structure of this message has *)
Definition of_message (l : list found) (o : object) : Prop := map fst (o_members o) = map (fun f => member (f_id f)) l.
(* all it holds *)
Definition held (o : object) : list val := flat_map (fun x => match snd x with Some v => [v] | None => [] end) (o_members o).
