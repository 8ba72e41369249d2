(* Vocabulary for the properties of the message factories: what a receiver finds
   in the octets of a message, and what a sequence of allocations and releases
   leaves behind.  Nothing here refers to the factory functions. *)
From Verif Require Import Base Aper Aper_spec Container Wire_spec RanapTypes RuaTypes HnbapTypes SabpTypes.
From Coq Require Import String List.
Local Open Scope list_scope.
Local Open Scope string_scope.
Local Open Scope list_scope.

(* The PDU in a buffer: alternative (1 initiating message, 2 successful outcome,
   3 unsuccessful outcome, 4 outcome), procedure code, criticality, octets of
   the message body. *)
Definition pdu_in (t : ty) (b : list N) : option (N * N * Z * list N) :=
  match decode t b with
  | Some (VChoice i (VSeq [Some (VInt p); Some (VEnum c); Some (VOcts o)] [])) => Some (N.of_nat i + 1, Z.to_N p, c, o)%N
  | _ => None
  end.
(* the number of alternatives of a PDU type *)
Definition alternatives (t : ty) : N := match t with TChoice _ root _ => N.of_nat (Datatypes.length root) | _ => 0 end.
Fixpoint assoc {A} (k : string) (l : list (string * A)) : option A :=
  match l with [] => None | (k', a) :: r => if String.eqb k' k then Some a else assoc k r end.
(* the IEs in the order of the message's table, each value as its own octets *)
Definition message_ies (m : msgdef) (l : list (string * val)) : list raw_ie :=
  flat_map (fun r =>
    match assoc (r_ie r) l with
    | Some v => match encode (r_ty r) v with Some o => [(r_id r, Z.to_N (r_crit r), o)] | None => [] end
    | None => []
    end) (m_rows m).
(* The buffer holds message [m] with the given header and exactly the given IEs:
   the decoder accepts it, no IE is there twice, and the field of each IE is the
   given value, or empty if no value is given; and its octets are those of the
   header, the count and the IEs one after the other. *)
Definition holds (t : ty) (b : list N) (d p : N) (crit : Z) (m : msgdef) (l : list (string * val)) : Prop :=
  exists o s, pdu_in t b = Some (d, p, crit, o) /\ decode_msg m o = mkDres true s [] /\
    Datatypes.length (i_fields s) = Datatypes.length (m_rows m) /\
    (forall i r, nth_error (m_rows m) i = Some r -> nth_error (i_fields s) i = Some (assoc (r_ie r) l)) /\
    b = wire_pdu d p (Z.to_N crit) (wire_body (message_ies m l)).

(* Octets a body of [n] octets needs as an open type field, and in a PDU *)
Definition len_octets (n : N) : N := if (n <? 128)%N then 1 else 2.
Definition ie_octets (n : N) : N := 3 + len_octets n + n.

(* Octets of the PDU with these IEs (as long as none is longer than 16383) *)
Definition pdu_octets (m : msgdef) (l : list (string * val)) : N :=
  ie_octets (3 + fold_right (fun ie n => ie_octets (N.of_nat (Datatypes.length (snd ie))) + n) 0 (message_ies m l))%N.

(* ---------------- arguments of the RANAP message factory ---------------- *)
(* RANAP_Cause_t (src/ranap/RANAP_Cause.h): present (0 = NOTHING) and the long
   in the union, and the ASN.1 value it stands for *)
Record cause := mkCause { c_present : N; c_value : Z }.
Definition cause_val (c : cause) : val :=
  if (c_present c =? 0)%N then VNull else VChoice (N.to_nat (c_present c) - 1) (VInt (c_value c)).
Definition cause_ok (c : cause) : Prop := valid T_RANAP_Cause (cause_val c).
(* RANAP_GlobalRNC_ID_t (src/ranap/RANAP_GlobalRNC-ID.h) *)
Record global_rnc := mkGrnc { g_plmn : list N; g_rnc : Z }.
Definition grnc_val (g : global_rnc) : val := VSeq [Some (VOcts (g_plmn g)); Some (VInt (g_rnc g))] [].
Definition grnc_ok (g : global_rnc) : Prop :=
  Datatypes.length (g_plmn g) = 3 /\ bytes_ok (g_plmn g) = true /\ (0 <= g_rnc g <= 4095)%Z.
(* CN domain indicator: cs 0, ps 1 *)
Definition dom_ok (d : Z) : Prop := (d = 0 \/ d = 1)%Z.
(* an optional argument: an IE exactly if it is given *)
Definition given {A} (n : string) (f : A -> val) (o : option A) : list (string * val) :=
  match o with Some a => [(n, f a)] | None => [] end.
Definition opt_ok {A} (P : A -> Prop) (o : option A) : Prop := match o with Some a => P a | None => True end.
(* algorithm lists selected by a bit mask (bit n = UIAn / UEAn), as the numbers of
   TS 25.413: UIA1 = 0, UIA2 = 1; UEA1 = 1, UEA2 = 2 *)
Definition selected (one two : Z) (mask : N) : list Z :=
  (if N.testbit mask 1 then [one] else []) ++ (if N.testbit mask 2 then [two] else []).
(* the masks that select something and nothing but algorithms 1 and 2 *)
Definition sound_mask (mask : N) : bool := (mask =? 2)%N || (mask =? 4)%N || (mask =? 6)%N.
(* IntegrityProtectionInformation / EncryptionInformation *)
Definition protection (algs : list Z) (key : list N) : val :=
  VSeq [Some (VList (map VInt algs)); Some (VBits (octets_bits key)); None] [].
(* a Criticality Diagnostics that has an encoding, of at most 900 octets so that
   the message fits its 1024-octet buffer; and the one without any component *)
Definition cd_ok (v : val) : Prop := exists o, encode T_RANAP_CriticalityDiagnostics v = Some o /\ (N.of_nat (Datatypes.length o) <= 900)%N.
Definition cd_empty : val := VSeq [None; None; None; None; None] [].
(* 128-bit keys *)
Definition key_ok (k : list N) : Prop := Datatypes.length k = 16 /\ bytes_ok k = true.
(* the IEs of a Paging: TMSI or P-TMSI in network byte order, paging cause only if
   it is not 0 *)
Definition paging_ies (is_ps : bool) (o : list N) (tmsi : option N) (pc : N) : list (string * val) :=
  [("id-CN-DomainIndicator", VEnum (if is_ps then 1 else 0)); ("id-PermanentNAS-UE-ID", VChoice 0 (VOcts o))] ++
  given "id-TemporaryUE-ID" (fun t => VChoice (if is_ps then 1 else 0) (VOcts (store32be t))) tmsi ++
  given "id-PagingCause" (fun p => VEnum (Z.of_N p)) (if (pc =? 0)%N then None else Some pc).
(* a list IE with one item: an IE of its own, given by its octets *)
Definition one_item (id crit : Z) (o : list N) : val :=
  VSeq [Some (VList [VSeq [Some (VInt id); Some (VEnum crit); Some (VOcts o)] []])] [].
(* a list with one pair of IEs (TS 25.413 9.3.1, ProtocolIE-FieldPair) *)
Definition one_pair (id crit1 : Z) (o1 : list N) (crit2 : Z) (o2 : list N) : val :=
  VList [VList [VSeq [Some (VInt id); Some (VEnum crit1); Some (VOcts o1); Some (VEnum crit2); Some (VOcts o2)] []]].
(* The octets of a uint32_t in the memory of a little- or big-endian host *)
Definition in_memory (little_endian : bool) (n : N) : list N := if little_endian then store32le n else store32be n.
(* The placeholder 0x2342 that an Initial UE Message has for LAC and SAC *)
Definition area_octets (little_endian : bool) : list N := if little_endian then [0x42; 0x23]%N else [0x23; 0x42]%N.
(* Transport layer information of a RAB: address octets and association *)
Definition transport (addr : list N) (assoc : val) : val := VSeq [Some (VBits (octets_bits addr)); Some assoc; None] [].
Definition gtp_tei (o : list N) : val := VChoice 0 (VOcts o).
Definition binding_id (o : list N) : val := VChoice 1 (VOcts o).

(* The bearer that is asked for, in the notation of TS 25.413 9.2.1.3.  A ratio
   is mantissa * 10^-exponent. *)
Record subflow := mkSubflow {
  sf_sdu_error : option (Z * Z); sf_bit_error : Z * Z;
  sf_erroneous : Z;                 (* 0 yes, 1 no, 2 no error detection consideration *)
  sf_sizes : list Z }.              (* SDU sizes in bits *)
Record bearer := mkBearer {
  be_class : Z;                     (* 0 conversational, 1 streaming, 2 interactive, 3 background *)
  be_asymmetry : Z;                 (* 0 symmetric bidirectional, 3 asymmetric bidirectional *)
  be_max : list Z; be_guaranteed : list Z;   (* bit/s *)
  be_order : bool;                  (* delivery order requested *)
  be_max_sdu : Z; be_subflows : list subflow; be_delay : option Z;
  be_priority : Z; be_may_preempt : bool; be_preemptable : bool; be_queueing : bool;
  be_statistics : option Z;         (* 0 speech, 1 unknown *)
  be_extensions : option (list (Z * Z * list N)) }.  (* id, criticality, octets *)
Definition comps (l : list (option val)) : val := VSeq l [].
Definition ratio_val (r : Z * Z) : val := comps [Some (VInt (fst r)); Some (VInt (snd r)); None].
Definition subflow_val (s : subflow) : val :=
  comps [option_map ratio_val (sf_sdu_error s); Some (ratio_val (sf_bit_error s)); Some (VEnum (sf_erroneous s));
       match sf_sizes s with [] => None | l => Some (VList (map (fun n => comps [Some (VInt n); None; None]) l)) end; None].
Definition yes_no (b : bool) : option val := Some (VEnum (if b then 1 else 0)).
Definition bearer_val (r : bearer) : val :=
  comps [Some (VEnum (be_class r)); Some (VEnum (be_asymmetry r)); Some (VList (map VInt (be_max r)));
       match be_guaranteed r with [] => None | l => Some (VList (map VInt l)) end;
       Some (VEnum (if be_order r then 0 else 1)); Some (VInt (be_max_sdu r)); Some (VList (map subflow_val (be_subflows r)));
       option_map VInt (be_delay r); None;
       Some (comps [Some (VInt (be_priority r)); yes_no (be_may_preempt r); yes_no (be_preemptable r); yes_no (be_queueing r); None]);
       option_map VEnum (be_statistics r); None;
       option_map (fun l => VList (map (fun e => comps [Some (VInt (fst (fst e))); Some (VEnum (snd (fst e))); Some (VOcts (snd e))]) l)) (be_extensions r)].
(* AMR 12.2 (TS 26.102 5): 6700 to 12200 bit/s, 244 bits in three subflows of
   81, 103 and 60 bits, no priority, pre-emptable *)
Definition amr_bearer : bearer := (mkBearer 0 0 [12200] [6700] true 244
  [mkSubflow (Some (1, 5)) (1, 6) 0 [81; 39]; mkSubflow None (1, 3) 2 [103; 0]; mkSubflow None (5, 3) 2 [60; 0]]
  (Some 80) 15 false true false (Some 0) None)%Z.
(* 1600 kbit/s down, 800 kbit/s up, background; extension 177 (extended maximum
   bit rate, criticality ignore): a list of one integer from 16000001 to
   256000000, here 42000000, whose offset 25999999 is 0x018cba7f *)
Definition packet_bearer : bearer := (mkBearer 3 3 [1600000; 800000] [] true 8000
  [mkSubflow (Some (1, 4)) (1, 5) 1 []] None 15 false false false None
  (Some [(177, 1, [0x60; 0x01; 0x8c; 0xba; 0x7f]%N)]))%Z.
(* user plane mode (0 transparent, 1 support mode for predefined SDU sizes) and
   the versions of it, bit 16 - n for version n *)
Definition user_plane (mode : Z) (versions : list bool) : val := comps [Some (VEnum mode); Some (VBits versions); None].
Definition version_1 : list bool := repeat false 15 ++ [true].
(* the first item of the pair *)
Definition rab_setup (rab_id : N) (nas_sync : option (list bool)) (b : bearer) (up : val) (tl : val) : val :=
  comps [Some (VBits (octets_bits [rab_id])); option_map VBits nas_sync; Some (bearer_val b); Some up; Some tl; None; None].

(* ---------------- memory ---------------- *)
(* Allocations and releases, in order; [msg_lab] is the message buffer that is
   returned.  [live_after] gives what is still allocated at the end, and nothing
   at all if something is released that is not allocated at that moment. *)
Definition lab : Set := string * nat.
Inductive ev := Al (l : lab) | Fr (l : lab).
Definition msg_lab : lab := ("msgb"%string, 0).
Definition lab_eqb (a b : lab) : bool := String.eqb (fst a) (fst b) && Nat.eqb (snd a) (snd b).
Fixpoint live_after (evs : list ev) (live : list lab) : option (list lab) :=
  match evs with
  | [] => Some live
  | Al l :: r => if existsb (lab_eqb l) live then None else live_after r (l :: live)
  | Fr l :: r => if existsb (lab_eqb l) live then live_after r (filter (fun x => negb (lab_eqb l x)) live) else None
  end.
