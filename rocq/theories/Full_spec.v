(* What C92 compares: for each protocol the types of the unabridged modules (the
   text of the 3GPP specification, which the build does not compile), and the type
   descriptors of the codec. *)
From Verif Require Import Base Aper Asn1_spec Interop_spec.
From Verif Require Import RanapFull RuaFull HnbapFull SabpFull RanapTypes RuaTypes HnbapTypes SabpTypes.
From Coq Require Import String List.
Import ListNotations.
Local Open Scope string_scope.
Local Open Scope list_scope.
Local Open Scope Z_scope.

(* prefix of the descriptors; unabridged modules; descriptors; message types;
   list types *)
Record module := mkModule {
  md_prefix : string; md_types : grammar; md_tab : list (string * ty);
  md_messages : list string; md_lists : list (string * Z) }.
Definition modules : list module :=
  [ mkModule "RANAP_" ranap_full ranap_types (map fst ranap_messages) (map (fun x => (fst x, fst (snd x))) ranap_lists);
    mkModule "RUA_" rua_full rua_types (map fst rua_messages) [];
    mkModule "HNBAP_" hnbap_full hnbap_types (map fst hnbap_messages) [];
    mkModule "SABP_" sabp_full sabp_types (map fst sabp_messages) [] ].

(* [t] is the descriptor that the codec has for the type [n] *)
Definition described (M : module) (n : string) (t : ty) : Prop := In (append (md_prefix M) (c_name n), t) (md_tab M).
(* the type [n] of the specification is [t] *)
Definition is_type (M : module) (n : string) (t : ty) : Prop := forall t', means (md_types M) (ARef n) t' <-> t' = t.

(* the parameterised types of the Containers modules, which are written out where
   they are used *)
Definition templates : list string :=
  ["ProtocolIE-Container"; "ProtocolIE-Field"; "ProtocolExtensionContainer"; "ProtocolExtensionField";
   "PrivateIE-Container"; "PrivateIE-Field"].
(* the types that the codec has wrong, besides messages and lists *)
Definition wrong : list string := ["RAB-SetupItem-EnhancedRelocCompleteRes"; "RedirectionIndication"; "PrivateMessage"].

(* RANAP-Containers.asn:184 PrivateIE-Container and :188 PrivateIE-Field: a list of
   at least one; the identifier is a number or an object identifier *)
Definition private_body : ty :=
  TSeq true [(false, TSeqOf (Some (mkCon false 1 65535))
    (TSeq false [(false, TChoice false [TInt (Some (mkCon false 0 65535)); TOcts None] []);
                 (false, TEnum false [0; 1; 2] []); (false, TOcts None)] []))] [].
(* RANAP-PDU-Contents.asn:1586 RAB-SetupItem-EnhancedRelocCompleteRes: the codec with
   the type [list] for its component rab2beReleasedList *)
Definition setup_item (list : ty) : ty :=
  TSeq true [(false, T_RANAP_RAB_ID); (true, T_RANAP_RAB_Parameters); (false, T_RANAP_UserPlaneInformation);
             (true, T_RANAP_TransportLayerAddress); (true, T_RANAP_IuTransportAssociation); (true, list);
             (true, T_RANAP_ProtocolExtensionContainer)] [].
(* a RAB to be released, and an item whose component rab2beReleasedList is [list] *)
Definition released (n : N) : val := VSeq [Some (VInt 211); Some (VEnum 1); Some (VOcts [n])] [].
Definition setup (list : val) : val :=
  VSeq [Some (VBits [false; false; false; false; false; true; false; true]); None;
        Some (VSeq [Some (VEnum 0); Some (VBits (repeat true 16)); None] []); None; None; Some list; None] [].
