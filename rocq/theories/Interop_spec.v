(* The message bodies and the lists as the unabridged modules define them (the
   files PDU-Contents.asn and Containers.asn of each protocol in asn1/, the text
   of the 3GPP specifications), where the compiled modules (PDU.asn) differ. *)
From Verif Require Import Base Aper Asn1_spec RanapFull.
From Coq Require Import String List.
Import ListNotations.
Local Open Scope Z_scope.
Local Open Scope list_scope.

(* RANAP-Containers.asn:124 ProtocolIE-Field and :172 ProtocolExtensionField:
   an identifier, a criticality and an open type *)
Definition field : ty :=
  TSeq false [(false, TInt (Some (mkCon false 0 65535))); (false, TEnum false [0; 1; 2] []); (false, TOcts None)] [].
(* RANAP-Containers.asn:120 ProtocolIE-Container, SIZE (0..maxProtocolIEs) *)
Definition container : ty := TSeqOf (Some (mkCon false 0 65535)) field.
(* RANAP-Containers.asn:168 ProtocolExtensionContainer, SIZE (1..maxProtocolExtensions) *)
Definition extensions : ty := TSeqOf (Some (mkCon false 1 65535)) field.

(* every message of the four files PDU-Contents.asn but PrivateMessage:
   SEQUENCE { protocolIEs, protocolExtensions OPTIONAL, ... } *)
Definition message_body : ty := TSeq true [(false, container); (true, extensions)] [].
Definition body_value (ies : list val) (ext : option (list val)) : val :=
  VSeq [Some (VList ies); option_map VList ext] [].

(* RANAP-Containers.asn:154 ProtocolIE-ContainerList {1, max}: one container for
   each element of the list *)
Definition container_list (max : Z) : ty := TSeqOf (Some (mkCon false 1 max)) container.
(* the list whose elements are [ies], one IE in each container *)
Definition list_value (ies : list val) : val := VList (map (fun ie => VList [ie]) ies).

(* what the compiled module RANAP-PDU.asn has in its place:
   SEQUENCE { ...-ies SEQUENCE (SIZE (0..maxProtocolIEs)) OF IE, ... } *)
Definition compiled : ty := TSeq true [(false, container)] [].
Definition compiled_value (ies : list val) : val := VSeq [Some (VList ies)] [].

(* the lists of RANAP-PDU-Contents.asn, under the names of their descriptors, with the
   greatest number of elements.  The compiled module lacks two of them, which occur in
   no message but as extensions and in RANAP Relocation Information. *)
Definition missing : list string := ["GERAN-Iumode-RAB-FailedList-RABAssgntResponse"; "DirectTransferInformationList-RANAP-RelocInf"]%string.
Definition lists : list (string * Z) :=
  map (fun x => (append "RANAP_" (c_name (fst x)), fst (snd x)))
      (filter (fun x => negb (existsb (String.eqb (fst x)) missing)) ranap_lists).
