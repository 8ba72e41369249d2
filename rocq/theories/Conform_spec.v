(* What it takes for the octets of a buffer to be a message of the protocol:
   a procedure of the PDU-Descriptions module, with the criticality and the object
   set that it has there, and the IEs of that object set of the PDU-Contents
   module, encoded as X.691 says.  The types are those of the unabridged modules.
   The protocols do not refer to the code; only the last definitions name its
   functions and tables. *)
From Verif Require Import Base Aper Container X691 Asn1_spec Interop_spec.
From Verif Require Import RanapFull RuaFull HnbapFull SabpFull RanapProc RuaProc HnbapProc SabpProc RanapSpec RuaSpec HnbapSpec SabpSpec RanapTab RuaTab HnbapTab SabpTab Factory_spec Factory RuaFactory.
From Coq Require Import String List.
Import ListNotations.
Local Open Scope list_scope.

(* a row of PDU-Descriptions: direction (1 initiating message, 2 successful
   outcome, 3 unsuccessful outcome, 4 outcome), procedure code, criticality
   (0 reject, 1 ignore, 2 notify) and name of the object set *)
Definition procedure := (N * N * Z * string)%type.
(* an IE of an object set: name, number, criticality, type, presence *)
Definition ie_decl := (string * N * Z * string * Container.presence)%type.
(* a pair of IEs of an object set: name, number, criticality and type of the first,
   criticality and type of the second, presence *)
Definition pair_decl := (string * N * Z * string * Z * string * Container.presence)%type.

(* the octets X.691 prescribes for some value of the type [ty] *)
Definition value_of (G : grammar) (ty : string) (o : list N) : Prop :=
  exists t v, means G (ARef ty) t /\ completed (x691 t v) o.

(* [ies_of is decls l]: the IEs [l] are IEs of the object set [decls], in its order,
   each at most once, with the number and the criticality declared there, with octets
   that are ([is]) a value of the declared type, and none is missing that is declared
   mandatory *)
Inductive ies_of (is : string -> list N -> Prop) : list ie_decl -> list val -> Prop :=
| ies_nil : ies_of is [] []
| ies_sent n id c ty p decls o l :
    is ty o -> ies_of is decls l ->
    ies_of is ((n, id, c, ty, p) :: decls) (VSeq [Some (VInt (Z.of_N id)); Some (VEnum c); Some (VOcts o)] [] :: l)
| ies_left n id c ty p decls l :
    p <> Mandatory -> ies_of is decls l -> ies_of is ((n, id, c, ty, p) :: decls) l.
(* the same of pairs *)
Inductive pairs_of (is : string -> list N -> Prop) : list pair_decl -> list val -> Prop :=
| pairs_nil : pairs_of is [] []
| pairs_sent n id c1 ty1 c2 ty2 p decls o1 o2 l :
    is ty1 o1 -> is ty2 o2 -> pairs_of is decls l ->
    pairs_of is ((n, id, c1, ty1, c2, ty2, p) :: decls)
      (VSeq [Some (VInt (Z.of_N id)); Some (VEnum c1); Some (VOcts o1); Some (VEnum c2); Some (VOcts o2)] [] :: l)
| pairs_left n id c1 ty1 c2 ty2 p decls l :
    p <> Mandatory -> pairs_of is decls l -> pairs_of is ((n, id, c1, ty1, c2, ty2, p) :: decls) l.
(* RANAP-Containers.asn:140 ProtocolIE-FieldPair, :136 ProtocolIE-ContainerPair and
   :158 ProtocolIE-ContainerPairList *)
Definition pair_list (max : Z) : ty :=
  TSeqOf (Some (mkCon false 1 max)) (TSeqOf (Some (mkCon false 0 65535))
    (TSeq false [(false, TInt (Some (mkCon false 0 65535))); (false, TEnum false [0; 1; 2]%Z []); (false, TOcts None);
                 (false, TEnum false [0; 1; 2]%Z []); (false, TOcts None)] [])).

(* One protocol: its types, its procedures, its object sets, the name of the type of
   its PDUs; the types that are lists, with the greatest number of elements and the
   object set of an element; the types that are lists of pairs, and the object sets of
   these *)
Record protocol := mkProtocol {
  pr_types : grammar; pr_procedures : list procedure; pr_sets : list (string * list ie_decl); pr_pdu : string;
  pr_lists : list (string * (Z * string)); pr_pairs : list (string * (Z * string)); pr_pair_sets : list (string * list pair_decl) }.

Local Open Scope string_scope.
Definition ranap_protocol : protocol :=
  mkProtocol ranap_full ranap_procedures ranap_spec "RANAP-PDU" ranap_lists ranap_pairs ranap_pair_sets.
Definition rua_protocol : protocol := mkProtocol rua_full rua_procedures rua_spec "RUA-PDU" [] [] [].
Definition hnbap_protocol : protocol := mkProtocol hnbap_full hnbap_procedures hnbap_spec "HNBAP-PDU" [] [] [].
Definition sabp_protocol : protocol := mkProtocol sabp_full sabp_procedures sabp_spec "SABP-PDU" [] [] [].
Local Open Scope list_scope.

(* The octets [o] are a value of the type [ty] of an IE; the elements of a list (but not
   of one inside of an element) are IEs of the object set of its elements *)
Definition ie_value (P : protocol) (ty : string) (o : list N) : Prop :=
  value_of (pr_types P) ty o /\
  (forall max set, In (ty, (max, set)) (pr_lists P) -> exists decls ll, In (set, decls) (pr_sets P) /\
     completed (x691 (container_list max) (VList (map VList ll))) o /\ Forall (ies_of (value_of (pr_types P)) decls) ll) /\
  (forall max set, In (ty, (max, set)) (pr_pairs P) -> exists decls ll, In (set, decls) (pr_pair_sets P) /\
     completed (x691 (pair_list max) (VList (map VList ll))) o /\ Forall (pairs_of (value_of (pr_types P)) decls) ll).

(* The buffer is the message whose object set is [set], with the protocol
   extensions [ext] (None: without), of a procedure whose criticality is
   [declared], sent with criticality [sent]; [l] are its IEs *)
Definition message_with (P : protocol) (set : string) (declared sent : Z) (l : list val) (ext : option (list val)) (b : list N) : Prop :=
  exists d p decls t o,
    In (d, p, declared, set) (pr_procedures P) /\ In (set, decls) (pr_sets P) /\
    means (pr_types P) (ARef (pr_pdu P)) t /\
    completed (x691 t (VChoice (N.to_nat d - 1) (VSeq [Some (VInt (Z.of_N p)); Some (VEnum sent); Some (VOcts o)] []))) b /\
    completed (x691 message_body (body_value l ext)) o /\
    ies_of (ie_value P) decls l.
Definition message_of (P : protocol) (set : string) (declared sent : Z) (b : list N) : Prop :=
  exists l, message_with P set declared sent l None b.
(* ... and so a message every peer that follows the specification understands *)
Definition conforming (P : protocol) (set : string) (b : list N) : Prop := exists c, message_of P set c c b.

(* the message that each function of the RANAP factory is there to build *)
Definition ranap_set (k : call) : string :=
  match k with
  | CallReset _ _ _ => "ResetIEs"
  | CallResetAck _ _ => "ResetAcknowledgeIEs"
  | CallErrorInd _ _ _ _ => "ErrorIndicationIEs"
  | CallInitialUe _ _ _ _ _ => "InitialUE-MessageIEs"
  | CallDt _ _ => "DirectTransferIEs"
  | CallSecModCmd _ _ _ _ _ => "SecurityModeCommandIEs"
  | CallSecModCompl _ _ => "SecurityModeCompleteIEs"
  | CallCommonId _ => "CommonID-IEs"
  | CallIuRelCmd _ => "Iu-ReleaseCommandIEs"
  | CallIuRelCompl => "Iu-ReleaseCompleteIEs"
  | CallPaging _ _ _ _ => "PagingIEs"
  | CallRabVoice _ _ _ _ | CallRabData _ _ _ _ => "RAB-AssignmentRequestIEs"
  | CallIuRelReq _ => "Iu-ReleaseRequestIEs"
  | CallRabRelReq _ _ => "RAB-ReleaseRequestIEs"
  | CallResetResource _ _ _ _ => "ResetResourceIEs"
  end.
(* and each function of the RUA factory *)
Definition rua_set (c : rua_call) : string :=
  match c with
  | RUdt _ => "ConnectionlessTransferIEs"
  | RConn _ _ _ => "ConnectIEs"
  | RDt _ _ _ => "DirectTransferIEs"
  | RDisc _ _ _ => "DisconnectIEs"
  end.
(* the protocols with their generators and generated tables *)
Definition protocols : list (proto * protocol * list msgdef) :=
  [ (ranap, ranap_protocol, ranap_msgs); (rua, rua_protocol, rua_msgs); (hnbap, hnbap_protocol, hnbap_msgs); (sabp, sabp_protocol, sabp_msgs) ].

(* every IE of [l] is one the table of the message has *)
Definition known (m : msgdef) (l : list val) : Prop :=
  forall ie id c o, In ie l -> ie = VSeq [Some (VInt id); Some (VEnum c); Some (VOcts o)] [] -> In (Z.to_N id) (map r_id (m_rows m)).
(* [v] is the value that was sent as the octets [oct] of an IE of type [ty]; of a list it
   has those elements that [which] picks *)
Definition sent_value (which : list val -> list val) (P : protocol) (ty : string) (oct : list N) (v : val) : Prop :=
  (forall max set, In (ty, (max, set)) (pr_lists P) -> exists elements,
     completed (x691 (container_list max) (list_value elements)) oct /\ v = compiled_value (which elements)) /\
  (~ In ty (map fst (pr_lists P)) -> exists t, means (pr_types P) (ARef ty) t /\ completed (x691 t v) oct).
(* the decoded structure [s] reports the IEs of [l]: every field holds the value
   that was sent with its number, or is empty, which no mandatory one is, and then
   no such IE was sent *)
Definition reports (which : list val -> list val) (P : protocol) (m : msgdef) (l : list val) (s : ies) : Prop :=
  forall i r, nth_error (m_rows m) i = Some r ->
  (exists c oct v, In (VSeq [Some (VInt (Z.of_N (r_id r))); Some (VEnum c); Some (VOcts oct)] []) l /\
     sent_value which P (r_tyname r) oct v /\ nth_error (i_fields s) i = Some (Some v)) \/
  (r_pres r <> Mandatory /\ (forall c oct, ~ In (VSeq [Some (VInt (Z.of_N (r_id r))); Some (VEnum c); Some (VOcts oct)] []) l) /\
     nth_error (i_fields s) i = Some None).
(* completely, or but for all elements of a list after the first *)
Definition reported : protocol -> msgdef -> list val -> ies -> Prop := reports (fun elements => elements).
Definition first_reported : protocol -> msgdef -> list val -> ies -> Prop := reports (fun elements => firstn 1 elements).
(* every list that is sent has one element *)
Definition single (P : protocol) (m : msgdef) (l : list val) : Prop :=
  forall r c oct max set elements, In r (m_rows m) -> In (VSeq [Some (VInt (Z.of_N (r_id r))); Some (VEnum c); Some (VOcts oct)] []) l ->
  In (r_tyname r, (max, set)) (pr_lists P) -> completed (x691 (container_list max) (list_value elements)) oct -> List.length elements = 1%nat.

(* in the structure [s] given to an encoder, every list that it sends (the field is mandatory
   or its flag is set) is one element, that is, the IEs of the object set of its elements, and
   every list of pairs is a list of such *)
Definition elements_given (P : protocol) (m : msgdef) (s : ies) : Prop :=
  forall i r v, nth_error (m_rows m) i = Some r -> wanted m s r = true -> nth_error (i_fields s) i = Some (Some v) ->
  (forall max set, In (r_tyname r, (max, set)) (pr_lists P) ->
     exists decls l, In (set, decls) (pr_sets P) /\ ies_of (value_of (pr_types P)) decls l /\ v = compiled_value l) /\
  (forall max set, In (r_tyname r, (max, set)) (pr_pairs P) ->
     exists decls ll, In (set, decls) (pr_pair_sets P) /\ Forall (pairs_of (value_of (pr_types P)) decls) ll /\ v = VList (map VList ll)).

(* the object sets whose table lacks a mandatory IE (see C63) *)
Definition lacking : list string := ["Write-Replace-IEs"; "Write-Replace-Complete-IEs"; "Kill-Complete-IEs"; "Message-Status-Query-Complete-IEs"]%string.
