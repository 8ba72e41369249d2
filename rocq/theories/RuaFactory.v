(* Model of the RUA message factory, /repo/src/rua_msg_factory.c.
   Simplifications: as in Factory.v; the log line with the length of the payload
   is left out. *)
From Verif Require Import Base Aper Container RuaTypes RuaTab Factory_spec Factory.
From Coq Require Import String List.
Local Open Scope list_scope.
Local Open Scope string_scope.
Local Open Scope list_scope.

(* What a function returns: NULL, or the octets of the message and the SCTP
   payload protocol identifier stored with it; and its allocations and releases.
   "inmsg" is the buffer of the caller. *)
(* vocabulary: result of a function of rua_msg_factory.c:13-156 *)
Record wrapped := mkWrapped { w_msg : option (list N * N); w_ev : list ev }.
(* IUH_PPI_RUA rua_msg_factory.c:11 *)
Definition ppi_rua : N := 19.
(* rua_msg_factory.c:21, 58, 94, 135 *)
Definition payload_lab : lab := ("ranaP_Message", 0).
(* rua_msg_factory.c:22, 59, 95, 137 *)
Definition inmsg_lab : lab := ("inmsg", 0).
(* The common end of the four functions, e.g. lines 24-40: encode the IEs (NULL if
   that fails), generate the PDU, release `out', store the identifier.  That
   writes through the pointer the generator returned, which can be NULL. *)
Definition rua_end (p : N) (m : msgdef) (s : ies) (pre : list ev) : outcome wrapped :=
  let '(t, r) := add_ies m s in
  match r with
  | None => Ok (mkWrapped None (pre ++ t))
  | Some l =>
      match generate rua 1 p 0 (m_cont m) (list_val l) with
      | None => Fault NullDeref
      | Some o => Ok (mkWrapped (Some (o, ppi_rua)) (pre ++ t ++ [Al ("pdu", 0); Al msg_lab; Fr ("pdu", 0)] ++ rel t))
      end
  end.
(* OCTET_STRING_fromBuf(&ies.ranaP_Message, inmsg->data, msgb_length(inmsg));
   msgb_free(inmsg): the copy belongs to `ies', which nobody releases *)
(* rua_msg_factory.c:21-22, 58-59, 94-95, 135-137 *)
Definition copied : list ev := [Al payload_lab; Fr inmsg_lab].

(* rua_new_udt 13-41; None: inmsg is NULL, and inmsg->data is read *)
Definition rua_new_udt (inmsg : option (list N)) : outcome wrapped :=
  let M := M_RUA_ConnectionlessTransferIEs in
  match inmsg with
  | None => Fault NullDeref
  | Some d => rua_end 4 M (put_ie M "id-RANAP-Message" (VOcts d) (zero M)) copied
  end.
(* the domain 52-55, 89-92, 125-128 *)
Definition rua_dom (is_ps : bool) : val := VEnum (if is_ps then 1 else 0).
(* asn1_u24_to_bitstring 56, 93, 129: the low 24 bits *)
(* rua_msg_factory.c:56, 93, 129 *)
Definition ctx_val (context_id : N) : val := VBits (to_bits 24 context_id).
(* rua_new_conn 43-78; RUA_Establishment_Cause_normal_call = 1 *)
Definition rua_new_conn (is_ps : bool) (context_id : N) (inmsg : option (list N)) : outcome wrapped :=
  let M := M_RUA_ConnectIEs in
  match inmsg with
  | None => Fault NullDeref
  | Some d =>
      rua_end 1 M
        (put_ie M "id-RANAP-Message" (VOcts d)
        (put_ie M "id-Establishment-Cause" (VEnum 1)
        (put_ie M "id-Context-ID" (ctx_val context_id)
        (put_ie M "id-CN-DomainIndicator" (rua_dom is_ps) (zero M))))) copied
  end.
(* rua_new_dt 80-114 *)
Definition rua_new_dt (is_ps : bool) (context_id : N) (inmsg : option (list N)) : outcome wrapped :=
  let M := M_RUA_DirectTransferIEs in
  match inmsg with
  | None => Fault NullDeref
  | Some d =>
      rua_end 2 M
        (put_ie M "id-RANAP-Message" (VOcts d)
        (put_ie M "id-Context-ID" (ctx_val context_id)
        (put_ie M "id-CN-DomainIndicator" (rua_dom is_ps) (zero M)))) copied
  end.
(* rua_new_disc 116-156; cause radioNetwork (present 1) normal (0); msgb_free(NULL)
   does nothing *)
Definition rua_new_disc (is_ps : bool) (context_id : N) (inmsg : option (list N)) : outcome wrapped :=
  let M := M_RUA_DisconnectIEs in
  let s := put_ie M "id-Cause" (VChoice 0 (VEnum 0))
          (put_ie M "id-Context-ID" (ctx_val context_id)
          (put_ie M "id-CN-DomainIndicator" (rua_dom is_ps) (zero M))) in
  match inmsg with
  | None => rua_end 3 M s []
  | Some [] => rua_end 3 M s [Fr inmsg_lab]
  | Some d => rua_end 3 M (put_ie M "id-RANAP-Message" (VOcts d) (or_mask (macro M "id-RANAP-Message") s)) copied
  end.

(* any of the four calls *)
(* the functions of rua_msg_factory.c:13-156 *)
Inductive rua_call :=
| RUdt (inmsg : option (list N))
| RConn (is_ps : bool) (context_id : N) (inmsg : option (list N))
| RDt (is_ps : bool) (context_id : N) (inmsg : option (list N))
| RDisc (is_ps : bool) (context_id : N) (inmsg : option (list N)).
(* the functions of rua_msg_factory.c:13-156 *)
Definition do_rua (c : rua_call) : outcome wrapped :=
  match c with
  | RUdt i => rua_new_udt i
  | RConn d x i => rua_new_conn d x i
  | RDt d x i => rua_new_dt d x i
  | RDisc d x i => rua_new_disc d x i
  end.
(* the buffer that is handed over; the copy of it that stays allocated (lines 21,
   58, 94, 135 allocate it, nothing releases it) *)
Definition payload_of (c : rua_call) : option (list N) := match c with RUdt i | RConn _ _ i | RDt _ _ i | RDisc _ _ i => i end.
(* rua_msg_factory.c:133 *)
Definition is_disc (c : rua_call) : bool := match c with RDisc _ _ _ => true | _ => false end.
(* rua_msg_factory.c:21, 58, 94, 135 *)
Definition copy_left (c : rua_call) : list lab :=
  match payload_of c with None => [] | Some d => if is_disc c && match d with [] => true | _ => false end then [] else [payload_lab] end.
