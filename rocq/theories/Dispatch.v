(* The three RANAP receive paths: CN connection-oriented and connectionless
   (src/ranap_common_cn.c) and RAN connection-oriented (src/ranap_common_ran.c).
   Simplifications: logging is left out; the callback does not modify the
   message it is shown; the PDU structure of aper_decode, which is freed on
   every path, is not part of the memory accounted for. *)
From Verif Require Import Base Aper Container RanapTypes RanapTab DispatchTab.
From Coq Require String.
Local Open Scope N_scope.

(* ranap_message (asn1tostruct.py:220-235): direction, procedure code,
   criticality and the union `msg'.  [g_body] is the member of the union that a
   decoder filled; None is the zeroed union. *)
Record rmsg := mkRmsg { g_dir : N; g_proc : N; g_crit : Z; g_body : option (msgdef * ies) }.
(* memset(message, 0, sizeof( *message)) *)
(* ranap_common_cn.c:385, 633, ranap_common_ran.c:298 *)
Definition zero_msg : rmsg := mkRmsg 0 0 0 None.

(* RANAP_RANAP_PDU_PR_... (src/ranap: RANAP_RANAP-PDU.h) *)
(* RANAP_RANAP-PDU.h:28-29 *)
Definition PR_initiatingMessage := 1. Definition PR_successfulOutcome := 2.
(* RANAP_RANAP-PDU.h:30-31 *)
Definition PR_unsuccessfulOutcome := 3. Definition PR_outcome := 4.

(* switch (...->procedureCode) *)
(* ranap_common_cn.c:34-324, 429-574, ranap_common_ran.c:36-233 *)
Fixpoint case_of (p : N) (tab : list (N * msgdef)) : option msgdef :=
  match tab with
  | [] => None
  | (c, m) :: r => if p =? c then Some m else case_of p r
  end.

(* one receive path: per direction, None if the direction is not looked into
   (message->procedureCode stays 0), otherwise the two switch statements; and
   the return code of the default branches *)
(* ranap_common_cn.c:326-376, 576-624, ranap_common_ran.c:235-289 *)
Record path := mkPath {
  dec_tab : N -> option (list (N * msgdef));
  free_tab : N -> option (list (N * msgdef));
  rc_default : Z }.
(* _cn_ranap_rx_co 326-352, ranap_cn_rx_co_free 355-376 *)
Definition cn_co : path := mkPath
  (fun d => if d =? PR_initiatingMessage then Some cn_ranap_rx_initiating_msg_co
            else if d =? PR_successfulOutcome then Some cn_ranap_rx_successful_msg_co
            else if d =? PR_unsuccessfulOutcome then Some cn_ranap_rx_unsuccessful_msg_co
            else if d =? PR_outcome then Some cn_ranap_rx_outcome_msg_co else None)
  (fun d => if d =? PR_initiatingMessage then Some cn_ranap_free_initiating_msg_co
            else if d =? PR_successfulOutcome then Some cn_ranap_free_successful_msg_co
            else if d =? PR_unsuccessfulOutcome then Some cn_ranap_free_unsuccessful_msg_co
            else if d =? PR_outcome then Some cn_ranap_free_outcome_msg_co else None)
  (-1).
(* _cn_ranap_rx_cl 576-603, ranap_cn_rx_cl_free 606-624: rc stays 0 in all
   default branches *)
Definition cn_cl : path := mkPath
  (fun d => if d =? PR_initiatingMessage then Some cn_ranap_rx_initiating_msg_cl
            else if d =? PR_successfulOutcome then Some cn_ranap_rx_successful_msg_cl else None)
  (fun d => if d =? PR_initiatingMessage then Some cn_ranap_free_initiating_msg_cl
            else if d =? PR_successfulOutcome then Some cn_ranap_free_successful_msg_cl else None)
  0.
(* _ran_ranap_rx_co 235-264, ranap_ran_rx_co_free 267-289.  The unsuccessful
   outcome is read through choice.successfulOutcome, which has the same layout. *)
Definition ran_co : path := mkPath
  (fun d => if d =? PR_initiatingMessage then Some ran_ranap_rx_initiating_msg_co
            else if d =? PR_successfulOutcome then Some ran_ranap_rx_successful_msg_co
            else if d =? PR_unsuccessfulOutcome then Some ran_ranap_rx_unsuccessful_msg_co else None)
  (fun d => if d =? PR_initiatingMessage then Some ran_ranap_free_initiating_msg_co
            else if d =? PR_successfulOutcome then Some ran_ranap_free_successful_msg_co
            else if d =? PR_unsuccessfulOutcome then Some ran_ranap_free_unsuccessful_msg_co else None)
  (-1).

(* aper_decode of the PDU: presence index, procedure code, criticality, octets
   of the ANY.  (The second argument of RANAP_InitiatingMessage and the like.) *)
(* ranap_common_cn.c:387, 635, ranap_common_ran.c:300 *)
Definition pdu_parts (data : list N) : option (N * N * Z * list N) :=
  match decode T_RANAP_RANAP_PDU data with
  | Some (VChoice i (VSeq [Some (VInt c); Some (VEnum cr); Some (VOcts b)] [])) =>
      Some (N.of_nat i + 1, Z.to_N c, cr, b)
  | _ => None
  end.

(* ranap_cn_rx_co_decode2 379-402, ranap_cn_rx_cl_decode2 627-650,
   ranap_ran_rx_co_decode2 292-315: return code, the message as it was left, and
   contents that were decoded but are no longer reachable from it *)
Record dec2 := mkDec2 { e_rc : Z; e_msg : rmsg; e_lost : list val }.
(* ranap_common_cn.c:379-402, 627-650, ranap_common_ran.c:292-315 *)
Definition decode2 (P : path) (data : list N) : dec2 :=
  match pdu_parts data with
  | None => mkDec2 (-1) zero_msg []
  | Some (d, p, cr, b) =>
      match dec_tab P d with
      | None => mkDec2 (rc_default P) (mkRmsg d 0 0 None) []
      | Some tab =>
          match case_of p tab with
          | None => mkDec2 (rc_default P) (mkRmsg d p cr None) []
          | Some m =>
              let r := decode_msg m b in
              mkDec2 (if d_ok r then 0 else -1) (mkRmsg d p cr (Some (m, d_ies r))) (d_lost r)
          end
      end
  end%Z.

(* contents that hang off the message *)
(* the member of the union asn1tostruct.py:224-234 *)
Definition held (g : rmsg) : list val :=
  match g_body g with Some (_, s) => contents s | None => [] end.
(* ranap_cn_rx_co_free, ranap_cn_rx_cl_free, ranap_ran_rx_co_free: what is
   released, or None if the union is released as another type than the one that
   was decoded into it (undefined behaviour).  Releasing a zeroed union releases
   nothing. *)
(* ranap_common_cn.c:355-376, 606-624, ranap_common_ran.c:267-289 *)
Definition free_msg (P : path) (g : rmsg) : option (list val) :=
  match free_tab P (g_dir g) with
  | None => Some []
  | Some tab =>
      match case_of (g_proc g) tab with
      | None => Some []
      | Some m =>
          match g_body g with
          | None => Some []
          | Some (m', s) => if String.eqb (m_key m) (m_key m') then Some (free_ies m s) else None
          end
      end
  end.

(* what a receive function does *)
(* ranap_common_cn.c:411-427, 659-675, ranap_common_ran.c:324-340 *)
Record rx := mkRx {
  x_rc : Z;                       (* return value *)
  x_calls : list rmsg;            (* calls of the callback *)
  x_alloc : list val;             (* contents allocated by the decoder *)
  x_freed : option (list val) }.  (* contents released before it returns *)
(* ranap_cn_rx_co 411-427: returns early, without freeing, if the decoder failed *)
Definition rx_cn_co (data : list N) : rx :=
  let e := decode2 cn_co data in
  if (e_rc e =? 0)%Z then mkRx 0 [e_msg e] (held (e_msg e) ++ e_lost e) (free_msg cn_co (e_msg e))
  else mkRx (e_rc e) [] (held (e_msg e) ++ e_lost e) (Some []).
(* ranap_cn_rx_cl 659-675, ranap_ran_rx_co 324-340: always free *)
Definition rx_free (P : path) (data : list N) : rx :=
  let e := decode2 P data in
  mkRx (e_rc e) (if (e_rc e =? 0)%Z then [e_msg e] else []) (held (e_msg e) ++ e_lost e) (free_msg P (e_msg e)).
(* ranap_common_cn.c:659-675 ranap_cn_rx_cl *)
Definition rx_cn_cl := rx_free cn_cl.
(* ranap_common_ran.c:324-340 ranap_ran_rx_co *)
Definition rx_ran_co := rx_free ran_co.
