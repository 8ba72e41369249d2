(* The client with asn1_xer_print switched on: the messages it sends are made by the functions of
   XerFactory.v.  [out m k]: whether the k-th output succeeds when the message m is made; the same
   message has the same outcome each time (a simplification). *)
From Verif Require Import Base Factory_spec Factory Lai IuClient Stack XerFactory.
From Coq Require Import List ZArith NArith.
Import ListNotations.

(* the calls of the message factory, iu_client.c:390-391, 410, 564, 590, 763, 830;
   ranap_new_msg_sec_mod_cmd ranap_msg_factory.c:373-376 *)
Definition call_for (m : dl_msg) : option call :=
  match m with
  | DL_DirectTransfer sapi nas => Some (CallDt sapi nas)
  | DL_SecModeCmd ik ck nk => Some (CallSecModCmd ik ck (if nk then 1 else 0) 6 6)
  | DL_CommonId imsi => Some (CallCommonId (Some imsi))
  | DL_IuReleaseCmd c => Some (CallIuRelCmd (f_cause c))
  | DL_Paging imsi tmsi is_ps c => Some (CallPaging imsi tmsi is_ps c)
  | DL_ResetAck d g => Some (CallResetAck (Z.of_N d) (option_map f_grnc g))
  | DL_Raw b => None
  end.
(* whether the function returned a message, iu_client.c:390-391, 410, 564, 590, 763, 830 *)
Definition made_x (out : nat -> bool) (m : dl_msg) : bool :=
  match call_for m with
  | None => true
  | Some k => match do_call_x true out k with Ok (Some _, _) => true | _ => false end
  end.
(* asn1_xer_print iu_client_vty.c:48-58.  Messages are received as without it: C107_decoded. *)
Definition printing (out : dl_msg -> nat -> bool) (E : env) : env :=
  mkEnv (dec_co (stack E)) (dec_cl (stack E)) (dec_item (stack E)) (fun m => made_x (out m) m)
        (send E) (IuClient.app E) (app_rc E) (has_event_cb E) (addr_dump E) (ri_match E).
