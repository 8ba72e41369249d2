(* VTY settings: C57. *)
From Coq Require Import String Ascii List ZArith Bool.
From Verif Require Import Vty_spec Vty Vty_proofs.
Import ListNotations.
Local Open Scope list_scope.
Local Open Scope string_scope.
Local Open Scope list_scope.

(* What each command does, whatever blanks surround its words *)
Theorem C57_commands : forall s l f, In (words l, f) commands -> exec_line s l = (CmdSuccess, f s).
Proof. intros s l f. exact (commands_done s l (words l) f eq_refl). Qed.
Print Assumptions C57_commands.
Theorem C57_address_encoding : forall s l e, In (words l, e) enc_commands ->
  exec_line s l = match s_enc s with Some _ => (CmdSuccess, mkSet (Some e) (s_debug s) (s_xer s)) | None => (CmdWarning, s) end.
Proof. intros s l e. exact (enc_done s l (words l) e eq_refl). Qed.
Print Assumptions C57_address_encoding.
(* any other line changes nothing, and is refused unless it is empty *)
Theorem C57_other_lines : forall s l, ~ In (words l) (map fst commands) -> ~ In (words l) (map fst enc_commands) ->
  exec_line s l = (if match words l with [] => true | _ => false end then CmdSuccess else CmdUnknown, s).
Proof. exact other_done. Qed.
Print Assumptions C57_other_lines.
Example C57_commands_ex : words " asn1  debug 0" = ["asn1"; "debug"; "0"] /\ words "asn1 debug 2" = ["asn1"; "debug"; "2"] /\
  ~ In ["asn1"; "debug"; "2"] (map fst commands) /\ ~ In ["asn1"; "debug"; "2"] (map fst enc_commands).
Proof. split; [reflexivity|]. split; [reflexivity|]. split; cbn; intuition discriminate. Qed.
(* After any lines typed into a fresh program, what is written is accepted by
   another fresh program and gives it the same settings. *)
Theorem C57_reload : forall typed indent, blank indent = true ->
  exists text, config_write (type_in fresh typed) indent = (CmdSuccess, text) /\
    load fresh text = Some (type_in fresh typed).
Proof. exact reload. Qed.
Print Assumptions C57_reload.
Example C57_ex : blank "  " = true /\
  type_in fresh ["asn1 debug 1"; "iu rab-assign-addr-enc x213"; "  iu rab-assign-addr-enc v4raw"; "nonsense"; "asn1 xer-print 1"; "asn1 xer-print 0"] =
    mkSet (Some ENC_V4RAW) 1 0.
Proof. split; reflexivity. Qed.
(* A program that gave no pointer to ranap_iu_vty_init loses the two ASN.1 switches,
   and the text that is written instead is refused when it is read. *)
Theorem C57_without_pointer : forall typed indent start, s_enc start = None ->
  exists text, config_write (type_in start typed) indent = (CmdWarning, text) /\ load start text = None.
Proof.
  intros typed indent start H. unfold config_write. rewrite (null_keeps typed start H). eexists. split; [reflexivity|].
  destruct start as [e d x]. reflexivity.
Qed.
Print Assumptions C57_without_pointer.
(* Settings that a program has made by other means than commands are written as well, *)
Theorem C57_written : forall s indent, (s_enc s = Some ENC_X213 \/ s_enc s = Some ENC_V4RAW) -> blank indent = true ->
  exists text, config_write s indent = (CmdSuccess, text) /\ load fresh text = Some (mkSet (s_enc s) (flag (s_debug s)) (flag (s_xer s))).
Proof. exact written. Qed.
Print Assumptions C57_written.
(* except with an address encoding that does not exist: nothing is written, and the caller is
   told *)
Theorem C57_invalid_encoding : forall s indent e, s_enc s = Some e -> e <> ENC_X213 -> e <> ENC_V4RAW -> config_write s indent = (CmdWarning, ""%string).
Proof. exact not_written. Qed.
Print Assumptions C57_invalid_encoding.
Example C57_written_ex : config_write (mkSet (Some ENC_X213) 7 0) " " = (CmdSuccess, " asn1 debug 1" ++ String nl "")%string /\
  config_write (mkSet (Some 2%Z) 1 1) " " = (CmdWarning, ""%string).
Proof. split; reflexivity. Qed.
(* A program whose own default is not X.213 does not get that setting back. *)
Theorem C57_other_default : exists start typed indent, s_enc start = Some ENC_V4RAW /\ blank indent = true /\
  s_enc (type_in start typed) = Some ENC_X213 /\
  exists text s, config_write (type_in start typed) indent = (CmdSuccess, text) /\ load start text = Some s /\ s_enc s = Some ENC_V4RAW.
Proof.
  exists (mkSet (Some ENC_V4RAW) 0 0), ["iu rab-assign-addr-enc x213"], " ". repeat split.
  eexists. eexists. split; [vm_compute; reflexivity|]. split; reflexivity.
Qed.
Print Assumptions C57_other_default.
