(* Model of /repo/src/iu_client_vty.c.  The command interpreter of libosmovty is
   modelled as far as these commands need it: a line is split at blanks, and its
   words must be those of the command, with one of the listed alternatives as
   argument; abbreviations are left out.  Nodes of the command tree are left out. *)
From Coq Require Import String Ascii List ZArith Bool.
From Verif Require Import Vty_spec.
Import ListNotations.
Local Open Scope list_scope.
Local Open Scope string_scope.
Local Open Scope list_scope.

(* CMD_SUCCESS, CMD_WARNING of libosmovty's command.h, and its answer to a line
   that is no command *)
Inductive rc := CmdSuccess | CmdWarning | CmdUnknown.
(* atoi on the digits the command definition lets through *)
(* called at iu_client_vty.c:44, 56 *)
Definition atoi (s : string) : Z := if String.eqb s "1" then 1 else 0.
(* one line: cfg_iu_asn1_debug iu_client_vty.c:36-46, cfg_iu_asn1_xer_print 48-58,
   cfg_iu_rab_assign_addr_enc 61-79 *)
Definition exec_words (s : settings) (w : list string) : rc * settings :=
  match w with
  | [] => (CmdSuccess, s)
  | [a; b; c] =>
      if String.eqb a "asn1" && String.eqb b "debug" && (String.eqb c "1" || String.eqb c "0") then
        (CmdSuccess, mkSet (s_enc s) (atoi c) (s_xer s))
      else if String.eqb a "asn1" && String.eqb b "xer-print" && (String.eqb c "1" || String.eqb c "0") then
        (CmdSuccess, mkSet (s_enc s) (s_debug s) (atoi c))
      else if String.eqb a "iu" && String.eqb b "rab-assign-addr-enc" && (String.eqb c "x213" || String.eqb c "v4raw") then
        match s_enc s with
        | None => (CmdWarning, s)
        | Some _ =>
            if String.eqb c "v4raw" then (CmdSuccess, mkSet (Some ENC_V4RAW) (s_debug s) (s_xer s))
            else (CmdSuccess, mkSet (Some ENC_X213) (s_debug s) (s_xer s))
        end
      else (CmdUnknown, s)
  | _ => (CmdUnknown, s)
  end.
(* iu_client_vty.c:36-79 *)
Definition exec_line (s : settings) (l : string) : rc * settings := exec_words s (words l).
(* lines one after the other, as on a terminal: what fails changes nothing *)
Definition type_in (s : settings) (ls : list string) : settings := fold_left (fun s l => snd (exec_line s l)) ls s.
(* reading a configuration file: it is refused at the first line that is no command, while a
   warning does not stop it *)
Fixpoint read_lines (s : settings) (ls : list string) : option settings :=
  match ls with
  | [] => Some s
  | l :: r => match exec_line s l with (CmdUnknown, _) => None | (_, s') => read_lines s' r end
  end.
(* iu_client_vty.c:36-79, 113-124, through libosmovty *)
Definition load (s : settings) (text : string) : option settings := read_lines s (lines text).
(* ranap_iu_vty_config_write 81-111: the return code and the text; VTY_NEWLINE is
   a line feed in a file *)
Definition line (l : string) : string := (l ++ String nl "")%string.
(* iu_client_vty.c:81-111 ranap_iu_vty_config_write *)
Definition config_write (s : settings) (indent : string) : rc * string :=
  match s_enc s with
  | None => (CmdWarning, line "%RAB Assignment Transport Layer Address encoding not available")
  | Some e =>
      if (e =? ENC_V4RAW)%Z || (e =? ENC_X213)%Z then
        (CmdSuccess,
          (if (e =? ENC_V4RAW)%Z then line (indent ++ "iu rab-assign-addr-enc v4raw") else "") ++
          (if (s_debug s =? 0)%Z then "" else line (indent ++ "asn1 debug 1")) ++
          (if (s_xer s =? 0)%Z then "" else line (indent ++ "asn1 xer-print 1")))%string
      else (CmdWarning, "")
  end.
