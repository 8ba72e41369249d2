(* The lines of a file, and the tables of the model as the generator's tables. *)
From Verif Require Import Base Container Generator Generator_spec AsnText RanapTab RuaTab HnbapTab SabpTab.
From Coq Require Import String.
Local Open Scope list_scope.

(* the lines of a file, with their newlines *)
Definition file_lines (l : list string) : list (list N) := map (fun s => chars s ++ [10%N]) l.
Definition criticality_word (c : Z) : string := if (c =? 0)%Z then "reject" else if (c =? 1)%Z then "ignore" else "notify".
Definition presence_word (p : presence) : string := match p with Mandatory => "mandatory" | Optional => "optional" | Conditional => "conditional" end.
Definition row_def (r : row) : ie_def :=
  mkIeDef (chars (r_ie r)) (chars (criticality_word (r_crit r))) (chars (r_tyname r)) (chars (presence_word (r_pres r))).
Definition msg_set (m : msgdef) : list N * list ie_def := (chars (m_key m), map row_def (m_rows m)).
(* what the generator read *)
Definition as_read (T : tables) : list (list N * list ie_def) :=
  map (fun p => (fst p, map (fun f => mkIeDef (f_id f) (f_crit f) (f_type f) (f_pres f)) (snd p))) (t_defs T).
(* the files, the tables of their protocols, and the beginning of the names of the results *)
Definition repository : list (list string * list msgdef * string) :=
  [(ranap_lines, ranap_msgs, "ranap"%string); (rua_lines, rua_msgs, "rua"%string);
   (hnbap_lines, hnbap_msgs, "hnbap"%string); (sabp_lines, sabp_msgs, "sabp"%string)].
