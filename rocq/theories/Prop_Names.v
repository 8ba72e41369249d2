(* Texts of causes, procedures and events: C58, C59, C67. *)
From Coq Require Import String Ascii List ZArith NArith Bool Lia.
From Verif Require Import NameSpec NameTab CauseStr_spec CauseStr CauseStr_proofs.
Import ListNotations.
Local Open Scope list_scope.
Local Open Scope string_scope.

(* ---------------- C58 ---------------- *)
(* All results are C strings within their buffer, whatever the cause holds. *)
Theorem C58_safe : forall prev present v, fits 32 prev ->
  fits 128 (ranap_cause_str present v) /\ fits 32 (rua_cause_str present v) /\ fits 32 (hnbap_cause_str prev present v).
Proof. intros. split; [|split]; [apply ranap_fits|apply rua_fits|apply hnbap_fits; assumption]. Qed.
Print Assumptions C58_safe.
(* RANAP: the complete text of every cause in the tables, the number of a
   non-standard one, and "unknown" for PR_NOTHING, the extension and others *)
Theorem C58_ranap : forall present class en, In (present, class, en) ranap_classes ->
  (forall n text, In (n, text) (ranap_table present) -> ranap_cause_str present n = in_class class text) /\
  (forall v, exists text, ranap_cause_str present v = in_class class text) /\
  (forall v, (- 2 ^ 63 <= v < 2 ^ 63)%Z -> exists text, decimal v text /\ ranap_cause_str 6 v = in_class "non-standard" text) /\
  (forall other v, (other = 0 \/ 6 < other)%N -> ranap_cause_str other v = "unknown").
Proof.
  intros present class en H. split; [|split; [|split]].
  - intros n text. exact (ranap_row present class en n text H).
  - intros v. eexists. exact (ranap_full present class en v H).
  - intros v Hv. exists (dec v). split; [exact (dec_decimal v Hv)|exact (non_standard v Hv)].
  - intros other v [-> | Ho]; [reflexivity|]. unfold ranap_cause_str.
    destruct other as [|[[[?|?|]|[?|?|]|]|[[?|?|]|[?|?|]|]|]]; try reflexivity; lia.
Qed.
Print Assumptions C58_ranap.
(* numbers without a text are given in hexadecimal, as 32-bit numbers, in full *)
Theorem C58_unknown : forall prev present class en v,
  (In (present, class, en) ranap_classes -> nameless (ranap_table present) v ->
   exists t, written 16 (Z.to_N (v mod 2 ^ 32)) t /\ ranap_cause_str present v = in_class class ("unknown 0x" ++ t)) /\
  (In (present, class, en) rua_classes -> nameless (rua_table present) v ->
   exists t, written 16 (Z.to_N (v mod 2 ^ 32)) t /\ rua_cause_str present v = in_class class ("unknown 0x" ++ t)) /\
  (In (present, class, en) hnbap_classes -> nameless (hnbap_table present) v ->
   exists t, written 16 (Z.to_N (v mod 2 ^ 32)) t /\ hnbap_cause_str prev present v = in_class class ("unknown 0x" ++ t)).
Proof. intros. split; [|split]; intros; [eapply ranap_nameless|eapply rua_nameless|eapply hnbap_nameless]; eassumption. Qed.
Print Assumptions C58_unknown.
Example C58_unknown_ex : nameless (rua_table 4) (-1) /\ written 16 (Z.to_N ((-1) mod 2 ^ 32)) "ffffffff" /\ decimal (-120) "-120".
Proof.
  split; [intros text H; vm_compute in H; intuition discriminate|]. split; [split; [discriminate|split; [reflexivity|discriminate]]|].
  exists "120". split; [reflexivity|]. split; [discriminate|split; [reflexivity|discriminate]].
Qed.
(* RUA and HNBAP cut the text of some causes of their own tables *)
Theorem C58_cut_refuted :
  (exists present class en n text, In (present, class, en) rua_classes /\ In (n, text) (rua_table present) /\
     rua_cause_str present n <> in_class class text) /\
  (exists present class en n text, In (present, class, en) hnbap_classes /\ In (n, text) (hnbap_table present) /\
     forall prev, hnbap_cause_str prev present n <> in_class class text).
Proof.
  split.
  - exists 3%N, "protocol", E_RUA_CauseProtocol, 1%Z, "abstract syntax error; reject".
    split; [cbn; auto|]. split; [cbn; auto|vm_compute; discriminate].
  - exists 1%N, "radio", E_HNBAP_CauseRadioNetwork, 5%Z, "UE not allowed on this HNB".
    split; [cbn; auto|]. split; [cbn; auto 20|intros; vm_compute; discriminate].
Qed.
Print Assumptions C58_cut_refuted.
(* They yield its beginning, and all of it exactly if it fits 31 characters. *)
Theorem C58_cut_partial : forall prev present class en n text,
  (In (present, class, en) rua_classes -> In (n, text) (rua_table present) ->
     begins (rua_cause_str present n) (in_class class text) /\
     (rua_cause_str present n = in_class class text <-> fits 32 (in_class class text))) /\
  (In (present, class, en) hnbap_classes -> In (n, text) (hnbap_table present) ->
     begins (hnbap_cause_str prev present n) (in_class class text) /\
     (hnbap_cause_str prev present n = in_class class text <-> fits 32 (in_class class text))).
Proof. intros. split; [apply rua_row|apply hnbap_row]. Qed.
Print Assumptions C58_cut_partial.
(* hnbap_cause_str repeats its last answer for an unknown class *)
Theorem C58_stale_refuted : forall prev present v, (4 < present)%N -> hnbap_cause_str prev present v = prev.
Proof.
  intros prev present v H. unfold hnbap_cause_str. destruct present as [|[[[?|?|]|[?|?|]|]|[[?|?|]|[?|?|]|]|]]; try reflexivity; lia.
Qed.
Print Assumptions C58_stale_refuted.
Example C58_ex : ranap_cause_str 3 83 = "nas(normal release)" /\ ranap_cause_str 5 1000 = "misc(unknown 0x3e8)" /\
  ranap_cause_str 6 (-12) = "non-standard(-12)" /\ rua_cause_str 3 1 = "protocol(abstract syntax error;" /\
  hnbap_cause_str "misc(unspecified)" 9 0 = "misc(unspecified)" /\ fits 32 "".
Proof. repeat split; try reflexivity. unfold fits. cbn. lia. Qed.

(* ---------------- C59 ---------------- *)
Theorem C59_ranap : forall present class en, In (present, class, en) ranap_classes ->
  complete (ranap_table present) en /\
  forall present' class' en' name n name' n', In (present', class', en') ranap_classes -> In (name, n) en -> In (name', n') en' ->
    ranap_cause_str present n = ranap_cause_str present' n' -> present = present' /\ n = n'.
Proof.
  intros present class en H. split; [exact (ranap_complete present class en H)|].
  intros present' class' en' name n name' n' H' Hn Hn' E.
  pose proof (all_differ_ok ranap_cause_str _ _ _ _ _ ranap_differ (all_of_in _ _ _ _ _ _ H Hn) (all_of_in _ _ _ _ _ _ H' Hn') E) as K.
  injection K as -> ->. auto.
Qed.
Print Assumptions C59_ranap.
Theorem C59_rua_tables : forall present class en, In (present, class, en) rua_classes -> complete (rua_table present) en.
Proof. exact rua_complete. Qed.
Print Assumptions C59_rua_tables.
(* No cause of RANAP's radio network extension has a text; two causes of HNBAP have
   none; RUA and HNBAP give two protocol causes the same text. *)
Theorem C59_names_refuted :
  (forall name n, In (name, n) E_RANAP_CauseRadioNetworkExtension -> ranap_cause_str 7 n = "unknown") /\
  (exists name n, In (name, n) E_HNBAP_CauseRadioNetwork /\ forall text, ~ In (n, text) (hnbap_table 1)) /\
  (exists name n name' n', In (name, n) E_RUA_CauseProtocol /\ In (name', n') E_RUA_CauseProtocol /\ n <> n' /\
     rua_cause_str 3 n = rua_cause_str 3 n') /\
  (exists name n name' n', In (name, n) E_HNBAP_CauseProtocol /\ In (name', n') E_HNBAP_CauseProtocol /\ n <> n' /\
     forall prev, hnbap_cause_str prev 3 n = hnbap_cause_str prev 3 n').
Proof.
  split; [reflexivity|]. split; [|split].
  - exists "HNBAP_CauseRadioNetwork_no_neighbour_information_available", 14%Z. split; [vm_compute; auto 20|].
    intros text H. vm_compute in H. intuition discriminate.
  - exists "RUA_CauseProtocol_abstract_syntax_error_reject", 1%Z, "RUA_CauseProtocol_abstract_syntax_error_ignore_and_notify", 2%Z.
    split; [vm_compute; auto 20|]. split; [vm_compute; auto 20|]. split; [discriminate|reflexivity].
  - exists "HNBAP_CauseProtocol_abstract_syntax_error_reject", 1%Z, "HNBAP_CauseProtocol_abstract_syntax_error_ignore_and_notify", 2%Z.
    split; [vm_compute; auto 20|]. split; [vm_compute; auto 20|]. split; [discriminate|reflexivity].
Qed.
Print Assumptions C59_names_refuted.
(* the other HNBAP causes have texts in the tables, and different ones *)
Theorem C59_hnbap_partial : forall present class en, In (present, class, en) hnbap_classes ->
  complete (hnbap_table present)
    (filter (fun e => negb (String.eqb (fst e) "HNBAP_CauseRadioNetwork_no_neighbour_information_available" ||
                            String.eqb (fst e) "HNBAP_CauseRadioNetwork_iurh_connection_to_that_neighbour_not_Allowed")) en).
Proof. intros present class en H. cases H; apply complete_b; vm_compute; reflexivity. Qed.
Print Assumptions C59_hnbap_partial.
Example C59_ex : length E_RANAP_CauseRadioNetwork = 64 /\ length E_RANAP_CauseRadioNetworkExtension = 13 /\
  length E_HNBAP_CauseRadioNetwork = 16 /\ length (hnbap_table 1) = 14.
Proof. repeat split. Qed.

(* ---------------- C67 ---------------- *)
(* PDU kinds, procedures, SABP causes and client events are all named, differently *)
Theorem C67_names : forall vs en,
  In (vs, en) [ (ranap_presence_vals, E_RANAP_RANAP_PDU_PR); (ranap_procedure_code_vals, E_RANAP_ProcedureCode);
                (sabp_presence_vals, E_SABP_SABP_PDU_PR); (sabp_procedure_code_vals, E_SABP_ProcedureCode);
                (sabp_cause_vals, E_SABP_Cause); (ranap_iu_event_type_names, E_ranap_iu_event_type) ] ->
  complete vs en /\ (forall n text, In (n, text) vs -> get_value_string vs n = text) /\
  (forall v, nameless vs v -> exists t, written 16 (Z.to_N (v mod 2 ^ 32)) t /\ get_value_string vs v = "unknown 0x" ++ t).
Proof.
  intros vs en H. cbn [In] in H. repeat match type of H with _ \/ _ => destruct H as [H|H] end; try contradiction; injection H as <- <-;
    (split; [apply complete_b; vm_compute; reflexivity|split; [intros; apply gvs_in; [reflexivity|assumption]|apply gvs_nameless]]).
Qed.
Print Assumptions C67_names.
Example C67_ex : get_value_string ranap_procedure_code_vals 14 = "Paging" /\ length E_RANAP_ProcedureCode = 47 /\
  get_value_string ranap_procedure_code_vals 200 = "unknown 0xc8".
Proof. repeat split. Qed.
