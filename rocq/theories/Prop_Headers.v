(* Property C105: the numbers behind the names in the headers are those of the ASN.1 modules *)
From Verif Require Import Base Asn1_spec CDecl RanapAsn Header_spec Header_proofs HeaderTab.
From Verif Require IuClient Dispatch.
From Coq Require Import String List.
Import ListNotations.
Local Open Scope Z_scope.
Local Open Scope list_scope.

(* the headers have an enumeration for each ENUMERATED, CHOICE and named INTEGER type of the
   modules, no others, and each has exactly the enumerators and the numbers of its type *)
Theorem C105_enumerations :
  forall P e l, In P header_protos ->
    (enum_for (pr_prefix P) (pr_grammar P) (pr_named P) e l <->
     exists body, In (e, body) (dl_enums (pr_headers P)) /\ c_enum body = l).
Proof. exact headers_enums. Qed.
Print Assumptions C105_enumerations.

(* no enumerator is declared twice, in all four protocols together; two enumerators of one
   enumeration have different numbers *)
Theorem C105_distinct :
  NoDup (flat_map (fun P => flat_map (fun e => map fst (snd e)) (dl_enums (pr_headers P))) header_protos) /\
  forall P e l, In P header_protos -> In (e, l) (dl_enums (pr_headers P)) -> NoDup (map snd (c_enum l)).
Proof. exact (conj enumerators_distinct numbers_distinct). Qed.
Print Assumptions C105_distinct.

(* the names of procedures and IEs have the numbers of the constants of the same name, which the
   protocol's messages are defined with *)
Theorem C105_constants :
  forall P n l i z, In P header_protos -> In (n, l) (pr_named P) -> n = "ProcedureCode"%string \/ n = "ProtocolIE-ID"%string ->
    In (i, z) l -> In (i, z) (g_consts (pr_grammar P)).
Proof. exact ids_consts. Qed.
Print Assumptions C105_constants.

(* the client and the dispatcher use the names of procedures and kinds of messages for these numbers *)
Theorem C105_client :
  forall n z, In (n, z)
    [("RANAP_ProcedureCode_id_RAB_Assignment"%string, Z.of_N IuClient.id_RAB_Assignment); ("RANAP_ProcedureCode_id_Iu_Release"%string, Z.of_N IuClient.id_Iu_Release);
     ("RANAP_ProcedureCode_id_SecurityModeControl"%string, Z.of_N IuClient.id_SecurityModeControl); ("RANAP_ProcedureCode_id_Reset"%string, Z.of_N IuClient.id_Reset);
     ("RANAP_ProcedureCode_id_Iu_ReleaseRequest"%string, Z.of_N IuClient.id_Iu_ReleaseRequest); ("RANAP_ProcedureCode_id_InitialUE_Message"%string, Z.of_N IuClient.id_InitialUE_Message);
     ("RANAP_ProcedureCode_id_DirectTransfer"%string, Z.of_N IuClient.id_DirectTransfer); ("RANAP_ProcedureCode_id_ErrorIndication"%string, Z.of_N IuClient.id_ErrorIndication);
     ("RANAP_RANAP_PDU_PR_initiatingMessage"%string, Z.of_N IuClient.PR_initiatingMessage); ("RANAP_RANAP_PDU_PR_successfulOutcome"%string, Z.of_N IuClient.PR_successfulOutcome);
     ("RANAP_RANAP_PDU_PR_unsuccessfulOutcome"%string, Z.of_N IuClient.PR_unsuccessfulOutcome); ("RANAP_RANAP_PDU_PR_outcome"%string, Z.of_N IuClient.PR_outcome);
     ("RANAP_RANAP_PDU_PR_initiatingMessage"%string, Z.of_N Dispatch.PR_initiatingMessage); ("RANAP_RANAP_PDU_PR_successfulOutcome"%string, Z.of_N Dispatch.PR_successfulOutcome);
     ("RANAP_RANAP_PDU_PR_unsuccessfulOutcome"%string, Z.of_N Dispatch.PR_unsuccessfulOutcome); ("RANAP_RANAP_PDU_PR_outcome"%string, Z.of_N Dispatch.PR_outcome);
     ("RANAP_Cause_PR_nAS"%string, Z.of_N (IuClient.c_present IuClient.cause_normal_release)); ("RANAP_CauseNAS_normal_release"%string, Z.of_N (IuClient.c_value IuClient.cause_normal_release))] ->
    exists e body, In (e, body) ranap_enums /\ In (n, z) (c_enum body).
Proof.
  intros n z H. assert (Hx : In (n, z) (flat_map (fun e => c_enum (snd e)) ranap_enums)).
  { cbn [In] in H. repeat (destruct H as [H|H]; [injection H as <- <-; apply look_In; vm_compute; reflexivity|]). destruct H. }
  apply in_flat_map in Hx. destruct Hx as ((e, body) & Hi & Hn). exists e, body. auto.
Qed.
Print Assumptions C105_client.

(* RANAP's Cause: seven alternatives, one of them an extension; and two names of a cause *)
Example C105_ex :
  exists P body, In P header_protos /\ pr_prefix P = "RANAP_"%string /\ In ("RANAP_Cause_PR"%string, body) (dl_enums (pr_headers P)) /\
    In ("RANAP_Cause_PR_NOTHING"%string, 0) (c_enum body) /\ In ("RANAP_Cause_PR_nAS"%string, 3) (c_enum body) /\
    In ("RANAP_Cause_PR_radioNetworkExtension"%string, 7) (c_enum body) /\
    exists l, enum_for (pr_prefix P) (pr_grammar P) (pr_named P) "RANAP_CauseNAS" l /\ In ("RANAP_CauseNAS_normal_release"%string, 83) l.
Proof.
  eexists _, _. split; [left; reflexivity|]. split; [reflexivity|]. split; [apply look_In; vm_compute; reflexivity|].
  split; [vm_compute; tauto|]. split; [vm_compute; tauto|]. split; [vm_compute; tauto|].
  eexists. split.
  - apply headers_enums; [left; reflexivity|]. eexists. split; [apply look_In; vm_compute; reflexivity|reflexivity].
  - vm_compute. tauto.
Qed.
