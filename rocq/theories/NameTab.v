(* Generated by a script: the value_string tables of the code, up to their
   terminator { 0, NULL }, with the numbers of the enumerators. *)
From Coq Require Import String List ZArith.
Import ListNotations.
Local Open Scope string_scope.
Local Open Scope Z_scope.

(* src/ranap_common.c:33-39 *)
Definition ranap_presence_vals : list (Z * string) :=
  [ (1, "Initiating");
    (2, "Successful Outcome");
    (3, "Unsuccessful Outcome");
    (4, "(Intermediate) Outcome") ].
(* src/ranap_common.c:41-90 *)
Definition ranap_procedure_code_vals : list (Z * string) :=
  [ (0, "RAB Assignment");
    (1, "Iu Release");
    (2, "Relocation Preparation");
    (3, "Relocation Resource Allocation");
    (4, "Relocation Cancel");
    (5, "SRNS Context Transfer");
    (6, "Security Mode Control");
    (7, "Data Volume Report");
    (9, "Reset");
    (10, "RAB Release Request");
    (11, "Iu Release Request");
    (12, "Relocation Detect");
    (13, "Relocation Complete");
    (14, "Paging");
    (15, "Common ID");
    (16, "CN Invoke Trace");
    (17, "Location Reporting Control");
    (18, "Location Report");
    (19, "Initial UE Message");
    (20, "Direct Transfer");
    (21, "Overload Control");
    (22, "Error Indication");
    (23, "SRNS Data Forward");
    (24, "Forward SRNS Context");
    (25, "Private Message");
    (26, "CN Deactivate Trace");
    (27, "Reset Resource");
    (28, "RANAP Relocation");
    (29, "RAB Modify Request");
    (30, "Location Related Data");
    (31, "Information Transfer");
    (32, "UE Specific Information");
    (33, "Uplink Information Transfer");
    (34, "Direct Information Transfer");
    (35, "MBMS Session Start");
    (36, "MBMS Session Update");
    (37, "MBMS Session Stop");
    (38, "MBMS UE Linking");
    (39, "MBMS Registration");
    (40, "MBMS CN De-Registration");
    (41, "MBMS RAB Establishment Indication");
    (42, "MBMS RAB Release");
    (43, "Enhanced Relocation Complete");
    (44, "Enhanced Relocation Complete Confirm");
    (45, "RANAP Enhanced Relocation");
    (46, "SRVCC Preparation");
    (47, "UE Radio Capability Match") ].
(* src/ranap_common.c:92-205 *)
Definition ranap_cause_radio_vals : list (Z * string) :=
  [ (1, "RAB pre-empted");
    (2, "Treloc_overall expiry");
    (3, "Treloc_prep expiry");
    (4, "Treloc_complete expiry");
    (5, "Tqueueing expiry");
    (6, "Relocation triggered");
    (7, "Treloc_alloc expiry");
    (8, "unable to establish during relocation");
    (9, "unknown target RNC");
    (10, "Relocation cancelled");
    (11, "Successful relocation");
    (12, "requested ciph. and/or int. prot. algorithms not supported");
    (13, "conflict with existing int. prot. and/or ciph. information");
    (14, "failure in the radio interface procedure");
    (15, "release due to UTRAN generated reason");
    (16, "user inactivity");
    (17, "time critical relocation");
    (18, "requested traffic class not available");
    (19, "invalid RAB parameters value");
    (20, "requested max. bit-rate not available");
    (21, "requested guaranteed bit-rate not available");
    (22, "requested transfer delay not achievable");
    (23, "invalid RAB parameters combination");
    (24, "condition violation for SDU parameters");
    (25, "condition violation for traffic handling priority");
    (26, "condition violation for guaranteed bit-rate");
    (27, "user-plane versions not supported");
    (28, "Iu-UP failure");
    (29, "relocation failure in target CN/RNC or target system");
    (30, "Invalid RAB ID");
    (31, "No remaining RAB");
    (32, "interaction with other procedure");
    (33, "requested maximum bit-rate for DL not available");
    (34, "requested maximum bit-rate for UL not available");
    (35, "requested guaranteed bit-rate for DL not available");
    (36, "requested guaranteed bit-rate for UL not available");
    (37, "repeated integrity checking failure");
    (38, "requested request type not supported");
    (39, "request superseded");
    (40, "release due to UE-generated signalling connection release");
    (41, "resource optimisation relocation");
    (42, "requested information not available");
    (43, "relocation desirable for radio reasons");
    (44, "relocation not supported in target RNC or target system");
    (45, "directed retry");
    (46, "radio connection with UE lost");
    (47, "RNC unable to establish al RFCs");
    (48, "de-ciphering keys not available");
    (49, "dedicated assistance data not available");
    (50, "relocation target not allowed");
    (51, "relocation reporting congestion");
    (52, "reduce load in serving cell");
    (53, "no radio resources available in target cell");
    (54, "GERAN Iu-Mode failure");
    (55, "access restricted due to shared networks");
    (56, "incoming relocation not supported due to PUESBINE feature");
    (57, "traffic load in the target cell higher than in the source cell");
    (58, "MBMS: no multicast service for this UE");
    (59, "MBMS: unknown UE ID");
    (60, "successful MBMS session start; no data bearer necessarry");
    (61, "MBMS superseded due to NNSF");
    (62, "MBMS: UE linking already done");
    (63, "MBMS: UE de-linking failure; no existing UE linking");
    (64, "TMGI unknown") ].
(* src/ranap_common.c:207-213 *)
Definition ranap_cause_transm_vals : list (Z * string) :=
  [ (65, "signalling transport resource failure");
    (66, "Iu transport connection failed to establish") ].
(* src/ranap_common.c:215-225 *)
Definition ranap_cause_nas_vals : list (Z * string) :=
  [ (81, "user restriction; start indication");
    (82, "user restriction; stop indication");
    (83, "normal release");
    (84, "CSG subscription expiry") ].
(* src/ranap_common.c:227-241 *)
Definition ranap_cause_prot_vals : list (Z * string) :=
  [ (97, "transfer sytax error");
    (98, "semantic error");
    (99, "message not compatible with receiver state");
    (100, "syntax error: reject");
    (101, "syntax error: ignore and notify");
    (102, "syntax error: falsely constructed message") ].
(* src/ranap_common.c:243-249 *)
Definition ranap_cause_misc_vals : list (Z * string) :=
  [ (113, "OAM intervention");
    (114, "no resource available");
    (115, "unspecified failure");
    (116, "network optimisation") ].
(* src/rua_common.c:33-39 *)
Definition rua_cause_radio_vals : list (Z * string) :=
  [ (0, "normal");
    (1, "connect failed");
    (2, "network release");
    (3, "unspecified") ].
(* src/rua_common.c:41-45 *)
Definition rua_cause_transp_vals : list (Z * string) :=
  [ (0, "resource unavailable");
    (1, "unspecified") ].
(* src/rua_common.c:47-60 *)
Definition rua_cause_prot_vals : list (Z * string) :=
  [ (0, "syntax error");
    (1, "abstract syntax error; reject");
    (2, "abstract syntax error; ignore and notify");
    (3, "message not compatible with receiver state");
    (4, "semantic error");
    (5, "unspecified");
    (6, "falsely constructed message") ].
(* src/rua_common.c:62-68 *)
Definition rua_cause_misc_vals : list (Z * string) :=
  [ (0, "processing overload");
    (1, "hardware failure");
    (2, "OAM intervention");
    (3, "unspecified") ].
(* src/hnbap_common.c:31-49 *)
Definition hnbap_cause_radio_vals : list (Z * string) :=
  [ (0, "overload");
    (1, "unauthorized location");
    (2, "unauthorized HNB");
    (3, "HNB parameter mismatch");
    (4, "invalid UE identity");
    (5, "UE not allowed on this HNB");
    (6, "unauthorised UE");
    (7, "connection with UE lost");
    (8, "UE RRC release");
    (9, "HNB not registered");
    (10, "unspecified");
    (11, "normal");
    (12, "UE relocated");
    (13, "UE registered in another HNB") ].
(* src/hnbap_common.c:51-56 *)
Definition hnbap_cause_transp_vals : list (Z * string) :=
  [ (0, "transport resource unavailable");
    (1, "unspecified") ].
(* src/hnbap_common.c:58-71 *)
Definition hnbap_cause_prot_vals : list (Z * string) :=
  [ (0, "syntax error");
    (1, "abstract syntax error; reject");
    (2, "abstract syntax error; ignore and notify");
    (3, "message not compatible with receiver state");
    (4, "semantic error");
    (5, "unspecified");
    (6, "falsely constructed message") ].
(* src/hnbap_common.c:73-79 *)
Definition hnbap_cause_misc_vals : list (Z * string) :=
  [ (0, "processing overload");
    (1, "hardware failure");
    (2, "OAM intervention");
    (3, "unspecified") ].
(* src/sabp_common.c:32-37 *)
Definition sabp_presence_vals : list (Z * string) :=
  [ (1, "Initiating");
    (2, "Successful Outcome");
    (3, "Unsuccessful Outcome") ].
(* src/sabp_common.c:39-49 *)
Definition sabp_procedure_code_vals : list (Z * string) :=
  [ (0, "Write-Replace");
    (1, "Kill");
    (2, "Load-Status-Enquiry");
    (3, "Message-Status-Query");
    (4, "Restart-Indication");
    (5, "Reset");
    (6, "Failure-Indication");
    (7, "Error-Indication") ].
(* src/sabp_common.c:51-74 *)
Definition sabp_cause_vals : list (Z * string) :=
  [ (0, "Parameter not recognized");
    (1, "Parameter value invalid");
    (2, "Valid CN message not identified");
    (3, "Service Area Identity not valid");
    (4, "Unrecognised message");
    (5, "Missing mandatory element");
    (6, "RNC capacity exceeded");
    (7, "RNC memory exceeded");
    (8, "Service Area Broadcast not supported");
    (9, "Service Area Broadcast not operational");
    (10, "Message Reference already used");
    (11, "Unspecified Error");
    (12, "Transfer Syntax Error");
    (13, "Semantic Error");
    (14, "Message not compatible with receiver state");
    (15, "Abstract Syntax Error - Reject");
    (16, "Abstract Syntax Error - Ignore and Notify");
    (17, "Abstract Syntax Error - Falsely constructed message") ].
(* src/iu_client.c:105-112 *)
Definition ranap_iu_event_type_names : list (Z * string) :=
  [ (0, "RANAP_IU_EVENT_RAB_ASSIGN");
    (1, "RANAP_IU_EVENT_SECURITY_MODE_COMPLETE");
    (2, "RANAP_IU_EVENT_IU_RELEASE");
    (3, "RANAP_IU_EVENT_LINK_INVALIDATED");
    (4, "RANAP_IU_EVENT_NEW_AREA") ].
