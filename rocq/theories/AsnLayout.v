(* Generated by a script: the layout of the object sets of some of the files of AsnText.v,
   without comments; that the files are laid out so is checked in Generator_files.v. *)
From Verif Require Import Base Generator_layout.
From Coq Require Import String.
Local Open Scope string_scope.

(* asn1/rua/RUA-PDU-Contents.asn *)
Definition rua_layout : list set_layout :=
  [ mkSetL "ConnectIEs" "RUA-PROTOCOL-IES"
      [(mkIeL "id-CN-DomainIndicator" "reject" "TYPE" "CN-DomainIndicator" "mandatory" [" "; " "; "		"; " "; "	"; " "; "			"; " "; " "], " ", "
	");
       (mkIeL "id-Context-ID" "reject" "TYPE" "Context-ID" "mandatory" [" "; " "; "			"; " "; "	"; " "; "				"; " "; " "], " ", "
	");
       (mkIeL "id-IntraDomainNasNodeSelector" "ignore" "TYPE" "IntraDomainNasNodeSelector" "optional" [" "; " "; " 	"; " "; "	"; " "; "		"; " "; " "], " ", "
	");
       (mkIeL "id-Establishment-Cause" "reject" "TYPE" "Establishment-Cause" "mandatory" [" "; " "; "		"; " "; "	"; " "; "		"; " "; " "], " ", "
	");
       (mkIeL "id-RANAP-Message" "reject" "TYPE" "RANAP-Message" "mandatory" [" "; " "; "			"; " "; "	"; " "; "			"; " "; " "], "", "")] true
      "
RUA-PDU-Contents {
itu-t (0) identified-organization (4) etsi (0) mobileDomain (0) 
umts-Access (20) modules (3) rua(5) version1 (1) rUA-PDU-Contents (1) }

DEFINITIONS AUTOMATIC TAGS ::= 

BEGIN


IMPORTS
	Cause,
	CriticalityDiagnostics,
	Context-ID,
	CN-DomainIndicator, 
	CSGMembershipStatus,
	IntraDomainNasNodeSelector,
	RANAP-Message,
	Establishment-Cause

FROM RUA-IEs


	ProtocolExtensionContainer{},
	ProtocolIE-ContainerList{},
	ProtocolIE-Container{},
	ProtocolIE-Single-Container{},
	PrivateIE-Container{},
	RUA-PRIVATE-IES,
	RUA-PROTOCOL-EXTENSION,
	RUA-PROTOCOL-IES
FROM RUA-Containers

	id-Cause,
	id-CriticalityDiagnostics,
	id-Context-ID,
	id-CN-DomainIndicator, 
 	id-CSGMembershipStatus,
	id-RANAP-Message,
	id-IntraDomainNasNodeSelector,
	id-Establishment-Cause

FROM RUA-Constants;



Connect ::= SEQUENCE {
	protocolIEs		ProtocolIE-Container       { {ConnectIEs} },
	protocolExtensions	ProtocolExtensionContainer { {ConnectExtensions} } 	OPTIONAL,
	...
}

"
      [" "; " "; " "; "
	"; "
"] (Some ("", "
	"));
    mkSetL "ConnectExtensions" "RUA-PROTOCOL-EXTENSION"
      [(mkIeL "id-CSGMembershipStatus" "ignore" "EXTENSION" "CSGMembershipStatus" "optional" [" "; " "; "		"; " "; "	"; " "; "		"; " "; " "], "", "")] true
      "
"
      [" "; " "; " "; "
	"; "
"] (Some ("", " 
	"));
    mkSetL "DirectTransferIEs" "RUA-PROTOCOL-IES"
      [(mkIeL "id-CN-DomainIndicator" "reject" "TYPE" "CN-DomainIndicator" "mandatory" [" "; " "; "	"; " "; "	"; " "; "		"; " "; " "], " ", "
	");
       (mkIeL "id-Context-ID" "reject" "TYPE" "Context-ID" "mandatory" [" "; " "; "		"; " "; "	"; " "; "			"; " "; " "], " ", "
	");
       (mkIeL "id-RANAP-Message" "reject" "TYPE" "RANAP-Message" "mandatory" [" "; " "; "		"; " "; "	"; " "; "		"; " "; " "], "", "")] true
      "


DirectTransfer ::= SEQUENCE {
	protocolIEs		ProtocolIE-Container       { {DirectTransferIEs} },
	protocolExtensions	ProtocolExtensionContainer { {DirectTransferExtensions} } 	OPTIONAL,
	...
}

"
      [" "; " "; " "; "
	"; "
"] (Some ("", "
	"));
    mkSetL "DirectTransferExtensions" "RUA-PROTOCOL-EXTENSION"
      [] true
      "
"
      [" "; " "; " "; "
	"; "
"] (None);
    mkSetL "DisconnectIEs" "RUA-PROTOCOL-IES"
      [(mkIeL "id-CN-DomainIndicator" "reject" "TYPE" "CN-DomainIndicator" "mandatory" [" "; " "; "	"; " "; "	"; " "; "	"; " "; " "], " ", "
	");
       (mkIeL "id-Context-ID" "reject" "TYPE" "Context-ID" "mandatory" [" "; " "; "		"; " "; "	"; " "; "		"; " "; " "], " ", "
	");
       (mkIeL "id-Cause" "reject" "TYPE" "Cause" "mandatory" [" "; " "; "			"; " "; "	"; " "; "		"; " "; " "], " ", "
	");
       (mkIeL "id-RANAP-Message" "reject" "TYPE" "RANAP-Message" "conditional" [" "; " "; "		"; " "; "	"; " "; "	"; " "; " "], "", "")] true
      "



Disconnect ::= SEQUENCE {
	protocolIEs		ProtocolIE-Container       { {DisconnectIEs} },
	protocolExtensions	ProtocolExtensionContainer { {DisconnectExtensions} } 	OPTIONAL,
	...
}

"
      [" "; " "; " "; "
	"; "
"] (Some ("", "
		"));
    mkSetL "DisconnectExtensions" "RUA-PROTOCOL-EXTENSION"
      [] true
      "
"
      [" "; " "; " "; "
	"; "
"] (None);
    mkSetL "ConnectionlessTransferIEs" "RUA-PROTOCOL-IES"
      [(mkIeL "id-RANAP-Message" "reject" "TYPE" "RANAP-Message" "mandatory" [" "; " "; "	"; " "; "	"; " "; "	"; " "; "  "], "", "")] true
      "

ConnectionlessTransfer ::= SEQUENCE {
	protocolIEs		ProtocolIE-Container       { {ConnectionlessTransferIEs} },
	protocolExtensions	ProtocolExtensionContainer { {ConnectionlessTransferExtensions} } 	OPTIONAL,
	...
}

"
      [" "; " "; " "; "
	"; "
"] (Some ("", "
	"));
    mkSetL "ConnectionlessTransferExtensions" "RUA-PROTOCOL-EXTENSION"
      [] true
      "
"
      [" "; " "; " "; "
	"; "
"] (None);
    mkSetL "ErrorIndicationIEs" "RUA-PROTOCOL-IES"
      [(mkIeL "id-Cause" "ignore" "TYPE" "Cause" "mandatory" [" "; " "; "			"; " "; "	"; " "; "			"; " "; " "], " ", "
	");
       (mkIeL "id-CriticalityDiagnostics" "ignore" "TYPE" "CriticalityDiagnostics" "optional" [" "; " "; "	"; " "; "	"; " "; "	"; " "; " "], "", "")] true
      "




ErrorIndication ::= SEQUENCE {
	protocolIEs		ProtocolIE-Container       { {ErrorIndicationIEs} },
	protocolExtensions	ProtocolExtensionContainer { {ErrorIndicationExtensions} } 	OPTIONAL,
	...
}

"
      [" "; " "; " "; "
	"; "
"] (Some ("", "
		"));
    mkSetL "ErrorIndicationExtensions" "RUA-PROTOCOL-EXTENSION"
      [] true
      "
"
      [" "; " "; " "; "
	"; "
"] (None);
    mkSetL "PrivateMessage-IEs" "RUA-PRIVATE-IES"
      [] true
      "

PrivateMessage ::= SEQUENCE {
	privateIEs		PrivateIE-Container  {{PrivateMessage-IEs}},
	...
}

"
      [" "; " "; " "; "
	"; "
"] (None) ].
Definition rua_rest : string := "

END
".
(* asn1/hnbap/HNBAP-PDU-Contents.asn *)
Definition hnbap_layout : list set_layout :=
  [ mkSetL "HNBRegisterRequestIEs" "HNBAP-PROTOCOL-IES"
      [(mkIeL "id-HNB-Identity" "reject" "TYPE" "HNB-Identity" "mandatory" [" "; " "; "		"; " "; "	"; " "; "	"; " "; " "], " ", "
	");
       (mkIeL "id-HNB-Location-Information" "reject" "TYPE" "HNB-Location-Information" "mandatory" [" "; " "; " "; " "; "	"; " "; "	"; " "; " "], " ", "
	");
       (mkIeL "id-PLMNidentity" "reject" "TYPE" "PLMNidentity" "mandatory" [" "; " "; "		"; " "; "	"; " "; "	"; " "; " "], " ", "
	");
       (mkIeL "id-CellIdentity" "reject" "TYPE" "CellIdentity" "mandatory" [" "; " "; "		"; " "; "	"; " "; "	"; " "; " "], " ", "
	");
       (mkIeL "id-LAC" "reject" "TYPE" "LAC" "mandatory" [" "; " "; "			"; " "; "	"; " "; "		"; " "; " "], " ", "
	");
       (mkIeL "id-RAC" "reject" "TYPE" "RAC" "mandatory" [" "; " "; "			"; " "; "	"; " "; "		"; " "; " "], " ", "
	");
       (mkIeL "id-SAC" "reject" "TYPE" "SAC" "mandatory" [" "; " "; "			"; " "; "	"; " "; "		"; " "; " "], " ", "
	");
       (mkIeL "id-CSG-ID" "reject" "TYPE" "CSG-ID" "optional" [" "; " "; "			"; " "; "	"; " "; "		"; " "; " "], "", "")] true
      "
HNBAP-PDU-Contents {
itu-t (0) identified-organization (4) etsi (0) mobileDomain (0) 
umts-Access (20) modules (3) hnbap(6) version1 (1) hnbap-PDU-Contents (1) }

DEFINITIONS AUTOMATIC TAGS ::= 

BEGIN


IMPORTS
	Cause,
	CriticalityDiagnostics, 
	CSGMembershipStatus,
	HNB-Location-Information,
	HNB-Identity,
	Context-ID,
	UE-Identity,
	LAC,
	RAC,
	SAC,
	CN-DomainIndicator,
	IP-Address,
	Registration-Cause,
	UE-Capabilities,
	PLMNidentity,
	CellIdentity,
	RNC-ID,
	CSG-ID,
	HNB-Cell-Access-Mode,
	BackoffTimer,
	MuxPortNumber,
	RABList,
	HNBConfigInfo,
	AccessResult,
	Update-cause,
	NeighbourInfoList,
	NeighbourInfoRequestList,
	PSC,
	Tunnel-Information,
	CELL-FACHMobilitySupport,
	S-RNTIPrefix,
	NeighbourIdentity,
	NeighbourCellIdentityList,
	URAIdentity,
	URAIdentityList,
	HNBCapacity,
	AdditionalNeighbourInfoList,
	U-RNTI,
	UnknownU-RNTIIndication,
	HNB-GWResponse



FROM HNBAP-IEs


	ProtocolExtensionContainer{},
	ProtocolIE-ContainerList{},
	ProtocolIE-Container{},
	ProtocolIE-Single-Container{},
	PrivateIE-Container{},
	HNBAP-PRIVATE-IES,
	HNBAP-PROTOCOL-EXTENSION,
	HNBAP-PROTOCOL-IES

FROM HNBAP-Containers

	id-Cause,
	id-CriticalityDiagnostics, 
	id-CSGMembershipStatus,
	id-HNB-Location-Information,
	id-HNB-Identity,
	id-Context-ID,
	id-PLMNidentity,
	id-UE-Identity,
	id-LAC,
	id-RAC,
	id-SAC,
	id-UE-Capabilities,
	id-Registration-Cause,
	id-CellIdentity,
	id-RNC-ID,
	id-CSG-ID,
	id-HNB-Cell-Access-Mode,
	id-BackoffTimer,
	id-Service-Area-For-Broadcast,
	id-MuxPortNumber,
	id-RABList,
	id-HNBConfigInfo,
	id-AccessResult,
	id-Update-cause,
	id-NeighbourInfoList,
	id-NeighbourInfoRequestList,
	id-Iurh-Signalling-TNL-Address,
	id-PSC,
	id-Tunnel-Information,
	id-CELL-FACHMobilitySupport,
	id-S-RNTIPrefix,
	id-URAIdentity,
	id-URAIdentityList,
	id-NeighbourIdentity, 
	id-NeighbourCellIdentityList,
	id-HNBCapacity,
	id-AdditionalNeighbourInfoList,
	id-U-RNTI,
	id-UnknownU-RNTIIndication,
	id-HNB-GWResponse


FROM HNBAP-Constants;


HNBRegisterRequest ::= SEQUENCE {
	protocolIEs		ProtocolIE-Container       { {HNBRegisterRequestIEs} },
	protocolExtensions	ProtocolExtensionContainer { {HNBRegisterRequestExtensions} } 	OPTIONAL,
	...
}

"
      [" "; " "; " "; "
	"; "
"] (Some (" ", "
	"));
    mkSetL "HNBRegisterRequestExtensions" "HNBAP-PROTOCOL-EXTENSION"
      [(mkIeL "id-Service-Area-For-Broadcast" "ignore" "EXTENSION" "SAC" "optional" [" "; " "; "	"; " "; "	"; " "; "			"; " "; " "], "", "
	");
       (mkIeL "id-HNB-Cell-Access-Mode" "reject" "EXTENSION" "HNB-Cell-Access-Mode" "optional" [" "; " "; "		"; " "; "	"; " "; "	"; " "; " "], "", "
	");
       (mkIeL "id-PSC" "ignore" "EXTENSION" "PSC" "optional" [" "; " "; "				"; " "; "	"; " "; "			"; " "; " "], "", "
	");
       (mkIeL "id-Iurh-Signalling-TNL-Address" "ignore" "EXTENSION" "IP-Address" "optional" [" "; " "; "	"; " "; "	"; " "; "		"; " "; " "], "", "
	");
       (mkIeL "id-Tunnel-Information" "ignore" "EXTENSION" "Tunnel-Information" "optional" [" "; " "; "		"; " "; "	"; " "; "	"; " "; " "], "", "
	");
       (mkIeL "id-CELL-FACHMobilitySupport" "ignore" "EXTENSION" "CELL-FACHMobilitySupport" "optional" [" "; " "; "	"; " "; "	"; " "; "	"; " "; " "], "", "
	");
       (mkIeL "id-NeighbourCellIdentityList" "ignore" "EXTENSION" "NeighbourCellIdentityList" "optional" [" "; " "; "	"; " "; "	"; " "; "	"; " "; " "], "", "
	");
       (mkIeL "id-URAIdentityList" "ignore" "EXTENSION" "URAIdentityList" "optional" [" "; " "; "			"; " "; "	"; " "; "	"; " "; " "], "", "
	");
       (mkIeL "id-HNBCapacity" "ignore" "EXTENSION" "HNBCapacity" "optional" [" "; " "; "			"; " "; "	"; " "; "		"; " "; " "], "", "")] true
      "
"
      [" "; " "; " "; "
	"; "
"] (Some ("", "
	"));
    mkSetL "HNBRegisterAcceptIEs" "HNBAP-PROTOCOL-IES"
      [(mkIeL "id-RNC-ID" "reject" "TYPE" "RNC-ID" "mandatory" [" "; " "; "		"; " "; "	"; " "; "		"; " "; " "], "", "")] true
      "

HNBRegisterAccept ::= SEQUENCE {
	protocolIEs		ProtocolIE-Container		{ {HNBRegisterAcceptIEs} },
	protocolExtensions	ProtocolExtensionContainer	{ {HNBRegisterAcceptExtensions} }	OPTIONAL,
	...
}

"
      [" "; " "; " "; "
	"; "
"] (Some ("", "
	"));
    mkSetL "HNBRegisterAcceptExtensions" "HNBAP-PROTOCOL-EXTENSION"
      [(mkIeL "id-MuxPortNumber" "ignore" "EXTENSION" "MuxPortNumber" "optional" [" "; " "; "			"; " "; "	"; " "; "		"; " "; ""], "", "
	");
       (mkIeL "id-Iurh-Signalling-TNL-Address" "ignore" "EXTENSION" "IP-Address" "optional" [" "; " "; "	"; " "; "	"; " "; "		"; " "; ""], "", "
	");
       (mkIeL "id-S-RNTIPrefix" "ignore" "EXTENSION" "S-RNTIPrefix" "optional" [" "; " "; "			"; " "; "	"; " "; "		"; " "; ""], "", "")] true
      "
"
      [" "; " "; " "; "
	"; "
"] (Some ("", "
	"));
    mkSetL "HNBRegisterRejectIEs" "HNBAP-PROTOCOL-IES"
      [(mkIeL "id-Cause" "ignore" "TYPE" "Cause" "mandatory" [" "; " "; "			"; " "; "	"; " "; "			"; " "; ""], " ", "
	");
       (mkIeL "id-CriticalityDiagnostics" "ignore" "TYPE" "CriticalityDiagnostics" "optional" [" "; " "; "	"; " "; "	"; " "; "	"; " "; " "], " ", "
	");
       (mkIeL "id-BackoffTimer" "reject" "TYPE" "BackoffTimer" "conditional" [" "; " "; "		"; " "; "	"; " "; "		"; " "; " "], "", "")] true
      "

HNBRegisterReject ::= SEQUENCE {
	protocolIEs		ProtocolIE-Container       { {HNBRegisterRejectIEs} },
	protocolExtensions	ProtocolExtensionContainer { {HNBRegisterRejectExtensions} } 	OPTIONAL,
	...
}

"
      [" "; " "; " "; "
	"; "
"] (Some ("", "
		"));
    mkSetL "HNBRegisterRejectExtensions" "HNBAP-PROTOCOL-EXTENSION"
      [] true
      "
"
      [" "; " "; " "; "
	"; "
"] (None);
    mkSetL "HNBDe-RegisterIEs" "HNBAP-PROTOCOL-IES"
      [(mkIeL "id-Cause" "ignore" "TYPE" "Cause" "mandatory" [" "; " "; "			"; " "; "	"; " "; "		"; " "; " "], " ", "
	");
       (mkIeL "id-BackoffTimer" "reject" "TYPE" "BackoffTimer" "conditional" [" "; " "; "		"; " "; "	"; " "; "	"; " "; " "], "", "")] true
      "



HNBDe-Register ::= SEQUENCE {
	protocolIEs		ProtocolIE-Container       { {HNBDe-RegisterIEs} },
	protocolExtensions	ProtocolExtensionContainer { {HNBDe-RegisterExtensions} } 	OPTIONAL,
	...
}

"
      [" "; " "; " "; "
	"; "
"] (Some ("", "
		"));
    mkSetL "HNBDe-RegisterExtensions" "HNBAP-PROTOCOL-EXTENSION"
      [] true
      "
"
      [" "; " "; " "; "
	"; "
"] (None);
    mkSetL "UERegisterRequestIEs" "HNBAP-PROTOCOL-IES"
      [(mkIeL "id-UE-Identity" "reject" "TYPE" "UE-Identity" "mandatory" [" "; " "; "		"; " "; "	"; " "; "		"; " "; " "], " ", "
	");
       (mkIeL "id-Registration-Cause" "ignore" "TYPE" "Registration-Cause" "mandatory" [" "; " "; "	"; " "; "	"; " "; "		"; " "; " "], " ", "
	");
       (mkIeL "id-UE-Capabilities" "reject" "TYPE" "UE-Capabilities" "mandatory" [" "; " "; "		"; " "; "	"; " "; "		"; " "; " "], "", "")] true
      "


UERegisterRequest ::= SEQUENCE {
	protocolIEs		ProtocolIE-Container       { {UERegisterRequestIEs} },
	protocolExtensions	ProtocolExtensionContainer { {UERegisterRequestExtensions} } 	OPTIONAL,
	...
}

"
      [" "; " "; " "; "
	"; "
"] (Some ("", "
	"));
    mkSetL "UERegisterRequestExtensions" "HNBAP-PROTOCOL-EXTENSION"
      [] true
      "
"
      [" "; " "; " "; "
	"; "
"] (None);
    mkSetL "UERegisterAcceptIEs" "HNBAP-PROTOCOL-IES"
      [(mkIeL "id-UE-Identity" "reject" "TYPE" "UE-Identity" "mandatory" [" "; " "; "	"; " "; "	"; " "; "	"; " "; " "], " ", "
	");
       (mkIeL "id-Context-ID" "reject" "TYPE" "Context-ID" "mandatory" [" "; " "; "	"; " "; "	"; " "; "		"; " "; " "], "", "")] true
      "

UERegisterAccept ::= SEQUENCE {
	protocolIEs		ProtocolIE-Container		{ {UERegisterAcceptIEs} },
	protocolExtensions	ProtocolExtensionContainer	{ {UERegisterAcceptExtensions} } 	OPTIONAL,
	...
}

"
      [" "; " "; " "; "
	"; "
"] (Some ("", "
	"));
    mkSetL "UERegisterAcceptExtensions" "HNBAP-PROTOCOL-EXTENSION"
      [(mkIeL "id-CSGMembershipStatus" "reject" "EXTENSION" "CSGMembershipStatus" "optional" [" "; " "; "	"; " "; "	"; " "; "	"; " "; " "], "", "")] true
      "

"
      [" "; " "; " "; "
	"; "
"] (Some ("", "
	"));
    mkSetL "UERegisterRejectIEs" "HNBAP-PROTOCOL-IES"
      [(mkIeL "id-UE-Identity" "reject" "TYPE" "UE-Identity" "mandatory" [" "; " "; "		"; " "; "	"; " "; "		"; " "; " "], " ", "
	");
       (mkIeL "id-Cause" "ignore" "TYPE" "Cause" "mandatory" [" "; " "; "			"; " "; "	"; " "; "			"; " "; ""], " ", "
	");
       (mkIeL "id-CriticalityDiagnostics" "ignore" "TYPE" "CriticalityDiagnostics" "optional" [" "; " "; "	"; " "; "	"; " "; "	"; " "; " "], "", "")] true
      "

UERegisterReject ::= SEQUENCE {
	protocolIEs		ProtocolIE-Container		{ {UERegisterRejectIEs} },
	protocolExtensions	ProtocolExtensionContainer	{ {UERegisterRejectExtensions} } OPTIONAL,
	...
}

"
      [" "; " "; " "; "
	"; "
"] (Some ("", "
	"));
    mkSetL "UERegisterRejectExtensions" "HNBAP-PROTOCOL-EXTENSION"
      [] true
      "
"
      [" "; " "; " "; "
	"; "
"] (None);
    mkSetL "UEDe-RegisterIEs" "HNBAP-PROTOCOL-IES"
      [(mkIeL "id-Context-ID" "reject" "TYPE" "Context-ID" "mandatory" [" "; " "; "	"; " "; "	"; " "; "		"; " "; " "], " ", "
	");
       (mkIeL "id-Cause" "ignore" "TYPE" "Cause" "mandatory" [" "; " "; "		"; " "; "	"; " "; "		"; " "; " "], "", "")] true
      "


UEDe-Register ::= SEQUENCE {
	protocolIEs		ProtocolIE-Container		{ {UEDe-RegisterIEs} },
	protocolExtensions	ProtocolExtensionContainer	{ {UEDe-RegisterExtensions} } 	OPTIONAL,
	...
}

"
      [" "; " "; " "; "
	"; "
"] (Some (" ", "
	"));
    mkSetL "UEDe-RegisterExtensions" "HNBAP-PROTOCOL-EXTENSION"
      [] true
      "
"
      [" "; " "; " "; "
	"; "
"] (None);
    mkSetL "CSGMembershipUpdateIEs" "HNBAP-PROTOCOL-IES"
      [(mkIeL "id-Context-ID" "reject" "TYPE" "Context-ID" "mandatory" [" "; " "; "		"; " "; "	"; " "; "			"; " "; " "], " ", "
	");
       (mkIeL "id-CSGMembershipStatus" "reject" "TYPE" "CSGMembershipStatus" "mandatory" [" "; " "; "	"; " "; "	"; " "; "	"; " "; " "], "", "")] true
      "

CSGMembershipUpdate ::= SEQUENCE {
	protocolIEs		ProtocolIE-Container		{ {CSGMembershipUpdateIEs} },
	protocolExtensions	ProtocolExtensionContainer	{ {CSGMembershipUpdateExtensions} } 	OPTIONAL,
	...
}

"
      [" "; " "; " "; "
	"; "
"] (Some ("", "
	"));
    mkSetL "CSGMembershipUpdateExtensions" "HNBAP-PROTOCOL-EXTENSION"
      [] true
      "
"
      [" "; " "; " "; "
	"; "
"] (None);
    mkSetL "TNLUpdateRequestIEs" "HNBAP-PROTOCOL-IES"
      [(mkIeL "id-Context-ID" "reject" "TYPE" "Context-ID" "mandatory" [" "; " "; "	"; " "; "	"; " "; "		"; " "; " "], " ", "
	");
       (mkIeL "id-RABList" "reject" "TYPE" "RABList" "mandatory" [" "; " "; "		"; " "; "	"; " "; "		"; " "; " "], " ", "
	");
       (mkIeL "id-Update-cause" "reject" "TYPE" "Update-cause" "mandatory" [" "; " "; "	"; " "; "	"; " "; "	"; " "; " "], "", "")] true
      "

TNLUpdateRequest ::= SEQUENCE {
	protocolIEs		ProtocolIE-Container		{ {TNLUpdateRequestIEs} },
	protocolExtensions	ProtocolExtensionContainer	{ {TNLUpdateExtensions} } 	OPTIONAL,
	...
}

"
      [" "; " "; " "; "
	"; "
"] (Some (" ", "
		"));
    mkSetL "TNLUpdateExtensions" "HNBAP-PROTOCOL-EXTENSION"
      [] true
      "
"
      [" "; " "; " "; "
	"; "
"] (None);
    mkSetL "TNLUpdateResponseIEs" "HNBAP-PROTOCOL-IES"
      [(mkIeL "id-Context-ID" "reject" "TYPE" "Context-ID" "mandatory" [" "; " "; "	"; " "; "	"; " "; "		"; " "; " "], "", "")] true
      "

TNLUpdateResponse ::= SEQUENCE {
	protocolIEs		ProtocolIE-Container		{ { TNLUpdateResponseIEs} },
	protocolExtensions	ProtocolExtensionContainer	{ { TNLUpdateResponseExtensions} } 	OPTIONAL,
	...
}

"
      [" "; " "; " "; "
	"; "
"] (Some (" ", "
		"));
    mkSetL "TNLUpdateResponseExtensions" "HNBAP-PROTOCOL-EXTENSION"
      [] true
      "
"
      [" "; " "; " "; "
	"; "
"] (None);
    mkSetL "TNLUpdateFailureIEs" "HNBAP-PROTOCOL-IES"
      [(mkIeL "id-Context-ID" "reject" "TYPE" "Context-ID" "mandatory" [" "; " "; "		"; " "; "	"; " "; "			"; " "; " "], " ", "
	");
       (mkIeL "id-Cause" "ignore" "TYPE" "Cause" "mandatory" [" "; " "; "			"; " "; "	"; " "; "			"; " "; " "], " ", "
	");
       (mkIeL "id-CriticalityDiagnostics" "ignore" "TYPE" "CriticalityDiagnostics" "optional" [" "; " "; "	"; " "; "	"; " "; "	"; " "; " "], "", "")] true
      "

TNLUpdateFailure ::= SEQUENCE {
	protocolIEs		ProtocolIE-Container		{ {TNLUpdateFailureIEs} },
	protocolExtensions	ProtocolExtensionContainer	{ {TNLUpdateFailureExtensions} } 	OPTIONAL,
	...
}

"
      [" "; " "; " "; "
	"; "
"] (Some (" ", "
		"));
    mkSetL "TNLUpdateFailureExtensions" "HNBAP-PROTOCOL-EXTENSION"
      [] true
      "
"
      [" "; " "; " "; "
	"; "
"] (None);
    mkSetL "HNBConfigTransferRequestIEs" "HNBAP-PROTOCOL-IES"
      [(mkIeL "id-NeighbourInfoRequestList" "reject" "TYPE" "NeighbourInfoRequestList" "mandatory" [" "; " "; "	"; " "; "	"; " "; "	"; " "; " "], "", "")] true
      "

HNBConfigTransferRequest ::= SEQUENCE {
	protocolIEs		ProtocolIE-Container       { {HNBConfigTransferRequestIEs} },
	protocolExtensions	ProtocolExtensionContainer { {HNBConfigTransferRequestExtensions} } 	OPTIONAL,
	...
}

"
      [" "; " "; " "; "
	"; "
"] (Some (" ", "
	"));
    mkSetL "HNBConfigTransferRequestExtensions" "HNBAP-PROTOCOL-EXTENSION"
      [] true
      "
"
      [" "; " "; " "; "
	"; "
"] (None);
    mkSetL "HNBConfigTransferResponseIEs" "HNBAP-PROTOCOL-IES"
      [(mkIeL "id-NeighbourInfoList" "reject" "TYPE" "NeighbourInfoList" "mandatory" [" "; " "; "	"; " "; "	"; " "; "		"; " "; " "], "", "")] true
      "

HNBConfigTransferResponse ::= SEQUENCE {
	protocolIEs		ProtocolIE-Container       { { HNBConfigTransferResponseIEs} },
	protocolExtensions	ProtocolExtensionContainer { { HNBConfigTransferResponseExtensions} } 	OPTIONAL,
	...
}

"
      [" "; " "; " "; "
	"; "
"] (Some (" ", "
	"));
    mkSetL "HNBConfigTransferResponseExtensions" "HNBAP-PROTOCOL-EXTENSION"
      [(mkIeL "id-AdditionalNeighbourInfoList" "ignore" "EXTENSION" "AdditionalNeighbourInfoList" "optional" [" "; " "; "	"; " "; "	"; " "; "	"; " "; ""], "", "")] true
      "
"
      [" "; " "; " "; "
	"; "
"] (Some ("", "
	"));
    mkSetL "RelocationCompleteIEs" "HNBAP-PROTOCOL-IES"
      [(mkIeL "id-Context-ID" "ignore" "TYPE" "Context-ID" "mandatory" [" "; " "; "	"; " "; "	"; " "; "			"; " "; " "], "", "")] true
      "

RelocationComplete ::= SEQUENCE {
	protocolIEs		ProtocolIE-Container		{ { RelocationCompleteIEs} },
	protocolExtensions	ProtocolExtensionContainer	{ { RelocationCompleteExtensions} } 	OPTIONAL,
	...
}

"
      [" "; " "; " "; "
	"; "
"] (Some (" ", "
	"));
    mkSetL "RelocationCompleteExtensions" "HNBAP-PROTOCOL-EXTENSION"
      [] true
      "

"
      [" "; " "; " "; "
	"; "
"] (None);
    mkSetL "ErrorIndicationIEs" "HNBAP-PROTOCOL-IES"
      [(mkIeL "id-Cause" "ignore" "TYPE" "Cause" "mandatory" [" "; " "; "			"; " "; "	"; " "; "			"; " "; " "], " ", "
	");
       (mkIeL "id-CriticalityDiagnostics" "ignore" "TYPE" "CriticalityDiagnostics" "optional" [" "; " "; "	"; " "; "	"; " "; "	"; " "; " "], "", "")] true
      "

ErrorIndication ::= SEQUENCE {
	protocolIEs		ProtocolIE-Container		{ {ErrorIndicationIEs} },
	protocolExtensions	ProtocolExtensionContainer	{ {ErrorIndicationExtensions} } 	OPTIONAL,
	...
}

"
      [" "; " "; " "; "
	"; "
"] (Some ("", "
		"));
    mkSetL "ErrorIndicationExtensions" "HNBAP-PROTOCOL-EXTENSION"
      [] true
      "
"
      [" "; " "; " "; "
	"; "
"] (None);
    mkSetL "PrivateMessage-IEs" "HNBAP-PRIVATE-IES"
      [] true
      "

PrivateMessage ::= SEQUENCE {
	privateIEs		PrivateIE-Container  {{PrivateMessage-IEs}},
	...
}

"
      [" "; " "; " "; "
	"; "
"] (None);
    mkSetL "U-RNTIQueryRequestIEs" "HNBAP-PROTOCOL-IES"
      [(mkIeL "id-U-RNTI" "reject" "TYPE" "U-RNTI" "mandatory" [" "; " "; "		"; " "; "	"; " "; "			"; " "; " "], "", "")] true
      "

U-RNTIQueryRequest ::= SEQUENCE {
	protocolIEs		ProtocolIE-Container       { {U-RNTIQueryRequestIEs} },
	protocolExtensions	ProtocolExtensionContainer { {U-RNTIQueryRequestExtensions} }	OPTIONAL,
	...
}

"
      [" "; " "; " "; "
	"; "
"] (Some (" ", "
	"));
    mkSetL "U-RNTIQueryRequestExtensions" "HNBAP-PROTOCOL-EXTENSION"
      [] true
      "
"
      [" "; " "; " "; "
	"; "
"] (None);
    mkSetL "U-RNTIQueryResponseIEs" "HNBAP-PROTOCOL-IES"
      [(mkIeL "id-HNB-GWResponse" "reject" "TYPE" "HNB-GWResponse" "mandatory" [" "; " "; "	"; " "; "	"; " "; "	"; " "; " "], "", "")] true
      "

U-RNTIQueryResponse ::= SEQUENCE {
	protocolIEs		ProtocolIE-Container       { { U-RNTIQueryResponseIEs} },
	protocolExtensions	ProtocolExtensionContainer { { U-RNTIQueryResponseExtensions} } 	OPTIONAL,
	...
}

"
      [" "; " "; " "; "
	"; "
"] (Some (" ", "
	"));
    mkSetL "U-RNTIQueryResponseExtensions" "HNBAP-PROTOCOL-EXTENSION"
      [] true
      "
"
      [" "; " "; " "; "
	"; "
"] (None) ].
Definition hnbap_rest : string := "
END
".
(* asn1/sabp/SABP-PDU-Contents.asn *)
Definition sabp_layout : list set_layout :=
  [ mkSetL "Write-Replace-IEs" "SABP-PROTOCOL-IES"
      [(mkIeL "id-Message-Identifier" "reject" "TYPE" "Message-Identifier" "mandatory" [" "; " "; " "; " "; " "; " "; " "; " "; " "], " ", "
 ");
       (mkIeL "id-New-Serial-Number" "reject" "TYPE" "New-Serial-Number" "mandatory" [" "; " "; " "; " "; " "; " "; " "; " "; " "], " ", "
 ");
       (mkIeL "id-Old-Serial-Number" "ignore" "TYPE" "Old-Serial-Number" "optional" [" "; " "; " "; " "; " "; " "; " "; " "; " "], " ", "
 ");
       (mkIeL "id-Service-Areas-List" "reject" "TYPE" "Service-Areas-List" "mandatory" [" "; " "; " "; " "; " "; " "; " "; " "; " "], " ", "
 ");
       (mkIeL "id-Category" "ignore" "TYPE" "Category" "optional" [" "; " "; " "; " "; " "; " "; " "; " "; " "], " ", "
 ");
       (mkIeL "id-Repetition-Period" "reject" "TYPE" "Repetition-Period" "mandatory" [" "; " "; " "; " "; " "; " "; " "; " "; " "], " ", "
 ");
       (mkIeL "id-Number-of-Broadcasts-Requested" "reject" "TYPE" "Number-of-Broadcasts-Requested" "mandatory" [" "; " "; "
 "; " "; " "; " "; " "; " "; " "], " ", "
 ");
       (mkIeL "id-Data-Coding-Scheme" "reject" "TYPE" "Data-Coding-Scheme" "mandatory" [" "; " "; " "; " "; " "; " "; " "; " "; " "], " ", "
 ");
       (mkIeL "id-Broadcast-Message-Content" "reject" "TYPE" "Broadcast-Message-Content" "mandatory" [" "; " "; "
 "; " "; " "; " "; " "; " "; " "], "", "")] true
      "SABP-PDU-Contents {
itu-t (0) identified-organization (4) etsi (0) mobileDomain (0)
umts-Access (20) modules (3) sabp (3) version1 (1) sabp-PDU-Contents (1) }
DEFINITIONS AUTOMATIC TAGS ::= 
BEGIN
IMPORTS
 Broadcast-Message-Content,
 Category,
 Cause,
Criticality-Diagnostics,
 Data-Coding-Scheme,
 Failure-List,
 Message-Identifier,
 New-Serial-Number,
 Number-of-Broadcasts-Completed-List,
 Number-of-Broadcasts-Requested,
 Old-Serial-Number,
 Paging-ETWS-Indicator,
 Radio-Resource-Loading-List,
 Recovery-Indication,
 Repetition-Period,
 Serial-Number,
 Service-Areas-List,
 WarningSecurityInfo,
 Warning-Type,
 Broadcast-Message-Content-Validity-Indicator
FROM SABP-IEs
 ProtocolExtensionContainer{},
 ProtocolIE-Container{},
 SABP-PROTOCOL-EXTENSION,
 SABP-PROTOCOL-IES
FROM SABP-Containers
 id-Broadcast-Message-Content,
 id-Category,
 id-Criticality-Diagnostics,
 id-Cause,
 id-Data-Coding-Scheme,
 id-Failure-List,
 id-Message-Identifier,
 id-New-Serial-Number,
 id-Number-of-Broadcasts-Completed-List,
 id-Number-of-Broadcasts-Requested,
 id-Old-Serial-Number,
 id-Paging-ETWS-Indicator,
 id-Radio-Resource-Loading-List,
 id-Recovery-Indication,
 id-Repetition-Period,
 id-Serial-Number, 
 id-Service-Areas-List,
 id-WarningSecurityInfo,
 id-Warning-Type,
 id-Broadcast-Message-Content-Validity-Indicator
FROM SABP-Constants;
Write-Replace ::= SEQUENCE {
 protocolIEs ProtocolIE-Container { {Write-Replace-IEs} },
 protocolExtensions ProtocolExtensionContainer { {Write-Replace-Extensions} } OPTIONAL,
 ...
}
"
      [" "; " "; " "; "
 "; "
"] (Some ("", "
 "));
    mkSetL "Write-Replace-Extensions" "SABP-PROTOCOL-EXTENSION"
      [(mkIeL "id-WarningSecurityInfo" "ignore" "EXTENSION" "WarningSecurityInfo" "optional" [" "; " "; " "; " "; " "; " "; " "; " "; " "], " ", "
 ");
       (mkIeL "id-Paging-ETWS-Indicator" "ignore" "EXTENSION" "Paging-ETWS-Indicator" "optional" [" "; " "; " "; " "; " "; " "; " "; " "; " "], " ", "
 ");
       (mkIeL "id-Warning-Type" "ignore" "EXTENSION" "Warning-Type" "optional" [" "; " "; " "; " "; " "; " "; " "; " "; " "], " ", "
 ");
       (mkIeL "id-Broadcast-Message-Content-Validity-Indicator" "ignore" "EXTENSION" "Broadcast-Message-Content-Validity-Indicator" "optional" [" "; " "; " "; " "; " "; " "; " "; "
"; " "], "", "")] true
      ""
      [" "; " "; " "; "
 "; "
"] (Some ("", "
 "));
    mkSetL "Write-Replace-Complete-IEs" "SABP-PROTOCOL-IES"
      [(mkIeL "id-Message-Identifier" "reject" "TYPE" "Message-Identifier" "mandatory" [" "; " "; " "; " "; " "; " "; " "; " "; " "], " ", "
 ");
       (mkIeL "id-New-Serial-Number" "reject" "TYPE" "New-Serial-Number" "mandatory" [" "; " "; " "; " "; " "; " "; " "; " "; " "], " ", "
 ");
       (mkIeL "id-Number-of-Broadcasts-Completed-List" "reject" "TYPE" "Number-of-Broadcasts-Completed-List" "mandatory" [" "; " "; "
 "; " "; " "; " "; "
 "; " "; " "], "", "
");
       (mkIeL "id-Criticality-Diagnostics" "ignore" "TYPE" "Criticality-Diagnostics" "optional" [" "; " "; "
"; " "; " "; " "; " "; " "; " "], "", "")] true
      "Write-Replace-Complete ::= SEQUENCE {
 protocolIEs ProtocolIE-Container { {Write-Replace-Complete-IEs} },
 protocolExtensions ProtocolExtensionContainer { {Write-Replace-Complete-Extensions} } OPTIONAL,
 ...
} 
"
      [" "; " "; " "; "
 "; "
"] (Some ("", "
 "));
    mkSetL "Write-Replace-Complete-Extensions" "SABP-PROTOCOL-EXTENSION"
      [] true
      ""
      [" "; " "; " "; "
 "; "
"] (None);
    mkSetL "Write-Replace-Failure-IEs" "SABP-PROTOCOL-IES"
      [(mkIeL "id-Message-Identifier" "reject" "TYPE" "Message-Identifier" "mandatory" [" "; " "; " "; " "; " "; " "; " "; " "; " "], " ", "
 ");
       (mkIeL "id-New-Serial-Number" "reject" "TYPE" "New-Serial-Number" "mandatory" [" "; " "; " "; " "; " "; " "; " "; " "; " "], " ", "
 ");
       (mkIeL "id-Failure-List" "reject" "TYPE" "Failure-List" "mandatory" [" "; " "; " "; " "; " "; " "; " "; " "; " "], " ", "
 ");
       (mkIeL "id-Number-of-Broadcasts-Completed-List" "ignore" "TYPE" "Number-of-Broadcasts-Completed-List" "optional" [" "; " "; "
 "; " "; " "; " "; "
 "; " "; " "], " ", "
");
       (mkIeL "id-Criticality-Diagnostics" "ignore" "TYPE" "Criticality-Diagnostics" "optional" [" "; " "; "
"; " "; " "; " "; " "; " "; " "], "", "")] true
      "Write-Replace-Failure ::= SEQUENCE {
 protocolIEs ProtocolIE-Container { {Write-Replace-Failure-IEs} },
 protocolExtensions ProtocolExtensionContainer { {Write-Replace-Failure-Extensions} } OPTIONAL,
 ...
}
"
      [" "; " "; " "; "
 "; "
"] (Some ("", "
 "));
    mkSetL "Write-Replace-Failure-Extensions" "SABP-PROTOCOL-EXTENSION"
      [] true
      ""
      [" "; " "; " "; "
 "; "
"] (None);
    mkSetL "Kill-IEs" "SABP-PROTOCOL-IES"
      [(mkIeL "id-Message-Identifier" "reject" "TYPE" "Message-Identifier" "mandatory" [" "; " "; " "; " "; " "; " "; " "; " "; " "], " ", "
 ");
       (mkIeL "id-Old-Serial-Number" "reject" "TYPE" "Old-Serial-Number" "mandatory" [" "; " "; " "; " "; " "; " "; " "; " "; " "], " ", "
 ");
       (mkIeL "id-Service-Areas-List" "reject" "TYPE" "Service-Areas-List" "mandatory" [" "; " "; " "; " "; " "; " "; " "; " "; " "], "", "")] true
      "Kill ::= SEQUENCE {
 protocolIEs ProtocolIE-Container {{Kill-IEs}},
 protocolExtensions ProtocolExtensionContainer {{Kill-Extensions}} OPTIONAL,
 ...
} 
"
      [" "; " "; " "; "
 "; "
"] (Some (" ", "
 "));
    mkSetL "Kill-Extensions" "SABP-PROTOCOL-EXTENSION"
      [] true
      ""
      [" "; " "; " "; "
 "; "
"] (None);
    mkSetL "Kill-Complete-IEs" "SABP-PROTOCOL-IES"
      [(mkIeL "id-Message-Identifier" "reject" "TYPE" "Message-Identifier" "mandatory" [" "; " "; " "; " "; " "; " "; " "; " "; " "], " ", "
 ");
       (mkIeL "id-Old-Serial-Number" "reject" "TYPE" "Old-Serial-Number" "mandatory" [" "; " "; " "; " "; " "; " "; " "; " "; " "], " ", "
 ");
       (mkIeL "id-Number-of-Broadcasts-Completed-List" "reject" "TYPE" "Number-of-Broadcasts-Completed-List" "mandatory" [" "; " "; "
 "; " "; " "; " "; "
 "; " "; " "], "", "
");
       (mkIeL "id-Criticality-Diagnostics" "ignore" "TYPE" "Criticality-Diagnostics" "optional" [" "; " "; "
"; " "; " "; " "; " "; " "; " "], "", "")] true
      "Kill-Complete ::= SEQUENCE {
 protocolIEs ProtocolIE-Container {{Kill-Complete-IEs}},
 protocolExtensions ProtocolExtensionContainer {{Kill-Complete-Extensions}} OPTIONAL,
 ...
}
"
      [" "; " "; " "; "
 "; "
"] (Some ("", "
 "));
    mkSetL "Kill-Complete-Extensions" "SABP-PROTOCOL-EXTENSION"
      [] true
      ""
      [" "; " "; " "; "
 "; "
"] (None);
    mkSetL "Kill-Failure-IEs" "SABP-PROTOCOL-IES"
      [(mkIeL "id-Message-Identifier" "reject" "TYPE" "Message-Identifier" "mandatory" [" "; " "; " "; " "; " "; " "; " "; " "; " "], " ", "
 ");
       (mkIeL "id-Old-Serial-Number" "reject" "TYPE" "Old-Serial-Number" "mandatory" [" "; " "; " "; " "; " "; " "; " "; " "; " "], " ", "
 ");
       (mkIeL "id-Failure-List" "reject" "TYPE" "Failure-List" "mandatory" [" "; " "; " "; " "; " "; " "; " "; " "; " "], " ", " 
 ");
       (mkIeL "id-Number-of-Broadcasts-Completed-List" "ignore" "TYPE" "Number-of-Broadcasts-Completed-List" "optional" [" "; " "; "
 "; " "; " "; " "; "
 "; " "; " "], " ", "
");
       (mkIeL "id-Criticality-Diagnostics" "ignore" "TYPE" "Criticality-Diagnostics" "optional" [" "; " "; "
"; " "; " "; " "; " "; " "; " "], "", "")] true
      "Kill-Failure ::= SEQUENCE {
 protocolIEs ProtocolIE-Container {{Kill-Failure-IEs}},
 protocolExtensions ProtocolExtensionContainer {{Kill-Failure-Extensions}} OPTIONAL,
 ...
}
"
      [" "; " "; " "; "
 "; "
"] (Some ("", "
 "));
    mkSetL "Kill-Failure-Extensions" "SABP-PROTOCOL-EXTENSION"
      [] true
      ""
      [" "; " "; " "; "
 "; "
"] (None);
    mkSetL "Load-Query-IEs" "SABP-PROTOCOL-IES"
      [(mkIeL "id-Service-Areas-List" "reject" "TYPE" "Service-Areas-List" "mandatory" [" "; " "; " "; " "; " "; " "; " "; " "; " "], "", "")] true
      "Load-Query ::= SEQUENCE {
 protocolIEs ProtocolIE-Container {{Load-Query-IEs}},
 protocolExtensions ProtocolExtensionContainer {{Load-Query-Extensions}} OPTIONAL,
 ...
}
"
      [" "; " "; " "; "
 "; "
"] (Some (" ", "
 "));
    mkSetL "Load-Query-Extensions" "SABP-PROTOCOL-EXTENSION"
      [] true
      ""
      [" "; " "; " "; "
 "; "
"] (None);
    mkSetL "Load-Query-Complete-IEs" "SABP-PROTOCOL-IES"
      [(mkIeL "id-Radio-Resource-Loading-List" "reject" "TYPE" "Radio-Resource-Loading-List" "mandatory" [" "; " "; "
 "; " "; " "; " "; "
 "; " "; " "], " ", "
");
       (mkIeL "id-Criticality-Diagnostics" "ignore" "TYPE" "Criticality-Diagnostics" "optional" [" "; " "; "
"; " "; " "; " "; " "; " "; " "], "", "")] false
      "Load-Query-Complete ::= SEQUENCE {
 protocolIEs ProtocolIE-Container {{Load-Query-Complete-IEs}},
 protocolExtensions ProtocolExtensionContainer {{Load-Query-Complete-Extensions}} OPTIONAL,
 ...
}
"
      [" "; " "; " "; "
 "; "
"] (Some ("", "
 "));
    mkSetL "Load-Query-Complete-Extensions" "SABP-PROTOCOL-EXTENSION"
      [] true
      " 
"
      [" "; " "; " "; "
 "; "
"] (None);
    mkSetL "Load-Query-Failure-IEs" "SABP-PROTOCOL-IES"
      [(mkIeL "id-Failure-List" "reject" "TYPE" "Failure-List" "mandatory" [" "; " "; " "; " "; " "; " "; " "; " "; " "], " ", "
 ");
       (mkIeL "id-Radio-Resource-Loading-List" "ignore" "TYPE" "Radio-Resource-Loading-List" "optional" [" "; " "; "
 "; " "; " "; " "; "
 "; " "; " "], " ", "
");
       (mkIeL "id-Criticality-Diagnostics" "ignore" "TYPE" "Criticality-Diagnostics" "optional" [" "; " "; "
"; " "; " "; " "; " "; " "; " "], "", "")] true
      "Load-Query-Failure ::= SEQUENCE {
 protocolIEs ProtocolIE-Container {{Load-Query-Failure-IEs}},
 protocolExtensions ProtocolExtensionContainer {{Load-Query-Failure-Extensions}} OPTIONAL,
 ...
}
"
      [" "; " "; " "; "
 "; "
"] (Some ("", "
 "));
    mkSetL "Load-Query-Failure-Extensions" "SABP-PROTOCOL-EXTENSION"
      [] true
      ""
      [" "; " "; " "; "
 "; "
"] (None);
    mkSetL "Message-Status-Query-IEs" "SABP-PROTOCOL-IES"
      [(mkIeL "id-Message-Identifier" "reject" "TYPE" "Message-Identifier" "mandatory" [" "; " "; " "; " "; " "; " "; " "; " "; " "], " ", "
 ");
       (mkIeL "id-Old-Serial-Number" "reject" "TYPE" "Old-Serial-Number" "mandatory" [" "; " "; " "; " "; " "; " "; " "; " "; " "], " ", "
 ");
       (mkIeL "id-Service-Areas-List" "reject" "TYPE" "Service-Areas-List" "mandatory" [" "; " "; " "; " "; " "; " "; " "; " "; " "], "", "")] true
      "Message-Status-Query ::= SEQUENCE {
 protocolIEs ProtocolIE-Container {{Message-Status-Query-IEs}},
 protocolExtensions ProtocolExtensionContainer {{Message-Status-Query-Extensions}} OPTIONAL,
 ...
}
"
      [" "; " "; " "; "
 "; "
"] (Some (" ", "
 "));
    mkSetL "Message-Status-Query-Extensions" "SABP-PROTOCOL-EXTENSION"
      [] false
      ""
      [" "; " "; " "; "
 "; "
"] (None);
    mkSetL "Message-Status-Query-Complete-IEs" "SABP-PROTOCOL-IES"
      [(mkIeL "id-Message-Identifier" "reject" "TYPE" "Message-Identifier" "mandatory" [" "; " "; " "; " "; " "; " "; " "; " "; " "], " ", "
 ");
       (mkIeL "id-Old-Serial-Number" "reject" "TYPE" "Old-Serial-Number" "mandatory" [" "; " "; " "; " "; " "; " "; " "; " "; " "], " ", "
 ");
       (mkIeL "id-Number-of-Broadcasts-Completed-List" "reject" "TYPE" "Number-of-Broadcasts-Completed-List" "mandatory" [" "; " "; "
 "; " "; " "; " "; "
 "; " "; " "], " ", "
");
       (mkIeL "id-Criticality-Diagnostics" "ignore" "TYPE" "Criticality-Diagnostics" "optional" [" "; " "; "
"; " "; " "; " "; " "; " "; " "], "", "")] true
      " 
Message-Status-Query-Complete ::= SEQUENCE {
 protocolIEs ProtocolIE-Container {{Message-Status-Query-Complete-IEs}},
 protocolExtensions ProtocolExtensionContainer {{Message-Status-Query-Complete-Extensions}} OPTIONAL,
 ...
}
"
      [" "; " "; " "; "
 "; "
"] (Some ("", "
 "));
    mkSetL "Message-Status-Query-Complete-Extensions" "SABP-PROTOCOL-EXTENSION"
      [] true
      ""
      [" "; " "; " "; "
 "; "
"] (None);
    mkSetL "Message-Status-Query-Failure-IEs" "SABP-PROTOCOL-IES"
      [(mkIeL "id-Message-Identifier" "reject" "TYPE" "Message-Identifier" "mandatory" [" "; " "; " "; " "; " "; " "; " "; " "; " "], " ", "
 ");
       (mkIeL "id-Failure-List" "reject" "TYPE" "Failure-List" "mandatory" [" "; " "; " "; " "; " "; " "; " "; " "; " "], " ", "
 ");
       (mkIeL "id-Old-Serial-Number" "reject" "TYPE" "Old-Serial-Number" "mandatory" [" "; " "; " "; " "; " "; " "; " "; " "; " "], " ", "
 ");
       (mkIeL "id-Number-of-Broadcasts-Completed-List" "ignore" "TYPE" "Number-of-Broadcasts-Completed-List" "optional" [" "; " "; "
 "; " "; " "; " "; "
 "; " "; " "], " ", "
");
       (mkIeL "id-Criticality-Diagnostics" "ignore" "TYPE" "Criticality-Diagnostics" "optional" [" "; " "; "
"; " "; " "; " "; " "; " "; " "], "", "")] true
      "Message-Status-Query-Failure ::= SEQUENCE {
 protocolIEs ProtocolIE-Container {{Message-Status-Query-Failure-IEs}},
 protocolExtensions ProtocolExtensionContainer {{Message-Status-Query-Failure-Extensions}} OPTIONAL,
 ...
}
"
      [" "; " "; " "; "
 "; "
"] (Some ("", "
 "));
    mkSetL "Message-Status-Query-Failure-Extensions" "SABP-PROTOCOL-EXTENSION"
      [] false
      ""
      [" "; " "; " "; "
 "; "
"] (None);
    mkSetL "Reset-IEs" "SABP-PROTOCOL-IES"
      [(mkIeL "id-Service-Areas-List" "reject" "TYPE" "Service-Areas-List" "mandatory" [" "; " "; " "; " "; " "; " "; " "; " "; " "], "", "")] true
      " 
Reset ::= SEQUENCE {
 protocolIEs ProtocolIE-Container {{Reset-IEs}},
 protocolExtensions ProtocolExtensionContainer {{Reset-Extensions}} OPTIONAL,
 ...
}
"
      [" "; " "; " "; "
 "; "
"] (Some (" ", "
 "));
    mkSetL "Reset-Extensions" "SABP-PROTOCOL-EXTENSION"
      [] true
      ""
      [" "; " "; " "; "
 "; "
"] (None);
    mkSetL "Reset-Complete-IEs" "SABP-PROTOCOL-IES"
      [(mkIeL "id-Service-Areas-List" "reject" "TYPE" "Service-Areas-List" "mandatory" [" "; " "; " "; " "; " "; " "; " "; " "; " "], " ", "
");
       (mkIeL "id-Criticality-Diagnostics" "ignore" "TYPE" "Criticality-Diagnostics" "optional" [" "; " "; "
"; " "; " "; " "; " "; " "; " "], "", "")] true
      "Reset-Complete ::= SEQUENCE {
 protocolIEs ProtocolIE-Container {{Reset-Complete-IEs}},
 protocolExtensions ProtocolExtensionContainer {{Reset-Complete-Extensions}} OPTIONAL,
 ...
}
"
      [" "; " "; " "; "
 "; "
"] (Some ("", "
 "));
    mkSetL "Reset-Complete-Extensions" "SABP-PROTOCOL-EXTENSION"
      [] true
      ""
      [" "; " "; " "; "
 "; "
"] (None);
    mkSetL "Reset-Failure-IEs" "SABP-PROTOCOL-IES"
      [(mkIeL "id-Failure-List" "reject" "TYPE" "Failure-List" "mandatory" [" "; " "; " "; " "; " "; " "; " "; " "; " "], " ", "
 ");
       (mkIeL "id-Service-Areas-List" "reject" "TYPE" "Service-Areas-List" "optional" [" "; " "; " "; " "; " "; " "; " "; " "; " "], " ", "
");
       (mkIeL "id-Criticality-Diagnostics" "ignore" "TYPE" "Criticality-Diagnostics" "optional" [" "; " "; "
"; " "; " "; " "; " "; " "; " "], "", "")] true
      "Reset-Failure ::= SEQUENCE {
 protocolIEs ProtocolIE-Container {{Reset-Failure-IEs}},
 protocolExtensions ProtocolExtensionContainer {{Reset-Failure-Extensions}} OPTIONAL, 
 ...
}
"
      [" "; " "; " "; "
 "; "
"] (Some (" ", "
 "));
    mkSetL "Reset-Failure-Extensions" "SABP-PROTOCOL-EXTENSION"
      [] true
      ""
      [" "; " "; " "; "
 "; "
"] (None);
    mkSetL "Restart-IEs" "SABP-PROTOCOL-IES"
      [(mkIeL "id-Service-Areas-List" "ignore" "TYPE" "Service-Areas-List" "mandatory" [" "; " "; " "; " "; " "; " "; " "; " "; " "], " ", "
 ");
       (mkIeL "id-Recovery-Indication" "ignore" "TYPE" "Recovery-Indication" "optional" [" "; " "; " "; " "; " "; " "; " "; " "; " "], "", "")] true
      "Restart ::= SEQUENCE {
 protocolIEs ProtocolIE-Container {{Restart-IEs}},
 protocolExtensions ProtocolExtensionContainer {{Restart-Extensions}} OPTIONAL,
 ...
}
"
      [" "; " "; " "; "
 "; "
"] (Some (" ", "
 "));
    mkSetL "Restart-Extensions" "SABP-PROTOCOL-EXTENSION"
      [] true
      ""
      [" "; " "; " "; "
 "; "
"] (None);
    mkSetL "Failure-IEs" "SABP-PROTOCOL-IES"
      [(mkIeL "id-Service-Areas-List" "ignore" "TYPE" "Service-Areas-List" "mandatory" [" "; " "; " "; " "; " "; " "; " "; " "; " "], "", "")] false
      "Failure ::= SEQUENCE {
 protocolIEs ProtocolIE-Container {{Failure-IEs}},
 protocolExtensions ProtocolExtensionContainer {{Failure-Extensions}} OPTIONAL,
 ...
}
"
      [" "; " "; " "; "
 "; "
"] (Some (" ", " 
 "));
    mkSetL "Failure-Extensions" "SABP-PROTOCOL-EXTENSION"
      [] true
      " 
"
      [" "; " "; " "; "
 "; "
"] (None);
    mkSetL "Error-Indication-IEs" "SABP-PROTOCOL-IES"
      [(mkIeL "id-Message-Identifier" "ignore" "TYPE" "Message-Identifier" "optional" [" "; " "; " "; " "; " "; " "; " "; " "; " "], " ", "
 ");
       (mkIeL "id-Serial-Number" "ignore" "TYPE" "Serial-Number" "optional" [" "; " "; " "; " "; " "; " "; " "; " "; " "], " ", "
 ");
       (mkIeL "id-Cause" "ignore" "TYPE" "Cause" "optional" [" "; " "; " "; " "; " "; " "; " "; " "; " "], " ", "
");
       (mkIeL "id-Criticality-Diagnostics" "ignore" "TYPE" "Criticality-Diagnostics" "optional" [" "; " "; "
"; " "; " "; " "; " "; " "; " "], "", "")] true
      "Error-Indication ::= SEQUENCE {
 protocolIEs ProtocolIE-Container {{Error-Indication-IEs}},
 protocolExtensions ProtocolExtensionContainer {{Error-Indication-Extensions}} OPTIONAL,
 ...
}
"
      [" "; " "; " "; "
 "; "
"] (Some ("", "
 "));
    mkSetL "Error-Indication-Extensions" "SABP-PROTOCOL-EXTENSION"
      [] true
      ""
      [" "; " "; " "; "
 "; "
"] (None) ].
Definition sabp_rest : string := "END 
".
