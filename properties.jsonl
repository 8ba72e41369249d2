{"id": "C01", "title": "IMSI encode/decode round trip", "statement": "Encoding a digit string with ranap_imsi_encode and decoding the resulting octets with ranap_bcd_decode into a buffer of at least strlen+1 characters returns exactly the original string, NUL terminated, with return value strlen+1, and the encoder produces ceil(strlen/2) octets.", "quantifier": "every digit string of every length and every output buffer size of at least strlen+1", "why_tests_cant": "The string length, its parity and the buffer size are unbounded; tests try two IMSIs and one buffer size.", "anchors": ["src/iu_helpers.c:ranap_bcd_decode", "src/iu_helpers.c:ranap_imsi_encode"]}
{"id": "C02", "title": "ranap_bcd_decode stays inside the caller's buffer", "statement": "ranap_bcd_decode never writes at or beyond out[out_len].", "quantifier": "every octet string and every out_len", "why_tests_cant": "The overflow depends on the parity of out_len together with the input length and the position of a filler nibble; tests only use sizeof buffers that happen to be even.", "anchors": ["src/iu_helpers.c:ranap_bcd_decode"]}
{"id": "C03", "title": "ranap_bcd_decode output shape", "statement": "For any input octets, whatever is written is a NUL terminated string over 0-9A-F, the return value is its length plus one, and the characters are the nibbles of the input in low-nibble-first order, cut at the first filler high nibble or when the buffer is full.", "quantifier": "every octet string and every out_len for which the call is in bounds", "why_tests_cant": "Every nibble combination and truncation point must be covered.", "anchors": ["src/iu_helpers.c:ranap_bcd_decode"]}
{"id": "C04", "title": "ranap_imsi_encode honours out_len", "statement": "ranap_imsi_encode never writes more than out_len octets to out, so Common ID and Paging, which pass 16 octet buffers, are safe for any IMSI string the application passes.", "quantifier": "every NUL terminated string and every out_len", "why_tests_cant": "The string length is unbounded; tests pass well-formed 15 digit IMSIs only.", "anchors": ["src/iu_helpers.c:ranap_imsi_encode", "src/ranap_msg_factory.c:ranap_new_msg_common_id", "src/ranap_msg_factory.c:ranap_new_msg_paging_cmd"]}
{"id": "C05", "title": "Transport layer address round trip", "statement": "For every IPv4 or IPv6 address and either encoding (X.213 NSAP or raw), decoding with ranap_transp_layer_addr_decode2 what ranap_new_transp_layer_addr produced succeeds and returns the same family, the same address octets and the encoding that was used; other address families are refused with -EINVAL and leave the output untouched.", "quantifier": "every address octet string of both families and both encodings", "why_tests_cant": "2^32 and 2^128 addresses; in particular raw IPv4/IPv6 addresses that start with the X.213 marker octet 0x35.", "anchors": ["src/iu_helpers.c:ranap_new_transp_layer_addr", "src/iu_helpers.c:ranap_transp_layer_addr_decode2"]}
{"id": "C06", "title": "Address decoder accepts exactly the documented formats and never reads out of bounds", "statement": "ranap_transp_layer_addr_decode2 succeeds exactly for: 20 octets 35 00 00 + 17, 7 or 20 octets 35 00 01 + address, any 4 octets, any 16 octets; it answers -EINVAL for everything else, and it never reads beyond the octets received from the peer.", "quantifier": "every octet string a peer can send, of every length", "why_tests_cant": "All lengths times all prefixes from an untrusted peer.", "anchors": ["src/iu_helpers.c:ranap_transp_layer_addr_decode2"]}
{"id": "C07", "title": "Legacy and AF-agnostic address decoders agree", "statement": "Whenever ranap_transp_layer_addr_decode reports success, the IPv4 address it prints is the address that ranap_transp_layer_addr_decode2 decodes from the same octets.", "quantifier": "every octet string", "why_tests_cant": "The two functions use different length rules; agreement has to be checked for every length and prefix.", "anchors": ["src/iu_helpers.c:ranap_transp_layer_addr_decode", "src/iu_helpers.c:ranap_transp_layer_addr_decode2"]}
{"id": "C08", "title": "RTP transport information carries the port", "statement": "For every address and every non-zero UDP port, ranap_transp_assoc_decode applied to the association built by ranap_new_transp_info_rtp returns success and that port; for port 0 it returns -EINVAL; ranap_new_transp_info_rtp returns NULL exactly for families other than IPv4/IPv6.", "quantifier": "all ports, all addresses of both families, both encodings", "why_tests_cant": "The claim is about all 65536 ports and all addresses, through two independent functions.", "anchors": ["src/iu_helpers.c:ranap_new_transp_info_rtp", "src/iu_helpers.c:ranap_transp_assoc_decode"]}
{"id": "C09", "title": "A GTP tunnel id is never taken for an RTP port", "statement": "ranap_transp_assoc_decode refuses an Iu Transport Association that carries a GTP TEI rather than a Binding ID.", "quantifier": "every GTP TEI", "why_tests_cant": "Only TEIs whose low 16 bits are zero are misread; random tests will practically never hit one.", "anchors": ["src/iu_helpers.c:ranap_transp_assoc_decode", "src/iu_helpers.c:ranap_new_transp_info_gtp"]}
{"id": "C10", "title": "GTP transport information carries the TEI", "statement": "The association built by ranap_new_transp_info_gtp contains the four octets of the TEI, most significant first, so distinct TEIs give distinct associations, and the address part round-trips as in C05.", "quantifier": "all 32 bit TEIs and all addresses", "why_tests_cant": "2^32 TEIs.", "anchors": ["src/iu_helpers.c:ranap_new_transp_info_gtp"]}
{"id": "C11", "title": "LAI parsing is exact", "statement": "ranap_parse_lai succeeds exactly when the PLMN identity has 3 octets, the LAC 2 octets and the LAC is neither 0 nor 0xfffe; on success it returns the MCC, MNC and LAC that the digit order of TS 25.413 9.2.3.55 assigns to these octets and RAC 0, so parsing the coding of any (MCC, MNC, LAC) returns that triple; on failure it returns -1, never reads out of bounds, and always leaves a fully initialised result.", "quantifier": "every LAI a peer can send (all octets, all lengths) and every (MCC, 2- or 3-digit MNC, LAC)", "why_tests_cant": "Digits, filler nibbles and length fields come from the peer; all combinations must be right.", "anchors": ["src/ranap_common.c:ranap_parse_lai"]}
{"id": "C12", "title": "LAI parsing keeps 2-digit and 3-digit MNCs apart", "statement": "Two LAIs that differ only in that one codes a 2-digit MNC and the other the 3-digit MNC with the same numeric value (26 vs 026) are told apart after ranap_parse_lai, as they are after parsing a Global RNC-ID; and the PLMN octets of a LAI and of a Global RNC-ID in the same message are read as the same PLMN.", "quantifier": "every MNC below 100", "why_tests_cant": "Requires a pair of inputs, and equality of the outputs, to expose.", "anchors": ["src/ranap_common.c:ranap_parse_lai", "src/iu_client.c:iu_grnc_id_parse"]}
{"id": "C13", "title": "ranap_ip_from_transp_layer_addr is consistent across encodings", "statement": "For every IPv4 address, the value returned does not depend on whether the peer used the plain or the X.213 encoding, and every IPv4 encoding produced by this library is accepted.", "quantifier": "all 2^32 addresses, both encodings", "why_tests_cant": "Needs a comparison of two encodings of the same address; palindromic test addresses hide the difference.", "anchors": ["src/ranap_common.c:ranap_ip_from_transp_layer_addr", "src/iu_helpers.c:ranap_new_transp_layer_addr"]}
{"id": "C14", "title": "A generated message is never silently empty", "statement": "A message generator (RANAP, RUA, HNBAP, SABP) returns either NULL or a buffer holding the complete encoding of the PDU; it never returns a non-NULL buffer without the PDU in it.", "quantifier": "every PDU, including those that do not fit the transmit buffer or violate an encoding constraint", "why_tests_cant": "Needs an encoder failure after the first stage, e.g. a payload just larger than the buffer.", "anchors": ["src/ranap_common.c:_ranap_gen_msg", "src/rua_common.c:_rua_gen_msg", "src/hnbap_common.c:_hnbap_gen_msg", "src/sabp_common.c:_sabp_gen_msg"]}
{"id": "C15", "title": "Error Indication carries what the caller passed", "statement": "ranap_new_msg_error_ind includes Cause, Criticality Diagnostics, CN Domain Indicator and Global RNC-ID exactly when the corresponding argument is given, with the given values.", "quantifier": "all 16 combinations of optional arguments and all their values", "why_tests_cant": "All combinations of optional arguments must be right at once.", "anchors": ["src/ranap_msg_factory.c:ranap_new_msg_error_ind"]}
{"id": "C16", "title": "Security Mode Command offers exactly the requested algorithms", "statement": "ranap_new_msg_sec_mod_cmd2 yields a message whose permitted integrity and ciphering algorithm lists are exactly UIA1/UIA2 and UEA1/UEA2 as selected by the bit masks, in ascending order, with the given keys and key status, and with ciphering information exactly if a CK is given; any other bit set in a mask that is used makes it return NULL, and so does an empty mask, for which no legal list exists.", "quantifier": "all 2^16 mask pairs, all keys, CK given or not", "why_tests_cant": "65536 mask pairs times key material.", "anchors": ["src/ranap_msg_factory.c:ranap_new_msg_sec_mod_cmd2", "src/ranap_msg_factory.c:ranap_new_msg_sec_mod_cmd"]}
{"id": "C17", "title": "Paging command content", "statement": "ranap_new_msg_paging_cmd yields a paging for the right domain with the IMSI, with a TMSI (CS) or P-TMSI (PS) exactly if one is given, big-endian, and with a paging cause exactly if it is non-zero.", "quantifier": "all IMSIs, TMSIs, domains and causes", "why_tests_cant": "Combination of three optional inputs over unbounded values.", "anchors": ["src/ranap_msg_factory.c:ranap_new_msg_paging_cmd"]}
{"id": "C18", "title": "Direct Transfer carries the NAS PDU unchanged", "statement": "ranap_new_msg_dt yields a Direct Transfer holding exactly the given NAS octets and SAPI 3 if sapi is 3, SAPI 0 otherwise, and no LAI/RAC/SAI.", "quantifier": "all NAS PDUs and all sapi values", "why_tests_cant": "All payloads, all lengths.", "anchors": ["src/ranap_msg_factory.c:ranap_new_msg_dt"]}
{"id": "C19", "title": "Reset / Reset Acknowledge / Reset Resource carry domain, cause and RNC identity", "statement": "The messages from ranap_new_msg_reset2, ranap_new_msg_reset_ack and ranap_new_msg_reset_resource contain exactly the given domain, cause and connection identifier, and a Global RNC-ID exactly if one is given.", "quantifier": "all domains, causes, connection ids and RNC ids", "why_tests_cant": "Optional-IE flags of one message are used for another; whether they coincide depends on generated tables.", "anchors": ["src/ranap_msg_factory.c:ranap_new_msg_reset2", "src/ranap_msg_factory.c:ranap_new_msg_reset_ack", "src/ranap_msg_factory.c:ranap_new_msg_reset_resource"]}
{"id": "C20", "title": "RAB Assignment carries the bearer address the caller gave, in network byte order as documented", "statement": "ranap_new_msg_rab_assign_voice / _data send the RTP/GTP IPv4 address passed in network byte order (as documented) as the transport layer address, with the given port or TEI and RAB id.", "quantifier": "all IPv4 addresses, ports, TEIs, RAB ids and both encodings", "why_tests_cant": "Byte order mistakes are invisible for palindromic addresses, and depend on the host's endianness.", "anchors": ["src/ranap_msg_factory.c:ranap_new_msg_rab_assign_voice", "src/ranap_msg_factory.c:ranap_new_msg_rab_assign_data"]}
{"id": "C21", "title": "Message factories release everything they allocate", "statement": "Whatever the arguments, and also when encoding fails at any stage, a message factory function leaves no allocation behind other than the message it returns, and frees nothing twice.", "quantifier": "all arguments and all points of encoder failure", "why_tests_cant": "Needs failure injection at every encoding step of every function.", "anchors": ["src/ranap_msg_factory.c", "src/rua_msg_factory.c"]}
{"id": "C22", "title": "Decoded messages are freed with the routine that matches how they were decoded", "statement": "For every received PDU, on each of the three receive paths (CN connection-oriented, CN connectionless, RAN connection-oriented), if IEs were decoded into the message then the free path releases exactly the same message type, and the pairing holds for every (direction, procedure code), so no wrong-type free and no leak after successful delivery.", "quantifier": "all PDUs: every direction and every procedure code 0..255, every decoding result", "why_tests_cant": "Two long switch statements have to agree on every code; tests exercise a few codes.", "anchors": ["src/ranap_common_cn.c", "src/ranap_common_ran.c"]}
{"id": "C23", "title": "The application callback only ever sees decoded messages", "statement": "ranap_cn_rx_co, ranap_cn_rx_cl and ranap_ran_rx_co invoke the callback exactly when the PDU and the IEs of its procedure were decoded successfully, once, with the PDU's direction, procedure code and criticality.", "quantifier": "all byte strings received, all decoder outcomes", "why_tests_cant": "All procedure codes, including ones not in the switch.", "anchors": ["src/ranap_common_cn.c:ranap_cn_rx_co", "src/ranap_common_cn.c:ranap_cn_rx_cl", "src/ranap_common_ran.c:ranap_ran_rx_co"]}
{"id": "C24", "title": "Each procedure is decoded with its own IE grammar", "statement": "For every (direction, procedure code) handled by a receive path, the IE grammar used is the one that the RANAP specification (RANAP-PDU-Descriptions) assigns to that procedure in that direction.", "quantifier": "every direction and procedure code of the three receive paths", "why_tests_cant": "A wrong pairing only shows when that procedure is received.", "anchors": ["src/ranap_common_cn.c", "src/ranap_common_ran.c", "asn1/ranap/RANAP-PDU-Descriptions.asn"]}
{"id": "C25", "title": "A failed decode leaks nothing", "statement": "When decoding of a received message fails at any IE, everything decoded so far is released before the receive function returns, on all receive paths.", "quantifier": "every position of the failing IE and every message type", "why_tests_cant": "Failure position and message type are unbounded input; needs an allocator-instrumented exhaustive run.", "anchors": ["src/ranap_common_cn.c:ranap_cn_rx_co", "src/ranap_common_ran.c:ranap_ran_rx_co", "asn1/utils/asn1tostruct.py"]}
{"id": "C26", "title": "IE container round trip for every message type", "statement": "For every RANAP, RUA, HNBAP and SABP message type, decoding the IE container built by the generated encoder from any IE structure gives back the presence of every optional IE and the value of every present IE.", "quantifier": "all message types, all 2^n presence masks, all IE values", "why_tests_cant": "Every combination of optional IEs for about 150 message types.", "anchors": ["asn1/utils/asn1tostruct.py", "asn1/ranap/RANAP-PDU-Contents.asn", "asn1/rua/RUA-PDU-Contents.asn"]}
{"id": "C27", "title": "Presence flags are usable for every message type", "statement": "In every message type each optional IE has its own presence bit, all bits fit the 16 bit mask, IE ids are unique in the message, and no two flags collide.", "quantifier": "all message types of the four protocols", "why_tests_cant": "A property of all generated tables at once.", "anchors": ["asn1/utils/asn1tostruct.py", "asn1/ranap/RANAP-PDU-Contents.asn"]}
{"id": "C28", "title": "Missing mandatory IEs are reported", "statement": "A received message that lacks a mandatory IE is not delivered to the application as successfully decoded.", "quantifier": "every message type and every subset of missing IEs", "why_tests_cant": "Every subset of IEs of every message type.", "anchors": ["asn1/utils/asn1tostruct.py"]}
{"id": "C29", "title": "Unknown IEs of criticality ignore do not break a message", "statement": "A received message containing an IE that this library does not know, with criticality 'ignore', is still decoded for the IEs it knows.", "quantifier": "every message type, every unknown IE id, every position", "why_tests_cant": "Every id and position.", "anchors": ["asn1/utils/asn1tostruct.py"]}
{"id": "C30", "title": "Each routing area is recorded for at most one RNC, at most once", "statement": "After any history of SCCP primitives, timer expiries and API calls, no routing area is recorded twice, neither with two RNCs nor twice with one.", "quantifier": "all histories", "why_tests_cant": "An invariant over unbounded histories.", "anchors": ["src/iu_client.c:iu_rnc_register"]}
{"id": "C31", "title": "The routing area table refines a map from area to the last RNC that announced it", "statement": "At any time the RNC recorded for a routing area is the one of the most recent accepted Initial UE message that named this area, and that RNC's SCCP address is the one it most recently used.", "quantifier": "all histories", "why_tests_cant": "History-dependent: needs the last of arbitrarily many registrations, moves and address changes.", "anchors": ["src/iu_client.c:iu_rnc_register", "src/iu_client.c:ranap_handle_co_initial_ue"]}
{"id": "C32", "title": "RNC records are unique per RNC id and never disappear", "statement": "In every reachable state no two RNC records have the same RNC identity, a record once created stays, and every UE context refers to an existing record.", "quantifier": "all histories", "why_tests_cant": "An invariant over unbounded histories.", "anchors": ["src/iu_client.c:iu_rnc_alloc", "src/iu_client.c:iu_rnc_register", "src/iu_client.c:ue_conn_ctx_alloc"]}
{"id": "C33", "title": "NEW_AREA events report exactly the changes of the area table", "statement": "An Initial UE message produces exactly one NEW_AREA event if its area was unrecorded or recorded with a different RNC, none otherwise; the event names the RNC and the area, as location area if no RAC was given and as routing area otherwise.", "quantifier": "all histories followed by any Initial UE message", "why_tests_cant": "Depends on the whole history of registrations.", "anchors": ["src/iu_client.c:iu_rnc_register", "src/iu_client.c:global_iu_event_new_area"]}
{"id": "C34", "title": "PS paging reaches the serving RNC exactly once", "statement": "ranap_iu_page_ps2 sends exactly one paging to the current address of the RNC recorded for the routing area and returns 1, or sends nothing and returns 0 if the area is unknown.", "quantifier": "all histories, all routing areas", "why_tests_cant": "Relies on the uniqueness invariant over all histories.", "anchors": ["src/iu_client.c:ranap_iu_page_ps2"]}
{"id": "C35", "title": "CS paging reaches every RNC serving the location area exactly once", "statement": "ranap_iu_page_cs2 sends exactly one paging to each RNC that has at least one recorded area in the location area, no paging to any other RNC, and returns the number of these RNCs.", "quantifier": "all histories, all location areas", "why_tests_cant": "Arbitrary number of RNCs and areas per RNC.", "anchors": ["src/iu_client.c:ranap_iu_page_cs2"]}
{"id": "C36", "title": "The paging functions' return value counts pagings that were sent", "statement": "The return value of ranap_iu_page_cs2/ps2 (documented as amount of paged RNCs) does not count RNCs for which handing the message to SCCP failed.", "quantifier": "all histories, all SCCP send outcomes", "why_tests_cant": "Requires SCCP send failures at chosen points.", "anchors": ["src/iu_client.c:ranap_iu_page_cs2", "src/iu_client.c:ranap_iu_page_ps2"]}
{"id": "C37", "title": "Legacy CS paging finds RNCs that never announce a RAC", "statement": "ranap_iu_page_cs pages an RNC that registered the LAC through a CS Initial UE message without RAC.", "quantifier": "all LACs and histories", "why_tests_cant": "The RAC value used internally for 'no RAC' differs from the one the legacy lookup uses.", "anchors": ["src/iu_client.c:ranap_iu_page_cs", "src/iu_client.c:ranap_handle_co_initial_ue"]}
{"id": "C38", "title": "Areas in networks with 3-digit MNC can be paged", "statement": "If an RNC announced a LAI/RAI, paging that LAI/RAI, given in the canonical form that libosmocore produces from the same PLMN octets, reaches it.", "quantifier": "all PLMNs", "why_tests_cant": "Only MNCs below 100 coded with three digits are affected.", "anchors": ["src/ranap_common.c:ranap_parse_lai", "src/iu_client.c:ranap_iu_page_cs2"]}
{"id": "C39", "title": "Uplink NAS messages reach the connection they belong to", "statement": "Data received on an SCCP connection is handed to the application with the UE context that was most recently created on that connection id, and data for a connection id without UE and without pending empty connect changes nothing and calls nothing.", "quantifier": "all histories, all connection ids", "why_tests_cant": "Connection ids are reused over time; depends on history.", "anchors": ["src/iu_client.c:sccp_sap_up", "src/iu_client.c:ue_conn_ctx_find"]}
{"id": "C40", "title": "The NAS payload is delivered unchanged", "statement": "The application's receive callback gets exactly the NAS octets of the Initial UE / Direct Transfer message, for every NAS PDU length the peer can send.", "quantifier": "all NAS PDUs of all lengths", "why_tests_cant": "The receive buffer is fixed size while the length is chosen by the peer.", "anchors": ["src/iu_client.c:ranap_handle_co_initial_ue", "src/iu_client.c:ranap_handle_co_dt"]}
{"id": "C41", "title": "Connect indications are answered first and exactly once", "statement": "Every N-CONNECT indication, with or without data, valid or garbage, is answered by exactly one N-CONNECT response for the same connection, before any other effect.", "quantifier": "all connect indications in all states", "why_tests_cant": "All payloads in all states.", "anchors": ["src/iu_client.c:sccp_sap_up", "src/iu_client.c:make_conn_resp"]}
{"id": "C42", "title": "An empty connect followed by Initial UE data equals a connect carrying it", "statement": "Receiving an N-CONNECT without data and later the Initial UE message in N-DATA on that connection has the same effect on RNC records, UE contexts and events as receiving it in the N-CONNECT, and the remembered calling address is consumed by its first use.", "quantifier": "all histories in which the connection id is fresh, arbitrary primitives for other connections in between", "why_tests_cant": "Arbitrary interleaving with other connections between the two primitives.", "anchors": ["src/iu_client.c:sccp_sap_up", "src/iu_client.c:ue_conn_sccp_addr_add"]}
{"id": "C43", "title": "Only a valid Initial UE message creates a UE context", "statement": "A UE context is created exactly by a well-formed Initial UE message (valid LAI, RAC absent or not 0xff, valid Global RNC-ID) received as first data of a connection; any other first message, and an Initial UE message on an existing connection, creates none.", "quantifier": "all messages in all states", "why_tests_cant": "All messages times all states.", "anchors": ["src/iu_client.c:cn_ranap_handle_co_initial", "src/iu_client.c:ranap_handle_co_initial_ue", "src/iu_client.c:cn_ranap_handle_co"]}
{"id": "C44", "title": "Disconnect tells the application exactly once and cleans up", "statement": "An N-DISCONNECT indication for a connection with a UE delivers its payload, if any, then exactly one LINK_INVALIDATED event for that UE if it still exists and has notifications enabled; the context is freed if release-and-free was requested, and the remembered address of an empty connect is dropped.", "quantifier": "all histories, all application reactions inside the callbacks that follow the API rules", "why_tests_cant": "The application may free contexts inside the callback; all histories.", "anchors": ["src/iu_client.c:sccp_sap_up", "src/iu_client.c:ue_ctx_link_invalidated_free"]}
{"id": "C45", "title": "Losing an RNC invalidates exactly its UEs", "statement": "When an N-NOTICE or N-PCSTATE indication marks a point code unreachable, every UE context of every RNC at that address that has notifications enabled gets exactly one LINK_INVALIDATED event, contexts of other RNCs get none, and contexts with release-and-free pending are freed; congestion-only indications change nothing.", "quantifier": "all sets of RNCs and UEs, all indications", "why_tests_cant": "Any number of UEs and RNCs, list being modified while it is walked.", "anchors": ["src/iu_client.c:handle_notice_ind", "src/iu_client.c:handle_pcstate_ind"]}
{"id": "C46", "title": "Reachability decision", "statement": "N-PCSTATE is treated as loss exactly if the signalling point is inaccessible or the remote SCCP is unavailable, unequipped or inaccessible; otherwise as (re)connection if either indicator says available; otherwise (only congestion) nothing happens.", "quantifier": "all pairs of status values, including values outside the enumerations", "why_tests_cant": "Status values are an open integer range.", "anchors": ["src/iu_client.c:handle_pcstate_ind"]}
{"id": "C47", "title": "No use after free while walking UE contexts", "statement": "Whatever UE contexts the application frees with ranap_iu_free_ue from inside a callback, the library does not touch a freed context afterwards.", "quantifier": "all states, all application reactions", "why_tests_cant": "Requires the application to free the right other context at the right moment.", "anchors": ["src/iu_client.c:handle_notice_ind", "src/iu_client.c:handle_pcstate_ind", "src/iu_client.c:ranap_iu_free_ue"]}
{"id": "C48", "title": "Memory safety of the client for well-behaved applications", "statement": "If the application only frees, from inside a callback, the UE context the callback is about, then no history makes the library access a freed UE context or free one twice.", "quantifier": "all histories and all such applications", "why_tests_cant": "Quantifies over all histories and all application behaviours.", "anchors": ["src/iu_client.c"]}
{"id": "C49", "title": "Release with free reports completion", "statement": "After ranap_iu_tx_release_free the event IU_RELEASE is submitted upon Release Complete or timeout (documented in iu_client.h), or the context is freed by the library.", "quantifier": "all states and timeouts", "why_tests_cant": "Depends on a later message or timer.", "anchors": ["src/iu_client.c:ranap_iu_tx_release_free", "src/iu_client.c:ue_conn_ctx_release_timeout_cb", "include/osmocom/ranap/iu_client.h"]}
{"id": "C50", "title": "No event after notifications were switched off", "statement": "Once ranap_iu_tx_release_free was called for a context, no event about that context is delivered any more, for the rest of its life.", "quantifier": "all later histories", "why_tests_cant": "All futures of a state.", "anchors": ["src/iu_client.c:global_iu_event", "src/iu_client.c:ranap_iu_tx_release_free"]}
{"id": "C51", "title": "Freeing a context closes its own connection", "statement": "ranap_iu_free_ue disconnects the SCCP connection of the freed context and no connection that belongs to another context.", "quantifier": "all histories including connection id reuse", "why_tests_cant": "Needs id reuse by SCCP after an unanswered disconnect.", "anchors": ["src/iu_client.c:ranap_iu_free_ue"]}
{"id": "C52", "title": "Iu Release Request is answered with the same cause", "statement": "A Release Request received on a connection makes the library send exactly one Iu Release Command on that connection, with the cause of the request, and changes no state.", "quantifier": "all causes, all states", "why_tests_cant": "All causes in all states.", "anchors": ["src/iu_client.c:ranap_handle_co_iu_rel_req", "src/iu_client.c:ranap_iu_tx_release"]}
{"id": "C53", "title": "Reset is acknowledged to its sender", "statement": "Every decodable connectionless Reset is answered with exactly one Reset Acknowledge to the calling address, with the same domain and, if given, the same Global RNC-ID; every other connectionless message is answered with nothing and changes no state.", "quantifier": "all connectionless messages in all states", "why_tests_cant": "All messages in all states.", "anchors": ["src/iu_client.c:ranap_handle_cl_reset_req", "src/iu_client.c:cn_ranap_handle_cl"]}
{"id": "C54", "title": "Every received SCCP primitive's buffer is freed exactly once", "statement": "sccp_sap_up frees the message buffer of every primitive exactly once and never touches it afterwards, whatever its type and content.", "quantifier": "all primitives in all states", "why_tests_cant": "All control paths.", "anchors": ["src/iu_client.c:sccp_sap_up"]}
{"id": "C55", "title": "No buffer is leaked by the receive path", "statement": "Every buffer allocated while processing a received primitive is freed before the call returns, or handed to SCCP.", "quantifier": "all primitives in all states", "why_tests_cant": "Error paths are reached only by specific malformed messages.", "anchors": ["src/iu_client.c:ranap_handle_co_initial_ue", "src/iu_client.c:ranap_handle_co_dt"]}
{"id": "C56", "title": "Downlink send functions survive encoder failure", "statement": "If the RANAP message cannot be built (e.g. NAS PDU or IMSI out of range), the send and paging functions return an error rather than crash.", "quantifier": "all arguments", "why_tests_cant": "Needs arguments at the encoder's limits.", "anchors": ["src/iu_client.c:ranap_iu_tx", "src/iu_client.c:iu_tx_paging_cmd", "src/iu_client.c:ranap_iu_tx_common_id"]}
{"id": "C57", "title": "VTY configuration survives write and reload", "statement": "Writing the configuration with ranap_iu_vty_config_write and replaying the emitted lines on a freshly started process restores the address encoding and the two ASN.1 switches; nothing else is changed.", "quantifier": "all settings reachable by commands, all indents", "why_tests_cant": "All reachable settings, through text and back.", "anchors": ["src/iu_client_vty.c"]}
{"id": "C58", "title": "Cause strings are safe and faithful", "statement": "ranap_cause_str, rua_cause_str and hnbap_cause_str always yield a NUL terminated string inside their static buffer, and name the cause class and the complete cause text for every cause of the table, and the number of any other cause.", "quantifier": "all cause values, including out of range ones", "why_tests_cant": "All values of all classes; truncation depends on text length.", "anchors": ["src/ranap_common.c:ranap_cause_str", "src/rua_common.c:rua_cause_str", "src/hnbap_common.c:hnbap_cause_str"]}
{"id": "C59", "title": "Cause names are unambiguous and complete", "statement": "Every cause value of the enumerations has a text and different values of one class have different texts.", "quantifier": "all enumerated values of all classes", "why_tests_cant": "A property of complete tables against the enumerations in the ASN.1 headers.", "anchors": ["src/ranap_common.c", "src/rua_common.c", "src/hnbap_common.c"]}
{"id": "C60", "title": "RUA wrapping is transparent", "statement": "For every RANAP payload that fits, decoding the octets produced by rua_new_udt, rua_new_conn, rua_new_dt and rua_new_disc returns the right procedure, the domain, the context id and exactly the payload (for disconnect: no payload exactly if it was empty or absent).", "quantifier": "all payloads, domains and context ids", "why_tests_cant": "All payloads of all lengths across length-form boundaries.", "anchors": ["src/rua_msg_factory.c", "src/rua_common.c"]}
{"id": "C61", "title": "RUA context ids are preserved", "statement": "Different context ids passed to rua_new_conn, rua_new_dt and rua_new_disc give different messages.", "quantifier": "all pairs of 32 bit context ids", "why_tests_cant": "The collision needs ids that differ only above bit 23.", "anchors": ["src/rua_msg_factory.c:rua_new_conn", "src/rua_msg_factory.c:rua_new_dt", "src/rua_msg_factory.c:rua_new_disc"]}
{"id": "C62", "title": "Aligned PER round trip for the repository's type descriptors", "statement": "For every ASN.1 type whose descriptor is in the repository, decoding the aligned PER encoding of any value within its constraints, at any bit offset and followed by any bits, gives back that value and stops exactly at the end.", "quantifier": "all types, all values, all offsets, all trailing bits", "why_tests_cant": "Infinite value space.", "anchors": ["src/ranap", "src/rua", "src/hnbap", "src/sabp"]}
{"id": "C63", "title": "Generated codecs know every IE of the ASN.1 object sets", "statement": "For every message, the generated encoder and decoder know exactly the IEs that the message's object set in the ASN.1 source lists, with the same numbers, criticalities, types and presence.", "quantifier": "all object sets of all four protocols and all their IEs", "why_tests_cant": "The generator drops IEs silently depending on how the ASN.1 text is laid out, and a test would only show the IEs it uses.", "anchors": ["asn1/utils/asn1tostruct.py", "asn1/ranap/RANAP-PDU-Contents.asn", "asn1/sabp/SABP-PDU-Contents.asn", "asn1/rua/RUA-PDU-Contents.asn", "asn1/hnbap/HNBAP-PDU-Contents.asn"]}
{"id": "C64", "title": "Decoded values are within their constraints and can be re-encoded", "statement": "For every type descriptor of the repository and whatever octets arrive, a value that the decoder returns is within the constraints of its type, can be encoded again, and that encoding decodes to the same value, so that a relay can forward what it decoded.", "quantifier": "all types, all octet strings", "why_tests_cant": "All octet strings, including non-minimal and truncated ones.", "anchors": ["src/ranap", "src/rua", "src/hnbap", "src/sabp"]}
{"id": "C65", "title": "The other RANAP factory messages carry exactly their arguments", "statement": "ranap_new_msg_iu_rel_cmd, _iu_rel_req, _iu_rel_compl, _sec_mod_compl, _common_id, _rab_rel_req and _initial_ue yield the message of that name with exactly the IEs given by the arguments, and NULL exactly if an argument is one that no message can carry: an illegal cause, algorithm number, RNC identity or IMSI length.", "quantifier": "all causes, algorithms, IMSI strings of up to 32 characters (longer ones: C04), RAB ids, connection ids, RNC ids and NAS PDUs that fit the buffer", "why_tests_cant": "Every legal argument value and every IE position; fields of the wrong message or a forgotten presence flag show only in the decoded result.", "anchors": ["src/ranap_msg_factory.c"]}
{"id": "C66", "title": "RUA wrapping accounts for its memory", "statement": "Every call of rua_new_udt, rua_new_conn, rua_new_dt and rua_new_disc with a buffer returns a message, releases the caller's buffer exactly once, releases nothing twice and leaves nothing allocated but the returned message.", "quantifier": "all four functions, all payloads, domains and context ids", "why_tests_cant": "All combinations of absent, empty, short and oversized payloads; a leak does not show in the output.", "anchors": ["src/rua_msg_factory.c"]}
{"id": "C67", "title": "PDU kinds, procedures, SABP causes and client events have complete and distinct names", "statement": "The exported name tables give every PDU kind, every procedure of RANAP and SABP, every SABP cause and every event of the Iu client a name; different values have different names, and looking a value up yields its name, for any other value the value itself in hexadecimal.", "quantifier": "all values of the enumerations in the generated headers and in iu_client.h", "why_tests_cant": "A property of complete tables against complete enumerations.", "anchors": ["src/ranap_common.c", "src/sabp_common.c", "src/iu_client.c"]}
{"id": "C68", "title": "Uplink messages lead to exactly the event they stand for", "statement": "A message on the connection of a UE context leads to the one event it stands for (Security Mode Complete, Iu Release Complete, first item of a RAB Assignment Response) if the application has an event callback and the context was not silenced, and to no other event; messages of other procedures and undecodable ones change nothing.", "quantifier": "all histories, all messages, all contexts", "why_tests_cant": "Every message kind in every state; a swapped or an additional event shows only for the message concerned.", "anchors": ["src/iu_client.c"]}
{"id": "C69", "title": "Each call about a UE context sends one message on its connection, keeps the context as documented and returns SCCP's answer", "statement": "Every function of the client API that takes a UE context sends exactly one primitive, on that context's connection, with the message built from its arguments; ranap_iu_tx releases the caller's buffer first; a release with free silences the context, marks it and arms its timer with the given time, or with zero if SCCP refused; freeing removes it; the result is SCCP's answer, or 0 for the last two. Without a context ranap_iu_tx returns -ENOTCONN and keeps the buffer.", "quantifier": "all states, all calls and arguments, all answers of SCCP", "why_tests_cant": "Any state and any answer of SCCP, also from within callbacks.", "anchors": ["src/iu_client.c", "include/osmocom/ranap/iu_client.h"]}
{"id": "C70", "title": "Legacy paging pages one RNC that serves the area, or none", "statement": "ranap_iu_page_cs and ranap_iu_page_ps send exactly one paging, to an RNC which by the registrations so far serves an area with the given LAC and RAC (RAC 0 for CS) in whatever network, and return 1 exactly if SCCP accepted it; if there is no such RNC nothing is sent and 0 is returned.", "quantifier": "all histories of registrations, all arguments, all answers of SCCP", "why_tests_cant": "Depends on the entire history of registrations.", "anchors": ["src/iu_client.c"]}
{"id": "C71", "title": "Values are put on the wire exactly as aligned PER prescribes", "statement": "For every type of the four protocols the encoder produces the one bit string that X.691 (aligned variant) prescribes for a value within the constraints - field widths, octet alignment, length determinants, fragments, extension and presence bits, open types - and nothing for other values; octets from a peer that follows the standard decode to the value the peer encoded.", "quantifier": "all types, all values, all bit positions", "why_tests_cant": "A codec tested against itself agrees with itself however wrong its format is; lengths, alignments and constraint ranges cannot be enumerated.", "anchors": ["src/ranap_common.c", "src/rua_common.c", "src/hnbap_common.c", "src/sabp_common.c", "src/ranap", "src/rua", "src/hnbap", "src/sabp"]}
{"id": "C72", "title": "Every octet of a message is accounted for", "statement": "A generated message is: the kind of PDU, the procedure code, the criticality, the length and the body; the body is the number of IEs and then the IEs that are present, in the order of the message's definition, each as its identifier, the criticality the specification assigns to it, its length and the octets of its value. Octets of that form, with any IEs in any order, are read back.", "quantifier": "all message types of the four protocols, all sets of IEs, all values below 16K octets", "why_tests_cant": "A wrong criticality, order or header field is invisible to a test that decodes with the same tables.", "anchors": ["asn1/utils/asn1tostruct.py", "src/ranap_common.c", "src/rua_common.c", "src/hnbap_common.c", "src/sabp_common.c"]}
{"id": "C73", "title": "Every message a peer may send on a path is delivered", "statement": "On each of the three receive paths (core network with and without a connection, radio network on a connection) every message that TS 25.413 lets the peer send there is delivered to the callback, decoded with its own grammar, once its IEs decode; everything else is refused.", "quantifier": "all octet strings, all procedure codes and kinds of PDU", "why_tests_cant": "The set of handled messages is a table of 53 entries in eleven switch statements; a missing entry shows only when a peer sends that message.", "anchors": ["src/ranap_common_cn.c", "src/ranap_common_ran.c"]}
{"id": "C74", "title": "The codec tables are the ASN.1 modules", "statement": "For every type the compiled ASN.1 modules of the four protocols define there is one type descriptor, and for every descriptor one such type; constraints, optional components, extension markers, order of components and alternatives, and enumeration numbers of the descriptor are those the ASN.1 notation means. Every IE of every message table has the number of the constant, and the type, that its name stands for. The field widths stored in the descriptors are the least that hold the range.", "quantifier": "all 807 types, 144 message tables and 799 constraints; unique meaning of each", "why_tests_cant": "Hundreds of tables; a wrong bound or a missing optional marker shows only for the values concerned.", "anchors": ["src/ranap", "src/rua", "src/hnbap", "src/sabp", "asn1/ranap", "asn1/rua", "asn1/hnbap", "asn1/sabp"]}
{"id": "C75", "title": "Messages with protocol extensions are understood, and generated bodies follow the full 3GPP grammar", "statement": "A message body that a peer builds after the unabridged grammar (protocol IEs, then optional protocol extensions) is decoded to the same IEs with or without extensions; a body this library generates is the encoding, after that grammar, of its IEs without extensions.", "quantifier": "all message types, all IEs, all extensions, anything appended", "why_tests_cant": "The compiled grammar leaves the extensions out; whether the octets still agree depends on alignment and holds or fails for all contents.", "anchors": ["asn1/ranap/RANAP-PDU.asn", "asn1/ranap/RANAP-PDU-Contents.asn", "src/ranap_common.c", "asn1/utils/asn1tostruct.py"]}
{"id": "C76", "title": "Every element of a list is exchanged with a peer that follows the 3GPP grammar", "statement": "A list of RABs or signalling connections that a peer sends (one container for each element) is decoded to all its elements, and a list this library sends is read as all its elements.", "quantifier": "all 27 list types of the compiled grammar, all numbers of elements, all elements", "why_tests_cant": "With one element both grammars give the same octets, which is what tests exercise.", "anchors": ["asn1/ranap/RANAP-PDU.asn", "asn1/ranap/RANAP-PDU-Contents.asn", "src/ranap_common.c"]}
{"id": "C77", "title": "What a decoder reports is what the message carries", "statement": "Whenever a message is decoded, each IE of its type is either reported with the value of its last occurrence in the message, or does not occur and is reported absent; for an optional IE the presence flag says which.", "quantifier": "all message types of the four protocols, all octet strings, IEs in any order and any number", "why_tests_cant": "Order, repetition and absence of IEs multiply; tests decode what the library itself generated.", "anchors": ["asn1/utils/asn1tostruct.py", "src/ranap_common.c"]}
{"id": "C78", "title": "Peers of an earlier or later release are understood", "statement": "If a peer uses a later release of a type, with values, alternatives or components added behind extension markers at any depth, everything this release knows of the value is read and the rest is skipped; an added value or alternative is refused, never taken for another one. If the peer uses an earlier release, what it does not know is reported absent.", "quantifier": "all types and all their later and earlier releases, all values, anything appended", "why_tests_cant": "The later release does not exist yet when the tests are written.", "anchors": ["src/ranap", "src/rua", "src/hnbap", "src/sabp", "src/ranap_common.c"]}
{"id": "C79", "title": "What one side builds is what the other side's callback is shown", "statement": "For each kind of message that the factory builds: the octets, given to the peer's receive function for that direction, cause exactly one call of the callback, with this procedure, criticality and exactly the IEs and values the caller gave; the function returns 0 and afterwards everything it decoded has been released.", "quantifier": "all argument values the message can carry; every message with the prescribed octets, from whatever source", "why_tests_cant": "Four layers (IE encoding, container, PDU, dispatch) have to agree for every combination of values and optional arguments.", "anchors": ["src/ranap_msg_factory.c", "src/ranap_common_cn.c", "src/ranap_common_ran.c", "src/ranap_common.c"]}
{"id": "C80", "title": "What the application asks the client to send is what the radio network is shown", "statement": "Each call of the client about a UE context (send a NAS PDU, security mode command, Common ID, release, RAB assignment) hands SCCP exactly one message on the connection of that context, whose octets the radio network's receive function delivers with exactly the values of the arguments; a paging call sends the same octets, with this subscriber and temporary identity, to every address it pages.", "quantifier": "all states with a live context, all argument values the message can carry, all behaviours of SCCP and the application", "why_tests_cant": "The client, the message factory, the encoder and the peer's decoder have to agree for all values in all states.", "anchors": ["src/iu_client.c:ranap_iu_tx", "src/iu_client.c:ranap_iu_tx_sec_mode_cmd", "src/iu_client.c:ranap_iu_tx_common_id", "src/iu_client.c:ranap_iu_tx_release", "src/iu_client.c:ranap_iu_page_cs2", "src/ranap_msg_factory.c", "src/ranap_common_ran.c"]}
{"id": "C81", "title": "What the radio network sends is what the application of the client is told", "statement": "Octets that carry an Initial UE Message or Direct Transfer cause one receive callback with the NAS PDU, routing area and service area in them, and register the area with the RNC and address; a RAB Assignment Response, Security Mode Complete or Iu Release Complete causes the corresponding event; an Iu Release Request is answered on its connection with a release command of the same cause and a Reset with an acknowledgement for the same domain and RNC. In particular this holds for messages built with this library's factory.", "quantifier": "all histories, all octet strings that carry such a message, all behaviours of SCCP and the application", "why_tests_cant": "Octets, decoder, dispatch and the state of the client multiply; tests of the client stub the decoder out.", "anchors": ["src/iu_client.c:cn_ranap_handle_co_initial", "src/iu_client.c:cn_ranap_handle_co", "src/iu_client.c:cn_ranap_handle_cl", "src/ranap_common_cn.c", "src/ranap_msg_factory.c"]}
{"id": "C82", "title": "No octets from the radio network crash the client", "statement": "Whatever octets arrive in a connection indication, data, disconnection or unit data, and whatever state the client is in, it survives them.", "quantifier": "all octet strings, all states, all applications that call nothing from their callbacks", "why_tests_cant": "The fatal messages are well formed and lack or exaggerate a single element; random input hardly ever decodes.", "anchors": ["src/iu_client.c:sccp_sap_up", "src/iu_client.c:ranap_handle_co_initial_ue", "src/iu_client.c:ranap_handle_co_dt", "src/iu_client.c:ranap_handle_co_iu_rel_req", "src/iu_client.c:ranap_handle_co_rab_ass_resp", "src/ranap_common_cn.c"]}
{"id": "C83", "title": "The emulated home NodeB answers the network as a phone would", "statement": "While the emulator has a circuit switched channel, NAS and RANAP messages that arrive in a RUA Direct Transfer are reported and answered on that channel: an Identity Request with the fixed IMSI, an Authentication Request with the SRES for the RAND in it, a Location Updating Accept with a TMSI by a reallocation complete, MM Information by a request to release, a Security Mode Command with the first permitted integrity algorithm, a release command with a release complete; a paging message is reported with the IMSI in it; nothing else is answered. In particular this holds for what this library's factory builds.", "quantifier": "all octet strings that carry such a message, all states, all contents", "why_tests_cant": "The answers depend on octets nested in three protocols; the emulator is itself only used interactively.", "anchors": ["tests/hnb-test.c:hnb_test_nas_rx_dtap", "tests/hnb-test.c:hnb_test_nas_rx_mm", "tests/hnb-test-ranap.c:hnb_test_rua_dt_handle_ranap", "tests/hnb-test-ranap.c:hnb_test_rua_cl_handle_ranap", "tests/hnb-test-rua.c"]}
{"id": "C84", "title": "Elements of bearer lists are decoded to what the peer encoded", "statement": "Given the octets of an element of a list of radio access bearers (set up or modified, failed, to release, released, first part of set up or modify), the decoder for that element returns 0 and the value the ASN.1 type assigns to the octets, or -1, a zeroed structure and nothing allocated if they are not an encoding; it never crashes. The bearer the factory asks for is the one the peer reads from the message.", "quantifier": "all octet strings, the five decoders, all bearers the factory can ask for", "why_tests_cant": "The functions are written by hand, outside of the generated code, one per type; the test suite calls one of them on one message.", "anchors": ["src/ranap_common.c:ranap_decode_rab_setupormodifieditemies_fromlist", "src/ranap_common.c:ranap_decode_rab_faileditemies_fromlist", "src/ranap_common.c:ranap_decode_rab_releaseitemies_fromlist", "src/ranap_common.c:ranap_decode_rab_releaseditemies_fromlist", "src/ranap_common.c:ranap_decode_rab_setupormodifyitemfirst", "src/ranap_msg_factory.c:ranap_new_msg_rab_assign_voice"]}
{"id": "C85", "title": "The emulated home NodeB registers itself and its phones and tells the outcome", "statement": "The registration, deregistration, phone registration and reset commands send exactly one message each, with exactly the prescribed IEs and for a phone the IMSI given; a registration is reported exactly when it was accepted, with the RNC id or phone identity and context id in the answer; what is allocated for a received message is released.", "quantifier": "all octet strings received, all IMSIs, all states", "why_tests_cant": "The answer can be any outcome with any IEs; a reject looks almost the same as an accept.", "anchors": ["tests/hnb-test.c:hnb_test_hnbap_rx", "tests/hnb-test.c:hnb_test_rx_hnb_register_acc", "tests/hnb-test.c:hnb_test_rx_ue_register_acc", "tests/hnb-test.c:hnb_send_register_req", "tests/hnb-test.c:hnb_send_deregister_req", "tests/hnb-test.c:hnb_test_ue_register_tx", "tests/hnb-test.c:ranap_reset"]}
{"id": "C86", "title": "Nothing the network sends ends the emulated home NodeB", "statement": "Whatever octets arrive on either stream, in whatever state reached by commands and earlier messages, the emulator survives them; so does it every command.", "quantifier": "all histories of commands and received octets, all octet strings", "why_tests_cant": "The fatal messages are well formed; reading a message through the wrong member of a union depends on the byte order of the host.", "anchors": ["tests/hnb-test.c:hnb_read_cb", "tests/hnb-test.c:hnb_test_rua_rx", "tests/hnb-test.c:hnb_test_nas_rx_lu_accept", "tests/hnb-test.c:hnb_test_nas_rx_mm_info", "tests/hnb-test-ranap.c:hnb_test_rua_dt_handle_ranap"]}
{"id": "C87", "title": "Every channel opened on the emulated home NodeB has its own identifier", "statement": "Each channel command sends one connection request, in order, with an Initial UE Message for the chosen domain and a context identifier no other channel has; answers to circuit switched signalling go to the channel opened last.", "quantifier": "all histories of commands and received octets", "why_tests_cant": "Identifiers can only repeat after tens of thousands of commands.", "anchors": ["tests/hnb-test.c:chan", "tests/hnb-test.c:gen_initue_lu", "tests/hnb-test.c:hnb_test_tx_dt"]}
{"id": "C88", "title": "The client and the emulated home NodeB understand each other", "statement": "With a gateway between them that moves each RANAP message from SCCP to RUA and back unchanged: what the application asks of a phone through the client is answered, and the application is told the answer. It is given the Location Updating Request and area when a channel opens, the identity it asks for, the SRES for the RAND it sends; it is told when integrity protection has started and when the connection is released; after MM Information the connection is released without its help; subscribers it pages are paged; a reset is acknowledged for its domain.", "quantifier": "all reachable states of the client and all states of the emulator with a channel, all applications, all contents that fit the buffers", "why_tests_cant": "Two programs with an encoder and two decoders each and a nested protocol have to agree on every octet.", "anchors": ["src/iu_client.c", "src/iu_client.h", "src/rua_msg_factory.c:rua_new_dt", "src/rua_msg_factory.c:rua_new_udt", "tests/hnb-test.c", "tests/hnb-test-ranap.c", "tests/hnb-test-rua.c"]}
{"id": "C89", "title": "Limits are checked, whatever was done before", "statement": "Checking a value against the limits of its type (asn_check_constraints, which calls check_constraints of the descriptor) fails exactly for the values outside of the limits that the specification gives. The answer depends on the value only, not on what the program did with other values of the type before.", "quantifier": "all named types and components with limits of the four protocols, all values that can be stored, all histories of encoding, decoding, printing, freeing and checking", "why_tests_cant": "The functions modify the descriptors that all threads of control share, so that the answer depends on history; and the limits of 500 types are too many for examples.", "anchors": ["src/ranap/RANAP_RAB-ID.c", "src/ranap/RANAP_GeographicalCoordinates.c:memb_longitude_constraint_1", "src/ranap/RANAP_RSRQ-Extension.c:RANAP_RSRQ_Extension_constraint", "src/hnbap/HNBAP_GeographicalCoordinates.c", "src/ranap/RANAP_UnsuccessfullyTransmittedDataVolume.c", "src/ranap/RANAP_ChosenEncryptionAlgorithm.c"]}
{"id": "C90", "title": "What is sent is a message of the protocol", "statement": "Every buffer that a factory function returns, and every message an application builds with the generated encoders and the header of its procedure, is a message as the protocol's modules define it: the procedure exists and has that criticality, the IEs are those of its object set, in order, with their criticalities, each encoded as its type prescribes, and no mandatory IE is missing.", "quantifier": "all calls of the factories with all arguments, all messages of the four protocols with all contents", "why_tests_cant": "A peer that follows the specification reacts to criticalities and missing IEs the library's own decoders never look at, so that a test that sends messages from the library to itself passes.", "anchors": ["src/ranap_msg_factory.c", "src/rua_msg_factory.c", "tests/hnb-test.c:hnb_send_deregister_req", "asn1/ranap/RANAP-PDU-Descriptions.asn", "asn1/rua/RUA-PDU-Descriptions.asn", "asn1/utils/asn1tostruct.py"]}
{"id": "C91", "title": "Whatever the protocol permits is read", "statement": "Every message that the protocol's modules permit, with any combination of its optional IEs, any values, any protocol extensions and anything behind it, is accepted, and exactly the values that were sent are reported, none of the mandatory ones missing; if the receive path knows the message, it is delivered.", "quantifier": "all messages of the four protocols with all contents, the three receive paths", "why_tests_cant": "The permitted messages are infinitely many, and the library cannot be used to build those its tables are incomplete for.", "anchors": ["asn1/utils/asn1tostruct.py", "src/ranap_common_cn.c:ranap_cn_rx_co", "src/ranap_common_cn.c:ranap_cn_rx_cl", "src/ranap_common_ran.c:ranap_ran_rx_co", "asn1/ranap/RANAP-PDU-Contents.asn", "asn1/sabp/SABP-PDU-Contents.asn"]}
{"id": "C92", "title": "The codec's types are those of the 3GPP documents", "statement": "For every type that TS 25.413, 25.468, 25.469 or 25.419 defines the codec has a descriptor, and it describes the type as it is defined there, so that the codec and a peer built from the documents agree on the octets of all its values.", "quantifier": "all types of the unabridged modules of the four protocols, all values", "why_tests_cant": "The build compiles an edited copy of the modules with more than 600 types; where the copy differs, octets agree for the common values.", "anchors": ["asn1/ranap/RANAP-PDU.asn", "asn1/ranap/RANAP-PDU-Contents.asn", "asn1/ranap/RANAP-Containers.asn", "asn1/rua/RUA-PDU.asn", "asn1/hnbap/HNBAP-PDU.asn", "asn1/sabp/SABP-PDU.asn", "src/ranap/RANAP_RedirectionIndication.c", "src/ranap/RANAP_RAB-SetupItem-EnhancedRelocCompleteRes.c"]}
{"id": "C93", "title": "Running out of memory while a message is made", "statement": "If memory runs out while a factory function makes a message, it returns NULL; it neither crashes nor returns another message than the one asked for. If memory does not run out, it does not matter how close it was.", "quantifier": "all calls of the RANAP and RUA factories with all arguments, all patterns of requests for memory that are denied", "why_tests_cant": "Each of the dozens of requests of a call can be denied, in all combinations; tests run with memory to spare.", "anchors": ["src/ranap_msg_factory.c", "src/rua_msg_factory.c", "src/ranap_common.c:ranap_new_ie", "src/ranap_common.c:ranap_new_ie_pair", "src/rua_common.c:rua_new_ie", "src/iu_helpers.c:ranap_new_transp_layer_addr", "asn1/utils/asn1tostruct.py"]}
{"id": "C94", "title": "Running out of memory in the Iu client", "statement": "If memory runs out while the Iu client handles an indication, the client drops it and goes on. Until then, and whatever happens afterwards, it does nothing that it would not have done with memory: no other message is sent, no other event or message delivered.", "quantifier": "all histories, all applications, all patterns of requests for memory that are denied", "why_tests_cant": "Each request of a history can be denied, in all combinations; tests run with memory to spare.", "anchors": ["src/iu_client.c:ue_conn_ctx_alloc", "src/iu_client.c:ue_conn_sccp_addr_add", "src/iu_client.c:iu_rnc_alloc", "src/iu_client.c:iu_rnc_register", "src/iu_client.c:ranap_handle_co_initial_ue", "src/iu_client.c:ranap_handle_co_dt", "src/iu_client.c:make_conn_resp"]}
{"id": "C95", "title": "Connections do not disturb each other", "statement": "What happens on one connection leaves the contexts of all other connections as they are: none is freed, changed or added, no primitive is sent on another connection, the application is told nothing about the context of another connection, and what the client remembers for another connection that has not sent a message yet stays. This holds as long as the application, in a callback, uses no other context than the one the callback is about, and for all indications but those that a peer is lost.", "quantifier": "all histories, all events, all applications that use only the context a callback is about", "why_tests_cant": "The harm would be done to a connection that has nothing to do with the event; tests look at the connection they use.", "anchors": ["src/iu_client.c:sccp_sap_up", "src/iu_client.c:ue_conn_ctx_find", "src/iu_client.c:ue_conn_sccp_addr_del", "src/iu_client.c:ue_ctx_link_invalidated_free", "src/iu_client.c:ranap_iu_free_ue", "src/iu_client.c:cn_ranap_handle_co"]}
{"id": "C96", "title": "A connection the client has no use for is closed", "statement": "If the first message on a connection is not accepted, so that there is no context for it, the client closes the connection, or at least goes on to wait for a message it can accept.", "quantifier": "all histories, all first messages, in the connection indication or in the first data after it", "why_tests_cant": "The harm, a connection that is held for ever and deaf, shows only in what does not happen afterwards.", "anchors": ["src/iu_client.c:sccp_sap_up", "src/iu_client.c:cn_ranap_handle_co_initial", "src/iu_client.c:ranap_handle_co_initial_ue", "src/iu_client.c:ue_conn_sccp_addr_find", "src/iu_client.c:ue_conn_sccp_addr_del"]}
{"id": "C97", "title": "The code generator reads all of its input", "statement": "The script that generates the encoders and decoders reads, from an ASN.1 file with information object sets, every set that is not for extensions and every element of it, with identifier, criticality, type and presence, in order, and nothing else, however the file is laid out; and every definition of a list of information objects, with the set its elements are from.", "quantifier": "all texts of such files: all sets, names, numbers of elements, spaces, line breaks and comments", "why_tests_cant": "The layouts of a file are unbounded; the build runs the script on four files and nobody compares its output with them.", "anchors": ["asn1/utils/asn1tostruct.py", "asn1/ranap/RANAP-PDU-Contents.asn", "asn1/rua/RUA-PDU-Contents.asn", "asn1/hnbap/HNBAP-PDU-Contents.asn", "asn1/sabp/SABP-PDU-Contents.asn", "src/Makefile.am"]}
{"id": "C98", "title": "Every message and IE has a C name of its own, and the sources agree on it", "statement": "In the C interface that is generated for the four protocols each IE of a message is a member of its own of the message's structure, each message has a structure, a member of the union of all messages and a decoder, encoder and free function of its own, all names are C identifiers, and what is declared is what is defined. The types, lists, numbers and criticalities the generated functions refer to exist in the ASN.1 compiler's output and are those of that message or IE. The code written by hand uses only members, flags and functions of the structure it has, and each case of the receive paths' switch statements calls the functions for the message of that procedure. For any other ASN.1 file the names are determined: first word in small letters, underscores for hyphens.", "quantifier": "all messages and IEs of the four protocols, all uses in the sources; for the rules, all names", "why_tests_cant": "The names are computed by string rewriting from hundreds of ASN.1 names; that no two meet, also across protocols linked into one library, is a statement on all pairs, and the rewriting is a statement on all names. A name that is wrong in one of two places that are both generated compiles.", "anchors": ["asn1/utils/asn1tostruct.py", "include/osmocom", "src/ranap_common_cn.c", "src/ranap_common_ran.c", "src/iu_client.c", "src/ranap_msg_factory.c", "src/rua_msg_factory.c", "tests/hnb-test.c", "tests/hnb-test-ranap.c", "src/Makefile.am"]}
{"id": "C99", "title": "Running out of memory while a message is read", "statement": "If memory runs out while a received message is decoded, at whatever point, the receive function (or decoder) reports an error, does not call the callback, asks for nothing more, and releases everything it was given until then; with memory it does what it always does.", "quantifier": "all octets received, all decoders and receive paths, all points at which memory is denied", "why_tests_cant": "There is a point of failure for the message and for each of its IEs, for each of over a hundred messages; tests never run out of memory.", "anchors": ["asn1/utils/asn1tostruct.py", "src/ranap_common.c", "src/ranap_common_cn.c:ranap_cn_rx_co", "src/ranap_common_cn.c:ranap_cn_rx_cl", "src/ranap_common_ran.c:ranap_ran_rx_co"]}
{"id": "C100", "title": "The generated code does what the tables say", "statement": "The C code that the script writes from the ASN.1 files compiles, as far as names and types go, against the ASN.1 compiler's headers, and its functions, found by name, do what the tables say: the decoder puts each IE into its own member and sets its own bit of the presence mask and nothing else, refuses other numbers and wrong values, the encoder writes the IEs that are said to be present in order with their number, criticality and type, and the free function releases all that was decoded.", "quantifier": "all messages of the four protocols, all octets and structures; and all ASN.1 files whose code the compiler accepts", "why_tests_cant": "The code is not in the repository and nobody reads it; over 130 messages, each with all its inputs, and every file that may come.", "anchors": ["asn1/utils/asn1tostruct.py", "asn1/ranap/RANAP-PDU-Contents.asn", "asn1/rua/RUA-PDU-Contents.asn", "asn1/hnbap/HNBAP-PDU-Contents.asn", "asn1/sabp/SABP-PDU-Contents.asn", "include/osmocom", "src/Makefile.am"]}
{"id": "C101", "title": "The order of the IEs in a message does not matter", "statement": "Two messages of one type with the same IEs, each at most once, in a different order are both accepted or both refused by the generated decoders, and if accepted they are decoded to the same structure. The RANAP receive functions return the same and call the callback with the same message. The Iu client is in the same state after them, has sent the same and told its application the same.", "quantifier": "all messages of the four protocols, all orders; for the client all histories in which any number of messages are reordered", "why_tests_cant": "The number of orders grows with the factorial of the number of IEs, and the effect of a message on the client depends on the history.", "anchors": ["asn1/utils/asn1tostruct.py", "src/ranap_common_cn.c:ranap_cn_rx_co", "src/ranap_common_cn.c:ranap_cn_rx_cl", "src/ranap_common_ran.c:ranap_ran_rx_co", "src/iu_client.c:sccp_sap_up"]}
{"id": "C102", "title": "The client keeps nothing for connections that are closed", "statement": "Of an application that frees a UE context when it is told that the context's link is gone: after any history in which nothing crashed, the Iu client has no context and no stored address for a connection that SCCP has closed or never opened. It keeps at most one of these for each connection that is open, and so never more than there are open connections, however many there have been. At all times a context is either one that the application is told about when its link is lost, or one that the library frees itself.", "quantifier": "all histories of indications, timers and calls, all message contents, all applications that free what they are told is lost; SCCP reuses a connection number only after the connection was closed or the client had no more use for it", "why_tests_cant": "A leak of one context per some rare order of events shows only in long histories, and the orders are unbounded in number.", "anchors": ["src/iu_client.c:sccp_sap_up", "src/iu_client.c:ue_ctx_link_invalidated_free", "src/iu_client.c:ue_conn_sccp_addr_del", "src/iu_client.c:ranap_iu_free_ue"]}
{"id": "C103", "title": "A Reset ends the UE connections of its sender", "statement": "When a radio network controller sends a RANAP Reset, the UE contexts of that controller are ended and the application is told that their links are gone, as 3GPP TS 25.413 demands of a core network. Whatever else a message without a connection carries and whoever sent it, it changes nothing.", "quantifier": "all histories, all contents of connectionless messages, all senders", "why_tests_cant": "Which contexts exist when the Reset arrives, and what becomes of them afterwards, depends on the whole history.", "anchors": ["src/iu_client.c:ranap_handle_cl_reset_req", "src/iu_client.c:cn_ranap_handle_cl"]}
{"id": "C104", "title": "The application hears of a UE context only between its introduction and its end", "statement": "Whatever happens, the first callback about a UE context is the delivery of a NAS message together with a routing area and a service area, and after the application or the library has freed the context no callback is about it, neither a message nor an event.", "quantifier": "all histories, all message contents, all applications, including those that call the library from callbacks, and executions that end in a crash", "why_tests_cant": "A late callback for a freed context needs a particular nesting of callbacks and indications; the histories are unbounded.", "anchors": ["src/iu_client.c:global_iu_event", "src/iu_client.c:ranap_handle_co_initial_ue", "src/iu_client.c:ranap_handle_co_dt", "src/iu_client.c:ranap_iu_free_ue"]}
{"id": "C105", "title": "The names in the headers stand for the numbers of the protocol", "statement": "Each name that the headers in include/osmocom give to an enumeration value, an alternative of a CHOICE, a procedure, an IE or a named integer has the number that the ASN.1 modules give it. The headers have all of these names and no others, no name is declared twice in the four protocols together, and no two names of one type have the same number.", "quantifier": "all types of the four protocols' modules, including those written inside others, and all declarations in the headers", "why_tests_cant": "Code that uses a wrong number on both sides works in its own tests and fails against the peer of another vendor; there are over 1100 names and tests use few of them.", "anchors": ["include/osmocom/ranap", "include/osmocom/rua", "include/osmocom/hnbap", "include/osmocom/sabp", "asn1/ranap/RANAP-CommonDataTypes.asn", "asn1/ranap/RANAP-IEs.asn", "asn1/rua/RUA-IEs.asn", "asn1/hnbap/HNBAP-IEs.asn", "asn1/sabp/SABP-IEs.asn"]}
{"id": "C106", "title": "The codec finds a value where the headers declare it", "statement": "For each type the structure in the headers has one member for each component of the ASN.1 type, in order and under its name, which is a pointer exactly if the component may be absent; C integers have room for all values the type allows. The functions that encode, decode, print, free and check a value look for each of its parts in the member that the header declares for it, follow a pointer exactly where there is one, and treat what they find as the C type that the header gives it. Where the library's own code passes an object together with a type descriptor, the object has the descriptor's C type.", "quantifier": "all types of the four protocols, to any depth of nesting, with all their components, and all calls with a descriptor in the code written by hand", "why_tests_cant": "The parameters are void pointers, which the compiler does not check. A mismatch corrupts memory only when the one component concerned is present; there are about 1000 descriptors and 1200 components, and the tests use few of them.", "anchors": ["include/osmocom/ranap", "include/osmocom/rua", "include/osmocom/hnbap", "include/osmocom/sabp", "src/ranap", "src/rua", "src/hnbap", "src/sabp"]}
{"id": "C107", "title": "Printing messages does not change them", "statement": "With 'asn1 xer-print 1' each IE that is encoded or decoded is printed once, in order and as its own type; what is decoded and what is sent is the same with the switch on and off, whether the output works or not, and with the switch off nothing is printed.", "quantifier": "all messages of the four protocols, all values, all octets received, all patterns of failing output", "why_tests_cant": "The switch is used for diagnosis on running systems, where stdout may be closed or a full disk; each IE of each message is a place where output can fail.", "anchors": ["src/ranap_common.c:ranap_new_ie", "src/ranap_common.c:ranap_new_ie_pair", "src/rua_common.c:rua_new_ie", "src/hnbap_common.c:hnbap_new_ie", "src/sabp_common.c:sabp_new_ie", "asn1/utils/asn1tostruct.py", "src/iu_client_vty.c:cfg_iu_asn1_xer_print", "src/ranap_msg_factory.c:ranap_new_msg_rab_assign_voice", "src/ranap_msg_factory.c:ranap_new_msg_rab_assign_data"]}
{"id": "C108", "title": "The client is started, or says that it is not", "statement": "ranap_iu_init binds the client under the given name to the RANAP subsystem (142) of the given SCCP instance and returns an error if that fails. From then on every request goes to SCCP through that binding, the connectionless ones with the client's own address as the calling address. While SCCP delivers nothing, nothing is given to SCCP either, whatever the application calls, and until a first connection is opened only Resets are answered.", "quantifier": "all SCCP instances and outcomes of binding, all histories of calls and indications", "why_tests_cant": "A client that is not bound looks like one that nobody connects to, and the histories without a connection are unbounded.", "anchors": ["src/iu_client.c:ranap_iu_init", "src/iu_client.c:iu_tx_paging_cmd", "src/iu_client.c:ranap_handle_cl_reset_req", "src/iu_client.c:sccp_sap_up"]}
{"id": "C109", "title": "What the client remembers of the radio networks is what they announced, while they can be reached", "statement": "Each RNC and each area that the client pages was announced by an accepted Initial UE Message, the area by the last one that named it. The client holds no more entries than different areas and different RNCs were announced, however often, and nothing but accepted Initial UE Messages changes them. An RNC that SCCP reported to be unreachable is not paged until it announces itself again.", "quantifier": "all histories of calls and indications, all announced identities", "why_tests_cant": "A table that grows or goes stale shows only after long histories with reports of loss in between.", "anchors": ["src/iu_client.c:iu_rnc_register", "src/iu_client.c:handle_pcstate_ind", "src/iu_client.c:handle_notice_ind", "src/iu_client.c:ranap_iu_page_cs2", "src/iu_client.c:ranap_iu_page_ps2"]}
