# Formal model of osmo-iuh: design

The model is written in Coq 8.16.1 under `rocq/theories` (logical name `Verif`).
It is a transcription of the C code in /repo, function by function; each
definition cites the file and lines it models, and says where it simplifies.
Each property of `properties.jsonl` is one or more theorems in a `Prop_*.v`
file, which contains statements, examples and `Print Assumptions` only.  The
vocabulary of the statements is in the `*_spec.v` files, the proofs are in the
other files.

A property that is false of the code has a theorem `…_refuted`, with a witness
or for all inputs, and `…_partial` theorems: the strongest version found that
is true.  Usually that is an exact characterisation (if and only if), so nothing
about the behaviour is left open.  What was found is listed below.

## Layers and files

| layer | model | specification | proofs | theorems | code |
|---|---|---|---|---|---|
| base | `Base` | | | | C integers, octets, outcomes: value, undefined behaviour or abort |
| helpers | `Helpers` | `Helpers_spec` | `Helpers_proofs` | `Prop_Helpers` | `src/iu_helpers.c` |
| LAI | `Lai` | in the statements | `Lai_proofs` | `Prop_Lai` | `ranap_parse_lai`, `ranap_ip_from_transp_layer_addr` in `src/ranap_common.c`, `iu_grnc_id_parse` |
| client | `IuClient` | `IuClient_spec`, `IuClient_call_spec` | `IuClient_{frame,reg,step,inv,area,conn,life,life2,loss,loss2,rel,rel2,ex,call}` | `Prop_{Area,Conn,Loss,Release,Call}` | `src/iu_client.c` |
| codec | `Aper` | `Aper_spec`, `X691` | `Aper_{proofs,valid,len,decode}`, `X691_proofs` | `Prop_Codec`, `Prop_Format` | aligned PER for the descriptors of the repository |
| types | `{Ranap,Rua,Hnbap,Sabp}Types`, `PerBits` (generated), `AllTypes` | `Asn1_spec`, `{Ranap,Rua,Hnbap,Sabp}Asn` (generated) | `Asn1_proofs` | `Prop_Grammar` | 983 type descriptors of `src/{ranap,rua,hnbap,sabp}`, `asn1/*` |
| limits | `Constr`, `ConstrTab` (generated) | `Constr_spec` | `Constr_proofs` | `Prop_Constr` | the 536 functions of `src/{ranap,rua,hnbap,sabp}` that check limits, and how they are installed |
| evolution | `Aper` | `Evolve_spec` | `Evolve_proofs` | `Prop_Evolve` | releases of the types |
| containers | `Container`, `*Tab` (generated) | `Container_spec`, `*Spec` (generated), `AllMsgs` | `Container_proofs`, `Container_exact` | `Prop_Container`, `Prop_Read` | the code emitted by `asn1/utils/asn1tostruct.py` |
| 3GPP grammar | `Container` | `Interop_spec` | `Interop_proofs` | `Prop_Interop` | the same against the grammar of the 3GPP documents |
| 3GPP types | `*Types` | `Full_spec`, `{Ranap,Rua,Hnbap,Sabp}Full` (generated) | `Full_proofs` | `Prop_Full` | descriptors against `*-PDU-Contents.asn`, `*-Containers.asn`, `*-PDU-Descriptions.asn` in `asn1/*`, which the build does not compile |
| dispatch | `Dispatch`, `DispatchTab` (generated) | `Dispatch_spec`, `RanapProc` (generated), `Deliver_spec` | `Dispatch_proofs`, `Deliver_proofs` | `Prop_Dispatch`, `Prop_Deliver` | `src/ranap_common_cn.c`, `src/ranap_common_ran.c` |
| factories | `Factory` | `Factory_spec`, `Wire_spec` | `Factory_{golden,len,proofs,msgs,rab,mem,exact}`, `Wire_{proofs,msgs}` | `Prop_Factory`, `Prop_Wire` | `src/ranap_msg_factory.c`, `_*_gen_msg` and `*_new_ie` of `src/*_common.c` |
| end to end | | `E2e_spec` | `E2e_proofs` | `Prop_E2e` | factory to the peer's callback |
| list elements | `Items` | `Items_spec` | `Items_proofs` | `Prop_Items` | `src/ranap_common.c:560-678` |
| client in octets | `Stack` | `Stack_spec` | `Stack_{safe,proofs,msgs}` | `Prop_Stack` | client, dispatch, codec and factory together |
| out of memory | `Memory` | `Memory_spec` | `Memory_{proofs,calls,rua}` | `Prop_Memory` | the two factories with requests for memory that may be denied |
| client out of memory | `ClientMem` | `ClientMem_spec` | `ClientMem_proofs`, `ClientMem_count`, `ClientMem_how` | `Prop_ClientMem` | the Iu client with requests for memory that may be denied |
| connections apart | (`IuClient`) | `IuClient_iso_spec` | `IuClient_iso` | `Prop_Iso` | what an event may change: only what belongs to its connection |
| unused connections | (`IuClient`) | `IuClient_iso_spec` | `IuClient_quiet` | `Prop_Unused` | connections without a context |
| introduction and end | (`IuClient`) | `IuClient_iso_spec` | `IuClient_intro` | `Prop_Intro` | the callbacks about one context |
| Reset | (`IuClient`) | `IuClient_spec` | `IuClient_reset` | `Prop_Reset` | messages without a connection |
| what is kept | (`IuClient`) | `IuClient_bound_spec` | `IuClient_bound` | `Prop_Bound` | contexts and stored addresses against open connections |
| what is remembered | (`IuClient`) | `IuClient_spec` | `IuClient_known` | `Prop_Known` | the table of RNCs and areas |
| RUA | `RuaFactory` | `RuaFactory_spec` | `RuaFactory_proofs` | `Prop_Rua` | `src/rua_msg_factory.c` |
| emulator | `Hnb` | `Hnb_spec` | `Hnb_proofs` | `Prop_Hnb` | `tests/hnb-test*.c` |
| conformance | | `Conform_spec`, `{Rua,Hnbap,Sabp}Proc` (generated) | `Conform_proofs`, `Conform_read` | `Prop_Conform` | factories, containers and dispatch against the procedures and object sets of the ASN.1 modules |
| client and emulator | | `Talk_spec` | `Talk_proofs` | `Prop_Talk` | composition of the two layers above |
| vty | `Vty` | `Vty_spec` | `Vty_proofs` | `Prop_Vty` | `src/iu_client_vty.c` |
| code generator | `Regex`, `Generator`, `AsnText` (generated) | `Generator_spec`, `Generator_repo_spec`, `Generator_lists_spec` | `Generator_proofs`, `Generator_layout`, `AsnLayout` (generated), `Generator_files`, `Generator_more`, `Generator_lists` | `Prop_Generator`, `Prop_GenLists` | how `asn1/utils/asn1tostruct.py` reads its input; the text of the four files it is given |
| generated names | `Naming`, `UsedNames` (generated) | `Naming_spec` | `Naming_proofs` | `Prop_Interface` | the names `asn1tostruct.py` writes; the names in `include/osmocom` and in the code written by hand |
| memory, reading | `MemDec` | `MemDec_spec` | `MemDec_proofs` | `Prop_MemDec` | the generated decoders, the decoders of list elements and the receive paths, when memory runs out |
| generated code | `Emit` | `Emit_spec` | `Emit_proofs`, `Emit_any` | `Prop_Emit` | the C code `asn1tostruct.py` writes, and what it does |
| order of IEs | | `Order_spec` | `Order_proofs` | `Prop_Order` | containers, receive paths and client |
| printing | `Xer`, `XerFactory`, `XerStack` | `Xer_spec` | `Xer_proofs`, `XerFactory_proofs`, `XerStack_proofs` | `Prop_Xer`, `Prop_XerClient` | `asn1_xer_print` in `asn1tostruct.py:371-372`, `ranap_common.c:448-452, 489-493` and the other `new_ie` functions |
| start | `Start` | `IuClient_spec` | `Start_proofs` | `Prop_Start` | `ranap_iu_init`, `iu_client.c:1262-1276`, and the user and calling address of each request |
| headers | `CDecl`, `HeaderTab`, `DescTab`, `UseTab` (generated) | `Header_spec`, `NamedNumbers` (generated), `Use_spec` | `Header_proofs`, `Use_proofs` | `Prop_Headers`, `Prop_Members` | the C declarations in `include/osmocom/{ranap,rua,hnbap,sabp}` and the memory layout in `src/{ranap,rua,hnbap,sabp}` |
| strings | `CauseStr`, `NameTab` (generated) | `NameSpec` (generated), `CauseStr_spec` | `CauseStr_proofs` | `Prop_Names` | `*_cause_str` and the tables of names |

The generated files were written by scripts that read /repo as text; they are
committed.  Tables that are compared with each other (descriptors against ASN.1
text, containers against object sets, dispatch tables against the procedure
definitions) come from different sources through different scripts.

## Plan per property

* C01-C04 (BCD): the output buffer is a list of writes with indices; the loop is a
  structural recursion over the input; a write outside of the buffer is the outcome
  `OobWrite`.  C01, C03 by induction two digits at a time.  C02 and C04 are false as
  stated; the exact conditions are proved.
* C05-C10, C13 (transport addresses): lists of octets, checked reads; case analysis on
  lengths.  C07, C09, C13 are false as stated.
* C11, C12, C38 (LAI): arithmetic on half-octets; C12, C38 are false as stated.
* C14-C21, C65 (factories): the factories fill in an IE structure (presence mask and
  values), which the container model and the codec model turn into octets.  The
  statements (`holds`) say which octets these are in terms of the message, its
  criticality and the list of its IEs with names and values.  Ownership (C21) is a
  list of allocations and releases.
* C22-C25, C73 (dispatch): the switches are functions of direction and procedure
  code; the pairing is proved for all codes; the association with grammars comes from
  RANAP-PDU-Descriptions.
* C26-C29, C63, C77 (containers): theorems over any table with distinct ids and at
  most 16 optional IEs; the 144 tables meet these conditions.
* C30-C56, C68-C70 (client): a state machine whose operations are SCCP primitives,
  timer expiries and API calls; the application is an arbitrary function from the
  history of events to a list of calls made inside the callback; SCCP's return values are oracles.
  Contexts have an allocation number, so access to a freed context is an
  observable outcome.  Invariants by induction over the list of operations; C31, C34,
  C35 by refinement to a map computed from the history alone.
* C57 (VTY): writer to lines, command interpreter from lines.
* C58, C59, C67 (strings): snprintf with the size of the buffer; tables transcribed.
* C60, C61, C66 (RUA): composition of factory, container and codec.
* C62, C64 (APER): a deep embedding of the type descriptors, generic encoder and
  decoder with bit positions; round trip by mutual induction on types.
* C71, C72 (format): an inductive relation between types, values and bits written
  after X.691, independent of the encoder; the encoder computes it, the decoder
  inverts it, for all types.
* C74 (grammar): the ASN.1 modules as text are elaborated (references, parameters,
  constraints) in Coq and compared with the descriptors.
* C75, C76 (3GPP grammar): the peer's types are those of the documents, with protocol
  extensions and lists of containers, the library's are those of its edited ASN.1.
* C78 (evolution): an inductive relation between a type and its later releases.
* C79 (end to end): composition of `holds` with the container and dispatch theorems.
* C80-C82 (client in octets): the oracle that decodes is replaced by the model of the
  dispatcher and codec, and the messages sent by the model of the factory.
* C84 (list elements): the codec theorems applied to the ASN.1 types of the elements, and
  composed with C79.
* C83, C85-C87 (emulator): receive functions as functions from octets to
  effects; a state machine over commands and received octets.
* C88 (client and emulator): composition of C80, C81 and C83; the gateway in between
  is a pair of relations in the statement.
* C89 (limits): each function compared with the descriptor of its type by computation over the
  tables, lifted by a lemma per kind of function; an invariant over histories of checks and uses.
* C90, C91 (conformance): a relation between octets and the ASN.1 modules (procedures,
  object sets, types of the unabridged modules, X.691; the elements of a list are IEs of its
  object set, those of a list inside of an element are not looked at); what is built
  satisfies it, and what satisfies it is read.
* C92 (3GPP types): as C74, with the modules that the build leaves out.
* C93 (out of memory): the factories once more, in a state monad with an oracle that may deny any
  request; relations between this model and that of C14, by induction over the requests.
* C94 (client out of memory): the functions of the client that ask for memory once more, with a
  counter of requests and an oracle that may deny any; a simulation between this client and
  that of C34 to C56: the same, or an early end with a trace that the other one begins with.
  The number of requests of an event is counted along the code, and so is the request at which
  the process ends.
* C95 (connections apart): each function of the client is shown to keep the contexts of other
  connections, given that the context it works on, if any, belongs to the connection of the event;
  the event's connection is read off the indication, the timer or the argument of the call.
* C96 (unused connections): no function of the client sends on a connection that no context
  belongs to; by induction over what happens after a first message that is not accepted.
* C97 (code generator): Python's regular expressions as far as the script uses them, with
  backtracking, and the reading part of the script on top.  A small grammar says how object sets
  are written; the expressions are followed through all texts of it.  The text of the four
  files is part of the model, and the script's tables for them are computed.  Of several files,
  and of names defined twice, the table is described without a condition on the names.
  Definitions of lists of objects never overlap in a text, so that all of them are found.
* C98 (names): the string rewriting of the script, and the names that appear in the headers of
  asn1c and in the code written by hand, which a script collects.  That names differ and that
  names exist is computed for all messages; the rules for names are proved by induction on them.
* C99 (memory while reading): the decoders of C25 and C84 with an oracle for each call of the
  library's decoder; by induction over the list of IEs.
* C100 (generated code): what the script writes as C code with names in it (macros, structures,
  the three kinds of functions), the lookup of names that compiler and linker do, and what the
  code does then on structures whose members have names.  For the four files the result of
  compiling is computed and compared with the tables, and by induction over the list of IEs it
  does what the model of C25 does.  For any file the facts about names follow from the compiler's
  acceptance.
* C101 (order of IEs): neighbouring IEs are exchanged, by induction over the permutation; lifted
  to the receive paths and to histories of the client.
* C102 (what is kept): invariant over histories: each connection is used at most once, and not at
  all when it is closed; it rests on the two flags of a context being opposites at all times.
* C103 (Reset): cases over the decoded message.
* C104 (introduction and end): invariant over state and trace for one context, kept by every
  function of the client.
* C105 (names and numbers): the types of a module, with those written inside others, are
  enumerated level by level; the enumeration is complete by induction, and compared with the
  headers by computation.
* C106 (memory): a relation between descriptors and C types, defined by induction over the parts;
  decided by computation in rounds, from the types without parts on.  The calls with descriptors
  were collected by a script, which looks up the declared type of the variable that is passed.
* C107 (printing): encoder and decoder with the outcome of each output as an argument, by
  induction over the IEs; compared with those of `Container.v`.  The message factory is put together
  again from the encoders that print, without its memory, and compared with `Factory.v` and
  `RuaFactory.v` call by call; the client on top of it is compared with `Stack.v`.
* C108 (start): by induction over the history: as long as no connection is opened no list of the
  client gets an entry.
* C109 (what is remembered): from the refinement of C31, by counting the classes of equal areas and
  RNC identities.

No property of the list is impossible to express in the model.

## What was found in the code

Each line is a theorem; the witnesses were traced through the C code.

| property | finding |
|---|---|
| C02 | `ranap_bcd_decode` with an odd `out_len` writes one octet behind the buffer |
| C04, C17, C86 | `ranap_imsi_encode` ignores `out_len`; more than 32 digits overrun the 16 octets of the callers |
| C07, C13 | the legacy address functions print any address of four or more octets as IPv4, refuse the library's own 20 octet form, and swap the plain form on little-endian hosts |
| C09 | a GTP tunnel id is taken for an RTP port |
| C12, C38 | `ranap_parse_lai` computes three-digit MNCs with the digits in the wrong order and without the three-digit flag, `iu_grnc_id_parse` with another order; areas of such networks cannot be paged |
| C14, C18, C80 | a PDU of more than 1024 octets becomes an empty buffer and is sent (NAS PDUs of more than 1004 octets) |
| C15 | an Error Indication with a Global RNC-ID loses its other optional IEs |
| C19 | Reset Resource cuts connection ids to 24 bits and takes only one |
| C20 | the RAB address, documented to be in network byte order, is reversed on little-endian hosts |
| C21, C66, C85 | memory stays allocated when an IE cannot be encoded, for a bad integrity mask, for RAB release requests, for the copy of each RUA payload, for the value of each PDU the emulator receives |
| C22, C25 | an IE that occurs twice leaks its first content; the CN connection-oriented path frees nothing after a failed decode |
| C23, C73 | the connectionless path delivers every message it has no case for, undecoded, and returns 0; Relocation Detect and Complete are refused by the CN, Relocation Cancel Acknowledge by the RAN |
| C24 | three entries use the wrong grammar: successful outcome 0 on the CN path, 31 and 34 on the connectionless path |
| C28, C29 | no decoder checks for mandatory IEs; an unknown IE is fatal whatever its criticality |
| C36 | a paging that could not be sent is counted |
| C37 | an area without RAC is stored as 255 and looked up as 0 |
| C40, C82 | four kinds of message crash the client: an Initial UE Message without SAI, a NAS PDU of more than 256 octets, an Iu Release Request without cause, a RAB Assignment Response with an empty list |
| C47, C48, C51 | freeing the next context from a LINK_INVALIDATED callback is a use after free; so is, after reuse of a connection id, a release with free; freeing the older of two contexts with the same id disconnects the newer one |
| C49 | after `ranap_iu_tx_release_free` neither the timeout nor a Release Complete reports or frees |
| C55 | a refused message leaks its NAS buffer |
| C56 | the factory's NULL is dereferenced by every send function of the client |
| C58, C59 | RUA and HNBAP cause texts are cut at 31 characters; HNBAP repeats its last answer for an unknown class; RANAP's radio network extension is "unknown"; two HNBAP causes have no text |
| C61 | RUA context ids that differ only above bit 23 collide |
| C63 | the generator's regular expression loses IEs of 19 object sets; every conformant SABP Write-Replace, Write-Replace Complete, Kill Complete and Message Status Query Complete is refused |
| C76 | of lists with more than one element only the first is decoded, without an error; several elements sent appear to the peer as one |
| C83 | the emulator looks at the network name instead of the mobile identity, or at an uninitialised variable, to decide about the TMSI; it answers a Release Complete |
| C84 | the decoders of list elements read a NULL structure for an element without octets |
| C85 | the emulator reports a rejected registration as accepted with RNC id 0 |
| C86 | the emulator reads Security Mode Complete and Reject through the wrong member of a union; it does not check the length of a Location Updating Accept, nor for the Context-ID of a UE Register Accept, nor for empty network names |
| C87 | the emulator's context ids repeat after 65536 channels |
| C89 | after the first use of a type its limits are no longer checked; three components and one type with limits on both sides of 0 accept only negative numbers; enumerations and one number are never refused, values in extensions always |
| C90 | the RUA factory sends criticality reject in all its messages where the specification says ignore, and so does the emulator in HNB De-Register (of the 32 distinct RUA messages captured in `pcap/`, 22 have ignore and 10 reject); a message with a list of two or more elements is never one of the protocol |
| C91 | a Relocation Command with a container from the target and a Relocation Required with one from the source are refused, because the generated tables lost these IEs (C63); of a RAB Release Request for two RABs the application gets one |
| C92 | the codec expects a Redirection Indication in a SEQUENCE that the specification does not have, and so misreads all of them; the list of RABs to be released in the items of an Enhanced Relocation Complete Response is read as empty when it has one element; Private Messages have another grammar |
| C93 | when memory runs out, the RANAP factory crashes while it builds arguments on the heap, or returns a message without any IEs, or a RAB ASSIGNMENT REQUEST with an empty item; the RUA factory crashes, or wraps an empty RANAP message |
| C94 | the client checks the result of one of its seven requests for memory before it is used, with an assertion; each denial ends the process unless the message is refused anyway |
| C96 | a connection whose first message is not an acceptable Initial UE Message is confirmed and then kept for ever: it is not closed, and an Initial UE Message that follows on it is dropped, because the caller's address is forgotten with the first message |
| C97 | the script drops elements that are not on one line (19 in the SABP sets it finds), sets with a blank behind their closing brace (4 in the SABP file), and everything behind a comment in its line, such as the closing brace of an element (RANAP-PDU-Contents.asn:550); it only warns when nothing is left of a set |
| C98 | none for the four protocols; for other files two IEs can share a member (UEInfo, UeInfo), and the decoder of a message with "ies" in its name is declared under another name than it is defined (asn1tostruct.py:243 and 322) |
| C99 | `ranap_cn_rx_co` leaks the IEs it has decoded when memory runs out at a later one |
| C100 | none for the four protocols; for other files, the seventeenth optional IE of a message is decoded but marked absent (the mask has 16 bits), so it leaks and is not encoded |
| C103 | a Reset is acknowledged, but the UE contexts of its sender stay and the application is not told |
| C107 | with `asn1 xer-print 1` and a stdout that cannot be written, no message can be encoded, and each attempt leaks the octets of an IE; if only the first of the two outputs of a RAB Assignment Request fails, one without any RAB is made; the client that gets no message to send dereferences NULL |
| C108 | `ranap_iu_init` returns 0 although SCCP refused to bind it or has no local address; the client is then deaf, and a request would be made through a null pointer |
| C109 | an RNC that SCCP reported to be unreachable stays in the table with its areas, and is paged and counted as before |

## Trusted base

* The kernel of Coq 8.16.1 and the `vm_compute` virtual machine, which is part of
  it.  No other checker is involved; `coqchk` accepts the compiled files.
* `Print Assumptions` says "Closed under the global context" for every theorem
  in the `Prop_*.v` files: none uses an axiom.  The libraries that are loaded
  define axioms of the standard library which no theorem uses (`coqchk -o` lists the seven of
  `Coq.ssr.ssrunder`).
* That the model is the code: the transcription was done by reading; the build has no
  tool that compares them.  The mutations in `seeded/LOG.jsonl` test that the
  statements notice changes of the model.  `Capture_ex` tests the codec model on
  recorded traffic: every PDU and every IE of the 281 distinct RANAP, RUA and HNBAP
  messages in `/repo/pcap` (`Capture`, generated) decodes, and encodes to the same
  octets again; one malformed message among them is refused.  `Tests_ex` and
  `Factory_golden` compute with the model what the project's own tests
  (`tests/test-*.c` and `.ok`) expect of the code.
* The generator scripts, for the tables; a mistake in a script would have to be the same
  in two scripts with different inputs to escape the comparison theorems.  The rows of
  the tables of messages do not depend on a script (C97), except for the script that copies the lines
  of the files into `AsnText`.  The script that collects the names of C98 recognises the variables
  of generated types by their declarations; a use it overlooked is not covered.

### What is modelled

All of `src/iu_helpers.c`, `src/iu_client.c`, `src/iu_client_vty.c`,
`src/ranap_msg_factory.c`, `src/rua_msg_factory.c`, `src/ranap_common_cn.c`,
`src/ranap_common_ran.c`; of `src/{ranap,rua,hnbap,sabp}_common.c` everything
except for logging of decoded messages; `asn1/utils/asn1tostruct.py`, what it reads (lines 127-163) and what it writes
(183-538); the type descriptors and the functions that check
limits in `src/{ranap,rua,hnbap,sabp}/*.c`, and the declarations in
`include/osmocom/{ranap,rua,hnbap,sabp}/*.h`; `tests/hnb-test.c`, `hnb-test-rua.c`,
`hnb-test-ranap.c` except for their start-up.

### What is not modelled

* `tests/test-*.c` (the unit tests), `tests/dummy_cn_sua.c` (not built),
  `tests/test_common.c`.
* Log output, except for the names it contains (C58, C59, C67).
* Of the part of `asn1tostruct.py` that writes C code: comments, logging, assertions and XER
  output in it, and sets that are used as lists (the four files have none).  That the code means
  what `Emit.v` says is a reading of the text, not a semantics of C.
* What XER printing writes; that it is done, and what happens when it fails, is C107.
* Of the generated files under `src/{ranap,rua,hnbap,sabp}` the tag maps and names that
  only BER and XER use.  Functions other than those that check limits only call libasn1c.
* The walk of libasn1c over the components of a value when limits are checked.
* Allocation failure in the emulator; in the rest it is the subject of C93 (message factories),
  C94 (client) and C99 (decoders).
* Threads: the library has none.

### What is assumed of code outside of the repository

* libasn1c implements X.691 aligned PER for the descriptors (canonical encoding,
  decoder refuses what is not a value of the type).  Known deviations of the
  real library: it does not check all upper bounds when it decodes, it aligns
  integers with eight range bits and a range below 256, and it leaves out the final
  empty fragment for lengths that are exact multiples of 16K.  No message built by the factories
  depends on the last two.  On failure `ANY_to_type_aper` frees what
  it allocated; a CHOICE without alternative cannot be encoded; an
  empty SEQUENCE OF has a NULL array.  For C93 also what it does when memory is denied, as
  listed at the top of `Memory.v`, and for C99 at the top of `MemDec.v`.
* libosmocore: `osmo_bcd2char`, `osmo_char2bcd`, `osmo_mnc_cmp`,
  `osmo_plmn_from_bcd`, `msgb_*` (aborts beyond the tailroom; `msgb_l2len` is 0 for a
  message without layer 2 header, as `iu_client.c:1201` needs), `get_value_string`,
  `asn1_u24_to_bitstring` and its kin from libasn1c, `tlv_parse` and
  `osmo_auth_gen_vec2` (arguments of the model, any function), linked lists,
  timers (fire once, not after deletion).
* libosmo-sigtran: a user primitive returns a number and does not call back
  into the client; a connection id is a number the client does not interpret; a request made
  for a null user crashes (C108).
* libosmovty: a line is matched against the commands word by word.
* The C compiler, on a host with 8-bit octets, 32-bit int and either byte order (an
  argument of the model); the emulator's union is laid out for 64-bit pointers.
