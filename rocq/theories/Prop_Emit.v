(* C100: the code that is generated from the ASN.1 files, in which everything is found by its
   name, does what the tables of the model say *)
From Verif Require Import Base Aper Container Generator Generator_spec Generator_repo_spec Naming Naming_spec Emit Emit_spec Emit_proofs Emit_any.
From Coq Require Import String.
Local Open Scope list_scope.

(* ---------------- the four files of the repository ---------------- *)
Theorem C100_written : forall I lines, In (I, lines) sources -> exists C, code_of I lines = Some C.
Proof. exact written_l. Qed.
Print Assumptions C100_written.

(* the structures, functions and macros are those of the messages, and no others *)
Theorem C100_names : forall I lines C, In (I, lines) sources -> code_of I lines = Some C ->
  map sc_name (cd_structs C) = map (struct_of I) (if_msgs I) /\ map dc_name (cd_decoders C) = map (function_of I Decode) (if_msgs I) /\
  map ec_name (cd_encoders C) = map (function_of I Encode) (if_msgs I) /\ map fc_name (cd_frees C) = map (function_of I Free) (if_msgs I) /\
  map fst (cd_macros C) = flat_map (fun m => map (fun r => chars (flag_define m r)) (filter is_opt (m_rows m))) (if_msgs I).
Proof. exact names_l. Qed.
Print Assumptions C100_names.
Theorem C100_structure : forall I lines C m, In (I, lines) sources -> code_of I lines = Some C -> In m (if_msgs I) ->
  exists st, struct_named C (struct_of I m) = Some st /\ declared st = members_of I m.
Proof. exact struct_l. Qed.
Print Assumptions C100_structure.
(* the macros of all messages are in one header: none is defined twice, and each has its value *)
Theorem C100_macros_differ : forall I lines C, In (I, lines) sources -> code_of I lines = Some C -> NoDup (map fst (cd_macros C)).
Proof. exact macros_differ_l. Qed.
Print Assumptions C100_macros_differ.
Theorem C100_macros : forall I lines C m r, In (I, lines) sources -> code_of I lines = Some C -> In m (if_msgs I) -> In r (m_rows m) -> is_opt r = true ->
  macro_value (chars (flag_define m r)) (cd_macros C) = Some (flag m r).
Proof. exact flag_l. Qed.
Print Assumptions C100_macros.

(* the functions, found by their names and compiled with the headers, do what the model does *)
Theorem C100_decoder : forall I lines C m, In (I, lines) sources -> code_of I lines = Some C -> In m (if_msgs I) ->
  exists d, decoder_named (headers_of I) C (function_of I Decode m) = Some d /\
  forall octets, run_decoder d octets = (d_ok (decode_msg m octets), in_memory m (d_ies (decode_msg m octets)), d_lost (decode_msg m octets)).
Proof. exact decoder_l. Qed.
Print Assumptions C100_decoder.
Theorem C100_encoder : forall I lines C m, In (I, lines) sources -> code_of I lines = Some C -> In m (if_msgs I) ->
  exists e, encoder_named (headers_of I) C (function_of I Encode m) = Some e /\
  forall s, shaped m s -> run_encoder e (in_memory m s) = encode_ies m s.
Proof. exact encoder_l. Qed.
Print Assumptions C100_encoder.
Theorem C100_free : forall I lines C m, In (I, lines) sources -> code_of I lines = Some C -> In m (if_msgs I) ->
  exists f, free_named (headers_of I) C (function_of I Free m) = Some f /\
  forall s, shaped m s -> run_free f (in_memory m s) = free_ies m s.
Proof. exact free_l. Qed.
Print Assumptions C100_free.

(* ---------------- any file of ASN.1 ---------------- *)
(* the script stops if and only if an IE is twice in a message, in different ways *)
Theorem C100_refused : forall prefix file defs, write_code prefix file defs = None <->
  exists k l f g, In (k, l) defs /\ In f l /\ In g l /\ f <> g /\ f_id f = f_id g.
Proof. exact refused_l. Qed.
Print Assumptions C100_refused.
(* if the compiler accepts the code: every IE has a number, a type and a member of its own *)
Theorem C100_own : forall H prefix file defs k l d e fr, compiled H prefix file defs k l d e fr ->
  (forall f, In f l -> exists n c t, means H prefix f n c t) /\
  (forall f g n c t c' t', In f l -> In g l -> means H prefix f n c t -> means H prefix g n c' t' -> f = g) /\
  NoDup (map (fun f => member (f_id f)) l) /\ forall octets o, snd (fst (run_decoder d octets)) = o -> of_message l o.
Proof. intros. pose proof (any_means _ _ _ _ _ _ _ _ _ H0) as [A B]. pose proof (any_members _ _ _ _ _ _ _ _ _ H0) as [C D]. auto. Qed.
Print Assumptions C100_own.
(* the decoder puts an IE into its member and sets its bit, and does nothing else *)
Theorem C100_decoded : forall H prefix file defs k l d e fr, compiled H prefix file defs k l d e fr ->
  forall f n c t octets v, In f l -> means H prefix f n c t -> decode t octets = Some v ->
  forall c' o lost rest, of_message l o ->
  exists o', run_cases (x_cases d) o lost (element n c' octets :: rest) =
    run_cases (x_cases d) o' (match load o (member (f_id f)) with Some w => lost ++ [w] | None => lost end) rest /\
  of_message l o' /\ load o' (member (f_id f)) = Some v /\ (forall x, x <> member (f_id f) -> load o' x = load o x) /\
  forall b, (b < 16)%N -> N.testbit (o_mask o') b = true <-> N.testbit (o_mask o) b = true \/ optional f /\ b = bit_of l f.
Proof. exact any_decoded. Qed.
Print Assumptions C100_decoded.
(* it reports an IE of another number, and one whose value is wrong *)
Theorem C100_rejected : forall H prefix file defs k l d e fr, compiled H prefix file defs k l d e fr ->
  (forall n, (forall f, In f l -> named_in (id_constant prefix (f_id f)) (h_ids H) <> Some n) ->
    forall c' octets o lost rest, fst (fst (run_cases (x_cases d) o lost (element n c' octets :: rest))) = false) /\
  (forall f n c t octets, In f l -> means H prefix f n c t -> decode t octets = None ->
    forall c' o lost rest, fst (fst (run_cases (x_cases d) o lost (element n c' octets :: rest))) = false).
Proof. intros. split; [exact (any_unknown _ _ _ _ _ _ _ _ _ H0)|exact (any_undecodable _ _ _ _ _ _ _ _ _ H0)]. Qed.
Print Assumptions C100_rejected.
(* the encoder writes the IEs that are said to be there, in their order *)
Theorem C100_encoded : forall H prefix file defs k l d e fr, compiled H prefix file defs k l d e fr ->
  forall o b, run_encoder e o = Some b <->
  exists els, b = VSeq [Some (VList els)] [] /\
  Forall2 (fun f v => exists n c t w octets, means H prefix f n c t /\ load o (member (f_id f)) = Some w /\ encode t w = Some octets /\ v = element n c octets)
    (filter (there l o) l) els.
Proof. exact any_encoder. Qed.
Print Assumptions C100_encoded.
(* with at most sixteen IEs that may be absent, all that was decoded is released *)
Theorem C100_released_partial : forall H prefix file defs k l d e fr, compiled H prefix file defs k l d e fr ->
  (List.length (optionals l) <= 16)%nat -> forall octets, run_free fr (snd (fst (run_decoder d octets))) = held (snd (fst (run_decoder d octets))).
Proof. exact any_released. Qed.
Print Assumptions C100_released_partial.
(* not with seventeen: what was decoded is not released, and not encoded again *)
Theorem C100_released_refuted : exists H prefix lines C d e f octets ok o lost x v, script prefix [file_lines lines] = Some C /\ NoDup (map fst (cd_macros C)) /\
  decoder_named H C (chars "x_decode_messageies") = Some d /\ encoder_named H C (chars "x_encode_messageies") = Some e /\ free_named H C (chars "x_free_messageies") = Some f /\
  run_decoder d octets = (ok, o, lost) /\ ok = true /\ load o x = Some v /\ run_free f o = [] /\ run_encoder e o = Some (VSeq [Some (VList [])] []).
Proof. exact many_l. Qed.
Print Assumptions C100_released_refuted.

(* ---------------- cases that meet the hypotheses ---------------- *)
Example C100_sources_ex : map (fun s => (if_file (fst s), List.length (snd s))) sources = [("ranap"%string, 3599); ("rua"%string, 195); ("hnbap"%string, 561); ("sabp"%string, 447)]%nat.
Proof. vm_compute. reflexivity. Qed.
Example C100_compiled_ex : exists l d e f, option_map t_defs (generate_tables [file_lines two_lines]) = Some two_defs /\
  compiled two_headers (chars "P_") (chars "x") two_defs (chars "MessageIEs") l d e f /\ List.length l = 2%nat /\ (List.length (optionals l) <= 16)%nat.
Proof. exact two_l. Qed.
Example C100_shaped_ex : shaped RuaTab.M_RUA_ConnectIEs (zero_ies RuaTab.M_RUA_ConnectIEs).
Proof. reflexivity. Qed.
