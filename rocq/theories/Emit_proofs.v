(* Proofs for C100 *)
From Verif Require Import Base Aper Container Container_proofs Regex Generator Generator_spec Generator_repo_spec AsnText Generator_proofs Generator_files
  Naming Naming_spec Naming_proofs Emit Emit_spec AllTypes.
From Coq Require Import String.
Local Open Scope list_scope.

Definition found_of (r : row) : found :=
  mkFound (chars (r_ie r)) (chars (criticality_word (r_crit r))) (chars (r_tyname r)) (chars (presence_word (r_pres r))).
Definition defs_of (ms : list msgdef) : list (list N * list found) := map (fun m => (key m, map found_of (m_rows m))) ms.
Definition code_x (I : interface) : option code := write_code (chars (if_prefix I)) (chars (if_file I)) (defs_of (if_msgs I)).

Definition flag_x (m : msgdef) (r : row) : option N := if is_opt r then Some (flag m r) else None.
Definition decoder_of (m : msgdef) : decoder_x :=
  mkDecoderX (m_cont m) (map member_of (m_rows m)) (map (fun r => mkCaseX (r_id r) (flag_x m r) (r_ty r) (member_of r)) (m_rows m)).
Definition steps_of (m : msgdef) (rows : list row) : list step_x :=
  map (fun r => mkStepX (flag_x m r) (r_id r) (r_crit r) (r_ty r) (member_of r)) rows.
Definition drops_of (m : msgdef) (rows : list row) : list drop_x := map (fun r => mkDropX (flag_x m r) (member_of r)) rows.

Definition found_all (I : interface) : option (list (option decoder_x * option (list step_x) * option (list drop_x))) :=
  let H := headers_of I in
  match code_x I with
  | None => None
  | Some C => Some (map (fun m => (decoder_named H C (function_of I Decode m), encoder_named H C (function_of I Encode m), free_named H C (function_of I Free m))) (if_msgs I))
  end.
Lemma all_found : map found_all interfaces =
  map (fun I => Some (map (fun m => (Some (decoder_of m), Some (steps_of m (m_rows m)), Some (drops_of m (m_rows m)))) (if_msgs I))) interfaces.
Proof. vm_cast_no_check (eq_refl (map (fun I => Some (map (fun m => (Some (decoder_of m), Some (steps_of m (m_rows m)), Some (drops_of m (m_rows m)))) (if_msgs I))) interfaces)). Qed.

(* ---------------- the code is that of the tables ---------------- *)
Lemma defs_read : forall d ms, map (fun p : list N * list found => (fst p, map (fun f => mkIeDef (f_id f) (f_crit f) (f_type f) (f_pres f)) (snd p))) d = map msg_set ms -> d = defs_of ms.
Proof.
  assert (A : forall l rs, map (fun f => mkIeDef (f_id f) (f_crit f) (f_type f) (f_pres f)) l = map row_def rs -> l = map found_of rs).
  { induction l as [|[a b c e] l IH]; intros [|r rs] E; try discriminate; [reflexivity|]. cbn [map f_id f_crit f_type f_pres] in E.
    unfold row_def at 1 in E. injection E as E1 E2 E3 E4 E. cbn [map]. rewrite <- (IH _ E). unfold found_of. rewrite E1, E2, E3, E4. reflexivity. }
  induction d as [|[k l] d IH]; intros [|m ms] E; try discriminate; [reflexivity|]. cbn [map fst snd] in E. unfold msg_set at 1 in E.
  injection E as E1 E2 E. unfold defs_of. cbn [map]. rewrite (A _ _ E2), E1. fold (defs_of ms). rewrite <- (IH _ E). reflexivity.
Qed.
Lemma code_table I lines : same_table (generate_tables [file_lines lines]) (if_msgs I) (if_file I) -> code_of I lines = code_x I.
Proof.
  intros (T&E&R&L&P). unfold code_of, script. rewrite E. cbn [obind2]. rewrite L, P. unfold code_x. apply defs_read in R. rewrite R. reflexivity.
Qed.
Lemma code_l I lines : In (I, lines) sources -> In I interfaces /\ code_of I lines = code_x I.
Proof.
  unfold sources, interfaces at 1. cbn [combine In]. intros [E|[E|[E|[E|F]]]]; [| | | |destruct F]; injection E as <- <-; (split; [unfold interfaces; cbn [In]; auto|]); apply code_table;
    [exact ranap_table|exact rua_table|exact hnbap_table|exact sabp_table].
Qed.
Lemma map_eq_in {A B} (f g : A -> B) l : map f l = map g l -> forall a, In a l -> f a = g a.
Proof. induction l as [|x l IH]; intros E a H; [destruct H|]. cbn [map] in E. injection E as E1 E2. destruct H as [->|H]; auto. Qed.
Lemma compiled_l I C : In I interfaces -> code_x I = Some C -> forall m, In m (if_msgs I) ->
  decoder_named (headers_of I) C (function_of I Decode m) = Some (decoder_of m) /\
  encoder_named (headers_of I) C (function_of I Encode m) = Some (steps_of m (m_rows m)) /\
  free_named (headers_of I) C (function_of I Free m) = Some (drops_of m (m_rows m)).
Proof.
  intros HI HC m Hm. pose proof (map_eq_in _ _ _ all_found _ HI) as E. unfold found_all in E. rewrite HC in E. injection E as E.
  pose proof (map_eq_in _ _ _ E _ Hm) as F. cbv beta in F. injection F as F1 F2 F3. auto.
Qed.
Lemma exists_l I : In I interfaces -> exists C, code_x I = Some C.
Proof. intros HI. pose proof (map_eq_in _ _ _ all_found _ HI) as E. unfold found_all in E. destruct (code_x I) as [C|]; [eauto|discriminate]. Qed.

(* ---------------- what it does ---------------- *)
Lemma teq_refl n : teq n n = true. Proof. now apply teq_eq. Qed.
Lemma teq_neq a b : a <> b -> teq a b = false.
Proof. intros H. destruct (teq a b) eqn:E; [apply teq_eq in E; contradiction|reflexivity]. Qed.
Lemma load_nth k : forall names fields j n, NoDup names -> nth_error names j = Some n ->
  load (mkObject k (combine names fields)) n = match nth_error fields j with Some f => f | None => None end.
Proof.
  unfold load. cbn [o_members]. induction names as [|x names IH]; intros [|f fields] [|j] n Hd H; cbn [nth_error] in H; try discriminate; cbn [combine named_in nth_error]; auto.
  - injection H as ->. now rewrite teq_refl.
  - inversion Hd as [|? ? Hx Hd']; subst. rewrite teq_neq; [now apply IH|]. intros ->. apply nth_error_In in H. contradiction.
Qed.
Lemma store_none n v : forall names fields, ~ In n names -> map (fun x : text * option val => if teq (fst x) n then (fst x, v) else x) (combine names fields) = combine names fields.
Proof.
  induction names as [|x names IH]; intros [|f fields] H; cbn [combine map]; auto. cbn [fst]. rewrite teq_neq by (intros ->; apply H; now left).
  rewrite IH; [reflexivity|]. intros K. apply H. now right.
Qed.
Lemma store_nth k v : forall names fields j n, NoDup names -> nth_error names j = Some n ->
  store (mkObject k (combine names fields)) n v = mkObject k (combine names (set_nth j v fields)).
Proof.
  intros names fields j n Hd H. unfold store. cbn [o_mask o_members]. f_equal. revert fields j Hd H.
  induction names as [|x names IH]; intros [|f fields] [|j] Hd H; cbn [nth_error] in H; try discriminate; cbn [combine map set_nth]; auto;
    inversion Hd as [|? ? Hx Hd']; subst; cbn [fst].
  - injection H as ->. rewrite teq_refl, store_none by assumption. reflexivity.
  - rewrite teq_neq by (intros ->; apply nth_error_In in H; contradiction). rewrite (IH _ j) by assumption. reflexivity.
Qed.
Lemma select_row m id : forall rows k,
  select id (map (fun r => mkCaseX (r_id r) (flag_x m r) (r_ty r) (member_of r)) rows) =
  match find_row id rows k with Some (_, r) => Some (mkCaseX (r_id r) (flag_x m r) (r_ty r) (member_of r)) | None => None end.
Proof.
  unfold select. induction rows as [|r rows IH]; intros k; cbn [map List.find find_row x_label]; [reflexivity|].
  destruct (r_id r =? id)%N; [reflexivity|apply IH].
Qed.
Lemma or_mask_row m s r : or_mask (in_memory m s) (flag_x m r) = in_memory m (add_flag m r s).
Proof. unfold flag_x, add_flag. destruct (is_opt r); reflexivity. Qed.
Lemma run_cases_l m : NoDup (map member_of (m_rows m)) -> forall l s lost,
  run_cases (x_cases (decoder_of m)) (in_memory m s) lost l =
  (d_ok (decode_list m s lost l), in_memory m (d_ies (decode_list m s lost l)), d_lost (decode_list m s lost l)).
Proof.
  intros Hd. induction l as [|ie l IH]; intros s lost; cbn [run_cases decode_list]; [reflexivity|].
  destruct (ie_parts ie) as [[id o]|]; [|reflexivity].
  unfold decoder_of at 1. cbn [x_cases]. rewrite (select_row m id (m_rows m) 0). destruct (find_row id (m_rows m) 0) as [[k r]|] eqn:F; [|reflexivity].
  cbn [x_or x_desc x_member]. rewrite or_mask_row. destruct (decode (r_ty r) o) as [v|]; [|reflexivity].
  apply find_row_in in F as (_&_&F&_). rewrite Nat.sub_0_r in F.
  assert (N : nth_error (map member_of (m_rows m)) k = Some (member_of r)) by now apply map_nth_error.
  unfold in_memory at 1 2. rewrite (store_nth _ _ _ _ k), (load_nth _ _ _ k) by assumption.
  change (mkObject (i_mask (add_flag m r s)) (combine (map member_of (m_rows m)) (set_nth k (Some v) (i_fields (add_flag m r s)))))
    with (in_memory m (mkIes (i_mask (add_flag m r s)) (set_nth k (Some v) (i_fields (add_flag m r s))))).
  rewrite IH. destruct (nth_error (i_fields (add_flag m r s)) k) as [[w|]|]; reflexivity.
Qed.
Lemma zero_l m : mkObject 0 (map (fun n => (n, None)) (x_members (decoder_of m))) = in_memory m (zero_ies m).
Proof.
  unfold in_memory, zero_ies. cbn [i_mask i_fields decoder_of x_members]. f_equal. induction (m_rows m) as [|r rs IH]; [reflexivity|]. cbn [map combine]. now rewrite IH.
Qed.
Lemma run_decoder_l m : NoDup (map member_of (m_rows m)) -> forall o,
  run_decoder (decoder_of m) o = (d_ok (decode_msg m o), in_memory m (d_ies (decode_msg m o)), d_lost (decode_msg m o)).
Proof.
  intros Hd o. unfold run_decoder, decode_msg. rewrite zero_l. change (x_message (decoder_of m)) with (m_cont m).
  destruct (decode (m_cont m) o) as [[ | | | | | |[|[[ | | | | | | |l| ]|] [|? ?]] ad| | ]|]; try reflexivity. apply run_cases_l, Hd.
Qed.
Lemma test_row m s r : test_mask (in_memory m s) (flag_x m r) = wanted m s r.
Proof. unfold flag_x, wanted, has_flag, test_mask. destruct (is_opt r); reflexivity. Qed.
Lemma load_mid m s pre r suf pf f sf : NoDup (map member_of (m_rows m)) -> m_rows m = pre ++ r :: suf -> i_fields s = pf ++ f :: sf -> List.length pf = List.length pre ->
  load (in_memory m s) (member_of r) = f.
Proof.
  intros Hd Hr Hf Hl. unfold in_memory. rewrite (load_nth _ _ _ (List.length pre)); [|exact Hd|].
  - rewrite Hf, <- Hl, nth_error_app2, Nat.sub_diag by reflexivity. reflexivity.
  - apply map_nth_error. rewrite Hr, nth_error_app2, Nat.sub_diag by reflexivity. reflexivity.
Qed.
Lemma run_steps_l m s : NoDup (map member_of (m_rows m)) -> forall suf pre pf sf, m_rows m = pre ++ suf -> i_fields s = pf ++ sf ->
  List.length pf = List.length pre -> List.length sf = List.length suf ->
  run_steps (steps_of m suf) (in_memory m s) = encode_rows m s suf sf.
Proof.
  intros Hd. induction suf as [|r suf IH]; intros pre pf [|f sf] Hr Hf Hl Hs; try discriminate; [reflexivity|].
  cbn [steps_of map run_steps encode_rows y_flag y_member y_desc y_id y_crit]. fold (steps_of m suf).
  rewrite test_row, (load_mid m s pre r suf pf f sf) by assumption.
  rewrite (IH (pre ++ [r]) (pf ++ [f]) sf).
  - destruct (wanted m s r); [|reflexivity]. destruct f as [v|]; [|reflexivity]. unfold new_ie. destruct (encode (r_ty r) v); [|reflexivity]. reflexivity.
  - rewrite <- app_assoc. exact Hr.
  - rewrite <- app_assoc. exact Hf.
  - rewrite !app_length, Hl. reflexivity.
  - cbn [List.length] in Hs. injection Hs as Hs. exact Hs.
Qed.
Lemma run_encoder_l m s : NoDup (map member_of (m_rows m)) -> shaped m s -> run_encoder (steps_of m (m_rows m)) (in_memory m s) = encode_ies m s.
Proof. intros Hd Hs. unfold run_encoder, encode_ies. rewrite (run_steps_l m s Hd (m_rows m) [] [] (i_fields s)); auto. Qed.
Lemma run_free_l m s : NoDup (map member_of (m_rows m)) -> forall suf pre pf sf, m_rows m = pre ++ suf -> i_fields s = pf ++ sf ->
  List.length pf = List.length pre -> List.length sf = List.length suf ->
  run_free (drops_of m suf) (in_memory m s) = freed_rows m s suf sf.
Proof.
  intros Hd. unfold run_free. induction suf as [|r suf IH]; intros pre pf [|f sf] Hr Hf Hl Hs; try discriminate; [reflexivity|].
  cbn [drops_of map flat_map freed_rows z_flag z_member]. fold (drops_of m suf).
  rewrite test_row, (load_mid m s pre r suf pf f sf) by assumption.
  rewrite (IH (pre ++ [r]) (pf ++ [f]) sf).
  - destruct f as [v|]; destruct (wanted m s r); reflexivity.
  - rewrite <- app_assoc. exact Hr.
  - rewrite <- app_assoc. exact Hf.
  - rewrite !app_length, Hl. reflexivity.
  - cbn [List.length] in Hs. injection Hs as Hs. exact Hs.
Qed.

(* ---------------- for the theorems ---------------- *)
Lemma nodup_members I m : In I interfaces -> In m (if_msgs I) -> NoDup (map member_of (m_rows m)).
Proof. intros HI Hm. destruct (members_l I m HI Hm) as [H _]. now inversion H. Qed.
Lemma written_l : forall I lines, In (I, lines) sources -> exists C, code_of I lines = Some C.
Proof. intros I lines H. apply code_l in H as [HI ->]. now apply exists_l. Qed.
Lemma decoder_l : forall I lines C m, In (I, lines) sources -> code_of I lines = Some C -> In m (if_msgs I) ->
  exists d, decoder_named (headers_of I) C (function_of I Decode m) = Some d /\
  forall octets, run_decoder d octets = (d_ok (decode_msg m octets), in_memory m (d_ies (decode_msg m octets)), d_lost (decode_msg m octets)).
Proof.
  intros I lines C m H HC Hm. apply code_l in H as [HI E]. rewrite E in HC. destruct (compiled_l I C HI HC m Hm) as (D&_&_).
  exists (decoder_of m). split; [exact D|]. apply run_decoder_l. now apply (nodup_members I).
Qed.
Lemma encoder_l : forall I lines C m, In (I, lines) sources -> code_of I lines = Some C -> In m (if_msgs I) ->
  exists e, encoder_named (headers_of I) C (function_of I Encode m) = Some e /\
  forall s, shaped m s -> run_encoder e (in_memory m s) = encode_ies m s.
Proof.
  intros I lines C m H HC Hm. apply code_l in H as [HI E]. rewrite E in HC. destruct (compiled_l I C HI HC m Hm) as (_&D&_).
  exists (steps_of m (m_rows m)). split; [exact D|]. intros s Hs. apply run_encoder_l; [now apply (nodup_members I)|exact Hs].
Qed.
Lemma free_l : forall I lines C m, In (I, lines) sources -> code_of I lines = Some C -> In m (if_msgs I) ->
  exists f, free_named (headers_of I) C (function_of I Free m) = Some f /\
  forall s, shaped m s -> run_free f (in_memory m s) = free_ies m s.
Proof.
  intros I lines C m H HC Hm. apply code_l in H as [HI E]. rewrite E in HC. destruct (compiled_l I C HI HC m Hm) as (_&_&D).
  exists (drops_of m (m_rows m)). split; [exact D|]. intros s Hs. unfold free_ies.
  apply (run_free_l m s) with (pre := []) (pf := []); auto. now apply (nodup_members I).
Qed.

(* the header *)
Definition header_x (I : interface) : option (list (option (text * list (text * text))) * list (list (option N)) * (list text * list text * list text * list text * list text)) :=
  match code_x I with
  | None => None
  | Some C => Some (map (fun m => option_map (fun st => (sc_name st, declared st)) (struct_named C (struct_of I m))) (if_msgs I),
                    map (fun m => map (fun r => macro_value (chars (flag_define m r)) (cd_macros C)) (filter is_opt (m_rows m))) (if_msgs I),
                    (map sc_name (cd_structs C), map dc_name (cd_decoders C), map ec_name (cd_encoders C), map fc_name (cd_frees C), map fst (cd_macros C)))
  end.
Lemma header_found : map header_x interfaces =
  map (fun I => Some (map (fun m => Some (struct_of I m, members_of I m)) (if_msgs I),
                      map (fun m => map (fun r => Some (flag m r)) (filter is_opt (m_rows m))) (if_msgs I),
                      (map (struct_of I) (if_msgs I), map (function_of I Decode) (if_msgs I), map (function_of I Encode) (if_msgs I), map (function_of I Free) (if_msgs I),
                       flat_map (fun m => map (fun r => chars (flag_define m r)) (filter is_opt (m_rows m))) (if_msgs I)))) interfaces.
Proof. vm_compute. reflexivity. Qed.
Lemma struct_l : forall I lines C m, In (I, lines) sources -> code_of I lines = Some C -> In m (if_msgs I) ->
  exists st, struct_named C (struct_of I m) = Some st /\ declared st = members_of I m.
Proof.
  intros I lines C m H HC Hm. apply code_l in H as [HI E]. rewrite E in HC.
  pose proof (map_eq_in _ _ _ header_found _ HI) as F. unfold header_x in F. rewrite HC in F. injection F as F _ _ _ _ _ _.
  pose proof (map_eq_in _ _ _ F _ Hm) as G. cbv beta in G. destruct (struct_named C (struct_of I m)) as [st|]; [|discriminate].
  cbn [option_map] in G. injection G as G1 G2. eauto.
Qed.
Lemma flag_l : forall I lines C m r, In (I, lines) sources -> code_of I lines = Some C -> In m (if_msgs I) -> In r (m_rows m) -> is_opt r = true ->
  macro_value (chars (flag_define m r)) (cd_macros C) = Some (flag m r).
Proof.
  intros I lines C m r H HC Hm Hr Ho. apply code_l in H as [HI E]. rewrite E in HC.
  pose proof (map_eq_in _ _ _ header_found _ HI) as F. unfold header_x in F. rewrite HC in F. injection F as _ F _ _ _ _ _.
  pose proof (map_eq_in _ _ _ F _ Hm) as G. apply (map_eq_in _ _ _ G). apply filter_In. auto.
Qed.
Lemma names_l : forall I lines C, In (I, lines) sources -> code_of I lines = Some C ->
  map sc_name (cd_structs C) = map (struct_of I) (if_msgs I) /\ map dc_name (cd_decoders C) = map (function_of I Decode) (if_msgs I) /\
  map ec_name (cd_encoders C) = map (function_of I Encode) (if_msgs I) /\ map fc_name (cd_frees C) = map (function_of I Free) (if_msgs I) /\
  map fst (cd_macros C) = flat_map (fun m => map (fun r => chars (flag_define m r)) (filter is_opt (m_rows m))) (if_msgs I).
Proof.
  intros I lines C H HC. apply code_l in H as [HI E]. rewrite E in HC.
  pose proof (map_eq_in _ _ _ header_found _ HI) as F. unfold header_x in F. rewrite HC in F. injection F as _ _ F1 F2 F3 F4 F5. auto.
Qed.
Lemma macros_differ_l : forall I lines C, In (I, lines) sources -> code_of I lines = Some C -> NoDup (map fst (cd_macros C)).
Proof.
  intros I lines C H HC. apply code_l in H as [HI E]. rewrite E in HC.
  assert (B : forallb (fun I => match code_x I with Some C => Naming_proofs.nodup (map fst (cd_macros C)) | None => false end) interfaces = true) by (vm_compute; reflexivity).
  rewrite forallb_forall in B. specialize (B I HI). cbv beta in B. rewrite HC in B. now apply nodup_l.
Qed.
