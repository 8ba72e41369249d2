(* Proofs for C107: the message factory with printing. *)
From Verif Require Import Base Aper RanapTypes RanapTab Container Helpers RuaTab Factory_spec Factory RuaFactory Aper_spec Aper_proofs Aper_valid Factory_proofs Factory_rab Factory_msgs Memory_spec Xer Xer_spec Xer_proofs XerFactory.
From Coq Require Import String List ZArith NArith Lia.
Import ListNotations.
Local Open Scope list_scope.
Local Open Scope nat_scope.

(* [c out log]: a computation that prints, with result [a] if nothing is printed; [new] is what it
   prints if that works *)
Definition prints {A} (c : (nat -> bool) -> list printed -> option A * list printed) (a : option A) (new : list printed) : Prop :=
  forall out log,
  ((forall j, j < length new -> out (length log + j) = true) -> c out log = (a, log ++ new)) /\
  ((exists j, j < length new /\ out (length log + j) = false) -> fst (c out log) = None).

Lemma prints_none {A} : prints (fun _ log => (@None A, log)) None [].
Proof. intros out log. split; [intros _; rewrite app_nil_r; reflexivity|intros (j & Hj & _); inversion Hj]. Qed.
Lemma prints_bind {A B} c (a : option A) n1 (f : A -> (nat -> bool) -> list printed -> option B * list printed) (b : A -> option B) n2 :
  prints c a n1 -> (forall x, a = Some x -> prints (f x) (b x) n2) -> (a = None -> n2 = []) ->
  prints (fun out log => match c out log with (Some x, log) => f x out log | (None, log) => (None, log) end)
         (match a with Some x => b x | None => None end) (n1 ++ n2).
Proof.
  intros Hc Hf Hn out log. destruct (Hc out log) as [C1 C2]. split.
  - intro H. rewrite C1; [|intros j Hj; apply H; rewrite app_length; lia].
    destruct a as [x|]; [|rewrite (Hn eq_refl), app_nil_r; reflexivity].
    destruct (Hf x eq_refl out (log ++ n1)) as [F1 _]. rewrite F1, app_assoc; [reflexivity|].
    intros j Hj. rewrite app_length. replace (length log + length n1 + j) with (length log + (length n1 + j)) by lia. apply H. rewrite app_length. lia.
  - intros (j & Hj & E). rewrite app_length in Hj.
    destruct (forallb (fun i => out (length log + i)) (seq 0 (length n1))) eqn:B1.
    + assert (C := C1). rewrite C; [|intros i Hi; rewrite forallb_forall in B1; apply B1; apply in_seq; lia].
      destruct a as [x|]; [|reflexivity].
      apply (Hf x eq_refl out (log ++ n1)). exists (j - length n1).
      assert (length n1 <= j).
      { destruct (Nat.le_gt_cases (length n1) j) as [L|L]; [exact L|]. rewrite forallb_forall in B1. rewrite (B1 j) in E; [discriminate|apply in_seq; lia]. }
      split; [lia|]. rewrite app_length. rewrite <- E. f_equal. lia.
    + destruct (c out log) as [[x|] l]; [|reflexivity]. exfalso.
      assert (X : fst (Some x, l) = None); [|discriminate X]. apply C2.
      destruct (existsb (fun i => negb (out (length log + i))) (seq 0 (length n1))) eqn:B2.
      * apply existsb_exists in B2. destruct B2 as (i & Hi & N). apply in_seq in Hi. exists i. split; [lia|]. destruct (out (length log + i)); [discriminate N|reflexivity].
      * exfalso. rewrite <- Bool.not_true_iff_false in B1. apply B1. apply forallb_forall. intros i Hi.
        rewrite <- Bool.not_true_iff_false in B2. destruct (out (length log + i)) eqn:O; [reflexivity|]. exfalso. apply B2. apply existsb_exists. exists i. split; [exact Hi|rewrite O; reflexivity].
Qed.
Lemma prints_end {A B} c (a : option A) n (f : A -> option B) :
  prints c a n -> prints (fun out log => match c out log with (Some x, log) => (f x, log) | (None, log) => (None, log) end)
    (match a with Some x => f x | None => None end) n.
Proof.
  intro Hc. assert (X := prints_bind c a n (fun x _ log => (f x, log)) f [] Hc). rewrite app_nil_r in X. apply X; [|reflexivity].
  intros x _ out log. split; [intros _; rewrite app_nil_r; reflexivity|intros (j & Hj & _); inversion Hj].
Qed.

Lemma print_ie r v : exists n, prints (fun out log => fst (new_ie_x true out r v log)) (new_ie r v) n.
Proof.
  unfold new_ie_x, print. destruct (new_ie r v) as [ie|].
  - exists [PIe ie]. intros out log. split.
    + intro H. specialize (H 0 (Nat.lt_0_succ 0)). rewrite Nat.add_0_r in H. rewrite H. reflexivity.
    + intros (j & Hj & E). assert (j = 0) by (change (length [PIe ie]) with 1 in Hj; lia). subst j. rewrite Nat.add_0_r in E. rewrite E. reflexivity.
  - exists []. exact prints_none.
Qed.
Lemma print_rows m s : forall rows fields, exists n, prints (fun out log => fst (encode_rows_x true out m s rows fields log)) (encode_rows m s rows fields) n.
Proof.
  induction rows as [|r rs IH]; intro fields.
  - exists []. intros out log. split; [intros _; destruct fields; rewrite app_nil_r; reflexivity|intros (j & Hj & _); inversion Hj].
  - destruct fields as [|f fs]; [exists []; exact prints_none|].
    cbn [encode_rows encode_rows_x]. destruct (wanted m s r); [|apply IH]. destruct f as [v|]; [|exists []; exact prints_none].
    destruct (print_ie r v) as [n1 H1]. destruct (new_ie r v) as [ie|] eqn:E.
    + destruct (IH fs) as [n2 H2]. exists (n1 ++ n2).
      assert (X := prints_bind _ _ n1 (fun ie out log => match fst (encode_rows_x true out m s rs fs log) with (Some l, log) => (Some (ie :: l), log) | (None, log) => (None, log) end)
                (fun ie => match encode_rows m s rs fs with Some l => Some (ie :: l) | None => None end) n2 H1).
      assert (Y : forall x, Some ie = Some x -> prints (fun out log => match fst (encode_rows_x true out m s rs fs log) with (Some l, log) => (Some (x :: l), log) | (None, log) => (None, log) end)
                (match encode_rows m s rs fs with Some l => Some (x :: l) | None => None end) n2).
      { intros x _. exact (prints_end _ _ n2 (fun l => Some (x :: l)) H2). }
      specialize (X Y). assert (Z : Some ie = None -> n2 = []) by discriminate. specialize (X Z). clear Y Z.
      intros out log. specialize (X out log). cbn [obind]. unfold obind. unfold prints in X. cbv beta in X. revert X. cbv beta.
      destruct (new_ie_x true out r v log) as [[[x|] l1] t1]; cbn [fst]; [|intro X; exact X].
      destruct (encode_rows_x true out m s rs fs l1) as [[[y|] l2] t2]; cbn [fst]; intro X; exact X.
    + exists n1. intros out log. specialize (H1 out log). unfold obind. cbv beta in H1. revert H1. cbv beta.
      destruct (new_ie_x true out r v log) as [[[x|] l1] t1] eqn:N; cbn [fst]; [|intros [A _]; split; [intro Q; specialize (A Q); injection A as A; rewrite A; reflexivity|reflexivity]].
      exfalso. unfold new_ie_x in N. rewrite E in N. discriminate N.
Qed.
Lemma print_ies m s : exists n, prints (fun out log => ies_x true out m s log) (snd (add_ies m s)) n.
Proof. unfold ies_x, add_ies. rewrite add_rows_snd. apply print_rows. Qed.
Lemma finish_msg P d p crit m s mid ko : r_msg (finish P d p crit m s mid ko) =
  match snd (add_ies m s) with Some l => generate P d p crit (m_cont m) (list_val l) | None => None end.
Proof. unfold finish. destruct (add_ies m s) as [t [l|]]; cbn [snd]; [|reflexivity]. destruct (generate P d p crit (m_cont m) (list_val l)); reflexivity. Qed.
Lemma print_finish P d p crit m s mid ko : exists n, prints (fun out log => finish_x true out P d p crit m s log) (r_msg (finish P d p crit m s mid ko)) n.
Proof. rewrite finish_msg. destruct (print_ies m s) as [n H]. exists n. exact (prints_end _ _ n _ H). Qed.
(* a list of IEs inside of the message *)
Lemma print_nested I si P d p crit m (s : list val -> ies) mid ko :
  exists n, prints (fun out log => match ies_x true out I si log with (Some l, log) => finish_x true out P d p crit m (s l) log | (None, log) => (None, log) end)
    (match snd (add_ies I si) with Some l => r_msg (finish P d p crit m (s l) mid ko) | None => None end) n.
Proof.
  destruct (print_ies I si) as [n1 H1]. destruct (snd (add_ies I si)) as [l|] eqn:E.
  - destruct (print_finish P d p crit m (s l) mid ko) as [n2 H2]. exists (n1 ++ n2).
    apply (prints_bind _ (Some l) n1 (fun l out log => finish_x true out P d p crit m (s l) log) (fun l => r_msg (finish P d p crit m (s l) mid ko)) n2 H1); [|discriminate].
    intros x X. injection X as <-. exact H2.
  - exists (n1 ++ []). exact (prints_bind _ None n1 (fun l out log => finish_x true out P d p crit m (s l) log) (fun l => r_msg (finish P d p crit m (s l) mid ko)) [] H1 ltac:(discriminate) (fun _ => eq_refl)).
Qed.


Lemma call_prints k m : do_call k = Ok m -> rab_request k = false ->
  exists c n, (forall out, do_call_x true out k = Ok (c out [])) /\ prints c (r_msg m) n.
Proof.
  assert (fin : forall P d p crit M s mid ko k, (forall out, do_call_x true out k = Ok (finish_x true out P d p crit M s [])) ->
    exists c n, (forall out, do_call_x true out k = Ok (c out [])) /\ prints c (r_msg (finish P d p crit M s mid ko)) n).
  { intros P d p crit M s mid ko k0 H. destruct (print_finish P d p crit M s mid ko) as [n Hn]. exists (fun out log => finish_x true out P d p crit M s log), n. split; [exact H|exact Hn]. }
  assert (no : forall k, (forall out, do_call_x true out k = Ok (None, [])) -> exists c n, (forall out, do_call_x true out k = Ok (c out [])) /\ prints c (@None (list N)) n).
  { intros k0 H. exists (fun _ log => (None, log)), []. split; [exact H|exact prints_none]. }
  destruct k; intros Hk Hr; try discriminate Hr; unfold do_call in Hk.
  - injection Hk as <-. apply fin. reflexivity.
  - injection Hk as <-. apply fin. reflexivity.
  - injection Hk as <-. apply fin. reflexivity.
  - injection Hk as <-. apply fin. reflexivity.
  - injection Hk as <-. apply fin. reflexivity.
  - injection Hk as <-. unfold new_msg_sec_mod_cmd2.
    destruct (alg_loop uia uia_mask bits8) as [ia oka] eqn:A.
    destruct oka; cbn [negb]; [|apply no; intro out; unfold do_call_x, sec_mod_cmd2_x; rewrite A; reflexivity].
    destruct ck as [ck|].
    + destruct (alg_loop uea uea_mask bits8) as [ea oke] eqn:B.
      destruct oke; cbn [negb]; [|apply no; intro out; unfold do_call_x, sec_mod_cmd2_x; rewrite A, B; reflexivity].
      cbn [r_msg]. apply fin. intro out. unfold do_call_x, sec_mod_cmd2_x. rewrite A, B. reflexivity.
    + cbn [r_msg]. apply fin. intro out. unfold do_call_x, sec_mod_cmd2_x. rewrite A. reflexivity.
  - injection Hk as <-. apply fin. reflexivity.
  - unfold new_msg_common_id in Hk. destruct imsi as [i|].
    + destruct (imsi_encode 16 16 i) as [o|] eqn:E; unfold Base.obind in Hk; try discriminate Hk. injection Hk as <-. cbn [r_msg].
      apply fin. intro out. unfold do_call_x. rewrite E. reflexivity.
    + injection Hk as <-. apply fin. reflexivity.
  - injection Hk as <-. apply fin. reflexivity.
  - injection Hk as <-. apply fin. reflexivity.
  - unfold new_msg_paging_cmd in Hk. destruct (imsi_encode 16 16 imsi) as [o|] eqn:E; unfold Base.obind in Hk; try discriminate Hk. injection Hk as <-. cbn [r_msg].
    apply fin. intro out. unfold do_call_x. rewrite E. reflexivity.
  - injection Hk as <-. apply fin. reflexivity.
  - injection Hk as <-. unfold new_msg_rab_rel_req.
    destruct (print_nested M_RANAP_RAB_ReleaseItemIEs (put_ie M_RANAP_RAB_ReleaseItemIEs "id-RAB-ReleaseItem" (VSeq [Some (rab_id_val rab_id); Some (cause_val c); None] []) (zero M_RANAP_RAB_ReleaseItemIEs))
      ranap 1 10 1 M_RANAP_RAB_ReleaseRequestIEs (fun l => put_ie M_RANAP_RAB_ReleaseRequestIEs "id-RAB-ReleaseList" (list_val l) (zero M_RANAP_RAB_ReleaseRequestIEs)) [] true) as [n Hn].
    match type of Hn with prints ?c _ _ => exists c, n end. split; [intro out; reflexivity|]. revert Hn.
    destruct (add_ies M_RANAP_RAB_ReleaseItemIEs _) as [t [l|]]; cbn [snd]; intro Hn; intros out log; specialize (Hn out log); cbn [r_msg] in *;
      rewrite ?finish_msg in *; exact Hn.
  - injection Hk as <-. unfold new_msg_reset_resource. destruct ids as [|id [|? ?]]; [apply no; reflexivity| |apply no; reflexivity].
    destruct (print_nested M_RANAP_ResetResourceItemIEs (put_ie M_RANAP_ResetResourceItemIEs "id-IuSigConIdItem" (VSeq [Some (VBits (to_bits 24 id)); None] []) (zero M_RANAP_ResetResourceItemIEs))
      ranap 1 27 0 M_RANAP_ResetResourceIEs (fun l => ifs rnc (fun g s => put_ie M_RANAP_ResetResourceIEs "id-GlobalRNC-ID" (grnc_val g) (set_mask (macro M_RANAP_ResetIEs "id-GlobalRNC-ID") s))
            (put_ie M_RANAP_ResetResourceIEs "id-IuSigConIdList" (list_val l)
            (put_ie M_RANAP_ResetResourceIEs "id-Cause" (cause_val c)
            (put_ie M_RANAP_ResetResourceIEs "id-CN-DomainIndicator" (dom_val domain) (zero M_RANAP_ResetResourceIEs))))) [] true) as [n Hn].
    match type of Hn with prints ?c _ _ => exists c, n end. split; [intro out; reflexivity|]. revert Hn.
    destruct (add_ies M_RANAP_ResetResourceItemIEs _) as [t [l|]]; cbn [snd]; intro Hn; intros out log; specialize (Hn out log); cbn [r_msg] in *;
      rewrite ?finish_msg in *; exact Hn.
Qed.
Lemma same_or_none k m : do_call k = Ok m -> rab_request k = false -> exists p, forall out,
  ((forall j, j < length p -> out j = true) -> do_call_x true out k = Ok (r_msg m, p)) /\
  ((exists j, j < length p /\ out j = false) -> exists q, do_call_x true out k = Ok (None, q)).
Proof.
  intros Hk Hr. destruct (call_prints k m Hk Hr) as (c & n & Hc & Hp). exists n. intro out. destruct (Hp out []) as [A B]. cbn [length Nat.add] in A, B. split.
  - intro H. rewrite Hc, (A H). reflexivity.
  - intro H. specialize (B H). rewrite Hc. destruct (c out []) as [r q]. cbn [fst] in B. subst r. exists q. reflexivity.
Qed.

(* the two calls for a RAB: two values are printed, the pair and the list *)
Notation rabs v := (put_ie M_RANAP_RAB_AssignmentRequestIEs "id-RAB-SetupOrModifyList" v
  (set_mask (macro M_RANAP_RAB_AssignmentRequestIEs "id-RAB-SetupOrModifyList") (zero M_RANAP_RAB_AssignmentRequestIEs))).
(* asn1/ranap/RANAP-PDU-Contents.asn:2164 *)
Definition rab_row : row := mkRow "id-RAB-SetupOrModifyList" 54 1 "RAB-SetupOrModifyList" T_RANAP_RAB_SetupOrModifyList Optional.
Lemma rab_rows_x on out v log : encode_rows_x on out M_RANAP_RAB_AssignmentRequestIEs (rabs v) (m_rows M_RANAP_RAB_AssignmentRequestIEs) (i_fields (rabs v)) log =
  match new_ie_x on out rab_row v log with
  | (None, log, lost) => (None, log, lost)
  | (Some ie, log, _) => (Some [ie], log, [])
  end.
Proof.
  assert (W0 : wanted M_RANAP_RAB_AssignmentRequestIEs (rabs v) rab_row = true) by (vm_compute; reflexivity).
  assert (W1 : wanted M_RANAP_RAB_AssignmentRequestIEs (rabs v) (mkRow "id-RAB-ReleaseList" 41 1 "RAB-ReleaseList" T_RANAP_RAB_ReleaseList Optional) = false) by (vm_compute; reflexivity).
  change (m_rows M_RANAP_RAB_AssignmentRequestIEs) with [rab_row; mkRow "id-RAB-ReleaseList" 41 1 "RAB-ReleaseList" T_RANAP_RAB_ReleaseList Optional].
  change (i_fields (rabs v)) with [Some v; Some (zeroed T_RANAP_RAB_ReleaseList)].
  cbn [encode_rows_x]. rewrite W0, W1. destruct (new_ie_x on out rab_row v log) as [[[ie|] l] t]; reflexivity.
Qed.
Lemma rab_rows v : encode_rows M_RANAP_RAB_AssignmentRequestIEs (rabs v) (m_rows M_RANAP_RAB_AssignmentRequestIEs) (i_fields (rabs v)) =
  match new_ie rab_row v with Some ie => Some [ie] | None => None end.
Proof.
  assert (A := rows_off (fun _ => true) M_RANAP_RAB_AssignmentRequestIEs (rabs v) (m_rows M_RANAP_RAB_AssignmentRequestIEs) (i_fields (rabs v)) []).
  rewrite rab_rows_x in A. unfold new_ie_x, print in A. destruct (new_ie rab_row v); injection A as A; symmetry; exact A.
Qed.
Lemma rab_finish out v log mid ko : length log = 1 -> fst (finish_x true out ranap 1 0 0 M_RANAP_RAB_AssignmentRequestIEs (rabs v) log) =
  if out 1 then r_msg (finish ranap 1 0 0 M_RANAP_RAB_AssignmentRequestIEs (rabs v) mid ko) else None.
Proof.
  intro Hl. rewrite finish_msg. unfold finish_x, ies_x, add_ies. rewrite add_rows_snd, rab_rows_x, rab_rows. unfold new_ie_x, print. rewrite Hl.
  destruct (new_ie rab_row v) as [ie|]; [|destruct (out 1); reflexivity]. destruct (out 1); reflexivity.
Qed.
Lemma rab_x out first second o1 o2 : encode T_RANAP_RAB_SetupOrModifyItemFirst first = Some o1 -> encode T_RANAP_RAB_SetupOrModifyItemSecond second = Some o2 ->
  fst (rab_assign_x true out first second) =
  if out 0 then if out 1 then r_msg (rab_assign first second) else None else if out 1 then Some nothing_assigned else None.
Proof.
  intros E1 E2. unfold rab_assign_x, rab_assign, new_ie_pair_x, new_ie_pair, print. rewrite E1, E2. cbn [length]. cbv zeta. cbn [r_msg app].
  destruct (out 0); erewrite rab_finish by reflexivity; [reflexivity|].
  destruct (out 1); [|reflexivity]. instantiate (1 := true). instantiate (1 := []). vm_compute. reflexivity.
Qed.
Lemma rab_values k : rab_request k = true -> exists f s o1 o2, do_call k = Ok (rab_assign f s) /\ (forall on out, do_call_x on out k = Ok (rab_assign_x on out f s)) /\
  encode T_RANAP_RAB_SetupOrModifyItemFirst f = Some o1 /\ encode T_RANAP_RAB_SetupOrModifyItemSecond s = Some o2.
Proof.
  assert (enc : forall f s, valid T_RANAP_RAB_SetupOrModifyItemFirst f -> valid T_RANAP_RAB_SetupOrModifyItemSecond s ->
    exists o1 o2, encode T_RANAP_RAB_SetupOrModifyItemFirst f = Some o1 /\ encode T_RANAP_RAB_SetupOrModifyItemSecond s = Some o2).
  { intros f s V1 V2. destruct (encode_total _ _ (eq_refl : few_adds T_RANAP_RAB_SetupOrModifyItemFirst = true) V1) as (o1&E1&_&_).
    destruct (encode_total _ _ (eq_refl : few_adds T_RANAP_RAB_SetupOrModifyItemSecond = true) V2) as (o2&E2&_&_). exists o1, o2. split; assumption. }
  destruct k; intro Hr; try discriminate Hr.
  - destruct (addr_of x213 rtp_ip) as (addr&Ha&_&Hl). assert (Hb := port_bytes rtp_port).
    destruct (tli_ok addr 1 (store16be rtp_port ++ [0; 0]%N)) as [Tv _]; [lia|lia|lia|reflexivity|exact Hb|].
    destruct (enc (first_item rab_id (Some (nas_sync_ind 60)) (Some (rab_par_voice 6700 12200)) (Some (upi 1 1))
      (Some (transport addr (VChoice 1 (VOcts (store16be rtp_port ++ [0; 0]%N)))))) (VSeq [None; None; None; None; None; None; None] [])) as (o1 & o2 & E1 & E2).
    { eapply first_ok; [by_code|by_code|by_code|exact Tv|apply le_n]. }
    { by_code. }
    do 4 eexists. split; [|split; [|split; [exact E1|exact E2]]].
    + subst addr. destruct x213; reflexivity.
    + intros on out. subst addr. destruct x213; reflexivity.
  - destruct (addr_of x213 gtp_ip) as (addr&Ha&_&Hl).
    destruct (tli_ok addr 0 (store32be gtp_tei)) as [Tv _]; [lia|lia|lia|reflexivity|apply store32_bytes|].
    destruct (enc (first_item rab_id None (Some (rab_par_data 1600000 800000)) (Some (upi 0 1)) (Some (transport addr (VChoice 0 (VOcts (store32be gtp_tei))))))
      (VSeq [Some (VList [VEnum 3]); some_enum 1; some_int 0; some_int 0; None; None; None] [])) as (o1 & o2 & E1 & E2).
    { eapply first_ok; [exact I|by_code|by_code|exact Tv|apply le_n]. }
    { by_code. }
    do 4 eexists. split; [|split; [|split; [exact E1|exact E2]]].
    + subst addr. destruct x213; reflexivity.
    + intros on out. subst addr. destruct x213; reflexivity.
Qed.
Lemma rab_call out k m : do_call k = Ok m -> rab_request k = true ->
  exists q, do_call_x true out k = Ok (if out 0 then if out 1 then r_msg m else None else if out 1 then Some nothing_assigned else None, q).
Proof.
  intros Hk Hr. destruct (rab_values k Hr) as (f & s & o1 & o2 & A & B & E1 & E2). rewrite A in Hk. injection Hk as <-.
  rewrite B. rewrite <- (rab_x out f s o1 o2 E1 E2). exists (snd (rab_assign_x true out f s)). destruct (rab_assign_x true out f s). reflexivity.
Qed.

(* printing switched off *)
Lemma finish_off out P d p crit m s log mid ko : finish_x false out P d p crit m s log = (r_msg (finish P d p crit m s mid ko), log).
Proof.
  rewrite finish_msg. unfold finish_x, ies_x, add_ies. rewrite add_rows_snd, rows_off. cbn [fst]. destruct (encode_rows m s (m_rows m) (i_fields s)); reflexivity.
Qed.
Lemma call_off out k : do_call_x false out k = (do m <- do_call k ;; Ok (r_msg m, [])).
Proof.
  destruct (rab_request k) eqn:Hr.
  { destruct (rab_values k Hr) as (f & s & o1 & o2 & A & B & E1 & E2). rewrite A, B. unfold rab_assign_x, rab_assign, new_ie_pair_x, new_ie_pair, print. rewrite E1, E2. cbv zeta.
    rewrite (finish_off _ _ _ _ _ _ _ _ [] true); cbn [r_msg]; first [reflexivity|unfold new_msg_iu_rel_req; rewrite !finish_msg; reflexivity|rewrite !finish_msg; reflexivity]. }
  destruct k; try discriminate Hr; unfold do_call, do_call_x, Base.obind; cbv zeta; try (rewrite (finish_off _ _ _ _ _ _ _ _ [] true); cbn [r_msg]; first [reflexivity|unfold new_msg_iu_rel_req; rewrite !finish_msg; reflexivity|rewrite !finish_msg; reflexivity]).
  - unfold new_msg_sec_mod_cmd2, sec_mod_cmd2_x. destruct (alg_loop uia uia_mask bits8) as [ia [|]]; cbn [negb]; [|reflexivity].
    destruct ck as [ck|]; [|rewrite (finish_off _ _ _ _ _ _ _ _ [] true); cbn [r_msg]; first [reflexivity|unfold new_msg_iu_rel_req; rewrite !finish_msg; reflexivity|rewrite !finish_msg; reflexivity]]. destruct (alg_loop uea uea_mask bits8) as [ea [|]]; cbn [negb]; [|reflexivity]. rewrite (finish_off _ _ _ _ _ _ _ _ [] true); cbn [r_msg]; first [reflexivity|unfold new_msg_iu_rel_req; rewrite !finish_msg; reflexivity|rewrite !finish_msg; reflexivity].
  - unfold new_msg_common_id, Base.obind. destruct imsi as [i|]; [|rewrite (finish_off _ _ _ _ _ _ _ _ [] true); cbn [r_msg]; first [reflexivity|unfold new_msg_iu_rel_req; rewrite !finish_msg; reflexivity|rewrite !finish_msg; reflexivity]]. destruct (imsi_encode 16 16 i); [|reflexivity]. rewrite (finish_off _ _ _ _ _ _ _ _ [] true); cbn [r_msg]; first [reflexivity|unfold new_msg_iu_rel_req; rewrite !finish_msg; reflexivity|rewrite !finish_msg; reflexivity].
  - unfold new_msg_paging_cmd, Base.obind. destruct (imsi_encode 16 16 imsi); [|reflexivity]. rewrite (finish_off _ _ _ _ _ _ _ _ [] true); cbn [r_msg]; first [reflexivity|unfold new_msg_iu_rel_req; rewrite !finish_msg; reflexivity|rewrite !finish_msg; reflexivity].
  - unfold new_msg_rab_rel_req, rab_rel_req_x, ies_x. cbv zeta. rewrite rows_off. unfold add_ies. cbn [fst].
    match goal with |- context [add_rows ?a ?b ?c ?d ?e] => rewrite <- (add_rows_snd a b c d e); destruct (add_rows a b c d e) as [t [l|]] end; cbn [snd]; [|reflexivity].
    rewrite (finish_off _ _ _ _ _ _ _ _ [] true); cbn [r_msg]; first [reflexivity|unfold new_msg_iu_rel_req; rewrite !finish_msg; reflexivity|rewrite !finish_msg; reflexivity].
  - unfold new_msg_reset_resource, reset_resource_x, ies_x. cbv zeta. destruct ids as [|id [|? ?]]; [reflexivity| |reflexivity]. rewrite rows_off. unfold add_ies. cbn [fst].
    match goal with |- context [add_rows ?a ?b ?c ?d ?e] => rewrite <- (add_rows_snd a b c d e); destruct (add_rows a b c d e) as [t [l|]] end; cbn [snd]; [|reflexivity].
    rewrite (finish_off _ _ _ _ _ _ _ _ [] true); cbn [r_msg]; first [reflexivity|unfold new_msg_iu_rel_req; rewrite !finish_msg; reflexivity|rewrite !finish_msg; reflexivity].
Qed.

(* RUA *)
Lemma rua_end_prints p m s pre w : rua_end p m s pre = Ok w -> exists n, forall out,
  ((forall j, j < length n -> out j = true) -> rua_end_x true out p m s = Ok (w_msg w, n)) /\
  ((exists j, j < length n /\ out j = false) -> exists q, rua_end_x true out p m s = Ok (None, q)).
Proof.
  intro H. destruct (print_ies m s) as [n Hn]. exists n. intro out. destruct (Hn out []) as [A B]. cbn [length Nat.add] in A, B.
  unfold rua_end, rua_end_x in *. split.
  - intro K. rewrite (A K). destruct (add_ies m s) as [t [l|]]; cbn [snd app].
    + destruct (generate rua 1 p 0 (m_cont m) (list_val l)); [|discriminate H]. injection H as <-. reflexivity.
    + injection H as <-. reflexivity.
  - intro K. specialize (B K). destruct (ies_x true out m s []) as [[l|] q]; [discriminate B|]. exists q. reflexivity.
Qed.
Lemma rua_off out p m s pre : rua_end_x false out p m s = (do w <- rua_end p m s pre ;; Ok (w_msg w, [])).
Proof.
  unfold rua_end, rua_end_x, ies_x, Base.obind. rewrite rows_off. unfold add_ies. cbn [fst].
  rewrite <- (add_rows_snd m s (m_rows m) (i_fields s) 0). destruct (add_rows m s (m_rows m) (i_fields s) 0) as [t [l|]]; cbn [snd]; [|reflexivity].
  destruct (generate rua 1 p 0 (m_cont m) (list_val l)); reflexivity.
Qed.
Lemma rua_prints c w : do_rua c = Ok w -> exists n, forall out,
  ((forall j, j < length n -> out j = true) -> do_rua_x true out c = Ok (w_msg w, n)) /\
  ((exists j, j < length n /\ out j = false) -> exists q, do_rua_x true out c = Ok (None, q)).
Proof.
  destruct c as [[d|]|is_ps id [d|]|is_ps id [d|]|is_ps id [[|x d]|]]; unfold do_rua, rua_new_udt, rua_new_conn, rua_new_dt, rua_new_disc; cbv zeta; intro H;
    try discriminate H; exact (rua_end_prints _ _ _ _ _ H).
Qed.
Lemma rua_silent out c : do_rua_x false out c = (do w <- do_rua c ;; Ok (w_msg w, [])).
Proof.
  destruct c as [[d|]|is_ps id [d|]|is_ps id [d|]|is_ps id [[|x d]|]]; try reflexivity; apply rua_off.
Qed.
