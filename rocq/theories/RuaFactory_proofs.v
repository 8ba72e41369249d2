(* The messages of the RUA factory. *)
From Coq Require Import ZifyBool ZifyNat ZifyN String List.
From Verif Require Import Base Aper Aper_spec Aper_proofs Aper_valid Aper_len Container Container_proofs AllMsgs RuaTypes RuaTab
  Factory Factory_spec Factory_len Factory_proofs Factory_msgs Factory_mem RuaFactory_spec RuaFactory.
Ltac Zify.zify_post_hook ::= Z.div_mod_to_equations.
Local Open Scope list_scope.
Local Open Scope string_scope.
Local Open Scope list_scope.

Lemma rua_hdr p : (p <= 255)%N -> good_hdr rua 1 p 0.
Proof. intros H. unfold good_hdr. change (alternatives (p_pdu rua)) with 3%N. split; [lia|]. split; [lia|]. left. reflexivity. Qed.
Lemma end_finish p m s pre b : r_msg (finish rua 1 p 0 m s [] true) = Some b ->
  exists e, rua_end p m s pre = Ok (mkWrapped (Some (b, ppi_rua)) (pre ++ e)) /\ e = r_ev (finish rua 1 p 0 m s [] true).
Proof.
  unfold finish, rua_end. destruct (add_ies m s) as [t [l|]]; [|discriminate].
  destruct (generate _ _ _ _ _ _) as [o|]; [|discriminate]. cbn [r_msg r_ev]. intros H. apply some_inv in H. subst. eexists. split; reflexivity.
Qed.
Lemma rua_full p m s pre bs fs l : (p <= 255)%N -> In m all_msgs ->
  map (wanted m s) (m_rows m) = bs -> i_fields s = fs -> fills bs (m_rows m) fs -> pick bs fs = assigned l (m_rows m) ->
  exists b e, rua_end p m s pre = Ok (mkWrapped (Some (b, ppi_rua)) (pre ++ e)) /\ e = r_ev (finish rua 1 p 0 m s [] true) /\
    r_msg (finish rua 1 p 0 m s [] true) = Some b /\
    if (total (m_rows m) (pick bs fs) <=? 1024)%N then b <> [] /\ holds T_RUA_RUA_PDU b 1 p 0 m l else b = [].
Proof.
  intros Hh Hm Hb Hf. subst bs fs. intros Hv Hp.
  destruct (finish_full rua 1 p 0 m s [] true rua_std eq_refl (rua_hdr p Hh) Hm l Hv Hp) as (b&Hr&Hc).
  destruct (end_finish p m s pre b Hr) as (e&He&Hev). exists b, e. rewrite Hp. auto.
Qed.

Lemma octs_valid d : bytes_ok d = true -> valid T_RUA_RANAP_Message (VOcts d).
Proof. intros H. constructor; [exact I|apply octs_in, H]. Qed.
Lemma rua_dom_valid is_ps : valid T_RUA_CN_DomainIndicator (rua_dom is_ps).
Proof. apply v_enum_root. destruct is_ps; cbn; auto. Qed.
Lemma rua_dom_size is_ps : osize T_RUA_CN_DomainIndicator (rua_dom is_ps) = 5%N.
Proof. destruct is_ps; reflexivity. Qed.
Lemma ctx_valid id : valid T_RUA_Context_ID (ctx_val id).
Proof. constructor. right. cbn [c_lb c_ub]. rewrite to_bits_len. lia. Qed.
Lemma ctx_size id : osize T_RUA_Context_ID (ctx_val id) = 7%N.
Proof. reflexivity. Qed.
Lemma est_valid : valid T_RUA_Establishment_Cause (VEnum 1).
Proof. apply v_enum_root. cbn. auto. Qed.
Lemma rcause_valid : valid T_RUA_Cause (VChoice 0 (VEnum 0)).
Proof. eapply (encode_valid T_RUA_Cause). vm_compute. reflexivity. Qed.
(* the size of the message, given the size [k] of the other IEs *)
Lemma payload_total d k n : bytes_ok d = true -> (128 <= n < 16000)%N -> (k + n + 15 = 1024)%N ->
  (ie_octets (3 + (k + osize T_RUA_RANAP_Message (VOcts d))) <=? 1024)%N = (N.of_nat (length d) <=? n)%N.
Proof.
  intros Hb Hn Hk. change T_RUA_RANAP_Message with (TOcts None).
  destruct (N.ltb_spec (N.of_nat (length d)) 16384) as [Hl|Hl].
  - rewrite (octs_none_size d Hl Hb). revert Hk. generalize (N.of_nat (length d)). intros x Hk.
    unfold ie_octets, len_octets. repeat match goal with |- context [(?a <? 128)%N] => destruct (a <? 128)%N eqn:? end; lia.
  - pose proof (octs_none_ge d Hb). unfold ie_octets. lia.
Qed.

Ltac chk := match goal with |- fills _ _ _ => rows; repeat split; auto using octs_valid, rua_dom_valid, ctx_valid, est_valid, rcause_valid end.

Lemma udt_msg d : bytes_ok d = true ->
  exists b e, rua_new_udt (Some d) = Ok (mkWrapped (Some (b, ppi_rua)) e) /\
    if (N.of_nat (length d) <=? 1009)%N
    then b <> [] /\ holds T_RUA_RUA_PDU b 1 4 0 M_RUA_ConnectionlessTransferIEs [("id-RANAP-Message", VOcts d)] else b = [].
Proof.
  intros Hb. unfold rua_new_udt. cbv zeta.
  destruct (rua_full 4 M_RUA_ConnectionlessTransferIEs
    (put_ie M_RUA_ConnectionlessTransferIEs "id-RANAP-Message" (VOcts d) (zero M_RUA_ConnectionlessTransferIEs)) copied
    [true] [Some (VOcts d)] [("id-RANAP-Message", VOcts d)]) as (b&e&He&_&_&Hc);
    [lia|member 108|reflexivity|reflexivity|unfold M_RUA_ConnectionlessTransferIEs; chk|reflexivity|].
  exists b, (copied ++ e). split; [exact He|].
  rewrite <- (payload_total d 0 1009 Hb) by lia. revert Hc. unfold M_RUA_ConnectionlessTransferIEs, total. rows. 
  rewrite N.add_0_r, N.add_0_l. auto.
Qed.
Lemma conn_msg is_ps id d : bytes_ok d = true ->
  exists b e, rua_new_conn is_ps id (Some d) = Ok (mkWrapped (Some (b, ppi_rua)) e) /\
    if (N.of_nat (length d) <=? 992)%N
    then b <> [] /\ holds T_RUA_RUA_PDU b 1 1 0 M_RUA_ConnectIEs (connect_ies is_ps id d) else b = [].
Proof.
  intros Hb. unfold rua_new_conn. cbv zeta.
  destruct (rua_full 1 M_RUA_ConnectIEs
    (put_ie M_RUA_ConnectIEs "id-RANAP-Message" (VOcts d)
        (put_ie M_RUA_ConnectIEs "id-Establishment-Cause" (VEnum 1)
        (put_ie M_RUA_ConnectIEs "id-Context-ID" (ctx_val id)
        (put_ie M_RUA_ConnectIEs "id-CN-DomainIndicator" (rua_dom is_ps) (zero M_RUA_ConnectIEs))))) copied
    [true; true; false; true; true] [Some (rua_dom is_ps); Some (ctx_val id); Some (zeroed T_RUA_IntraDomainNasNodeSelector); Some (VEnum 1); Some (VOcts d)]
    (connect_ies is_ps id d)) as (b&e&He&_&_&Hc);
    [lia|member 105|vm_compute; reflexivity|reflexivity|unfold M_RUA_ConnectIEs; chk|reflexivity|].
  exists b, (copied ++ e). split; [exact He|].
  rewrite <- (payload_total d 17 992 Hb) by lia. revert Hc. unfold M_RUA_ConnectIEs, total. rows. rewrite rua_dom_size, ctx_size.
  change (osize T_RUA_Establishment_Cause (VEnum 1)) with 5%N.
  match goal with |- (if (ie_octets (3 + ?a) <=? _)%N then _ else _) -> _ => replace a with (17 + osize T_RUA_RANAP_Message (VOcts d))%N by lia end. exact (fun h => h).
Qed.
Lemma dt_msg is_ps id d : bytes_ok d = true ->
  exists b e, rua_new_dt is_ps id (Some d) = Ok (mkWrapped (Some (b, ppi_rua)) e) /\
    if (N.of_nat (length d) <=? 997)%N
    then b <> [] /\ holds T_RUA_RUA_PDU b 1 2 0 M_RUA_DirectTransferIEs (transfer_ies is_ps id d) else b = [].
Proof.
  intros Hb. unfold rua_new_dt. cbv zeta.
  destruct (rua_full 2 M_RUA_DirectTransferIEs
    (put_ie M_RUA_DirectTransferIEs "id-RANAP-Message" (VOcts d)
        (put_ie M_RUA_DirectTransferIEs "id-Context-ID" (ctx_val id)
        (put_ie M_RUA_DirectTransferIEs "id-CN-DomainIndicator" (rua_dom is_ps) (zero M_RUA_DirectTransferIEs)))) copied
    [true; true; true] [Some (rua_dom is_ps); Some (ctx_val id); Some (VOcts d)]
    (transfer_ies is_ps id d)) as (b&e&He&_&_&Hc);
    [lia|member 106|vm_compute; reflexivity|reflexivity|unfold M_RUA_DirectTransferIEs; chk|reflexivity|].
  exists b, (copied ++ e). split; [exact He|].
  rewrite <- (payload_total d 12 997 Hb) by lia. revert Hc. unfold M_RUA_DirectTransferIEs, total. rows. rewrite rua_dom_size, ctx_size.
  match goal with |- (if (ie_octets (3 + ?a) <=? _)%N then _ else _) -> _ => replace a with (12 + osize T_RUA_RANAP_Message (VOcts d))%N by lia end. exact (fun h => h).
Qed.
Lemma disc_msg is_ps id o : octets o ->
  exists b e, rua_new_disc is_ps id o = Ok (mkWrapped (Some (b, ppi_rua)) e) /\
    if (size o <=? 992)%N
    then b <> [] /\ holds T_RUA_RUA_PDU b 1 3 0 M_RUA_DisconnectIEs (disconnect_ies is_ps id o) else b = [].
Proof.
  intros Hb. unfold rua_new_disc. cbv zeta.
  assert (H0 : forall pre, exists b e, rua_end 3 M_RUA_DisconnectIEs (put_ie M_RUA_DisconnectIEs "id-Cause" (VChoice 0 (VEnum 0))
          (put_ie M_RUA_DisconnectIEs "id-Context-ID" (ctx_val id)
          (put_ie M_RUA_DisconnectIEs "id-CN-DomainIndicator" (rua_dom is_ps) (zero M_RUA_DisconnectIEs)))) pre = Ok (mkWrapped (Some (b, ppi_rua)) e) /\
          b <> [] /\ holds T_RUA_RUA_PDU b 1 3 0 M_RUA_DisconnectIEs (disconnect_ies is_ps id None)).
  { intros pre. destruct (rua_full 3 M_RUA_DisconnectIEs
      (put_ie M_RUA_DisconnectIEs "id-Cause" (VChoice 0 (VEnum 0))
          (put_ie M_RUA_DisconnectIEs "id-Context-ID" (ctx_val id)
          (put_ie M_RUA_DisconnectIEs "id-CN-DomainIndicator" (rua_dom is_ps) (zero M_RUA_DisconnectIEs)))) pre
      [true; true; true; false] [Some (rua_dom is_ps); Some (ctx_val id); Some (VChoice 0 (VEnum 0)); Some (VOcts [])] (disconnect_ies is_ps id None)) as (b&e&He&_&_&Hc);
    [lia|member 107|vm_compute; reflexivity|reflexivity|unfold M_RUA_DisconnectIEs; chk|reflexivity|].
    exists b, (pre ++ e). split; [exact He|]. revert Hc. unfold M_RUA_DisconnectIEs, total. rows. rewrite rua_dom_size, ctx_size.
    change (osize T_RUA_Cause (VChoice 0 (VEnum 0))) with 5%N. intros H. apply H. }
  destruct o as [[|x d']|].
  - destruct (H0 [Fr inmsg_lab]) as (b&e&He&Hc). exists b, e. split; [exact He|exact Hc].
  - set (d := x :: d') in *.
    destruct (rua_full 3 M_RUA_DisconnectIEs
      (put_ie M_RUA_DisconnectIEs "id-RANAP-Message" (VOcts d) (or_mask (macro M_RUA_DisconnectIEs "id-RANAP-Message") (put_ie M_RUA_DisconnectIEs "id-Cause" (VChoice 0 (VEnum 0))
          (put_ie M_RUA_DisconnectIEs "id-Context-ID" (ctx_val id)
          (put_ie M_RUA_DisconnectIEs "id-CN-DomainIndicator" (rua_dom is_ps) (zero M_RUA_DisconnectIEs)))))) copied
      [true; true; true; true] [Some (rua_dom is_ps); Some (ctx_val id); Some (VChoice 0 (VEnum 0)); Some (VOcts d)] (disconnect_ies is_ps id (Some d))) as (b&e&He&_&_&Hc);
    [lia|member 107|vm_compute; reflexivity|reflexivity|unfold M_RUA_DisconnectIEs; chk|reflexivity|].
    exists b, (copied ++ e). split; [exact He|].
    change (size (Some d)) with (N.of_nat (length d)). rewrite <- (payload_total d 17 992 Hb) by lia. revert Hc. unfold M_RUA_DisconnectIEs, total. rows. rewrite rua_dom_size, ctx_size.
    change (osize T_RUA_Cause (VChoice 0 (VEnum 0))) with 5%N.
    match goal with |- (if (ie_octets (3 + ?a) <=? _)%N then _ else _) -> _ => replace a with (17 + osize T_RUA_RANAP_Message (VOcts d))%N by lia end. exact (fun h => h).
  - destruct (H0 []) as (b&e&He&Hc). exists b, e. split; [exact He|exact Hc].
Qed.

(* ---------------- context identifiers ---------------- *)
Lemma holds_same t b d p c d' p' c' m l l' r : holds t b d p c m l -> holds t b d' p' c' m l' -> In r (m_rows m) -> assoc (r_ie r) l = assoc (r_ie r) l'.
Proof.
  intros (o&s&Hp&Hd&_&Hf&_) (o'&s'&Hp'&Hd'&_&Hf'&_) Hr. assert (o = o') as <- by congruence. assert (s = s') as <- by congruence.
  apply In_nth_error in Hr as (i&Hi). specialize (Hf i r Hi). specialize (Hf' i r Hi). congruence.
Qed.
Lemma ctx_low id id' : to_bits 24 id = to_bits 24 id' <-> (id mod 2 ^ 24 = id' mod 2 ^ 24)%N.
Proof.
  split; intros H.
  - change (2 ^ 24)%N with (2 ^ N.of_nat 24)%N. rewrite <- !from_to_bits, H. reflexivity.
  - rewrite <- (to_bits_mod 24 24 id), <- (to_bits_mod 24 24 id') by lia. change (2 ^ N.of_nat 24)%N with (2 ^ 24)%N. rewrite H. reflexivity.
Qed.
Lemma ctx_val_low id id' : (id mod 2 ^ 24 = id' mod 2 ^ 24)%N -> ctx_val id = ctx_val id'.
Proof. intros H. unfold ctx_val. rewrite (proj2 (ctx_low id id') H). reflexivity. Qed.
Lemma conn_low is_ps id id' i : (id mod 2 ^ 24 = id' mod 2 ^ 24)%N -> rua_new_conn is_ps id i = rua_new_conn is_ps id' i.
Proof. intros H. unfold rua_new_conn. rewrite (ctx_val_low _ _ H). reflexivity. Qed.
Lemma dt_low is_ps id id' i : (id mod 2 ^ 24 = id' mod 2 ^ 24)%N -> rua_new_dt is_ps id i = rua_new_dt is_ps id' i.
Proof. intros H. unfold rua_new_dt. rewrite (ctx_val_low _ _ H). reflexivity. Qed.
Lemma disc_low is_ps id id' i : (id mod 2 ^ 24 = id' mod 2 ^ 24)%N -> rua_new_disc is_ps id i = rua_new_disc is_ps id' i.
Proof. intros H. unfold rua_new_disc. rewrite (ctx_val_low _ _ H). reflexivity. Qed.

(* ---------------- memory ---------------- *)
Definition outside (m : msgdef) (L : list lab) : Prop := forall x, In x L -> fst x <> m_key m /\ fst x <> "pdu" /\ fst x <> "msgb".
Lemma end_mem p m s pre L w : m_key m <> "pdu" -> m_key m <> "msgb" -> outside m L ->
  live_after pre [inmsg_lab] = Some L -> rua_end p m s pre = Ok w ->
  exists live, live_after (w_ev w) [inmsg_lab] = Some live /\ (forall x, In x L -> In x live) /\ (w_msg w <> None -> live = msg_lab :: L).
Proof.
  intros Hp Hm HL Hpre. destruct (add_labs m s) as (ls&Ht&Hr&Hn&Hf). unfold rua_end. destruct (add_ies m s) as [t r]. cbn [fst] in *.
  assert (Hd : forall x, In x ls -> ~ In x L) by (intros x Hx Hi; exact (proj1 (HL x Hi) (Hf x Hx))).
  assert (H1 : forall M, (forall x, In x L -> fst x <> fst M) -> fst M <> m_key m -> existsb (lab_eqb M) (rev ls ++ L) = false).
  { intros M HM Hk. destruct (existsb _ _) eqn:E; [|reflexivity]. apply inb_in, in_app_or in E. destruct E as [E|E].
    - apply in_rev, Hf in E. congruence.
    - destruct (HM M E eq_refl). }
  destruct r as [l|]; [destruct (generate _ _ _ _ _ _) as [o|]; [|discriminate]|]; intros E; injection E as <-; cbn [w_ev w_msg].
  - exists (msg_lab :: L). split; [|split; [right; assumption|reflexivity]]. rewrite live_app, Hpre, live_app, Ht, live_al by assumption.
    cbn [app live_after]. rewrite H1; [|intros x Hx; apply (HL x Hx)|cbn; congruence].
    unfold msg_lab. cbn [existsb]. rewrite H1; [|intros x Hx; apply (HL x Hx)|cbn; congruence].
    change (lab_eqb ("msgb", 0) ("pdu", 0)) with false. change (lab_eqb ("pdu", 0) ("msgb", 0)) with false. change (lab_eqb ("pdu", 0) ("pdu", 0)) with true.
    cbn [orb filter negb]. change (lab_eqb ("pdu", 0) ("msgb", 0)) with false. change (lab_eqb ("pdu", 0) ("pdu", 0)) with true. cbn [negb].
    rewrite (filter_all _ (rev ls ++ L)).
    2:{ intros x Hx. destruct (lab_eqb ("pdu", 0) x) eqn:E; [|reflexivity]. apply lab_eqb_eq in E. subst x. exfalso.
        apply in_app_or in Hx as [Hx|Hx]; [apply in_rev, Hf in Hx; cbn [fst] in Hx; congruence|apply HL in Hx; cbn [fst] in Hx; tauto]. }
    rewrite <- Ht, Hr, live_fr; [|exact Hn|intros x Hx; right; apply in_or_app; left; apply in_rev in Hx; exact Hx].
    f_equal. unfold without. cbn [filter]. destruct (existsb (lab_eqb ("msgb", 0)) ls) eqn:E; [apply inb_in, Hf in E; cbn [fst] in E; congruence|].
    cbn [negb]. f_equal. fold (without ls (rev ls ++ L)). unfold without. rewrite filter_app.
    replace (filter _ (rev ls)) with (@nil lab).
    2:{ symmetry. apply nil_if_none. intros x Hx. apply filter_In in Hx as [Hi Hx]. apply in_rev in Hi. rewrite (proj2 (inb_in x ls) Hi) in Hx. discriminate. }
    apply filter_all. intros x Hx. destruct (existsb (lab_eqb x) ls) eqn:E2; [|reflexivity]. apply inb_in in E2. destruct (Hd x E2 Hx).
  - exists (rev ls ++ L). rewrite live_app, Hpre, Ht, live_al by assumption. split; [reflexivity|]. split; [|congruence]. intros x Hx. apply in_or_app. right. exact Hx.
Qed.
Lemma rua_mem c w : payload_of c <> None -> do_rua c = Ok w ->
  exists live, live_after (w_ev w) [inmsg_lab] = Some live /\ (w_msg w <> None -> live = msg_lab :: copy_left c).
Proof.
  assert (K : forall m p s w, m_key m <> "pdu" -> m_key m <> "msgb" -> m_key m <> "ranaP_Message" -> rua_end p m s copied = Ok w ->
    exists live, live_after (w_ev w) [inmsg_lab] = Some live /\ (w_msg w <> None -> live = [msg_lab; payload_lab])).
  { intros m p s w' H1 H2 H3 He. destruct (end_mem p m s copied [payload_lab] w') as (live&Hl&_&Hw); auto.
    - intros x [<-|[]]. cbn [fst payload_lab]. repeat split; try discriminate. congruence.
    - exists live. auto. }
  intros Hn H. destruct c as [[d|]|ps id [d|]|ps id [d|]|ps id [[|x d]|]]; cbn [payload_of] in Hn; try congruence; cbn [do_rua] in H;
    unfold rua_new_udt, rua_new_conn, rua_new_dt, rua_new_disc in H; cbv zeta in H; try (eapply K in H; [exact H|discriminate|discriminate|discriminate]).
  apply (end_mem _ _ _ _ []) in H; [|discriminate|discriminate|intros x []|reflexivity].
  destruct H as (live&Hl&_&Hw). exists live. auto.
Qed.
(* no call faults, unless it needs a payload and has none *)
Lemma rua_no_fault c : (match payload_of c with Some d => bytes_ok d | None => is_disc c end) = true ->
  exists b e, do_rua c = Ok (mkWrapped (Some (b, ppi_rua)) e).
Proof.
  intros H. destruct c as [[d|]|ps id [d|]|ps id [d|]|ps id o]; cbn [payload_of is_disc do_rua] in *; try discriminate.
  - destruct (udt_msg d H) as (b&e&He&_). eauto.
  - destruct (conn_msg ps id d H) as (b&e&He&_). eauto.
  - destruct (dt_msg ps id d H) as (b&e&He&_). eauto.
  - destruct (disc_msg ps id o) as (b&e&He&_); [destruct o; [exact H|exact I]|]. eauto.
Qed.
Lemma ids_differ is_ps is_ps' id id' p p' b b' e e' :
  bytes_ok p = true -> bytes_ok p' = true -> (N.of_nat (length p) <= 992)%N -> (N.of_nat (length p') <= 992)%N ->
  (id mod 2 ^ 24 <> id' mod 2 ^ 24)%N ->
  (rua_new_conn is_ps id (Some p) = Ok (mkWrapped (Some (b, ppi_rua)) e) -> rua_new_conn is_ps' id' (Some p') = Ok (mkWrapped (Some (b', ppi_rua)) e') -> b <> b') /\
  (rua_new_dt is_ps id (Some p) = Ok (mkWrapped (Some (b, ppi_rua)) e) -> rua_new_dt is_ps' id' (Some p') = Ok (mkWrapped (Some (b', ppi_rua)) e') -> b <> b') /\
  (rua_new_disc is_ps id (Some p) = Ok (mkWrapped (Some (b, ppi_rua)) e) -> rua_new_disc is_ps' id' (Some p') = Ok (mkWrapped (Some (b', ppi_rua)) e') -> b <> b').
Proof.
  intros Hb Hb' Hl Hl' Hid.
  assert (K : forall m l l', (forall d, holds T_RUA_RUA_PDU b 1 d 0 m l -> holds T_RUA_RUA_PDU b' 1 d 0 m l' -> In (mkRow "id-Context-ID" 3 0 "Context-ID" T_RUA_Context_ID Mandatory) (m_rows m) ->
      assoc "id-Context-ID" l = Some (ctx_val id) -> assoc "id-Context-ID" l' = Some (ctx_val id') -> b <> b')).
  { intros m l l' d H H' Hr H1 H2 <-. pose proof (holds_same _ _ _ _ _ _ _ _ _ _ _ _ H H' Hr) as Hx. cbn [r_ie] in Hx. rewrite H1, H2 in Hx.
    apply Hid, ctx_low. unfold ctx_val in Hx. congruence. }
  split; [|split]; intros E E'.
  - destruct (conn_msg is_ps id p Hb) as (c&f&Hc&Hh), (conn_msg is_ps' id' p' Hb') as (c'&f'&Hc'&Hh').
    replace (N.of_nat (length p) <=? 992)%N with true in Hh by lia. replace (N.of_nat (length p') <=? 992)%N with true in Hh' by lia.
    assert (c = b) as -> by congruence. assert (c' = b') as -> by congruence.
    eapply K; [apply Hh|apply Hh'|cbn; auto|reflexivity|reflexivity].
  - destruct (dt_msg is_ps id p Hb) as (c&f&Hc&Hh), (dt_msg is_ps' id' p' Hb') as (c'&f'&Hc'&Hh').
    replace (N.of_nat (length p) <=? 997)%N with true in Hh by lia. replace (N.of_nat (length p') <=? 997)%N with true in Hh' by lia.
    assert (c = b) as -> by congruence. assert (c' = b') as -> by congruence.
    eapply K; [apply Hh|apply Hh'|cbn; auto|reflexivity|reflexivity].
  - destruct (disc_msg is_ps id (Some p) Hb) as (c&f&Hc&Hh), (disc_msg is_ps' id' (Some p') Hb') as (c'&f'&Hc'&Hh').
    cbn [size] in Hh, Hh'.
    replace (N.of_nat (length p) <=? 992)%N with true in Hh by lia. replace (N.of_nat (length p') <=? 992)%N with true in Hh' by lia.
    assert (c = b) as -> by congruence. assert (c' = b') as -> by congruence.
    eapply K; [apply Hh|apply Hh'|cbn; auto|reflexivity|reflexivity].
Qed.
