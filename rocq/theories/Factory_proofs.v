(* What the factory functions produce, for any message table. *)
From Coq Require Import ZifyBool ZifyNat ZifyN String List.
From Verif Require Import Base Aper Aper_spec Aper_proofs Aper_valid Aper_len Container Container_proofs AllMsgs Factory Factory_spec Factory_len Wire_spec Wire_proofs.
Ltac Zify.zify_post_hook ::= Z.div_mod_to_equations.
Local Open Scope list_scope.

(* ---------------- generators ---------------- *)
Definition good_hdr (P : proto) (d p : N) (c : Z) : Prop := (1 <= d <= alternatives (p_pdu P))%N /\ (p <= 255)%N /\ In c [0; 1; 2]%Z.
Lemma pdu_valid P d p c o : is_std (p_pdu P) -> good_hdr P d p c -> bytes_ok o = true -> valid (p_pdu P) (pdu_val d p c o).
Proof.
  intros (k&Hk&E) (Hd&Hp&Hc) Ho. rewrite E in *. cbn [alternatives] in Hd. rewrite repeat_length in Hd. unfold pdu_val. apply v_choice_root with (t := std_msg).
  - apply nth_error_repeat. lia.
  - constructor; try reflexivity.
    + intros [|[|[|i]]] t; cbn; try discriminate. destruct i; discriminate.
    + intros [|[|[|i]]] op t w Hn Hv; cbn [nth_error] in *; try (injection Hn as <- <-; injection Hv as <-).
      * constructor. right. cbn. lia.
      * apply v_enum_root. exact Hc.
      * constructor; [exact I|]. apply bytes_in. exact Ho.
      * destruct i; discriminate.
    + intros [|i]; discriminate.
    + intros _ w [].
Qed.
Lemma std_few t : is_std t -> few_adds t = true.
Proof. intros (k&[-> | ->]&->); reflexivity. Qed.
Lemma pdu_in_encode P d p c o b rest : (1 <= d)%N -> encode (p_pdu P) (pdu_val d p c o) = Some b ->
  pdu_in (p_pdu P) (b ++ rest) = Some (d, p, c, o).
Proof.
  intros Hd H. unfold pdu_in. rewrite (decode_encode_rest _ _ _ rest H). unfold pdu_val. repeat f_equal; lia.
Qed.
Lemma gen_cases P d p c o : is_std (p_pdu P) -> p_cap P = 1024%N -> good_hdr P d p c -> bytes_ok o = true ->
  if (ie_octets (N.of_nat (length o)) <=? 1024)%N
  then exists b, gen_msg P (pdu_val d p c o) = b /\ b <> [] /\ pdu_in (p_pdu P) b = Some (d, p, c, o) /\
                 encode (p_pdu P) (pdu_val d p c o) = Some b
  else gen_msg P (pdu_val d p c o) = [].
Proof.
  intros HP Hcap Hh Ho. destruct (encode_total _ _ (std_few _ HP) (pdu_valid P d p c o HP Hh Ho)) as (b&Hb&_&Hne).
  destruct (pdu_len P d p c o b HP Hb) as [L1 L2]. unfold gen_msg. rewrite Hb, Hcap.
  destruct (ie_octets (N.of_nat (length o)) <=? 1024)%N eqn:E.
  - assert (Hn : (N.of_nat (length o) < 16384)%N) by (unfold ie_octets, len_octets in E; lia). rewrite (L1 Hn), E.
    exists b. split; [reflexivity|]. split; [exact Hne|]. split; [|reflexivity].
    rewrite <- (app_nil_r b). apply pdu_in_encode; [destruct Hh; lia|exact Hb].
  - destruct (N.ltb_spec (N.of_nat (length o)) 16384) as [Hn|Hn]; [rewrite (L1 Hn), E; reflexivity|].
    replace (N.of_nat (length b) <=? 1024)%N with false by lia. reflexivity.
Qed.

(* ---------------- IEs ---------------- *)
Lemma add_rows_snd m s : forall rows fields k, snd (add_rows m s rows fields k) = encode_rows m s rows fields.
Proof.
  induction rows as [|r rows IH]; intros [|f fields] k; cbn [add_rows encode_rows]; try reflexivity.
  destruct (wanted m s r); [|apply IH]. destruct f as [v|]; [|reflexivity]. destruct (new_ie r v) as [ie|]; [|reflexivity].
  specialize (IH fields (S k)). destruct (add_rows m s rows fields (S k)) as [t l]. cbn [snd obind2] in *. rewrite <- IH. destruct l; reflexivity.
Qed.
Fixpoint pick (bs : list bool) (fs : list (option val)) : list (option val) :=
  match bs, fs with b :: bs', f :: fs' => (if b then f else None) :: pick bs' fs' | _, _ => [] end.
Fixpoint fills (bs : list bool) (rows : list row) (fs : list (option val)) : Prop :=
  match bs, rows, fs with
  | [], [], [] => True
  | b :: bs', r :: rows', f :: fs' =>
      (if b then match f with Some v => valid (r_ty r) v | None => False end else True) /\ fills bs' rows' fs'
  | _, _, _ => False
  end.
Definition osize (t : ty) (v : val) : N := match encode t v with Some o => ie_octets (N.of_nat (length o)) | None => 0 end.
Fixpoint fsize (rows : list row) (fs : list (option val)) : N :=
  match rows, fs with
  | r :: rows', f :: fs' => (match f with Some v => osize (r_ty r) v | None => 0 end + fsize rows' fs')%N
  | _, _ => 0%N
  end.
Lemma fills_len : forall bs rows fs, fills bs rows fs -> length fs = length rows.
Proof. induction bs as [|b bs IH]; intros [|r rows] [|f fs]; cbn [fills]; try tauto. intros [_ H]. cbn [length]. rewrite (IH _ _ H). reflexivity. Qed.
Lemma fills_nth m s : forall rows fs, fills (map (wanted m s) rows) rows fs ->
  forall i r, nth_error rows i = Some r -> wanted m s r = true -> exists v, nth_error fs i = Some (Some v) /\ valid (r_ty r) v.
Proof.
  induction rows as [|x rows IH]; intros [|f fs] H [|i] r Hn Hw; cbn [map fills nth_error] in *; try discriminate; try tauto.
  - injection Hn as ->. destruct H as [H _]. rewrite Hw in H. destruct f as [v|]; [eauto|tauto].
  - destruct H as [_ H]. eapply IH; eassumption.
Qed.
Lemma pick_keep m s : forall rows fs, length fs = length rows -> pick (map (wanted m s) rows) fs = keep m s rows fs.
Proof. induction rows as [|x rows IH]; intros [|f fs] H; cbn [map pick keep]; try reflexivity. rewrite IH by (injection H; auto). reflexivity. Qed.
Lemma rows_sizes m s : forall rows fs l, encode_rows m s rows fs = Some l ->
  (forall ie, In ie l -> ie_body ie <> None) /\ sizes l = fsize rows (pick (map (wanted m s) rows) fs).
Proof.
  induction rows as [|r rows IH]; intros [|f fs] l H; cbn [encode_rows map pick fsize] in *; try discriminate;
    try (apply some_inv in H; subst l; split; [intros ie []|reflexivity]).
  destruct (wanted m s r).
  - destruct f as [v|]; [|discriminate]. apply opt_inv in H as (ie&Hie&H). apply opt_inv in H as (l'&Hl&H). apply some_inv in H; subst l.
    destruct (IH _ _ Hl) as [I1 I2]. unfold new_ie in Hie. unfold osize. destruct (encode (r_ty r) v) as [o|]; [|discriminate]. apply some_inv in Hie; subst ie.
    split; [intros ie [<-|Hi]; [discriminate|apply I1, Hi]|]. cbn [sizes fold_right]. fold (sizes l'). rewrite I2. reflexivity.
  - rewrite N.add_0_l. apply IH. exact H.
Qed.
Lemma sizes_in : forall l ie o, In ie l -> ie_body ie = Some o -> (N.of_nat (length o) <= sizes l)%N.
Proof.
  induction l as [|x l IH]; intros ie o Hin E; [destruct Hin|]. cbn [sizes fold_right]. fold (sizes l). destruct Hin as [->|Hin].
  - unfold ie_size. rewrite E. unfold ie_octets. lia.
  - specialize (IH _ _ Hin E). lia.
Qed.
Lemma rows_fills m s : forall rows fs l, length fs = length rows -> encode_rows m s rows fs = Some l -> fills (map (wanted m s) rows) rows fs.
Proof.
  induction rows as [|r rows IH]; intros [|f fs] l Hl H; cbn [encode_rows map fills] in *; try discriminate; [exact I|].
  destruct (wanted m s r).
  - destruct f as [v|]; [|discriminate]. apply opt_inv in H as (ie&Hie&H). apply opt_inv in H as (l'&Hl'&H).
    unfold new_ie in Hie. destruct (encode (r_ty r) v) as [o|] eqn:E; [|discriminate]. apply encode_valid in E. split; [exact E|].
    eapply IH; [injection Hl; auto|eassumption].
  - split; [exact I|]. eapply IH; [injection Hl; auto|eassumption].
Qed.

Lemma decode_fields_len m o : tab_ok m = true -> length (i_fields (d_ies (decode_msg m o))) = length (m_rows m).
Proof.
  intros H. rewrite decode_msg_body. destruct (body m o) as [l|]; [|unfold zero_ies; cbn [d_ies i_fields]; apply map_length].
  exact (proj1 (decode_list_held m H l _ [] (zero_held m))).
Qed.

(* ---------------- the common end ---------------- *)
Definition assigned (l : list (string * val)) (rows : list row) : list (option val) := map (fun r => assoc (r_ie r) l) rows.
(* the octets of the IEs *)
Definition field_ies (rows : list row) (fs : list (option val)) : list raw_ie :=
  flat_map (fun rf => match snd rf with
    | Some v => match encode (r_ty (fst rf)) v with Some o => [(r_id (fst rf), Z.to_N (r_crit (fst rf)), o)] | None => [] end
    | None => [] end) (combine rows fs).
Lemma field_message m l : field_ies (m_rows m) (assigned l (m_rows m)) = message_ies m l.
Proof.
  unfold field_ies, assigned, message_ies. induction (m_rows m) as [|r rows IH]; [reflexivity|].
  cbn [map combine flat_map fst snd]. rewrite IH. reflexivity.
Qed.
Lemma rows_wire m s : forall rows fs l, encode_rows m s rows fs = Some l ->
  exists x, l = map (fun y => ie_val (fst (fst y)) (snd (fst y)) (snd y)) x /\
    map (fun y => (fst (fst y), Z.to_N (snd (fst y)), snd y)) x = field_ies rows (pick (map (wanted m s) rows) fs).
Proof.
  induction rows as [|r rows IH]; intros [|f fs] l H; cbn [encode_rows map pick] in *; try discriminate;
    try (apply some_inv in H; subst l; exists []; split; reflexivity).
  destruct (wanted m s r).
  - destruct f as [v|]; [|discriminate]. apply opt_inv in H as (ie&Hie&H). apply opt_inv in H as (l'&Hl&H). apply some_inv in H; subst l.
    destruct (IH _ _ Hl) as (x&->&Hx). unfold new_ie in Hie. destruct (encode (r_ty r) v) as [o|] eqn:Ho; [|discriminate]. apply some_inv in Hie; subst ie.
    exists ((r_id r, r_crit r, o) :: x). split; [reflexivity|]. unfold field_ies in *. cbn [map combine flat_map fst snd]. rewrite Ho, Hx. reflexivity.
  - destruct (IH _ _ H) as (x&->&Hx). exists x. split; [reflexivity|]. unfold field_ies in *. cbn [combine flat_map fst snd]. exact Hx.
Qed.
Lemma body_wire m s l o : In m all_msgs -> encode_rows m s (m_rows m) (i_fields s) = Some l -> encode (m_cont m) (list_val l) = Some o ->
  (forall ie x, In ie l -> ie_body ie = Some x -> (N.of_nat (length x) < 16384)%N) ->
  o = wire_body (field_ies (m_rows m) (pick (map (wanted m s) (m_rows m)) (i_fields s))).
Proof.
  intros Hm Hl Ho Hs. destruct (rows_wire _ _ _ _ _ Hl) as (x&->&Hx). rewrite (all_cont m Hm) in Ho.
  apply cont_wire in Ho; [rewrite <- Hx; exact Ho|].
  intros id c y Hin. apply (Hs (ie_val id c y)); [|reflexivity]. apply in_map_iff. exists (id, c, y). split; [reflexivity|exact Hin].
Qed.
Definition total (rows : list row) (fs : list (option val)) : N := ie_octets (3 + fsize rows fs).
Section Finish.
Variables (P : proto) (d p : N) (c : Z) (m : msgdef) (s : ies) (mid : list ev) (ko : bool).
Hypothesis HP : is_std (p_pdu P).
Hypothesis Hcap : p_cap P = 1024%N.
Hypothesis Hh : good_hdr P d p c.
Hypothesis Hm : In m all_msgs.
Lemma finish_full l : fills (map (wanted m s) (m_rows m)) (m_rows m) (i_fields s) ->
  pick (map (wanted m s) (m_rows m)) (i_fields s) = assigned l (m_rows m) ->
  exists b, r_msg (finish P d p c m s mid ko) = Some b /\
    if (total (m_rows m) (assigned l (m_rows m)) <=? 1024)%N then b <> [] /\ holds (p_pdu P) b d p c m l else b = [].
Proof.
  intros Hf Hp. assert (Hl := fills_len _ _ _ Hf).
  destruct (round_trip_msg m s (all_ok m Hm) (all_cont m Hm) Hl (fills_nth m s _ _ Hf)) as (o&s'&He&Hd&_&_&Hn).
  unfold finish, add_ies. pose proof (add_rows_snd m s (m_rows m) (i_fields s) 0) as Ha.
  destruct (add_rows m s (m_rows m) (i_fields s) 0) as [t r]. cbn [snd] in Ha. subst r.
  unfold encode_msg, encode_ies in He. destruct (encode_rows m s (m_rows m) (i_fields s)) as [lst|] eqn:El; [|discriminate].
  cbn [obind2] in He. unfold generate, list_val. rewrite He. cbn [r_msg]. eexists. split; [reflexivity|].
  destruct (rows_sizes _ _ _ _ _ El) as [Hb Hs]. rewrite (all_cont m Hm) in He.
  destruct (cont_len lst o Hb He) as [C1 C2]. rewrite Hp in Hs.
  assert (Ho := encode_bytes _ _ _ He). pose proof (gen_cases P d p c o HP Hcap Hh Ho) as Hg.
  assert (Hsz : (forall ie o, In ie lst -> ie_body ie = Some o -> (N.of_nat (length o) < 16384)%N) \/ (exists ie o', In ie lst /\ ie_body ie = Some o' /\ (16384 <= N.of_nat (length o'))%N)).
  { clear - lst. induction lst as [|x lst IH]; [left; intros ie o []|]. destruct IH as [IH|(ie&o&Hi&E&Hge)].
    - destruct (ie_body x) as [o|] eqn:E.
      + destruct (N.ltb_spec (N.of_nat (length o)) 16384).
        * left. intros ie o' [<-|Hin] E'; [rewrite E in E'; injection E' as <-; assumption|eauto].
        * right. exists x, o. repeat split; [left; reflexivity|exact E|assumption].
      + left. intros ie o' [<-|Hin] E'; [congruence|eauto].
    - right. exists ie, o. repeat split; [right; exact Hi|exact E|exact Hge]. }
  destruct Hsz as [Hsz|(ie&o'&Hi&E&Hge)].
  - specialize (C1 Hsz). unfold total. rewrite <- Hs, <- C1. destruct (ie_octets (N.of_nat (length o)) <=? 1024)%N eqn:Hfit; [|exact Hg].
    assert (Hlt : (N.of_nat (length o) < 16384)%N).
    { unfold ie_octets in Hfit. lia. }
    destruct Hg as (b&->&Hne&Hin&Hpdu). split; [exact Hne|]. exists o, s'. split; [exact Hin|]. split; [rewrite <- (app_nil_r o); apply Hd|].
    assert (Hls : length (i_fields s') = length (m_rows m)).
    { pose proof (decode_fields_len m o (all_ok m Hm)) as Hlen. pose proof (Hd []) as Hdn. rewrite app_nil_r in Hdn. rewrite Hdn in Hlen. exact Hlen. }
    split; [exact Hls|]. split.
    2: { apply pdu_wire in Hpdu; [|exact HP|destruct Hh; lia|exact Hlt]. rewrite Hpdu. f_equal.
         rewrite <- (all_cont m Hm) in He. rewrite (body_wire m s lst o Hm El He Hsz), Hp, field_message. reflexivity. }
    intros i r Hi. destruct (Hn _ _ Hi) as [_ Hx]. rewrite Hx.
    assert (Hpi : nth_error (pick (map (wanted m s) (m_rows m)) (i_fields s)) i = Some (assoc (r_ie r) l)).
    { rewrite Hp. unfold assigned. rewrite nth_error_map, Hi. reflexivity. }
    rewrite pick_keep in Hpi by exact Hl. rewrite (keep_nth m s _ _ i r Hl Hi) in Hpi. destruct (wanted m s r); [|exact Hpi].
    destruct (nth_error (i_fields s) i) as [f|] eqn:Ef; [exact Hpi|]. apply nth_error_None in Ef.
    assert (i < length (m_rows m)) by (apply nth_error_Some; congruence). lia.
  - pose proof (C2 _ _ Hi E). pose proof (sizes_in _ _ _ Hi E) as Hs'. unfold total. rewrite <- Hs.
    replace (ie_octets (3 + sizes lst) <=? 1024)%N with false by (unfold ie_octets; lia).
    replace (ie_octets (N.of_nat (length o)) <=? 1024)%N with false in Hg by (unfold ie_octets; lia). exact Hg.
Qed.
Lemma finish_none b : length (i_fields s) = length (m_rows m) -> r_msg (finish P d p c m s mid ko) = Some b ->
  fills (map (wanted m s) (m_rows m)) (m_rows m) (i_fields s).
Proof.
  intros Hl. unfold finish, add_ies. pose proof (add_rows_snd m s (m_rows m) (i_fields s) 0) as Ha.
  destruct (add_rows m s (m_rows m) (i_fields s) 0) as [t r]. cbn [snd] in Ha. subst r.
  destruct (encode_rows m s (m_rows m) (i_fields s)) as [lst|] eqn:El; [|discriminate]. intros _. eapply rows_fills; eassumption.
Qed.
End Finish.
