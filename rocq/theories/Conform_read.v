(* Proofs for C90 and C91: messages that lack a mandatory IE, and what becomes of a
   message that the specification permits when it is read. *)
From Verif Require Import Base Aper Aper_proofs Aper_spec Aper_valid Container Container_proofs Container_spec Container_exact X691 X691_proofs
  Asn1_spec Asn1_proofs Interop_spec Interop_proofs AllMsgs RanapTypes RuaTypes HnbapTypes RanapTab RuaTab HnbapTab SabpTab Factory_spec Factory
  Factory_len Factory_proofs Conform_spec Conform_proofs DispatchTab Dispatch RanapProc.
From Verif Require Import RanapSpec RuaSpec HnbapSpec SabpSpec.
From Coq Require Import String List.
Import ListNotations.
Local Open Scope list_scope.

Definition d_id (x : ie_decl) : N := snd (fst (fst (fst x))).
Lemma ies_in is : forall decls l, ies_of is decls l -> forall ie, In ie l ->
  exists n id c ty p o, In (n, id, c, ty, p) decls /\ is ty o /\
    ie = VSeq [Some (VInt (Z.of_N id)); Some (VEnum c); Some (VOcts o)] [].
Proof.
  induction 1 as [|n id c ty p decls o l Hm Hi IH|n id c ty p decls l Hp Hi IH]; intros ie Hin; [destruct Hin| |].
  - destruct Hin as [<-|Hin].
    + exists n, id, c, ty, p, o. split; [left; reflexivity|]. auto.
    + destruct (IH _ Hin) as (n'&id'&c'&ty'&p'&o'&H1&H2). exists n', id', c', ty', p', o'. split; [right; exact H1|exact H2].
  - destruct (IH _ Hin) as (n'&id'&c'&ty'&p'&o'&H1&H2). exists n', id', c', ty', p', o'. split; [right; exact H1|exact H2].
Qed.
Lemma ies_mandatory is : forall decls l, ies_of is decls l -> forall n id c ty, In (n, id, c, ty, Mandatory) decls ->
  exists o, In (VSeq [Some (VInt (Z.of_N id)); Some (VEnum c); Some (VOcts o)] []) l.
Proof.
  induction 1 as [|n id c ty p decls o l Hm Hi IH|n id c ty p decls l Hp Hi IH]; intros n' id' c' ty' Hin; [destruct Hin| |].
  - destruct Hin as [E|Hin]; [injection E as <- <- <- <- _; exists o; left; reflexivity|].
    destruct (IH _ _ _ _ Hin) as (o'&Ho). exists o'. right. exact Ho.
  - destruct Hin as [E|Hin]; [injection E as _ _ _ _ E; contradiction|exact (IH _ _ _ _ Hin)].
Qed.
Lemma ie_parts_val id c o : ie_parts (VSeq [Some (VInt (Z.of_N id)); Some (VEnum c); Some (VOcts o)] []) = Some (id, o).
Proof. cbn [ie_parts]. rewrite N2Z.id. reflexivity. Qed.
(* no number occurs twice *)
Lemma ies_unique is : forall decls l, ies_of is decls l -> NoDup (map d_id decls) -> forall id c o c' o',
  In (VSeq [Some (VInt (Z.of_N id)); Some (VEnum c); Some (VOcts o)] []) l -> In (VSeq [Some (VInt (Z.of_N id)); Some (VEnum c'); Some (VOcts o')] []) l -> o = o'.
Proof.
  induction 1 as [|n id c ty p decls o l Hm Hi IH|n id c ty p decls l Hp Hi IH]; intros Hn i c1 o1 c2 o2 H1 H2; [destruct H1| |];
    cbn [map] in Hn; inversion Hn as [|x y Hx Hy]; subst; [|eapply IH; eassumption].
  assert (N : forall c0 o0, ~ In (VSeq [Some (VInt (Z.of_N id)); Some (VEnum c0); Some (VOcts o0)] []) l).
  { intros c0 o0 Hin. destruct (ies_in _ _ _ Hi _ Hin) as (n'&id'&c'&ty'&p'&o'&Hd&_&E). injection E as E _ _. apply N2Z.inj in E. subst id'.
    apply Hx, in_map_iff. exists (n', id, c', ty', p'). split; [reflexivity|exact Hd]. }
  destruct H1 as [E1|H1], H2 as [E2|H2].
  - congruence.
  - injection E1 as E _ _. apply N2Z.inj in E. subst i. destruct (N _ _ H2).
  - injection E2 as E _ _. apply N2Z.inj in E. subst i. destruct (N _ _ H1).
  - eapply IH; eassumption.
Qed.
Lemma rows_ids m s : forall rows fs l, encode_rows m s rows fs = Some l -> forall ie id o, In ie l -> ie_parts ie = Some (id, o) -> exists r, In r rows /\ r_id r = id.
Proof.
  induction rows as [|r rows IH]; intros [|f fs] l H ie id o Hin Hp; cbn [encode_rows] in H; try discriminate;
    try (apply some_inv in H; subst l; destruct Hin).
  destruct (wanted m s r).
  - destruct f as [v|]; [|discriminate]. apply opt_inv in H as (x&Hx&H). apply opt_inv in H as (l'&Hl&H). apply some_inv in H; subst l.
    destruct Hin as [<-|Hin].
    + unfold new_ie in Hx. destruct (encode (r_ty r) v) as [w|]; [|discriminate]. apply some_inv in Hx; subst x.
      rewrite ie_parts_val in Hp. injection Hp as <- _. exists r. split; [left|]; reflexivity.
    + destruct (IH _ _ Hl _ _ _ Hin Hp) as (r'&H1&H2). exists r'. split; [right; exact H1|exact H2].
  - destruct (IH _ _ H _ _ _ Hin Hp) as (r'&H1&H2). exists r'. split; [right; exact H1|exact H2].
Qed.
(* a field that is sent *)
Lemma rows_sent m s : forall rows fs l, encode_rows m s rows fs = Some l -> forall i r v, nth_error rows i = Some r -> wanted m s r = true -> nth_error fs i = Some (Some v) ->
  exists o, encode (r_ty r) v = Some o /\ In (VSeq [Some (VInt (Z.of_N (r_id r))); Some (VEnum (r_crit r)); Some (VOcts o)] []) l.
Proof.
  induction rows as [|r rows IH]; intros fs l H i x v Hx Hw Hv; [destruct i; discriminate|]. destruct fs as [|f fs]; [destruct i; discriminate|].
  cbn [encode_rows] in H. destruct i as [|i].
  - injection Hx as ->. injection Hv as ->. rewrite Hw in H. apply opt_inv in H as (ie&Hie&H). apply opt_inv in H as (l'&_&H). apply some_inv in H; subst l.
    unfold new_ie in Hie. destruct (encode (r_ty x) v) as [o|]; [|discriminate]. apply some_inv in Hie; subst ie. exists o. split; [reflexivity|left; reflexivity].
  - destruct (wanted m s r).
    + destruct f as [w|]; [|discriminate]. apply opt_inv in H as (ie&_&H). apply opt_inv in H as (l'&Hl&H). apply some_inv in H; subst l.
      destruct (IH _ _ Hl i x v Hx Hw Hv) as (o&H1&H2). exists o. split; [exact H1|right; exact H2].
    + exact (IH _ _ H i x v Hx Hw Hv).
Qed.
(* octets determine their value *)
Lemma x691_fun t v v' o : completed (x691 t v) o -> completed (x691 t v') o -> v = v'.
Proof. intros H H'. apply encode_x691 in H, H'. apply decode_encode in H, H'. congruence. Qed.
(* ---------------- lists ---------------- *)
Lemma list_nonempty max o : ~ completed (x691 (container_list max) (list_value [])) o.
Proof. intros H. apply encode_x691 in H. discriminate H. Qed.
Lemma list_read max es o : (2 <= max <= 256)%Z -> completed (x691 (container_list max) (list_value es)) o ->
  decode compiled o = Some (compiled_value (firstn 1 es)) /\ (1 <= List.length es)%nat.
Proof.
  intros Hm H. destruct es as [|ie es]; [destruct (list_nonempty _ _ H)|]. apply encode_x691 in H. split; [|cbn [List.length]; lia].
  rewrite <- (app_nil_r o). exact (list_first_any max ie es o [] Hm H).
Qed.
Lemma one_each (is : string -> list N -> Prop) n id c ty : forall ll, Forall (ies_of is [(n, id, c, ty, Mandatory)]) ll ->
  exists es, map VList ll = map (fun ie => VList [ie]) es /\ Forall (fun ie => ies_of is [(n, id, c, ty, Mandatory)] [ie]) es.
Proof.
  induction 1 as [|l ll Hl Hll (es&He&Hf)]; [exists []; split; [reflexivity|constructor]|].
  assert (exists ie, l = [ie]) as (ie&->).
  { inversion Hl as [|n' id' c' ty' p decls o l' H1 H2|n' id' c' ty' p decls l' H1 H2]; subst; [|congruence]. inversion H2; subst. eexists. reflexivity. }
  exists (ie :: es). cbn [map]. rewrite He. split; [reflexivity|constructor; assumption].
Qed.
(* what the decoder of a row makes of the octets of an IE of its type *)
Lemma ie_list Q r oct max set : names_b Q = true -> row_b Q r = true -> In (r_tyname r, (max, set)) (pr_lists Q) -> ie_value Q (r_tyname r) oct ->
  exists decls es, In (set, decls) (pr_sets Q) /\ completed (x691 (container_list max) (list_value es)) oct /\
    Forall (fun ie => ies_of (value_of (pr_types Q)) decls [ie]) es.
Proof.
  intros Hn Hr Hin (_&HL&_). destruct (row_list Q r max set Hn Hr Hin) as (_&_&_&Hone&_). destruct (HL _ _ Hin) as (decls&ll&Hs&Hx&Hf).
  destruct (Hone _ Hs) as (n&id&c&ty&->). destruct (one_each _ _ _ _ _ _ Hf) as (es&He&Hes). exists [(n, id, c, ty, Mandatory)], es.
  split; [exact Hs|]. split; [|exact Hes]. unfold list_value. rewrite <- He. exact Hx.
Qed.
Lemma grammar_fun Q t t' ty : names_b Q = true -> means (pr_types Q) (ARef ty) t -> means (pr_types Q) (ARef ty) t' -> t = t'.
Proof.
  intros Hn H H'. unfold names_b in Hn. do 3 (apply andb_prop in Hn as [Hn _]). apply andb_prop in Hn as [H1 H2]. apply nodup_b_ok in H1, H2.
  exact (means_fun _ H1 H2 _ _ H _ H').
Qed.
Lemma read_row Q r oct : names_b Q = true -> row_b Q r = true -> ie_value Q (r_tyname r) oct ->
  exists v, decode (r_ty r) oct = Some v /\ sent_value (fun es => firstn 1 es) Q (r_tyname r) oct v.
Proof.
  intros Hn Hr Hv. destruct (is_list_dec Q (r_tyname r)) as [Hin|Hno].
  - apply in_map_iff in Hin as ([k [max set]]&E&Hin). cbn [fst] in E. subst k. destruct (row_list Q r max set Hn Hr Hin) as (Ht&Hm&_).
    destruct (ie_list Q r oct max set Hn Hr Hin Hv) as (decls&es&_&Hx&_). destruct (list_read max es oct Hm Hx) as [Hd _].
    exists (compiled_value (firstn 1 es)). rewrite Ht. split; [exact Hd|]. split.
    + intros max' set' Hin'. destruct (row_list Q r max' set' Hn Hr Hin') as (_&Hm'&_). destruct (ie_list Q r oct max' set' Hn Hr Hin' Hv) as (decls'&es'&_&Hx'&_).
      destruct (list_read max' es' oct Hm' Hx') as [Hd' _]. exists es'. split; [exact Hx'|]. congruence.
    + intros Hno. destruct Hno. apply in_map_iff. exists (r_tyname r, (max, set)). auto.
  - destruct Hv as ((t&v&Ht&Hx)&_&_). pose proof (row_other Q r Hr Hno) as Ht'. rewrite (grammar_fun Q _ _ _ Hn Ht Ht') in *.
    exists v. split; [apply decode_encode, encode_x691, Hx|]. split.
    + intros max set Hin. destruct Hno. apply in_map_iff. exists (r_tyname r, (max, set)). auto.
    + intros _. exists (r_ty r). split; assumption.
Qed.
(* the octets determine the IEs *)
Lemma body_of Q P ms m set declared sent l ext b rest : same_protocol P Q ms -> In m ms ->
  forallb (fun x => (1 <=? fst (fst (fst x)))%N) (pr_procedures Q) = true ->
  message_with Q set declared sent l ext b ->
  exists d p o decls, In (d, p, declared, set) (pr_procedures Q) /\ In (set, decls) (pr_sets Q) /\ ies_of (ie_value Q) decls l /\
    pdu_in (p_pdu P) (b ++ rest) = Some (d, p, sent, o) /\ body m o = Some l.
Proof.
  intros (Hn&_&Hpdu&Hall) Hm Hz (d&p&decls&t&o&Hp&Hs&Ht&Hb&Ho&Hi). exists d, p, o, decls. split; [exact Hp|]. split; [exact Hs|]. split; [exact Hi|].
  rewrite forallb_forall in Hz. specialize (Hz _ Hp). cbn [fst] in Hz.
  split.
  - rewrite (grammar_fun Q _ _ _ Hn Ht Hpdu) in Hb. apply pdu_in_encode; [lia|]. apply encode_x691, Hb.
  - apply encode_x691 in Ho. unfold body. rewrite (cont_compiled m (Hall m Hm)). rewrite <- (app_nil_r o), (body_compiled l ext o [] Ho). reflexivity.
Qed.
Definition consistent (x : proto * protocol * list msgdef) : bool :=
  let Q := snd (fst x) in
  forallb (fun x => (1 <=? fst (fst (fst x)))%N) (pr_procedures Q) &&
  nodup_b (map fst (pr_sets Q)) &&
  forallb (fun ke => nodupN (map d_id (snd ke))) (pr_sets Q) &&
  forallb (fun a => forallb (fun b => negb ((fst (fst (fst a)) =? fst (fst (fst b)))%N && (snd (fst (fst a)) =? snd (fst (fst b)))%N) || String.eqb (snd a) (snd b))
     (pr_procedures Q)) (pr_procedures Q) &&
  forallb (fun m => existsb (fun ke => String.eqb (fst ke) (m_key m) &&
     forallb (fun r => existsb (sig_eqb (row_sig r)) (snd ke)) (m_rows m)) (pr_sets Q)) (snd x).
Lemma consistent_b : forallb consistent protocols = true.
Proof. vm_compute. reflexivity. Qed.
Lemma nodup_fst {A} (l : list (string * A)) k a b : NoDup (map fst l) -> In (k, a) l -> In (k, b) l -> a = b.
Proof.
  induction l as [|[k' x] l IH]; intros Hn H1 H2; [destruct H1|]. cbn [map fst] in Hn. inversion Hn as [|y r H3 H4]; subst.
  assert (N : forall z, In (k', z) l -> False) by (intros z Hz; apply H3, in_map_iff; exists (k', z); auto).
  destruct H1 as [H1|H1], H2 as [H2|H2].
  - congruence.
  - injection H1 as -> ->. destruct (N _ H2).
  - injection H2 as -> ->. destruct (N _ H1).
  - apply IH; assumption.
Qed.
Lemma nodupN_ok : forall l, nodupN l = true -> NoDup l.
Proof.
  induction l as [|x l IH]; intros H; constructor; cbn [nodupN] in H; apply andb_prop in H as [H1 H2]; [|apply IH, H2].
  intros Hin. apply Bool.negb_true_iff in H1. assert (E : existsb (N.eqb x) l = true) by (apply existsb_exists; exists x; split; [exact Hin|apply N.eqb_refl]). congruence.
Qed.
(* what the tables of a protocol and its object sets have to do with each other *)
Record facts (P : proto) (Q : protocol) (ms : list msgdef) : Prop := {
  f_same : same_protocol P Q ms;
  f_dir : forallb (fun x => (1 <=? fst (fst (fst x)))%N) (pr_procedures Q) = true;
  f_sets : forall k a b, In (k, a) (pr_sets Q) -> In (k, b) (pr_sets Q) -> a = b;
  f_ids : forall k a, In (k, a) (pr_sets Q) -> NoDup (map d_id a);
  f_procs : forall d p c k c' k', In (d, p, c, k) (pr_procedures Q) -> In (d, p, c', k') (pr_procedures Q) -> k = k';
  f_rows : forall m, In m ms -> exists a, In (m_key m, a) (pr_sets Q) /\ forall r, In r (m_rows m) -> In (row_sig r) a }.
Lemma all_facts P Q ms : In (P, Q, ms) protocols -> facts P Q ms.
Proof.
  intros H. pose proof (proj1 (forallb_forall _ _) consistent_b _ H) as C. unfold consistent in C. cbn [fst snd] in C.
  apply andb_prop in C as [C C6]. apply andb_prop in C as [C C5]. apply andb_prop in C as [C C4]. apply andb_prop in C as [C2 C3].
  constructor; [apply all_same, H|exact C2| | | |].
  - intros k a b. apply nodup_fst, nodup_b_ok, C3.
  - intros k a Ha. rewrite forallb_forall in C4. specialize (C4 _ Ha). cbn [snd] in C4. apply nodupN_ok, C4.
  - intros d p c k c' k' H1 H2. rewrite forallb_forall in C5. specialize (C5 _ H1). rewrite forallb_forall in C5. specialize (C5 _ H2). cbn [fst snd] in C5.
    rewrite !N.eqb_refl in C5. apply String.eqb_eq. exact C5.
  - intros m Hm. rewrite forallb_forall in C6. specialize (C6 _ Hm). apply existsb_exists in C6 as ([k a]&Hk&He). cbn [fst snd] in He.
    apply andb_prop in He as [H1 H2]. apply String.eqb_eq in H1. subst k. exists a. split; [exact Hk|]. intros r Hr.
    rewrite forallb_forall in H2. specialize (H2 _ Hr). apply existsb_exists in H2 as (y&Hy&E). apply sig_eqb_ok in E. subst y. exact Hy.
Qed.

Lemma read_any P Q ms m declared sent l ext b rest : In (P, Q, ms) protocols -> In m ms -> message_with Q (m_key m) declared sent l ext b ->
  exists d p o decls, In (d, p, declared, m_key m) (pr_procedures Q) /\ pdu_in (p_pdu P) (b ++ rest) = Some (d, p, sent, o) /\
    ies_of (ie_value Q) decls l /\ NoDup (map d_id decls) /\ (forall r, In r (m_rows m) -> row_b Q r = true) /\
    (d_ok (decode_msg m o) = true <-> forall ie id oct, In ie l -> ie_parts ie = Some (id, oct) -> In id (map r_id (m_rows m))) /\
    (d_ok (decode_msg m o) = true -> forall i r, nth_error (m_rows m) i = Some r ->
       (exists c oct v, In (VSeq [Some (VInt (Z.of_N (r_id r))); Some (VEnum c); Some (VOcts oct)] []) l /\
          sent_value (fun es => firstn 1 es) Q (r_tyname r) oct v /\
          nth_error (i_fields (d_ies (decode_msg m o))) i = Some (Some v)) \/
       (r_pres r <> Mandatory /\ (forall ie oct, In ie l -> ie_parts ie <> Some (r_id r, oct)) /\
          nth_error (i_fields (d_ies (decode_msg m o))) i = Some None)).
Proof.
  intros HP Hm HM. destruct (all_facts _ _ _ HP) as [F1 F3 F4 F5 F6 F7].
  destruct (body_of Q P ms m _ _ _ _ _ b rest F1 Hm F3 HM) as (d&p&o&decls&Hp&Hs&Hi&Hin&Hb).
  assert (HR : forall r, In r (m_rows m) -> row_b Q r = true) by (intros r Hr; exact (same_row P Q ms m r F1 Hm (proc_key _ _ _ _ _ Hp) Hr)).
  destruct F1 as (Hn&_&_&Hall).
  destruct (F7 m Hm) as (decls'&Hs'&Hrows). rewrite (F4 _ _ _ Hs' Hs) in Hrows. clear decls' Hs'.
  exists d, p, o, decls. split; [exact Hp|]. split; [exact Hin|]. split; [exact Hi|]. split; [exact (F5 _ _ Hs)|]. split; [exact HR|].
  (* an IE whose number the table has *)
  assert (K : forall ie id oct r, In ie l -> ie_parts ie = Some (id, oct) -> In r (m_rows m) -> r_id r = id ->
    exists c v, ie = VSeq [Some (VInt (Z.of_N id)); Some (VEnum c); Some (VOcts oct)] [] /\ decode (r_ty r) oct = Some v /\
      sent_value (fun es => firstn 1 es) Q (r_tyname r) oct v).
  { intros ie id oct r Hie Hpt Hr Hid. destruct (ies_in _ _ _ Hi _ Hie) as (n&id'&c&ty&pr&oct'&Hd&Hx&->).
    rewrite ie_parts_val in Hpt. injection Hpt as -> ->.
    assert (E : row_sig r = (n, id, c, ty, pr)).
    { apply (nodup_map_inj d_id decls); [exact (F5 _ _ Hs)|apply Hrows, Hr|exact Hd|unfold row_sig, d_id; cbn [fst snd]; exact Hid]. }
    unfold row_sig in E. injection E as _ _ _ Ety _. rewrite <- Ety in Hx. destruct (read_row Q r oct Hn (HR _ Hr) Hx) as (v&Hd'&Hv).
    exists c, v. split; [reflexivity|]. split; assumption. }
  split.
  - rewrite (decode_msg_ok m o (all_ok m (Hall m Hm))). split.
    + intros (l'&Hl'&HF) ie id oct Hie Hpt. rewrite Hb in Hl'. injection Hl' as <-. rewrite Forall_forall in HF.
      destruct (HF _ Hie) as (id'&oct'&r&v&H1&H2&H3&_). rewrite Hpt in H1. injection H1 as <- <-. apply in_map_iff. exists r. auto.
    + intros HA. exists l. split; [exact Hb|]. apply Forall_forall. intros ie Hie. destruct (ies_in _ _ _ Hi _ Hie) as (n&id&c&ty&pr&oct&_&_&E).
      assert (Hpt : ie_parts ie = Some (id, oct)) by (rewrite E; apply ie_parts_val).
      pose proof (HA _ _ _ Hie Hpt) as Hid. apply in_map_iff in Hid as (r&Hid&Hr). destruct (K _ _ _ _ Hie Hpt Hr Hid) as (c'&v'&_&Hx&_).
      exists id, oct, r, v'. repeat split; [exact Hpt|exact Hr|exact Hid|exact Hx].
  - intros Hok i r Hr. assert (Hr' := nth_error_In _ _ Hr).
    destruct (decode_msg_exact m o l (all_ok m (Hall m Hm)) Hok Hb i r Hr) as [(bf&ie&af&oct&v&El&Hpt&Hd&_&Hf&_)|(Hno&Hf&_)].
    + left. assert (Hie : In ie l) by (rewrite El; apply in_or_app; right; left; reflexivity).
      destruct (K _ _ _ _ Hie Hpt Hr' eq_refl) as (c&v'&E&Hx&Hv). exists c, oct, v. rewrite <- E. split; [exact Hie|]. split; [|exact Hf].
      rewrite Hx in Hd. injection Hd as <-. exact Hv.
    + right. split; [|split; [exact Hno|exact Hf]]. intros Hmand. assert (Hin' := Hrows _ Hr'). unfold row_sig in Hin'. rewrite Hmand in Hin'.
      destruct (ies_mandatory _ _ _ Hi _ _ _ _ Hin') as (oct&Ho). apply (Hno _ oct Ho). apply ie_parts_val.
Qed.
Lemma known_iff m l is decls : ies_of is decls l ->
  (known m l <-> forall ie id oct, In ie l -> ie_parts ie = Some (id, oct) -> In id (map r_id (m_rows m))).
Proof.
  intros Hi. split; intros H.
  - intros ie id oct Hin Hp. destruct (ies_in _ _ _ Hi _ Hin) as (n&id'&c&ty&pr&o&_&_&E). subst ie. rewrite ie_parts_val in Hp. injection Hp as -> ->.
    rewrite <- (N2Z.id id). eapply H; [exact Hin|reflexivity].
  - intros ie id c o Hin ->. destruct (ies_in _ _ _ Hi _ Hin) as (n&id'&c'&ty&pr&o'&_&_&E). injection E as -> -> ->. rewrite N2Z.id.
    eapply H; [exact Hin|apply ie_parts_val].
Qed.
Lemma firstn_one {A} (l : list A) : (1 <= List.length l)%nat -> firstn 1 l = l -> List.length l = 1%nat.
Proof. destruct l as [|x [|y l]]; cbn [List.length firstn]; intros; [lia|reflexivity|discriminate]. Qed.
Lemma one_firstn {A} (l : list A) : List.length l = 1%nat -> firstn 1 l = l.
Proof. destruct l as [|x [|y l]]; cbn [List.length firstn]; intros; [lia|reflexivity|lia]. Qed.
(* all is reported if no list has a second element, and only then *)
Lemma all_reported Q m l s decls : names_b Q = true -> (forall r, In r (m_rows m) -> row_b Q r = true) -> ies_of (ie_value Q) decls l -> NoDup (map d_id decls) ->
  first_reported Q m l s -> (reported Q m l s <-> single Q m l).
Proof.
  intros Hn HR Hi Hd HF. split.
  - intros HA r c oct max set es Hr Hie Hin Hx. apply In_nth_error in Hr as (i&Hr). destruct (row_list Q r max set Hn (HR _ (nth_error_In _ _ Hr)) Hin) as (_&Hm&_).
    destruct (list_read max es oct Hm Hx) as [_ Hne]. apply firstn_one; [exact Hne|].
    destruct (HF i r Hr) as [(c1&o1&v1&H1&(HL1&_)&E1)|(_&Hno&_)]; [|destruct (Hno _ _ Hie)].
    destruct (HA i r Hr) as [(c2&o2&v2&H2&(HL2&_)&E2)|(_&Hno&_)]; [|destruct (Hno _ _ Hie)].
    rewrite (ies_unique _ _ _ Hi Hd _ _ _ _ _ H1 Hie) in *. rewrite (ies_unique _ _ _ Hi Hd _ _ _ _ _ H2 Hie) in *.
    destruct (HL1 _ _ Hin) as (es1&X1&V1). destruct (HL2 _ _ Hin) as (es2&X2&V2).
    assert (U : forall es', completed (x691 (container_list max) (list_value es')) oct -> es' = es).
    { intros es' X. pose proof (x691_fun _ _ _ _ X Hx) as E. unfold list_value in E. injection E as E. revert E. clear. revert es.
      induction es' as [|a es' IH]; intros [|b es] E; try discriminate; [reflexivity|]. cbn [map] in E. injection E as -> E. rewrite (IH _ E). reflexivity. }
    rewrite (U _ X1) in V1. rewrite (U _ X2) in V2. subst v1 v2. rewrite E1 in E2. unfold compiled_value in E2. injection E2 as E2. exact E2.
  - intros HS i r Hr. destruct (HF i r Hr) as [(c&oct&v&Hie&(HL&HO)&Hv)|H]; [left|right; exact H]. exists c, oct, v. split; [exact Hie|]. split; [|exact Hv].
    split; [|exact HO]. intros max set Hin. destruct (HL _ _ Hin) as (es&Hx&->). exists es. split; [exact Hx|].
    rewrite (one_firstn es); [reflexivity|]. eapply HS; try eassumption. exact (nth_error_In _ _ Hr).
Qed.
Lemma read_message P Q ms m declared sent l ext b rest : In (P, Q, ms) protocols -> In m ms -> message_with Q (m_key m) declared sent l ext b ->
  exists d p o, In (d, p, declared, m_key m) (pr_procedures Q) /\ pdu_in (p_pdu P) (b ++ rest) = Some (d, p, sent, o) /\
    (d_ok (decode_msg m o) = true <-> known m l) /\
    (known m l -> first_reported Q m l (d_ies (decode_msg m o)) /\ (reported Q m l (d_ies (decode_msg m o)) <-> single Q m l)).
Proof.
  intros HP Hm HM. destruct (read_any P Q ms m declared sent l ext b rest HP Hm HM) as (d&p&o&decls&Hp&Hin&Hi&Hd&HR&Hok&Hr). exists d, p, o. split; [exact Hp|]. split; [exact Hin|].
  rewrite (known_iff m l _ _ Hi). split; [exact Hok|]. intros HK. apply Hok in HK.
  assert (F : first_reported Q m l (d_ies (decode_msg m o))).
  { intros i r Hn. destruct (Hr HK i r Hn) as [H|(H1&H2&H3)]; [left; exact H|right]. split; [exact H1|]. split; [|exact H3].
    intros c oct Hc. exact (H2 _ oct Hc (ie_parts_val _ _ _)). }
  split; [exact F|]. exact (all_reported Q m l _ decls (proj1 (f_same _ _ _ (all_facts _ _ _ HP))) HR Hi Hd F).
Qed.
(* all the IEs of a complete table *)
Lemma complete_b' : forallb (fun x => forallb (fun m => mem (m_key m) incomplete ||
  existsb (fun ke => String.eqb (fst ke) (m_key m) && sigs_eqb (map row_sig (m_rows m)) (snd ke)) (pr_sets (snd (fst x)))) (snd x)) protocols = true.
Proof. vm_compute. reflexivity. Qed.
Lemma read_complete P Q ms m declared sent l ext b : In (P, Q, ms) protocols -> In m ms -> ~ In (m_key m) incomplete ->
  message_with Q (m_key m) declared sent l ext b -> known m l.
Proof.
  intros HP Hm Hn (d&p&decls&t&o&_&Hs&_&_&_&Hi). apply (known_iff m l _ _ Hi). intros ie id oct Hie Hpt.
  pose proof (proj1 (forallb_forall _ _) complete_b' _ HP) as A. cbn [fst snd] in A. pose proof (proj1 (forallb_forall _ _) A _ Hm) as B. cbv beta in B.
  rewrite (mem_out _ _ Hn) in B. cbn [orb] in B. apply existsb_exists in B as ([k decls']&Hk&He). cbn [fst snd] in He. apply andb_prop in He as [H1 H2].
  apply String.eqb_eq in H1. subst k. apply sigs_eqb_ok in H2. rewrite (f_sets _ _ _ (all_facts _ _ _ HP) _ _ _ Hk Hs) in H2.
  destruct (ies_in _ _ _ Hi _ Hie) as (n&id'&c&ty&pr&oct'&Hd&_&->). rewrite ie_parts_val in Hpt. injection Hpt as -> ->.
  rewrite <- H2 in Hd. apply in_map_iff in Hd as (r&Hr&Hin). apply in_map_iff. exists r. split; [|exact Hin]. unfold row_sig in Hr. congruence.
Qed.
(* ---------------- tables without a mandatory IE ---------------- *)
Lemma lacking_b : forallb (fun x => forallb (fun m => negb (mem (m_key m) lacking) ||
  existsb (fun ke => String.eqb (fst ke) (m_key m) &&
    existsb (fun y => pres_eqb (snd y) Mandatory && negb (existsb (fun r => (r_id r =? d_id y)%N) (m_rows m))) (snd ke)) (pr_sets (snd (fst x)))) (snd x)) protocols = true.
Proof. vm_compute. reflexivity. Qed.
Lemma lacking_decl P Q ms m decls : In (P, Q, ms) protocols -> In m ms -> In (m_key m) lacking -> In (m_key m, decls) (pr_sets Q) ->
  exists n id c ty, In (n, id, c, ty, Mandatory) decls /\ forall r, In r (m_rows m) -> r_id r <> id.
Proof.
  intros HP Hm Hk Hs. pose proof (proj1 (forallb_forall _ _) lacking_b _ HP) as A. cbn [fst snd] in A. pose proof (proj1 (forallb_forall _ _) A _ Hm) as B. cbv beta in B.
  rewrite (mem_in _ _ Hk) in B. cbn [negb orb] in B. apply existsb_exists in B as ([k decls']&Hk'&He). cbn [fst snd] in He. apply andb_prop in He as [H1 H2].
  apply String.eqb_eq in H1. subst k. rewrite (f_sets _ _ _ (all_facts _ _ _ HP) _ _ _ Hk' Hs) in H2. clear decls' Hk'.
  apply existsb_exists in H2 as ([[[[n id] c] ty] pr]&Hd&He). cbn [snd] in He. apply andb_prop in He as [H1 H2].
  assert (pr = Mandatory) by (destruct pr; [reflexivity|discriminate|discriminate]). subst pr. exists n, id, c, ty. split; [exact Hd|].
  intros r Hr E. apply Bool.negb_true_iff in H2. unfold d_id in H2. cbn [fst snd] in H2.
  assert (T : existsb (fun r => (r_id r =? id)%N) (m_rows m) = true) by (apply existsb_exists; exists r; split; [exact Hr|apply N.eqb_eq, E]). congruence.
Qed.
Lemma lacking_never_read P Q ms m declared sent l ext b : In (P, Q, ms) protocols -> In m ms -> In (m_key m) lacking -> message_with Q (m_key m) declared sent l ext b ->
  exists d p o, pdu_in (p_pdu P) b = Some (d, p, sent, o) /\ d_ok (decode_msg m o) = false.
Proof.
  intros HP Hm Hk HM. pose proof (read_any P Q ms m declared sent l ext b [] HP Hm HM) as (d&p&o&decls0&_&Hin&_&_&_&Hok&_). rewrite app_nil_r in Hin. exists d, p, o. split; [exact Hin|].
  destruct (d_ok (decode_msg m o)) eqn:E; [|reflexivity].
  pose proof (proj1 Hok eq_refl) as HA. destruct HM as (d'&p'&decls&t&o'&_&Hs&_&_&_&Hi).
  destruct (lacking_decl P Q ms m decls HP Hm Hk Hs) as (n&id&c&ty&Hd&Hno). destruct (ies_mandatory _ _ _ Hi _ _ _ _ Hd) as (oct&Ho).
  pose proof (HA _ _ _ Ho (ie_parts_val id c oct)) as Hid. apply in_map_iff in Hid as (r&Hr&Hrin). destruct (Hno r Hrin Hr).
Qed.
Lemma pdu_empty P Q ms : In (P, Q, ms) protocols -> pdu_in (p_pdu P) [] = None.
Proof. intros [H|[H|[H|[H|[]]]]]; injection H as <- _ _; vm_compute; reflexivity. Qed.
(* the IEs of a conforming message that was built *)
Lemma built_ies P Q ms m d p c c' s v b set : In (P, Q, ms) protocols -> In m ms -> In (d, p, c', m_key m) (pr_procedures Q) ->
  encode_ies m s = Some v -> generate P d p c (m_cont m) v = Some b -> conforming Q set b ->
  exists l decls, encode_rows m s (m_rows m) (i_fields s) = Some l /\ In (m_key m, decls) (pr_sets Q) /\ ies_of (ie_value Q) decls l.
Proof.
  intros HP Hm Hp He Hg [cc (l&HM)]. assert (F := all_facts _ _ _ HP).
  unfold encode_ies in He. destruct (encode_rows m s (m_rows m) (i_fields s)) as [l0|] eqn:El; [|discriminate].
  cbn [obind2] in He. apply some_inv in He. subst v.
  destruct (body_of Q P ms m _ _ _ _ _ b [] (f_same _ _ _ F) Hm (f_dir _ _ _ F) HM) as (d'&p'&o'&decls&Hp'&Hs&Hi&Hin&Hb). rewrite app_nil_r in Hin.
  unfold generate in Hg. destruct (encode (m_cont m) (VSeq [Some (VList l0)] [])) as [o|] eqn:Eo; [|discriminate]. apply some_inv in Hg.
  unfold gen_msg in Hg. destruct (encode (p_pdu P) (pdu_val d p c o)) as [b'|] eqn:Eb.
  2: { subst b. rewrite (pdu_empty _ _ _ HP) in Hin. discriminate. }
  destruct (_ <=? _)%N.
  2: { subst b. rewrite (pdu_empty _ _ _ HP) in Hin. discriminate. }
  subst b'. pose proof (f_dir _ _ _ F) as Hz. rewrite forallb_forall in Hz. specialize (Hz _ Hp). cbn [fst] in Hz.
  pose proof (pdu_in_encode P d p c o b [] ltac:(lia) Eb) as Hin2. rewrite app_nil_r in Hin2. rewrite Hin in Hin2. injection Hin2 as -> -> _ ->.
  rewrite (f_procs _ _ _ F _ _ _ _ _ _ Hp' Hp) in Hs.
  unfold body in Hb. rewrite (decode_encode _ _ _ Eo) in Hb. injection Hb as ->. exists l, decls. auto.
Qed.
Lemma lacking_never_built P Q ms m d p c c' s v b : In (P, Q, ms) protocols -> In m ms -> In (m_key m) lacking -> In (d, p, c', m_key m) (pr_procedures Q) ->
  encode_ies m s = Some v -> generate P d p c (m_cont m) v = Some b -> forall set, ~ conforming Q set b.
Proof.
  intros HP Hm Hk Hp He Hg set HC. destruct (built_ies P Q ms m d p c c' s v b set HP Hm Hp He Hg HC) as (l&decls&El&Hs&Hi).
  destruct (lacking_decl P Q ms m decls HP Hm Hk Hs) as (n&id&c0&ty&Hd&Hno). destruct (ies_mandatory _ _ _ Hi _ _ _ _ Hd) as (oct&Ho).
  destruct (rows_ids _ _ _ _ _ El _ _ _ Ho (ie_parts_val id c0 oct)) as (r&Hr&E). exact (Hno r Hr E).
Qed.
(* the lists in a conforming message that was built *)
Lemma built_elements P Q ms m d p c c' s v b set : In (P, Q, ms) protocols -> In m ms -> In (d, p, c', m_key m) (pr_procedures Q) ->
  encode_ies m s = Some v -> generate P d p c (m_cont m) v = Some b -> conforming Q set b -> elements_given Q m s.
Proof.
  intros HP Hm Hp He Hg HC. destruct (built_ies P Q ms m d p c c' s v b set HP Hm Hp He Hg HC) as (l&decls&El&Hs&Hi). clear HC.
  assert (F := all_facts _ _ _ HP). intros i r x Hr Hw Hx. destruct (rows_sent _ _ _ _ _ El i r x Hr Hw Hx) as (o&Eo&Ho). assert (Hr' := nth_error_In _ _ Hr).
  pose proof (same_row P Q ms m r (f_same _ _ _ F) Hm (proc_key _ _ _ _ _ Hp) Hr') as HR. pose proof (proj1 (f_same _ _ _ F)) as Hn.
  assert (IV : ie_value Q (r_tyname r) o).
  { destruct (ies_in _ _ _ Hi _ Ho) as (n&id&c0&ty&pr&o'&Hd&Hv&E). injection E as E1 _ <-. apply N2Z.inj in E1.
    destruct (f_rows _ _ _ F m Hm) as (decls'&Hs'&Hrows). rewrite (f_sets _ _ _ F _ _ _ Hs' Hs) in Hrows.
    assert (E : row_sig r = (n, id, c0, ty, pr)).
    { apply (nodup_map_inj d_id decls); [exact (f_ids _ _ _ F _ _ Hs)|apply Hrows, Hr'|exact Hd|unfold row_sig, d_id; cbn [fst snd]; exact E1]. }
    unfold row_sig in E. injection E as _ _ _ -> _. exact Hv. }
  split; intros max st Hin.
  - destruct (row_list Q r max st Hn HR Hin) as (Ht&Hmx&_). destruct (ie_list Q r o max st Hn HR Hin IV) as (ds&es&Hds&Hes&Hf).
    destruct (list_read max es o Hmx Hes) as [Hde Hlen]. rewrite Ht in Eo. rewrite (decode_encode _ _ _ Eo) in Hde. injection Hde as ->.
    destruct es as [|e es]; [cbn [List.length] in Hlen; lia|]. exists ds, [e]. split; [exact Hds|]. split; [inversion Hf; assumption|reflexivity].
  - rewrite (row_pair Q r max st Hn HR Hin) in Eo. destruct IV as (_&_&HPr). destruct (HPr _ _ Hin) as (ds&ll&Hds&Hll&Hf). apply encode_x691 in Eo.
    exists ds, ll. split; [exact Hds|]. split; [exact Hf|exact (x691_fun _ _ _ _ Eo Hll)].
Qed.
Lemma any_exact P Q ms m d p c s v b : In (P, Q, ms) protocols -> In m ms -> ~ In (m_key m) lacking ->
  In (d, p, c, m_key m) (pr_procedures Q) -> List.length (i_fields s) = List.length (m_rows m) ->
  encode_ies m s = Some v -> generate P d p c (m_cont m) v = Some b -> b <> [] -> (conforming Q (m_key m) b <-> elements_given Q m s).
Proof.
  intros HP Hm Hk Hp Hl He Hg Hb. split; intros H.
  - eapply built_elements; eassumption.
  - eapply any_conforming; eassumption.
Qed.
Lemma lists_not_built P Q ms m d p c c' s v b i r l : In (P, Q, ms) protocols -> In m ms -> In (d, p, c', m_key m) (pr_procedures Q) ->
  nth_error (m_rows m) i = Some r -> wanted m s r = true -> nth_error (i_fields s) i = Some (Some (compiled_value l)) -> In (r_tyname r) (map fst (pr_lists Q)) ->
  List.length l <> 1%nat -> encode_ies m s = Some v -> generate P d p c (m_cont m) v = Some b -> forall set, ~ conforming Q set b.
Proof.
  intros HP Hm Hp Hr Hw Hv Hin Hl He Hg set HC. pose proof (built_elements _ _ _ _ _ _ _ _ _ _ _ _ HP Hm Hp He Hg HC i r _ Hr Hw Hv) as [HL _].
  apply in_map_iff in Hin as ([k [max st]]&E&Hin). cbn [fst] in E. subst k. destruct (HL _ _ Hin) as (ds&l'&Hds&Hi&E).
  unfold compiled_value in E. injection E as ->. assert (F := all_facts _ _ _ HP).
  pose proof (same_row P Q ms m r (f_same _ _ _ F) Hm (proc_key _ _ _ _ _ Hp) (nth_error_In _ _ Hr)) as HR.
  destruct (row_list Q r max st (proj1 (f_same _ _ _ F)) HR Hin) as (_&_&_&Hone&_). destruct (Hone _ Hds) as (n&id&c0&ty&->).
  inversion Hi as [|n' id' c1 ty' pr decls o l1 H1 H2|n' id' c1 ty' pr decls l1 H1 H2]; subst; [|congruence]. inversion H2; subst. apply Hl. reflexivity.
Qed.

(* ---------------- concrete IEs ---------------- *)
Lemma plain_value Q ty t v o : check (pr_types Q) 200 (ARef ty) t = true -> encode t v = Some o -> lookup ty (pr_lists Q) = None -> lookup ty (pr_pairs Q) = None -> ie_value Q ty o.
Proof.
  intros Hc He H1 H2. split; [|split].
  - exists t, v. split; [apply (proj1 (check_sound _ 200)), Hc|apply encode_x691, He].
  - intros max set Hin. destruct (lookup_none _ _ _ H1 Hin).
  - intros max set Hin. destruct (lookup_none _ _ _ H2 Hin).
Qed.
(* a RAB Release Request with two RABs *)
Definition item (o : list N) : val := VSeq [Some (VInt 40); Some (VEnum 1); Some (VOcts o)] [].
Definition two_items : list val := [item [0; 66; 208]%N; item [0; 130; 208]%N].
Definition two_octets : list N := [1; 0; 1; 0; 40; 64; 3; 0; 66; 208; 0; 1; 0; 40; 64; 3; 0; 130; 208]%N.
Definition two_ies : list val := [VSeq [Some (VInt 41); Some (VEnum 1); Some (VOcts two_octets)] []].
Definition two_body : list N := ([0; 0; 1; 0; 41; 64; 19] ++ two_octets)%N.
Definition two_message : list N := ([0; 10; 64; 26] ++ two_body)%N.
Lemma two_list : completed (x691 (container_list 256) (list_value two_items)) two_octets.
Proof. apply encode_x691. vm_compute. reflexivity. Qed.
Lemma two_permitted : message_with ranap_protocol "RAB-ReleaseRequestIEs" 1 1 two_ies None two_message.
Proof.
  eexists 1%N, 10%N, _, (p_pdu ranap), two_body. split; [apply in_procs_ok; vm_compute; reflexivity|]. split; [apply lookup_in; vm_compute; reflexivity|].
  split; [exact (proj1 (proj2 (proj2 ranap_same)))|]. split; [apply encode_x691; vm_compute; reflexivity|]. split; [apply encode_x691; vm_compute; reflexivity|].
  apply (ies_sent _ _ 41%N); [|constructor]. split; [|split].
  - exists (container_list 256), (list_value two_items). split; [|exact two_list]. apply (proj1 (check_sound _ 200)). vm_compute. reflexivity.
  - intros max set Hin. assert (Hl : lookup "RAB-ReleaseList"%string (pr_lists ranap_protocol) = Some (max, set)).
    { apply lookup_nodup; [|exact Hin]. apply nodup_b_ok. vm_compute. reflexivity. }
    vm_compute in Hl. injection Hl as <- <-. eexists. exists [[item [0; 66; 208]%N]; [item [0; 130; 208]%N]]. split; [apply lookup_in; vm_compute; reflexivity|].
    split; [exact two_list|].
    constructor; [|constructor; [|constructor]]; (apply (ies_sent _ _ 40%N); [|constructor]).
    + apply (ranap_type _ T_RANAP_RAB_ReleaseItem _ (VSeq [Some (VBits [false; false; false; false; false; false; false; true]); Some (VChoice 0 (VInt 46)); None] [])); vm_compute; reflexivity.
    + apply (ranap_type _ T_RANAP_RAB_ReleaseItem _ (VSeq [Some (VBits [false; false; false; false; false; false; true; false]); Some (VChoice 0 (VInt 46)); None] [])); vm_compute; reflexivity.
  - intros max set Hin. exfalso. revert Hin. apply lookup_none. vm_compute. reflexivity.
Qed.
Lemma two_not_single : ~ single ranap_protocol M_RANAP_RAB_ReleaseRequestIEs two_ies.
Proof.
  intros H. assert (In ("RAB-ReleaseList"%string, (256%Z, "RAB-ReleaseItemIEs"%string)) (pr_lists ranap_protocol)) by (apply lookup_in; vm_compute; reflexivity).
  pose proof (H _ 1%Z two_octets 256%Z _ two_items (or_introl eq_refl) (or_introl eq_refl) H0 two_list) as E. discriminate E.
Qed.

(* ---------------- the RANAP receive paths ---------------- *)
Lemma ranap_keys d p c d' p' c' k : In (d, p, c, k) ranap_procedures -> In (d', p', c', k) ranap_procedures -> d = d' /\ p = p' /\ c = c'.
Proof.
  assert (N : NoDup (map snd ranap_procedures)) by (apply nodup_b_ok; vm_compute; reflexivity).
  intros H1 H2. pose proof (nodup_map_inj snd _ _ _ N H1 H2 eq_refl) as E. injection E as -> -> ->. auto.
Qed.
Lemma deliver L (rxf : list N -> rx) : (forall data d p cr b, pdu_parts data = Some (d, p, cr, b) ->
    (forall k m, In (d, p, k) L -> In m ranap_msgs -> m_key m = k ->
       x_calls (rxf data) = if d_ok (decode_msg m b) then [mkRmsg d p cr (Some (m, d_ies (decode_msg m b)))] else [])) ->
  forall d p m declared sent l ext b rest, In (d, p, declared, m_key m) ranap_procedures -> In (d, p, m_key m) L -> In m ranap_msgs ->
  message_with ranap_protocol (m_key m) declared sent l ext b ->
  (known m l -> exists s, x_calls (rxf (b ++ rest)) = [mkRmsg d p sent (Some (m, s))] /\ first_reported ranap_protocol m l s /\ (reported ranap_protocol m l s <-> single ranap_protocol m l)) /\
  (~ known m l -> x_calls (rxf (b ++ rest)) = []).
Proof.
  intros HL d p m declared sent l ext b rest Hp Hin Hm HM.
  destruct (read_message ranap ranap_protocol ranap_msgs m declared sent l ext b rest (or_introl eq_refl) Hm HM) as (d'&p'&o&Hp'&Hb&Hok&Hr).
  destruct (ranap_keys _ _ _ _ _ _ _ Hp Hp') as (<-&<-&_). change (pdu_in (p_pdu ranap) (b ++ rest)) with (pdu_parts (b ++ rest)) in Hb.
  pose proof (HL _ _ _ _ _ Hb (m_key m) m Hin Hm eq_refl) as Hc. split.
  - intros HK. exists (d_ies (decode_msg m o)). rewrite (proj2 Hok HK) in Hc. split; [exact Hc|apply Hr, HK].
  - intros HN. destruct (d_ok (decode_msg m o)) eqn:E; [destruct (HN (proj1 Hok eq_refl))|exact Hc].
Qed.
