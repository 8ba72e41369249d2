(* A message that is in a buffer arrives, by composition of the decoder, the
   receive functions and the release functions. *)
From Verif Require Import Base Aper Aper_spec Container Container_proofs Container_exact RanapTypes RanapTab AllMsgs
  DispatchTab Dispatch Dispatch_proofs RanapProc Deliver_spec Deliver_proofs Factory_spec E2e_spec.
From Coq Require Import String List.
Local Open Scope list_scope.

Lemma holds_flags m o s l : tab_ok m = true -> decode_msg m o = mkDres true s [] ->
  (forall i r, nth_error (m_rows m) i = Some r -> nth_error (i_fields s) i = Some (assoc (r_ie r) l)) ->
  forall r, In r (m_rows m) -> is_opt r = true -> has_flag m s r = match assoc (r_ie r) l with Some _ => true | None => false end.
Proof.
  intros Hok Hd Hf r Hr Ho. destruct (In_nth_error _ _ Hr) as (i&Hi).
  destruct (body m o) as [bl|] eqn:Eb.
  - assert (Hdo : d_ok (decode_msg m o) = true) by (rewrite Hd; reflexivity).
    pose proof (Hf i r Hi) as Hfi.
    destruct (decode_msg_exact m o bl Hok Hdo Eb i r Hi) as [(l1&ie&l2&oct&v&_&_&_&_&Hn&Hfl)|(_&Hn&Hfl)];
      rewrite Hd in Hn, Hfl; cbn [d_ies] in Hn, Hfl; rewrite Hfi in Hn; injection Hn as ->; exact (Hfl Ho).
  - rewrite decode_msg_body, Eb in Hd. discriminate.
Qed.

(* every name of an IE is in a message type once *)
Fixpoint ies_once (rows : list row) : bool :=
  match rows with [] => true | r :: rs => negb (existsb (fun x => String.eqb (r_ie x) (r_ie r)) rs) && ies_once rs end.
Lemma ranap_ies_once : forallb (fun m => ies_once (m_rows m)) ranap_msgs = true. Proof. vm_compute. reflexivity. Qed.
Lemma assoc_app {A} n (a b : list (string * A)) : assoc n (a ++ b) = match assoc n a with Some v => Some v | None => assoc n b end.
Proof. induction a as [|[k v] a IH]; cbn [assoc List.app]; [reflexivity|]. destruct (String.eqb k n); auto. Qed.
Lemma shown_rows m s l : forall rows fields, ies_once rows = true -> List.length fields = List.length rows ->
  (forall i r, nth_error rows i = Some r -> nth_error fields i = Some (assoc (r_ie r) l)) ->
  (forall r, In r rows -> is_opt r = true -> has_flag m s r = match assoc (r_ie r) l with Some _ => true | None => false end) ->
  forall n, assoc n (flat_map (fun rf : row * option val => let (r, f) := rf in
      if is_opt r then (if has_flag m s r then [(r_ie r, f)] else []) else match f with Some _ => [(r_ie r, f)] | None => [] end)
      (combine rows fields)) =
    if existsb (fun r => String.eqb (r_ie r) n) rows then option_map Some (assoc n l) else None.
Proof.
  induction rows as [|r rows IH]; intros [|f fields] Ho Hl Hf Hg n; try discriminate Hl; [reflexivity|].
  cbn [combine flat_map]. rewrite assoc_app. cbn [ies_once] in Ho. apply andb_true_iff in Ho. destruct Ho as [Ho1 Ho2].
  rewrite (IH fields Ho2); [|cbn in Hl; congruence|intros i x Hx; exact (Hf (Datatypes.S i) x Hx)|intros x Hx; exact (Hg x (or_intror Hx))].
  pose proof (Hf 0%nat r eq_refl) as H0. cbn [nth_error] in H0. injection H0 as ->.
  cbn [existsb]. destruct (String.eqb_spec (r_ie r) n) as [<-|Hne].
  - cbn [orb]. assert (Hz : existsb (fun x => String.eqb (r_ie x) (r_ie r)) rows = false) by (apply negb_true_iff in Ho1; exact Ho1).
    rewrite Hz. destruct (is_opt r) eqn:Eo.
    + rewrite (Hg r (or_introl eq_refl) Eo). destruct (assoc (r_ie r) l); [|reflexivity]. cbn [assoc]. rewrite String.eqb_refl. reflexivity.
    + destruct (assoc (r_ie r) l); [|reflexivity]. cbn [assoc]. rewrite String.eqb_refl. reflexivity.
  - cbn [orb]. assert (Hz : forall o, assoc n (if is_opt r then (if has_flag m s r then [(r_ie r, o)] else []) else match o with Some _ => [(r_ie r, o)] | None => [] end : list (string * option val)) = None).
    { intros o. apply String.eqb_neq in Hne. destruct (is_opt r); [destruct (has_flag m s r)|destruct o]; cbn [assoc]; try rewrite Hne; reflexivity. }
    rewrite Hz. reflexivity.
Qed.

(* the names given are those of the message type *)
Definition named_in (m : msgdef) (l : list (string * val)) : bool :=
  forallb (fun e => existsb (fun r => String.eqb (r_ie r) (fst e)) (m_rows m)) l.
Lemma assoc_named m l n v : named_in m l = true -> assoc n l = Some v -> existsb (fun r => String.eqb (r_ie r) n) (m_rows m) = true.
Proof.
  unfold named_in. induction l as [|[k w] l IH]; [discriminate|]. cbn [forallb assoc fst]. intros H. apply andb_true_iff in H. destruct H as [H1 H2].
  destruct (String.eqb_spec k n) as [->|]; auto.
Qed.
Lemma in_ranap m : In m ranap_msgs -> In m all_msgs.
Proof. unfold all_msgs. intros H. repeat (apply in_or_app; left). exact H. Qed.

Lemma held_path P data d p cr o m s L : In P paths -> (forall d p k, In (d, p, k) L <-> option_map m_key (decoded_as P d p) = Some k) ->
  pdu_parts data = Some (d, p, cr, o) -> In (d, p, m_key m) L -> In m ranap_msgs -> decode_msg m o = mkDres true s [] ->
  decode2 P data = mkDec2 0 (mkRmsg d p cr (Some (m, s))) [] /\ free_msg P (mkRmsg d p cr (Some (m, s))) = Some (contents s).
Proof.
  intros HP HL Hp Hin Hm Hd. pose proof (accepted P L data d p cr o (m_key m) m HP HL Hp Hin Hm eq_refl) as H.
  rewrite Hd in H. cbn [d_ok d_ies d_lost] in H. split; [exact H|].
  pose proof (frees_held P data HP) as Hf. rewrite H in Hf. cbn [e_msg] in Hf. exact Hf.
Qed.
Lemma arrives_path P b d p cr m l L : In P paths -> (forall d p k, In (d, p, k) L <-> option_map m_key (decoded_as P d p) = Some k) ->
  holds T_RANAP_RANAP_PDU b d p cr m l -> In m ranap_msgs -> In (d, p, m_key m) L -> named_in m l = true ->
  exists s, decode2 P b = mkDec2 0 (mkRmsg d p cr (Some (m, s))) [] /\ free_msg P (mkRmsg d p cr (Some (m, s))) = Some (contents s) /\
    forall n, assoc n (shown m s) = option_map Some (assoc n l).
Proof.
  intros HP HL (o&s&Hp&Hd&Hlen&Hf&_) Hm Hin Hn. exists s.
  destruct (held_path P b d p cr o m s L HP HL Hp Hin Hm Hd) as [H1 H2]. split; [exact H1|]. split; [exact H2|].
  intros n. unfold shown. rewrite (shown_rows m s l (m_rows m) (i_fields s)); auto.
  - destruct (existsb _ _) eqn:E; [reflexivity|]. destruct (assoc n l) as [v|] eqn:Ea; [|reflexivity].
    rewrite (assoc_named m l n v Hn Ea) in E. discriminate.
  - exact (proj1 (forallb_forall _ _) ranap_ies_once m Hm).
  - exact (holds_flags m o s l (all_ok m (in_ranap m Hm)) Hd Hf).
Qed.
Lemma arrives_cn_co b d p cr m l : holds T_RANAP_RANAP_PDU b d p cr m l -> In m ranap_msgs -> In (d, p, m_key m) cn_connection ->
  named_in m l = true -> arrives (rx_cn_co b) d p cr m l.
Proof.
  intros H Hm Hin Hn. destruct (arrives_path cn_co b d p cr m l cn_connection ltac:(cbn; tauto) cn_co_list H Hm Hin Hn) as (s&H1&H2&H3).
  unfold arrives, rx_cn_co. rewrite H1. cbn [e_rc e_msg e_lost]. cbn [Z.eqb x_rc x_freed x_alloc x_calls held g_body]. rewrite app_nil_r.
  split; [reflexivity|]. split; [exact H2|]. exists s. auto.
Qed.
Lemma arrives_free P b d p cr m l L : In P paths -> (forall d p k, In (d, p, k) L <-> option_map m_key (decoded_as P d p) = Some k) ->
  holds T_RANAP_RANAP_PDU b d p cr m l -> In m ranap_msgs -> In (d, p, m_key m) L ->
  named_in m l = true -> arrives (rx_free P b) d p cr m l.
Proof.
  intros HP HL H Hm Hin Hn. destruct (arrives_path P b d p cr m l L HP HL H Hm Hin Hn) as (s&H1&H2&H3).
  unfold arrives, rx_free. rewrite H1. cbn [e_rc e_msg e_lost]. cbn [Z.eqb x_rc x_freed x_alloc x_calls held g_body]. rewrite app_nil_r.
  split; [reflexivity|]. split; [exact H2|]. exists s. auto.
Qed.
Lemma arrives_cn_cl b d p cr m l : holds T_RANAP_RANAP_PDU b d p cr m l -> In m ranap_msgs -> In (d, p, m_key m) cn_connectionless ->
  named_in m l = true -> arrives (rx_cn_cl b) d p cr m l.
Proof. apply (arrives_free cn_cl b d p cr m l cn_connectionless); [cbn; tauto|exact cn_cl_list]. Qed.
Lemma arrives_ran_co b d p cr m l : holds T_RANAP_RANAP_PDU b d p cr m l -> In m ranap_msgs -> In (d, p, m_key m) ran_connection ->
  named_in m l = true -> arrives (rx_ran_co b) d p cr m l.
Proof. apply (arrives_free ran_co b d p cr m l ran_connection); [cbn; tauto|exact ran_co_list]. Qed.
