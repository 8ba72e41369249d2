(* Facts about the RANAP receive paths. *)
From Verif Require Import Base Aper Aper_spec Aper_proofs Aper_decode Container Container_proofs RanapTypes RanapTab AllMsgs
  DispatchTab Dispatch RanapProc.
From Verif Require Export Dispatch_spec.
From Coq Require Import String.
Local Open Scope list_scope.
Local Open Scope N_scope.

(* ---------------- the PDU ---------------- *)
Lemma pdu_parts_range data d p cr b : pdu_parts data = Some (d, p, cr, b) ->
  (d = 1 \/ d = 2 \/ d = 3 \/ d = 4) /\ p <= 255 /\ (cr = 0 \/ cr = 1 \/ cr = 2)%Z.
Proof.
  unfold pdu_parts. destruct (decode T_RANAP_RANAP_PDU data) as [v|] eqn:E; [|discriminate].
  apply decode_valid in E; [|reflexivity].
  inversion E as [| | | | | | | | |e root more i t w Hn Hw|root more i t w Hn Hw]; subst; [|destruct i; discriminate].
  assert (Ht : t = T_RANAP_InitiatingMessage) by (destruct i as [|[|[|[|i]]]]; cbn in Hn; try (destruct i; discriminate); injection Hn as <-; reflexivity).
  assert (Hi : (i <= 3)%nat) by (assert (nth_error [T_RANAP_InitiatingMessage; T_RANAP_SuccessfulOutcome; T_RANAP_UnsuccessfulOutcome; T_RANAP_Outcome] i <> None) as Hx by congruence; apply nth_error_Some in Hx; cbn in Hx; lia).
  clear E Hn. subst t. inversion Hw as [| | | | | | | |e root adds vr va Hl1 Hl2 Hm Hr Ha Hf| |]; subst.
  destruct vr as [|[v1|] [|[v2|] [|[v3|] [|]]]]; try discriminate.
  all: try (intros H; exfalso; destruct v1; discriminate).
  all: try (intros H; exfalso; destruct v1, v2; discriminate).
  destruct v1; try discriminate. destruct v2; try discriminate. destruct v3; try discriminate. destruct va; try discriminate.
  intros H. injection H as <- <- <- <-.
  pose proof (Hr 0%nat _ _ _ eq_refl eq_refl) as H1. pose proof (Hr 1%nat _ _ _ eq_refl eq_refl) as H2.
  inversion H1 as [| |c zz Hz| | | | | | | |]; subst. cbn [allowed c_ext c_lb c_ub] in Hz.
  split; [|split].
  - destruct i as [|[|[|[|i]]]]; cbn; [left|right;left|right;right;left|right;right;right|lia]; reflexivity.
  - destruct Hz; [discriminate|]. lia.
  - inversion H2 as [| | |e r m zz Hin|r m zz Hin| | | | | |]; subst.
    + cbn in Hin. intuition.
Qed.

Lemma case_in p m : forall tab, case_of p tab = Some m -> In (p, m) tab.
Proof.
  induction tab as [|[c x] tab IH]; intros H; cbn [case_of] in H; [discriminate|]. destruct (N.eqb_spec p c).
  - injection H as ->. subst. left; reflexivity.
  - right. auto.
Qed.
Lemma case_out p : forall tab, (forall c m, In (c, m) tab -> c <> p) -> case_of p tab = None.
Proof.
  induction tab as [|[c x] tab IH]; intros H; [reflexivity|]. cbn [case_of]. destruct (N.eqb_spec p c) as [->|]; [destruct (H c x); [left|]; reflexivity|].
  apply IH. intros c' m Hc. apply (H c' m). right; exact Hc.
Qed.

Lemma same_tables P d : In P paths -> dec_tab P d = free_tab P d.
Proof.
  unfold paths. intros [<-|[<-|[<-|[]]]]; cbn [dec_tab free_tab cn_co cn_cl ran_co];
    repeat (destruct (_ =? _)%N; [reflexivity|]); reflexivity.
Qed.
Lemma same_type P d p : In P paths -> decoded_as P d p = freed_as P d p.
Proof. intros H. unfold decoded_as, freed_as. rewrite (same_tables P d H). reflexivity. Qed.

(* every table entry is one of the generated message types *)
Definition dirs : list N := [1; 2; 3; 4].
Definition table_of (P : path) (d : N) : list (N * msgdef) := match dec_tab P d with Some t => t | None => [] end.
Definition keys : list string := map m_key ranap_msgs.
Lemma dec_tab_dirs P d : In P paths -> dec_tab P d <> None -> In d dirs.
Proof.
  unfold paths, dirs. intros [<-|[<-|[<-|[]]]]; cbn [dec_tab cn_co cn_cl ran_co];
    repeat match goal with |- context [?a =? ?b] => destruct (N.eqb_spec a b); [subst; intros _; cbn; tauto|] end; intros H; destruct (H eq_refl).
Qed.
Lemma tables_in_b : forallb (fun P => forallb (fun d => forallb (fun e => tab_ok (snd e)) (table_of P d)) dirs) paths = true.
Proof. vm_compute. reflexivity. Qed.
Lemma decoded_ok P d p m : In P paths -> decoded_as P d p = Some m -> tab_ok m = true.
Proof.
  intros HP H. assert (Hd : In d dirs).
  { apply (dec_tab_dirs P d HP). intros Hn. unfold decoded_as in H. rewrite Hn in H. discriminate. }
  pose proof (proj1 (forallb_forall _ _) tables_in_b P HP) as HF. pose proof (proj1 (forallb_forall _ _) HF d Hd) as HG.
  unfold decoded_as in H. unfold table_of in HG. destruct (dec_tab P d); [|discriminate].
  exact (proj1 (forallb_forall _ _) HG _ (case_in _ _ _ H)).
Qed.

(* ---------------- memory ---------------- *)
Lemma decode2_shape P data :
  match pdu_parts data with
  | None => decode2 P data = mkDec2 (-1) zero_msg []
  | Some (d, p, cr, b) =>
      match decoded_as P d p with
      | None => e_rc (decode2 P data) = rc_default P /\ g_dir (e_msg (decode2 P data)) = d /\
                g_body (e_msg (decode2 P data)) = None /\ e_lost (decode2 P data) = []
      | Some m => decode2 P data = mkDec2 (if d_ok (decode_msg m b) then 0 else -1)
                    (mkRmsg d p cr (Some (m, d_ies (decode_msg m b)))) (d_lost (decode_msg m b))
      end
  end.
Proof.
  unfold decode2, decoded_as. destruct (pdu_parts data) as [[[[d p] cr] b]|]; [|reflexivity].
  destruct (dec_tab P d) as [tab|]; [|repeat split]. destruct (case_of p tab); [reflexivity|repeat split].
Qed.
Lemma frees_held P data : In P paths -> free_msg P (e_msg (decode2 P data)) = Some (held (e_msg (decode2 P data))).
Proof.
  intros HP. pose proof (decode2_shape P data) as H. destruct (pdu_parts data) as [[[[d p] cr] b]|].
  - destruct (decoded_as P d p) as [m|] eqn:Hm.
    + rewrite H. cbn [e_msg]. unfold free_msg, held. cbn [g_dir g_proc g_body].
      pose proof (same_type P d p HP) as Hs. rewrite Hm in Hs. unfold freed_as in Hs.
      destruct (free_tab P d) as [tab|]; [|discriminate]. rewrite <- Hs. rewrite String.eqb_refl.
      rewrite (free_exact m b (decoded_ok P d p m HP Hm)). reflexivity.
    + destruct H as (_&_&Hb&_). unfold free_msg, held. rewrite Hb.
      destruct (free_tab P _) as [tab|]; [|reflexivity]. destruct (case_of _ tab); reflexivity.
  - rewrite H. unfold free_msg, held. cbn [e_msg zero_msg g_dir g_proc g_body].
    destruct (free_tab P 0) as [tab|]; [|reflexivity]. destruct (case_of 0 tab); reflexivity.
Qed.
Lemma body_none_lost m b : body m b = None -> d_lost (decode_msg m b) = [].
Proof. intros H. rewrite decode_msg_body, H. reflexivity. Qed.
Lemma nothing_lost P data : In P paths -> ids_once P data -> e_lost (decode2 P data) = [].
Proof.
  intros HP Hi. pose proof (decode2_shape P data) as H. unfold ids_once in Hi. change (Factory_spec.pdu_in T_RANAP_RANAP_PDU data) with (pdu_parts data) in Hi. destruct (pdu_parts data) as [[[[d p] cr] b]|].
  - destruct (decoded_as P d p) as [m|] eqn:Hm.
    + rewrite H. cbn [e_lost]. destruct (body m b) as [l|] eqn:Hb; [|apply body_none_lost, Hb].
      eapply lost_none; [exact (decoded_ok P d p m HP Hm)|exact Hb|]. exact (Hi d p cr b m l eq_refl Hm Hb).
    + apply H.
  - rewrite H. reflexivity.
Qed.

(* ---------------- delivery ---------------- *)
Lemma deliver_cases P data : (rc_default P <> 0)%Z ->
  (e_rc (decode2 P data) = 0%Z /\ delivers P data (e_msg (decode2 P data))) \/
  (e_rc (decode2 P data) <> 0%Z /\ forall g, ~ delivers P data g).
Proof.
  intros Hd. pose proof (decode2_shape P data) as H. unfold delivers. change (Factory_spec.pdu_in T_RANAP_RANAP_PDU data) with (pdu_parts data). destruct (pdu_parts data) as [[[[d p] cr] b]|] eqn:Hp.
  - destruct (decoded_as P d p) as [m|] eqn:Hm.
    + rewrite H. cbn [e_rc e_msg]. destruct (d_ok (decode_msg m b)) eqn:Ho.
      * left. split; [reflexivity|]. exists d, p, cr, b, m. auto.
      * right. split; [discriminate|]. intros g (d'&p'&cr'&b'&m'&H1&H2&H3&_). injection H1 as <- <- <- <-. congruence.
    + right. destruct H as (H&_). split; [congruence|]. intros g (d'&p'&cr'&b'&m'&H1&H2&_). injection H1 as <- <- <- <-. congruence.
  - right. rewrite H. split; [discriminate|]. intros g (d'&p'&cr'&b'&m'&H1&_). discriminate.
Qed.
Lemma delivers_fun P data g h : delivers P data g -> delivers P data h -> g = h.
Proof.
  intros (d&p&cr&b&m&H1&H2&_&->) (d'&p'&cr'&b'&m'&H1'&H2'&_&->). rewrite H1 in H1'. injection H1' as <- <- <- <-. congruence.
Qed.
Lemma co_calls data : (exists g, x_calls (rx_cn_co data) = [g] /\ x_rc (rx_cn_co data) = 0%Z /\ delivers cn_co data g) \/
  (x_calls (rx_cn_co data) = [] /\ x_rc (rx_cn_co data) <> 0%Z /\ forall g, ~ delivers cn_co data g).
Proof.
  unfold rx_cn_co. destruct (deliver_cases cn_co data ltac:(discriminate)) as [[H1 H2]|[H1 H2]].
  - rewrite H1. left. eexists. repeat split. exact H2.
  - right. destruct (Z.eqb_spec (e_rc (decode2 cn_co data)) 0); [contradiction|]. repeat split; assumption.
Qed.
Lemma ran_calls data : (exists g, x_calls (rx_ran_co data) = [g] /\ x_rc (rx_ran_co data) = 0%Z /\ delivers ran_co data g) \/
  (x_calls (rx_ran_co data) = [] /\ x_rc (rx_ran_co data) <> 0%Z /\ forall g, ~ delivers ran_co data g).
Proof.
  unfold rx_ran_co, rx_free. destruct (deliver_cases ran_co data ltac:(discriminate)) as [[H1 H2]|[H1 H2]].
  - rewrite H1. left. eexists. repeat split. exact H2.
  - right. destruct (Z.eqb_spec (e_rc (decode2 ran_co data)) 0); [contradiction|]. repeat split; assumption.
Qed.
(* connectionless: additionally everything that has no case is delivered undecoded *)
Lemma cl_calls data :
  (exists g, x_calls (rx_cn_cl data) = [g] /\ x_rc (rx_cn_cl data) = 0%Z /\ delivers cn_cl data g) \/
  (exists g d p cr b, x_calls (rx_cn_cl data) = [g] /\ x_rc (rx_cn_cl data) = 0%Z /\ g_body g = None /\
     pdu_parts data = Some (d, p, cr, b) /\ decoded_as cn_cl d p = None) \/
  (x_calls (rx_cn_cl data) = [] /\ x_rc (rx_cn_cl data) <> 0%Z /\ forall g, ~ delivers cn_cl data g).
Proof.
  unfold rx_cn_cl, rx_free. cbn [x_calls x_rc]. pose proof (decode2_shape cn_cl data) as H. unfold delivers. change (Factory_spec.pdu_in T_RANAP_RANAP_PDU data) with (pdu_parts data). destruct (pdu_parts data) as [[[[d p] cr] b]|] eqn:Hp.
  - destruct (decoded_as cn_cl d p) as [m|] eqn:Hm.
    + rewrite H. cbn [e_rc e_msg]. destruct (d_ok (decode_msg m b)) eqn:Ho.
      * left. eexists. split; [reflexivity|]. split; [reflexivity|]. exists d, p, cr, b, m. auto.
      * right; right. split; [reflexivity|]. split; [discriminate|]. intros g (d'&p'&cr'&b'&m'&H1&H2&H3&_). injection H1 as <- <- <- <-. congruence.
    + right; left. destruct H as (H1&_&H3&_). rewrite H1. exists (e_msg (decode2 cn_cl data)), d, p, cr, b. repeat split; assumption.
  - right; right. rewrite H. repeat split; try discriminate. intros g (d'&p'&cr'&b'&m'&H1&_). discriminate.
Qed.

(* ---------------- grammars ---------------- *)
Definition assigned_b (d p : N) (key : string) : bool :=
  existsb (fun e => match e with (d', p', _, k) => (d =? d') && (p =? p') && String.eqb key k end) ranap_procedures.
Lemma assigned_ok d p key : assigned_b d p key = true -> assigned d p key.
Proof.
  intros H. apply existsb_exists in H as ([[[d' p'] cr] k]&Hin&He). apply andb_prop in He as [He Hk]. apply andb_prop in He as [H1 H2].
  apply N.eqb_eq in H1, H2. apply String.eqb_eq in Hk. subst. exists cr. exact Hin.
Qed.
Definition wrong_entry (P : nat) (d p : N) : bool :=
  match P with
  | 0%nat => (d =? 2) && (p =? 0)
  | 1%nat => (d =? 2) && ((p =? 31) || (p =? 34))
  | _ => false
  end.
Lemma grammar_b : forallb (fun i => match nth_error paths i with
   | Some P => forallb (fun d => forallb (fun e => wrong_entry i d (fst e) || assigned_b d (fst e) (m_key (snd e))) (table_of P d)) dirs
   | None => true end) [0; 1; 2]%nat = true.
Proof. vm_compute. reflexivity. Qed.
Lemma grammar i P d p m : nth_error paths i = Some P -> decoded_as P d p = Some m -> wrong_entry i d p = false -> assigned d p (m_key m).
Proof.
  intros Hi Hm Hw. assert (HP : In P paths) by (eapply nth_error_In, Hi).
  assert (Hd : In d dirs).
  { apply (dec_tab_dirs P d HP). intros Hn. unfold decoded_as in Hm. rewrite Hn in Hm. discriminate. }
  assert (Hin : In i [0; 1; 2]%nat).
  { assert (i < List.length paths)%nat by (apply nth_error_Some; congruence). destruct i as [|[|[|i]]]; cbn in *; try lia; tauto. }
  pose proof (proj1 (forallb_forall _ _) grammar_b i Hin) as H. cbv beta in H. rewrite Hi in H.
  pose proof (proj1 (forallb_forall _ _) H d Hd) as H'. cbv beta in H'.
  assert (He : In (p, m) (table_of P d)).
  { unfold decoded_as in Hm. unfold table_of. destruct (dec_tab P d); [|discriminate]. apply case_in, Hm. }
  pose proof (proj1 (forallb_forall _ _) H' (p, m) He) as H2. cbn [fst snd] in H2. rewrite Hw in H2. apply assigned_ok, H2.
Qed.
(* procedure and direction determine the grammar *)
Lemma assigned_once_b : forallb (fun e => forallb (fun f => match e, f with (d, p, _, k), (d', p', _, k') =>
   negb ((d =? d') && (p =? p')) || String.eqb k k' end) ranap_procedures) ranap_procedures = true.
Proof. vm_compute. reflexivity. Qed.
Lemma assigned_once d p k k' : assigned d p k -> assigned d p k' -> k = k'.
Proof.
  intros [c H] [c' H']. pose proof (proj1 (forallb_forall _ _) assigned_once_b _ H) as H1. cbv beta in H1.
  pose proof (proj1 (forallb_forall _ _) H1 _ H') as H2. cbv beta iota in H2. rewrite !N.eqb_refl in H2. cbn [andb negb orb] in H2.
  apply String.eqb_eq, H2.
Qed.
