From Verif Require Import Base Aper Container Container_spec Container_proofs Items RanapTypes RanapTab DispatchTab Dispatch Dispatch_spec Dispatch_proofs Factory_spec MemDec MemDec_spec.
From Coq Require Import String.
Local Open Scope list_scope.
Local Open Scope nat_scope.

(* the calls from [a] to [n] either all have memory, and the result is that with memory, or the
   last one is the first that is denied *)
Definition run {A} (deny : nat -> bool) (a : nat) (x : A * nat) (same : A) (bad : A -> Prop) : Prop :=
  a <= snd x /\
  ((forall k, a <= k < snd x -> deny k = false) -> fst x = same) /\
  ((exists k, a <= k < snd x /\ deny k = true) -> bad (fst x) /\ deny (snd x - 1) = true /\ forall k, a <= k < snd x - 1 -> deny k = false).
Lemma run_stop {A} deny a (r : A) bad : run deny a (r, a) r bad.
Proof. split; [apply le_n|]. split; [reflexivity|]. cbn [fst snd]. intros (k&K&_). lia. Qed.
Lemma run_denied {A} deny a (r same : A) (bad : A -> Prop) : deny a = true -> bad r -> run deny a (r, S a) same bad.
Proof.
  intros D B. split; [apply le_S, le_n|]. cbn [fst snd]. split; [intros H; rewrite (H a) in D by lia; discriminate|]. intros _. split; [exact B|].
  replace (S a - 1) with a by lia. split; [exact D|]. intros k K. lia.
Qed.
Lemma run_granted {A} deny a (x : A * nat) same bad : deny a = false -> run deny (S a) x same bad -> run deny a x same bad.
Proof.
  intros D (H1&H2&H3). split; [lia|]. split.
  - intros H. apply H2. intros k K. apply H. lia.
  - intros (k&K&E). assert (k <> a) by (intros ->; congruence). destruct H3 as (B&L&C); [exists k; split; [lia|exact E]|].
    split; [exact B|]. split; [exact L|]. intros i I. destruct (Nat.eq_dec i a) as [->|]; [exact D|apply C; lia].
Qed.
Lemma run_map {A B} deny a (x : A * nat) same (bad : A -> Prop) (f : A -> B) (bad' : B -> Prop) : (forall r, bad r -> bad' (f r)) ->
  run deny a x same bad -> run deny a (f (fst x), snd x) (f same) bad'.
Proof.
  intros F (H1&H2&H3). split; [exact H1|]. cbn [fst snd]. split; [intros H; now rewrite (H2 H)|]. intros H. destruct (H3 H) as (X&Y). split; [now apply F|exact Y].
Qed.
Lemma list_same deny m : forall l s lost n, run deny n (decode_list_m deny n m s lost l) (decode_list m s lost l) (fun r => d_ok r = false).
Proof.
  induction l as [|ie l IH]; intros s lost n; cbn [decode_list_m decode_list]; [apply run_stop|].
  destruct (ie_parts ie) as [[id o]|]; [|apply run_stop].
  destruct (find_row id (m_rows m) 0) as [[j r]|]; [|apply run_stop]. cbv zeta.
  unfold decode_m at 1. destruct (deny n) eqn:D; [apply run_denied; [exact D|reflexivity]|].
  apply run_granted; [exact D|]. destruct (decode (r_ty r) o) as [v|]; [apply IH|apply run_stop].
Qed.
Lemma msg_same deny m n o : run deny n (decode_msg_m deny n m o) (decode_msg m o) (fun r => d_ok r = false).
Proof.
  unfold decode_msg_m, decode_msg, decode_m. destruct (deny n) eqn:D; [apply run_denied; [exact D|reflexivity]|].
  apply run_granted; [exact D|]. destruct (decode (m_cont m) o) as [v|]; [|apply run_stop].
  repeat match goal with |- run _ _ (match ?x with _ => _ end) _ _ => destruct x; try apply run_stop end. apply list_same.
Qed.
Lemma item_same deny n t dst a : run deny n (decode_from_list_m deny n t dst a) (decode_from_list t dst a) (fun r => r = Ok (mkItem (-1) None [] [])).
Proof.
  destruct a as [| |o]; cbn [decode_from_list_m decode_from_list]; [apply run_stop|apply run_stop|]. destruct dst; [|apply run_stop].
  unfold decode_m. destruct (deny n) eqn:D; [apply run_denied; [exact D|reflexivity]|]. apply run_granted; [exact D|].
  destruct (decode t o); apply run_stop.
Qed.
Lemma decode2_same deny P data : run deny 0 (decode2_m deny P data) (decode2 P data) (fun e => e_rc e = (-1)%Z).
Proof.
  unfold decode2_m, decode2, pdu_parts_m, pdu_parts, decode_m. destruct (deny 0) eqn:D; [apply run_denied; [exact D|reflexivity]|].
  apply run_granted; [exact D|]. fold (pdu_parts data).
  match goal with |- run _ _ (match ?x with _ => _ end) _ _ => change x with (pdu_parts data) end.
  destruct (pdu_parts data) as [[[[d p] cr] b]|]; [|apply run_stop]. destruct (dec_tab P d) as [tab|]; [|apply run_stop].
  destruct (case_of p tab) as [m|]; [|apply run_stop].
  pose proof (msg_same deny m 1 b) as H. destruct (decode_msg_m deny 1 m b) as [r n].
  apply (run_map deny 1 (r, n) _ _ (fun r => mkDec2 (if d_ok r then 0 else -1)%Z (mkRmsg d p cr (Some (m, d_ies r))) (d_lost r)) (fun e => e_rc e = (-1)%Z)) in H; [exact H|].
  intros x ->. reflexivity.
Qed.
Definition refused (r : rx) : Prop := x_rc r = (-1)%Z /\ x_calls r = [].
Lemma co_same deny data : run deny 0 (rx_cn_co_m deny data) (rx_cn_co data) refused.
Proof.
  unfold rx_cn_co_m, rx_cn_co. pose proof (decode2_same deny cn_co data) as H. destruct (decode2_m deny cn_co data) as [e n].
  apply (run_map deny 0 (e, n) _ _ (fun e => if (e_rc e =? 0)%Z then mkRx 0 [e_msg e] (held (e_msg e) ++ e_lost e) (free_msg cn_co (e_msg e))
   else mkRx (e_rc e) [] (held (e_msg e) ++ e_lost e) (Some [])) refused) in H; [exact H|]. intros x E. rewrite E. split; reflexivity.
Qed.
Lemma free_same deny P data : run deny 0 (rx_free_m deny P data) (rx_free P data) refused.
Proof.
  unfold rx_free_m, rx_free. pose proof (decode2_same deny P data) as H. destruct (decode2_m deny P data) as [e n].
  apply (run_map deny 0 (e, n) _ _ (fun e => mkRx (e_rc e) (if (e_rc e =? 0)%Z then [e_msg e] else []) (held (e_msg e) ++ e_lost e) (free_msg P (e_msg e))) refused) in H; [exact H|].
  intros x E. split; [exact E|]. cbn [x_calls]. now rewrite E.
Qed.

Lemma receivers_l f g deny data : In (f, g) receivers -> let '(r, n) := g deny data in
  (granted deny n -> r = f data) /\
  (denied deny n -> x_rc r = (-1)%Z /\ x_calls r = [] /\ granted deny (n - 1)).
Proof.
  intros H. assert (R : run deny 0 (g deny data) (f data) refused).
  { destruct H as [H|[H|[H|[]]]]; injection H as <- <-; [apply co_same|apply free_same|apply free_same]. }
  destruct (g deny data) as [r n]. destruct R as (_&R1&R2). cbn [fst snd] in *. split.
  - intros G. apply R1. intros k K. apply G. lia.
  - intros (k&K&D). destruct R2 as ((A&B)&_&C); [exists k; split; [lia|exact D]|]. split; [exact A|]. split; [exact B|]. intros i I. apply C. lia.
Qed.
Lemma decoders_l m deny o : let '(r, n) := decode_msg_m deny 0 m o in
  (granted deny n -> r = decode_msg m o) /\ (denied deny n -> d_ok r = false /\ granted deny (n - 1)).
Proof.
  pose proof (msg_same deny m 0 o) as R. destruct (decode_msg_m deny 0 m o) as [r n]. destruct R as (_&R1&R2). cbn [fst snd] in *. split.
  - intros G. apply R1. intros k K. apply G. lia.
  - intros (k&K&D). destruct R2 as (A&_&C); [exists k; split; [lia|exact D]|]. split; [exact A|]. intros i I. apply C. lia.
Qed.
Lemma items_l t dst a deny : let '(r, n) := decode_from_list_m deny 0 t dst a in
  (granted deny n -> r = decode_from_list t dst a) /\ (denied deny n -> r = Ok (mkItem (-1) None [] [])).
Proof.
  pose proof (item_same deny 0 t dst a) as R. destruct (decode_from_list_m deny 0 t dst a) as [r n]. destruct R as (_&R1&R2). cbn [fst snd] in *. split.
  - intros G. apply R1. intros k K. apply G. lia.
  - intros (k&K&D). destruct R2 as (A&_); [exists k; split; [lia|exact D]|]. exact A.
Qed.

(* ---------------- how much is asked for ---------------- *)
Lemma list_count deny m : forall l s lost n, snd (decode_list_m deny n m s lost l) <= n + List.length l.
Proof.
  induction l as [|ie l IH]; intros s lost n; cbn [decode_list_m List.length]; [cbn [snd]; lia|].
  destruct (ie_parts ie) as [[id o]|]; [|cbn [snd]; lia].
  destruct (find_row id (m_rows m) 0) as [[j r]|]; [|cbn [snd]; lia]. cbv zeta.
  destruct (decode_m deny n (r_ty r) o) as [v|]; [|cbn [snd]; lia].
  match goal with |- context [decode_list_m deny (S n) m ?a ?b l] => specialize (IH a b (S n)) end. lia.
Qed.

(* ---------------- what is left can be released ---------------- *)
Lemma list_held deny m : tab_ok m = true -> forall l n s lost, held_ok m s -> held_ok m (d_ies (fst (decode_list_m deny n m s lost l))).
Proof.
  intros Hok. induction l as [|ie l IH]; intros n s lost Hs; cbn [decode_list_m]; [exact Hs|].
  destruct (ie_parts ie) as [[id o]|]; [|exact Hs].
  destruct (find_row id (m_rows m) 0) as [[k r]|] eqn:Hf; [|exact Hs].
  destruct (find_row_in _ _ _ _ _ Hf) as (Hin&Hid&Hn&_). rewrite Nat.sub_0_r in Hn. cbv zeta.
  destruct Hs as (H1&H2&H3). destruct (add_flag_ok m r s Hok Hin H2) as (A1&A2&A3).
  assert (Hfe : i_fields (add_flag m r s) = i_fields s) by (unfold add_flag; destruct (is_opt r); reflexivity).
  destruct (decode_m deny n (r_ty r) o) as [v|].
  - apply IH. split; [|split].
    + cbn [i_fields]. rewrite set_nth_len, Hfe. exact H1.
    + exact A1.
    + cbn [i_fields]. intros i x w Hx Hw.
      change (wanted m (mkIes (i_mask (add_flag m r s)) (set_nth k (Some v) (i_fields (add_flag m r s)))) x) with (wanted m (add_flag m r s) x).
      rewrite Hfe in Hw. destruct (set_nth_spec _ _ _ _ _ Hw) as [[-> _]|Hold].
      * assert (x = r) by congruence. subst x. exact A2.
      * apply A3; [eapply nth_error_In; exact Hx|]. eapply H3; eassumption.
  - split; [|split]; cbn [fst d_ies].
    + rewrite Hfe. exact H1.
    + exact A1.
    + intros i x w Hx Hw. rewrite Hfe in Hw. apply A3; [eapply nth_error_In; exact Hx|]. eapply H3; eassumption.
Qed.
Lemma msg_held deny n m o : tab_ok m = true -> held_ok m (d_ies (fst (decode_msg_m deny n m o))).
Proof.
  intros Hok. unfold decode_msg_m. destruct (decode_m deny n (m_cont m) o) as [v|]; [|apply zero_held].
  repeat match goal with |- context [match ?x with _ => _ end] => destruct x; try apply zero_held end. apply list_held; [exact Hok|apply zero_held].
Qed.
Lemma free_exact_m deny n m o : tab_ok m = true -> free_ies m (d_ies (fst (decode_msg_m deny n m o))) = contents (d_ies (fst (decode_msg_m deny n m o))).
Proof. intros Hok. destruct (msg_held deny n m o Hok) as (H1&_&H3). apply freed_all; [exact H3|exact H1]. Qed.
(* contents lost with memory include those lost without *)
Lemma list_lost deny m : forall l n s lost, exists a, d_lost (decode_list m s lost l) = d_lost (fst (decode_list_m deny n m s lost l)) ++ a.
Proof.
  assert (K : forall m l s lost, exists a, d_lost (decode_list m s lost l) = lost ++ a).
  { clear m. intros m. induction l as [|ie l IH]; intros s lost; cbn [decode_list]; [exists []; now rewrite app_nil_r|].
    destruct (ie_parts ie) as [[id o]|]; [|exists []; now rewrite app_nil_r].
    destruct (find_row id (m_rows m) 0) as [[k r]|]; [|exists []; now rewrite app_nil_r]. cbv zeta.
    destruct (decode (r_ty r) o) as [v|]; [|exists []; now rewrite app_nil_r].
    match goal with |- context [decode_list m ?a ?b l] => destruct (IH a b) as (x&->) end.
    destruct (nth_error _ k) as [[w|]|]; [exists (w :: x); now rewrite <- app_assoc|now exists x|now exists x]. }
  induction l as [|ie l IH]; intros n s lost; cbn [decode_list_m decode_list]; [exists []; now rewrite app_nil_r|].
  destruct (ie_parts ie) as [[id o]|]; [|exists []; now rewrite app_nil_r].
  destruct (find_row id (m_rows m) 0) as [[k r]|]; [|exists []; now rewrite app_nil_r]. cbv zeta.
  unfold decode_m at 1. destruct (deny n).
  - cbn [fst d_lost]. destruct (decode (r_ty r) o) as [v|]; [|exists []; now rewrite app_nil_r].
    match goal with |- context [decode_list m ?a ?b l] => destruct (K m l a b) as (x&->) end.
    destruct (nth_error _ k) as [[w|]|]; [exists (w :: x); now rewrite <- app_assoc|now exists x|now exists x].
  - destruct (decode (r_ty r) o) as [v|]; [apply IH|exists []; now rewrite app_nil_r].
Qed.
Lemma msg_lost deny n m o : d_lost (decode_msg m o) = [] -> d_lost (fst (decode_msg_m deny n m o)) = [].
Proof.
  unfold decode_msg_m, decode_msg, decode_m. destruct (deny n); [reflexivity|]. destruct (decode (m_cont m) o) as [v|]; [|reflexivity].
  repeat match goal with |- context [match ?x with _ => _ end] => destruct x; try reflexivity end.
  intros H. match goal with |- d_lost (fst (decode_list_m deny ?k m ?s ?lo ?l)) = [] => destruct (list_lost deny m l k s lo) as (a&E) end.
  rewrite H in E. symmetry in E. now apply app_eq_nil in E.
Qed.

Lemma shape_m deny P data : let e := fst (decode2_m deny P data) in
  (g_body (e_msg e) = None /\ e_lost e = []) \/
  exists d p cr b m, pdu_parts data = Some (d, p, cr, b) /\ decoded_as P d p = Some m /\
    e_msg e = mkRmsg d p cr (Some (m, d_ies (fst (decode_msg_m deny 1 m b)))) /\ e_lost e = d_lost (fst (decode_msg_m deny 1 m b)).
Proof.
  cbv zeta. unfold decode2_m, pdu_parts_m, decode_m. destruct (deny 0); [left; split; reflexivity|].
  match goal with |- context [match ?x with Some _ => _ | None => (mkDec2 (-1)%Z zero_msg [], 1) end] => change x with (pdu_parts data) end.
  destruct (pdu_parts data) as [[[[d p] cr] b]|]; [|left; split; reflexivity].
  destruct (dec_tab P d) as [tab|] eqn:T; [|left; split; reflexivity].
  destruct (case_of p tab) as [m|] eqn:C; [|left; split; reflexivity]. right. exists d, p, cr, b, m.
  split; [reflexivity|]. split; [unfold decoded_as; now rewrite T|]. destruct (decode_msg_m deny 1 m b) as [r n]. split; reflexivity.
Qed.
Lemma frees_held_m deny P data : In P paths -> let e := fst (decode2_m deny P data) in free_msg P (e_msg e) = Some (held (e_msg e)).
Proof.
  intros HP. cbv zeta. destruct (shape_m deny P data) as [(Hb&_)|(d&p&cr&b&m&Hp&Hm&E&_)]; cbv zeta in *.
  - unfold free_msg, held. rewrite Hb. destruct (free_tab P _) as [tab|]; [|reflexivity]. destruct (case_of _ tab); reflexivity.
  - rewrite E. unfold free_msg, held. cbn [g_dir g_proc g_body].
    pose proof (same_type P d p HP) as Hs. rewrite Hm in Hs. unfold freed_as in Hs.
    destruct (free_tab P d) as [tab|]; [|discriminate]. rewrite <- Hs, String.eqb_refl.
    rewrite (free_exact_m deny 1 m b (decoded_ok P d p m HP Hm)). reflexivity.
Qed.
Lemma nothing_lost_m deny P data : In P paths -> ids_once P data -> e_lost (fst (decode2_m deny P data)) = [].
Proof.
  intros HP Hi. destruct (shape_m deny P data) as [(_&H)|(d&p&cr&b&m&Hp&Hm&_&H)]; [exact H|]. rewrite H. apply msg_lost.
  pose proof (nothing_lost P data HP Hi) as L. pose proof (decode2_shape P data) as S. rewrite Hp, Hm in S. rewrite S in L. exact L.
Qed.
Lemma released_m deny P data : In P paths -> ids_once P data ->
  x_freed (fst (rx_free_m deny P data)) = Some (x_alloc (fst (rx_free_m deny P data))).
Proof.
  intros HP Hi. unfold rx_free_m. pose proof (frees_held_m deny P data HP) as F. pose proof (nothing_lost_m deny P data HP Hi) as L.
  cbv zeta in F. destruct (decode2_m deny P data) as [e n]. cbn [fst x_freed x_alloc] in *. rewrite L, app_nil_r. exact F.
Qed.

(* Direct Transfer with a NAS PDU and a SAPI *)
Definition dt_octets : list N := [0x00; 0x14; 0x40; 0x10; 0; 0; 2; 0; 0x10; 0x40; 4; 3; 0xaa; 0xbb; 0xcc; 0; 0x3b; 0x40; 1; 0]%N.
Lemma co_leak : x_rc (rx_cn_co dt_octets) = 0%Z /\ ids_once cn_co dt_octets /\
  fst (rx_cn_co_m (only 3) dt_octets) = mkRx (-1) [] [VOcts [0xaa; 0xbb; 0xcc]%N] (Some []).
Proof.
  split; [vm_compute; reflexivity|]. split; [|vm_compute; reflexivity].
  intros d p cr b m l H Hm Hb. vm_compute in H. injection H as <- <- <- <-. vm_compute in Hm. injection Hm as <-.
  vm_compute in Hb. injection Hb as <-. vm_compute. repeat constructor; cbn [In]; intuition discriminate.
Qed.
Lemma list_count_ok deny m : forall l s lost n, d_ok (fst (decode_list_m deny n m s lost l)) = true -> snd (decode_list_m deny n m s lost l) = n + List.length l.
Proof.
  induction l as [|ie l IH]; intros s lost n; cbn [decode_list_m List.length]; [cbn [fst snd]; lia|].
  destruct (ie_parts ie) as [[id o]|]; [|discriminate].
  destruct (find_row id (m_rows m) 0) as [[j r]|]; [|discriminate]. cbv zeta.
  destruct (decode_m deny n (r_ty r) o) as [v|]; [|discriminate]. intros H. rewrite (IH _ _ _ H). lia.
Qed.
Lemma requests_l deny m o l : body m o = Some l ->
  snd (decode_msg_m deny 0 m o) <= 1 + List.length l /\
  (d_ok (fst (decode_msg_m deny 0 m o)) = true -> snd (decode_msg_m deny 0 m o) = 1 + List.length l).
Proof.
  unfold body, decode_msg_m, decode_m. intros B. destruct (deny 0); [split; [cbn [snd]; lia|discriminate]|].
  destruct (decode (m_cont m) o) as [v|]; [|discriminate].
  repeat match goal with H : match ?x with _ => _ end = Some l |- _ => destruct x; try discriminate H end. injection B as ->.
  split; [apply list_count|apply list_count_ok].
Qed.
Lemma never_l m o : decode_msg_m never 0 m o = (decode_msg m o, snd (decode_msg_m never 0 m o)).
Proof.
  pose proof (decoders_l m never o) as H. destruct (decode_msg_m never 0 m o) as [r n]. destruct H as [H _]. rewrite H; [reflexivity|]. intros k _. reflexivity.
Qed.
