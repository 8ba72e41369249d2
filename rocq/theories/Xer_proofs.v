(* Printing and messages. *)
From Verif Require Import Base Aper Container Xer Xer_spec.
From Coq Require Import String List ZArith NArith Lia Bool.
Import ListNotations.
Local Open Scope list_scope.

Lemma decode_list_same on out m l : forall s lost log, fst (decode_list_x on out m s lost l log) = decode_list m s lost l.
Proof.
  induction l as [|ie l IH]; intros s lost log; [reflexivity|]. cbn [decode_list_x decode_list].
  destruct (ie_parts ie) as [[id o]|]; [|reflexivity]. destruct (find_row id (m_rows m) 0) as [[k r]|]; [|reflexivity].
  destruct (decode (r_ty r) o); [|reflexivity]. apply IH.
Qed.
Lemma decode_same on out m o : fst (decode_msg_x on out m o) = decode_msg m o.
Proof.
  unfold decode_msg_x, decode_msg. destruct (decode (m_cont m) o) as [v|]; [|reflexivity].
  destruct v as [| | | | | |a b| |]; try reflexivity. destruct a as [|[[| | | | | | |l|]|] [|? ?]]; try reflexivity. apply decode_list_same.
Qed.
Lemma find_row_in id rows : forall k j r, find_row id rows k = Some (j, r) -> In r rows /\ r_id r = id.
Proof.
  induction rows as [|x rows IH]; intros k j r H; cbn [find_row] in H; [discriminate|].
  destruct (N.eqb_spec (r_id x) id) as [E|E]; [injection H as <- <-; split; [left; reflexivity|exact E]|].
  destruct (IH _ _ _ H). split; [right|]; assumption.
Qed.
Lemma parts_of ie id o : ie_parts ie = Some (id, o) -> exists z c, ie = VSeq [Some (VInt z); Some (VEnum c); Some (VOcts o)] [] /\ id = Z.to_N z.
Proof.
  unfold ie_parts. destruct ie as [| | | | | |a b| |]; try discriminate.
  destruct a as [|[[| |z| | | | | |]|] [|[[| | |c| | | | |]|] [|[[| | | | |l| | |]|] [|? ?]]]]; try discriminate. destruct b; [|discriminate].
  intros H. injection H as <- <-. eauto.
Qed.
Lemma decode_list_printed out m l : forall s lost log d p, decode_list_x true out m s lost l log = (d, p) ->
  exists q l1 l2, p = log ++ q /\ l = l1 ++ l2 /\ Forall2 (value_of m) l1 q /\ (d_ok d = true -> l2 = []).
Proof.
  induction l as [|ie l IH]; intros s lost log d p H; cbn [decode_list_x] in H.
  { injection H as <- <-. exists [], [], []. rewrite app_nil_r. repeat split; constructor. }
  assert (Stop : forall s', (mkDres false s' lost, log) = (d, p) ->
    exists q l1 l2, p = log ++ q /\ ie :: l = l1 ++ l2 /\ Forall2 (value_of m) l1 q /\ (d_ok d = true -> l2 = [])).
  { intros s' E. injection E as <- <-. exists [], [], (ie :: l). rewrite app_nil_r. repeat split; [constructor|discriminate]. }
  destruct (ie_parts ie) as [[id o]|] eqn:Ep; [|eauto]. destruct (find_row id (m_rows m) 0) as [[k r]|] eqn:Ef; [|eauto].
  destruct (decode (r_ty r) o) as [v|] eqn:Ed; [|eauto]. cbn [print snd] in H.
  destruct (IH _ _ _ _ _ H) as (q & l1 & l2 & -> & -> & F & Ok). exists (PValue (r_tyname r) v :: q), (ie :: l1), l2.
  rewrite <- app_assoc. repeat split; [|exact Ok]. constructor; [|exact F].
  destruct (parts_of _ _ _ Ep) as (z & c & -> & ->). destruct (find_row_in _ _ _ _ _ Ef) as (Hi & Hid).
  exists z, c, o, r, v. auto.
Qed.
Lemma decode_printed out m o d p : decode_msg_x true out m o = (d, p) -> d_ok d = true ->
  exists l, ies_in m o l /\ Forall2 (value_of m) l p.
Proof.
  unfold decode_msg_x, ies_in. intros H Ok. destruct (decode (m_cont m) o) as [v|]; [|injection H as <- <-; discriminate].
  destruct v as [| | | | | |a b| |]; try (injection H as <- <-; discriminate).
  destruct a as [|[[| | | | | | |l|]|] [|? ?]]; try (injection H as <- <-; discriminate).
  destruct (decode_list_printed _ _ _ _ _ _ _ _ H) as (q & l1 & l2 & -> & -> & F & E). rewrite (E Ok), app_nil_r in *. exists l1. split; [eauto|exact F].
Qed.
Lemma decode_silent_l out m l : forall s lost log, snd (decode_list_x false out m s lost l log) = log.
Proof.
  induction l as [|ie l IH]; intros s lost log; [reflexivity|]. cbn [decode_list_x].
  destruct (ie_parts ie) as [[id o]|]; [|reflexivity]. destruct (find_row id (m_rows m) 0) as [[k r]|]; [|reflexivity].
  destruct (decode (r_ty r) o); [|reflexivity]. apply IH.
Qed.
Lemma decode_silent out m o : snd (decode_msg_x false out m o) = [].
Proof.
  unfold decode_msg_x. destruct (decode (m_cont m) o) as [v|]; [|reflexivity].
  destruct v as [| | | | | |a b| |]; try reflexivity. destruct a as [|[[| | | | | | |l|]|] [|? ?]]; try reflexivity. apply decode_silent_l.
Qed.

Lemma rows_off out m s rows : forall fields log, encode_rows_x false out m s rows fields log = (encode_rows m s rows fields, log, []).
Proof.
  induction rows as [|r rows IH]; intros [|f fields] log; try reflexivity. cbn [encode_rows_x encode_rows].
  destruct (wanted m s r); [|apply IH]. destruct f as [v|]; [|reflexivity]. unfold new_ie_x, print.
  destruct (new_ie r v); [|reflexivity]. cbn [obind]. rewrite IH. destruct (encode_rows m s rows fields); reflexivity.
Qed.
Lemma rows_none on out m s rows : forall fields log, encode_rows m s rows fields = None ->
  fst (fst (encode_rows_x on out m s rows fields log)) = None.
Proof.
  induction rows as [|r rows IH]; intros [|f fields] log H; try reflexivity; try discriminate H. cbn [encode_rows_x encode_rows] in *.
  destruct (wanted m s r); [|apply IH, H]. destruct f as [v|]; [|reflexivity]. unfold new_ie_x in *.
  destruct (new_ie r v) as [ie|]; [|reflexivity]. destruct (print on out (PIe ie) log) as [[|] log']; [|reflexivity].
  destruct (encode_rows m s rows fields) eqn:E; [discriminate H|]. specialize (IH _ log' E).
  destruct (encode_rows_x on out m s rows fields log') as [[[?|] ?] ?]; [discriminate IH|reflexivity].
Qed.
Lemma rows_all out m s rows : forall fields log l, encode_rows m s rows fields = Some l ->
  (forall k, k < List.length l -> out (List.length log + k) = true) ->
  encode_rows_x true out m s rows fields log = (Some l, log ++ map PIe l, []).
Proof.
  induction rows as [|r rows IH]; intros [|f fields] log l H O; try discriminate H; cbn [encode_rows_x encode_rows] in *.
  1, 2: injection H as <-; cbn [map]; rewrite app_nil_r; reflexivity.
  destruct (wanted m s r); [|apply IH; assumption]. destruct f as [v|]; [|discriminate H]. unfold new_ie_x.
  destruct (new_ie r v) as [ie|]; [|discriminate H]. destruct (encode_rows m s rows fields) as [rest|] eqn:E; [|discriminate H].
  injection H as <-. unfold print. rewrite <- (O 0) by (cbn; lia). rewrite Nat.add_0_r. specialize (O 0) as O0. rewrite Nat.add_0_r in O0. rewrite O0 by (cbn; lia).
  rewrite (IH _ _ _ E).
  - cbn [map]. rewrite <- app_assoc. reflexivity.
  - intros k Hk. rewrite app_length. cbn [List.length]. rewrite <- Nat.add_assoc. apply O. cbn. lia.
Qed.
Lemma new_ie_octets r v ie : new_ie r v = Some ie -> exists o, octets_of ie o /\ match ie_parts ie with Some (_, x) => [x] | None => [] end = [o].
Proof. unfold new_ie. destruct (encode (r_ty r) v) as [o|]; [|discriminate]. intros H. injection H as <-. exists o. split; [eexists; eexists; reflexivity|reflexivity]. Qed.
Lemma rows_fail out m s rows : forall fields log l k, encode_rows m s rows fields = Some l -> k < List.length l ->
  (forall j, j < k -> out (List.length log + j) = true) -> out (List.length log + k) = false ->
  exists ie o, nth_error l k = Some ie /\ octets_of ie o /\
    encode_rows_x true out m s rows fields log = (None, log ++ map PIe (firstn (S k) l), [o]).
Proof.
  induction rows as [|r rows IH]; intros [|f fields] log l k H Hk O Ok; try discriminate H; cbn [encode_rows_x encode_rows] in *.
  1, 2: injection H as <-; cbn in Hk; lia.
  destruct (wanted m s r); [|eapply IH; eassumption]. destruct f as [v|]; [|discriminate H]. unfold new_ie_x.
  destruct (new_ie r v) as [ie|] eqn:En; [|discriminate H]. destruct (encode_rows m s rows fields) as [rest|] eqn:E; [|discriminate H].
  injection H as <-. unfold print. destruct k as [|k].
  - rewrite Nat.add_0_r in Ok. rewrite Ok. destruct (new_ie_octets _ _ _ En) as (o & Ho & ->). exists ie, o. repeat split. exact Ho.
  - specialize (O 0 ltac:(lia)) as O0. rewrite Nat.add_0_r in O0. rewrite O0. cbn [List.length] in Hk.
    destruct (IH fields (log ++ [PIe ie]) rest k E ltac:(lia)) as (x & o & Hn & Ho & Hx).
    + intros j Hj. rewrite app_length. cbn [List.length]. rewrite <- Nat.add_assoc. apply O. lia.
    + rewrite app_length. cbn [List.length]. rewrite <- Nat.add_assoc. exact Ok.
    + exists x, o. split; [exact Hn|]. split; [exact Ho|]. rewrite Hx. cbn [firstn map]. rewrite <- app_assoc. reflexivity.
Qed.

Lemma encode_off out m s : encode_msg_x false out m s = (encode_msg m s, [], []).
Proof. unfold encode_msg_x, encode_msg, encode_ies. rewrite rows_off. destruct (encode_rows m s (m_rows m) (i_fields s)); reflexivity. Qed.
Lemma encode_none on out m s : encode_ies m s = None -> fst (fst (encode_msg_x on out m s)) = None.
Proof.
  unfold encode_msg_x, encode_ies. intros H. destruct (encode_rows m s (m_rows m) (i_fields s)) eqn:E; [discriminate H|].
  pose proof (rows_none on out m s _ _ [] E) as N. destruct (encode_rows_x on out m s (m_rows m) (i_fields s) []) as [[[?|] ?] ?]; [discriminate N|reflexivity].
Qed.
Lemma encode_all out m s l : encode_ies m s = Some (VSeq [Some (VList l)] []) -> (forall k, k < List.length l -> out k = true) ->
  encode_msg_x true out m s = (encode_msg m s, map PIe l, []).
Proof.
  unfold encode_msg_x, encode_msg, encode_ies. intros H O. destruct (encode_rows m s (m_rows m) (i_fields s)) as [l'|] eqn:E; [|discriminate H].
  cbn [obind] in *. injection H as ->. rewrite (rows_all out m s _ _ [] l E O). reflexivity.
Qed.
Lemma encode_fail out m s l k : encode_ies m s = Some (VSeq [Some (VList l)] []) -> k < List.length l ->
  (forall j, j < k -> out j = true) -> out k = false ->
  exists ie o, nth_error l k = Some ie /\ octets_of ie o /\ encode_msg_x true out m s = (None, map PIe (firstn (S k) l), [o]).
Proof.
  unfold encode_msg_x, encode_ies. intros H Hk O Ok. destruct (encode_rows m s (m_rows m) (i_fields s)) as [l'|] eqn:E; [|discriminate H].
  injection H as ->. destruct (rows_fail out m s _ _ [] l k E Hk O Ok) as (ie & o & H1 & H2 & H3). exists ie, o. split; [exact H1|]. split; [exact H2|].
  rewrite H3. reflexivity.
Qed.
Lemma decode_prefix out m o d p : decode_msg_x true out m o = (d, p) ->
  p = [] \/ exists l1 l2, ies_in m o (l1 ++ l2) /\ Forall2 (value_of m) l1 p.
Proof.
  unfold decode_msg_x, ies_in. intros H. destruct (decode (m_cont m) o) as [v|]; [|injection H as <- <-; auto].
  destruct v as [| | | | | |a b| |]; try (injection H as <- <-; auto).
  destruct a as [|[[| | | | | | |l|]|] [|? ?]]; try (injection H as <- <-; auto).
  destruct (decode_list_printed _ _ _ _ _ _ _ _ H) as (q & l1 & l2 & -> & -> & F & _). right. exists l1, l2. split; [eauto|exact F].
Qed.
