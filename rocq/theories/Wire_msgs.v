(* Octets of message bodies and PDUs of all four protocols. *)
From Coq Require Import ZifyBool ZifyNat ZifyN String List.
From Verif Require Import Base Aper Aper_spec Aper_proofs Aper_valid Container Container_proofs AllMsgs Factory Factory_spec Factory_len
  Factory_proofs Wire_spec Wire_proofs.
Ltac Zify.zify_post_hook ::= Z.div_mod_to_equations.
Local Open Scope list_scope.

Definition raw_val (x : raw_ie) : val := let '(id, c, o) := x in ie_val id (Z.of_N c) o.
Lemma raw_valid x : raw_ok x -> valid std_ie (raw_val x).
Proof.
  destruct x as [[id c] o]. intros (H1&H2&H3&H4). constructor; try reflexivity.
  - intros [|[|[|i]]] t; cbn; try discriminate. destruct i; discriminate.
  - intros [|[|[|i]]] op t w Hn Hv; cbn [nth_error] in *; try (injection Hn as <- <-; injection Hv as <-).
    + constructor. right. cbn. lia.
    + apply v_enum_root. assert (c = 0 \/ c = 1 \/ c = 2)%N as [-> | [-> | ->]] by lia; cbn; auto.
    + constructor; [exact I|]. apply bytes_in. exact H4.
    + destruct i; discriminate.
  - intros [|i]; discriminate.
  - intros _ w [].
Qed.
Lemma cont_valid' l : (N.of_nat (length l) <= 65535)%N -> (forall x, In x l -> raw_ok x) -> valid std_cont (list_val (map raw_val l)).
Proof.
  intros Hl Hr. constructor; try reflexivity.
  - intros [|i] t; cbn; [discriminate|destruct i; discriminate].
  - intros [|i] op t w Hn Hv; cbn [nth_error] in *; [|destruct i; discriminate].
    injection Hn as <- <-; injection Hv as <-. apply v_seqof; [right; rewrite map_length; cbn [c_lb c_ub]; lia|].
    intros v Hv. apply in_map_iff in Hv as (x&<-&Hx). apply raw_valid, Hr, Hx.
  - intros [|i]; discriminate.
  - intros _ w [].
Qed.
Lemma cont_encode l : (N.of_nat (length l) <= 65535)%N -> (forall x, In x l -> raw_ok x) ->
  encode std_cont (list_val (map raw_val l)) = Some (wire_body l).
Proof.
  intros Hl Hr. destruct (encode_total std_cont _ eq_refl (cont_valid' l Hl Hr)) as (o&Ho&_). rewrite Ho. f_equal.
  assert (Hm : map raw_val l = map (fun y => ie_val (fst (fst y)) (snd (fst y)) (snd y)) (map (fun x => (fst (fst x), Z.of_N (snd (fst x)), snd x)) l)).
  { rewrite map_map. apply map_ext. intros [[id c] x]. reflexivity. }
  rewrite Hm in Ho. apply cont_wire in Ho.
  - rewrite Ho. f_equal. rewrite map_map. rewrite <- (map_id l) at 2. apply map_ext. intros [[id c] x]. cbn [fst snd]. rewrite N2Z.id. reflexivity.
  - intros id c x Hin. apply in_map_iff in Hin as ([[id' c'] x']&He&Hin). cbn [fst snd] in He. assert (x' = x) by congruence. subst x'.
    destruct (Hr _ Hin) as (_&_&H&_). exact H.
Qed.
Lemma body_read m l rest : In m all_msgs -> (N.of_nat (length l) <= 65535)%N -> (forall x, In x l -> raw_ok x) ->
  body m (wire_body l ++ rest) = Some (map raw_val l).
Proof.
  intros Hm Hl Hr. unfold body. rewrite (all_cont m Hm), (decode_encode_rest _ _ _ rest (cont_encode l Hl Hr)). reflexivity.
Qed.
Lemma pdu_read P d p c o rest : is_std (p_pdu P) -> (1 <= d <= alternatives (p_pdu P))%N -> (p <= 255)%N -> (c <= 2)%N ->
  (N.of_nat (length o) < 16384)%N -> bytes_ok o = true ->
  pdu_in (p_pdu P) (wire_pdu d p c o ++ rest) = Some (d, p, Z.of_N c, o).
Proof.
  intros HP Hd Hp Hc Hn Ho.
  assert (Hg : good_hdr P d p (Z.of_N c)).
  { split; [exact Hd|]. split; [exact Hp|]. assert (c = 0 \/ c = 1 \/ c = 2)%N as [-> | [-> | ->]] by lia; cbn; auto. }
  destruct (encode_total _ _ (std_few _ HP) (pdu_valid P d p (Z.of_N c) o HP Hg Ho)) as (b&Hb&_).
  pose proof (pdu_wire P d p (Z.of_N c) o b HP ltac:(lia) Hn Hb) as He. rewrite N2Z.id in He. subst b.
  apply pdu_in_encode; [lia|exact Hb].
Qed.
Lemma body_octets m s o : In m all_msgs -> length (i_fields s) = length (m_rows m) -> encode_msg m s = Some o ->
  exists l,
    Forall2 (fun rf x => exists v w, snd rf = Some v /\ encode (r_ty (fst rf)) v = Some w /\
                                     x = (r_id (fst rf), Z.to_N (r_crit (fst rf)), w))
      (filter (fun rf => wanted m s (fst rf)) (combine (m_rows m) (i_fields s))) l /\
    ((forall x, In x l -> (N.of_nat (length (snd x)) < 16384)%N) -> o = wire_body l).
Proof.
  intros Hm Hlen H. unfold encode_msg, encode_ies in H. apply opt_inv in H as (v&Hv&H). apply opt_inv in Hv as (lst&El&Hv). sinj Hv.
  assert (Hx : forall rows fs lst, encode_rows m s rows fs = Some lst ->
    exists l, Forall2 (fun rf x => exists v w, snd rf = Some v /\ encode (r_ty (fst rf)) v = Some w /\
                                     x = (r_id (fst rf), Z.to_N (r_crit (fst rf)), w))
      (filter (fun rf => wanted m s (fst rf)) (combine rows fs)) l /\
      exists y, lst = map (fun y => ie_val (fst (fst y)) (snd (fst y)) (snd y)) y /\
        map (fun y => (fst (fst y), Z.to_N (snd (fst y)), snd y)) y = l).
  { clear. induction rows as [|r rows IH]; intros [|f fs] lst H; cbn [encode_rows combine filter fst] in *; try discriminate.
    - sinj H. exists []. split; [constructor|]. exists []. split; reflexivity.
    - sinj H. exists []. split; [constructor|]. exists []. split; reflexivity.
    - destruct (wanted m s r); [|apply IH, H].
      destruct f as [v|]; [|discriminate]. apply opt_inv in H as (ie&Hie&H). apply opt_inv in H as (l'&Hl&H). sinj H.
      destruct (IH _ _ Hl) as (l&Hf&y&->&Hy). unfold new_ie in Hie. destruct (encode (r_ty r) v) as [w|] eqn:Hw; [|discriminate]. sinj Hie.
      exists ((r_id r, Z.to_N (r_crit r), w) :: map (fun y => (fst (fst y), Z.to_N (snd (fst y)), snd y)) y). split.
      + constructor; [|exact Hf]. exists v, w. cbn [fst snd]. auto.
      + exists ((r_id r, r_crit r, w) :: y). split; reflexivity. }
  destruct (Hx _ _ _ El) as (l&Hf&y&->&Hy). exists l. split; [exact Hf|]. intros Hfit.
  rewrite (all_cont m Hm) in H. apply cont_wire in H; [rewrite <- Hy; exact H|].
  intros id c x Hin. apply (Hfit (id, Z.to_N c, x)). rewrite <- Hy. apply in_map_iff. exists (id, c, x). split; [reflexivity|exact Hin].
Qed.
Lemma generate_octets P d p c td out b : In P [ranap; rua; hnbap; sabp] -> (1 <= d)%N ->
  generate P d p c td out = Some b -> b <> [] ->
  exists o, encode td out = Some o /\ b = wire_pdu d p (Z.to_N c) o /\ (N.of_nat (length b) <= 1024)%N.
Proof.
  intros HP Hd H Hne. unfold generate in H. destruct (encode td out) as [o|]; [|discriminate]. sinj H. exists o. split; [reflexivity|].
  assert (Hs : is_std (p_pdu P) /\ p_cap P = 1024%N).
  { destruct HP as [<-|[<-|[<-|[<-|[]]]]]; (split; [|reflexivity]); [apply ranap_std|apply rua_std|apply hnbap_std|apply sabp_std]. }
  destruct Hs as [Hs Hcap]. unfold gen_msg in *. destruct (encode (p_pdu P) (pdu_val d p c o)) as [b|] eqn:Hb; [|congruence].
  rewrite Hcap in *. destruct (N.of_nat (length b) <=? 1024)%N eqn:Hfit; [|congruence]. split; [|lia].
  pose proof (pdu_len P d p c o b Hs Hb) as [_ Hlt]. apply pdu_wire in Hb; [exact Hb|exact Hs|exact Hd|]. lia.
Qed.
