(* Proofs for C90. *)
From Verif Require Import Base Aper Aper_proofs Aper_spec Aper_valid Container Container_proofs X691 X691_proofs Asn1_spec Asn1_proofs
  Interop_spec Interop_proofs Constr_proofs AllMsgs RanapTypes RuaTypes HnbapTypes RanapTab RuaTab HnbapTab SabpTab Factory_spec Factory Factory_len Factory_proofs
  Factory_msgs Factory_rab Helpers RuaFactory Hnb_spec Hnb Conform_spec.
From Verif Require Import RanapFull RuaFull HnbapFull SabpFull RanapProc RuaProc HnbapProc SabpProc RanapSpec RuaSpec HnbapSpec SabpSpec.
From Coq Require Import String List.
Import ListNotations.
Local Open Scope list_scope.

Lemma rows_ies (is : string -> list N -> Prop) m s : forall rows fs l,
  (forall i r v o, nth_error rows i = Some r -> wanted m s r = true -> nth_error fs i = Some (Some v) -> encode (r_ty r) v = Some o -> is (r_tyname r) o) ->
  encode_rows m s rows fs = Some l -> length fs = length rows -> ies_of is (map row_sig rows) l.
Proof.
  induction rows as [|r rows IH]; intros [|f fs] l Hin H Hl; cbn [encode_rows map] in *; try discriminate.
  - apply some_inv in H; subst l. constructor.
  - assert (Hr : forall i x v o, nth_error rows i = Some x -> wanted m s x = true -> nth_error fs i = Some (Some v) -> encode (r_ty x) v = Some o -> is (r_tyname x) o)
      by (intros i; exact (Hin (S i))).
    injection Hl as Hl. unfold row_sig at 1. destruct (wanted m s r) eqn:W.
    + destruct f as [v|]; [|discriminate]. apply opt_inv in H as (ie&Hie&H). apply opt_inv in H as (l'&Hl'&H). apply some_inv in H; subst l.
      unfold new_ie in Hie. destruct (encode (r_ty r) v) as [o|] eqn:E; [|discriminate]. apply some_inv in Hie; subst ie.
      apply ies_sent; [exact (Hin 0 r v o eq_refl W eq_refl E)|]. eapply IH; eassumption.
    + apply ies_left; [|eapply IH; eassumption]. unfold wanted, is_opt in W. destruct (r_pres r); [discriminate W|discriminate|discriminate].
Qed.

(* ---------------- the rows of the tables and the types of the protocol ---------------- *)
Definition row_b (Q : protocol) (r : row) : bool :=
  match lookup (r_tyname r) (pr_lists Q) with
  | Some (max, set) =>
      ty_eqb (r_ty r) compiled && (2 <=? max)%Z && (max <=? 256)%Z && check (pr_types Q) 200 (ARef (r_tyname r)) (container_list max) &&
      match lookup set (pr_sets Q) with Some [(_, _, _, _, Mandatory)] => true | _ => false end && negb (mem (r_tyname r) (map fst (pr_pairs Q)))
  | None =>
      check (pr_types Q) 200 (ARef (r_tyname r)) (r_ty r) &&
      match lookup (r_tyname r) (pr_pairs Q) with Some (max, set) => ty_eqb (r_ty r) (pair_list max) | None => true end
  end.
Definition rows_b (Q : protocol) (ms : list msgdef) : bool :=
  forallb (fun m => negb (mem (m_key m) (map snd (pr_procedures Q))) || forallb (row_b Q) (m_rows m)) ms.
Definition names_b (Q : protocol) : bool :=
  nodup_b (map fst (g_types (pr_types Q))) && nodup_b (map fst (g_consts (pr_types Q))) && nodup_b (map fst (pr_lists Q)) &&
  nodup_b (map fst (pr_pairs Q)) && nodup_b (map fst (pr_sets Q)).
Lemma lookup_nodup {A} (l : list (string * A)) k a : NoDup (map fst l) -> In (k, a) l -> lookup k l = Some a.
Proof.
  induction l as [|[x b] l IH]; intros Hn Hin; [destruct Hin|]. cbn [map fst] in Hn. inversion Hn as [|y r H1 H2]; subst. cbn [lookup].
  destruct Hin as [E|Hin]; [injection E as -> ->; rewrite String.eqb_refl; reflexivity|].
  destruct (String.eqb k x) eqn:E; [|apply IH; assumption]. apply String.eqb_eq in E. subst x. destruct H1. apply in_map_iff. exists (k, a). auto.
Qed.
Lemma lookup_none {A} (l : list (string * A)) k a : lookup k l = None -> ~ In (k, a) l.
Proof.
  induction l as [|[x b] l IH]; intros H Hin; [destruct Hin|]. cbn [lookup] in H. destruct (String.eqb k x) eqn:E; [discriminate|].
  destruct Hin as [Hin|Hin]; [injection Hin as -> _; rewrite String.eqb_refl in E; discriminate|exact (IH H Hin)].
Qed.
(* a row whose type is a list: the codec has [compiled], the object set of an element
   has one IE *)
Lemma row_list Q r max set : names_b Q = true -> row_b Q r = true -> In (r_tyname r, (max, set)) (pr_lists Q) ->
  r_ty r = compiled /\ (2 <= max <= 256)%Z /\ means (pr_types Q) (ARef (r_tyname r)) (container_list max) /\
  (forall decls, In (set, decls) (pr_sets Q) -> exists n id c ty, decls = [(n, id, c, ty, Mandatory)]) /\ ~ In (r_tyname r) (map fst (pr_pairs Q)).
Proof.
  intros Hn Hr Hin. unfold names_b in Hn. apply andb_prop in Hn as [Hn N5]. apply andb_prop in Hn as [Hn N4]. apply andb_prop in Hn as [Hn N3].
  apply nodup_b_ok in N3, N5. unfold row_b in Hr. rewrite (lookup_nodup _ _ _ N3 Hin) in Hr.
  apply andb_prop in Hr as [Hr H6]. apply andb_prop in Hr as [Hr H5]. apply andb_prop in Hr as [Hr H4]. apply andb_prop in Hr as [Hr H3]. apply andb_prop in Hr as [H1 H2].
  split; [apply ty_eqb_eq, H1|]. split; [lia|]. split; [apply (proj1 (check_sound _ 200)), H4|]. split.
  - intros decls Hd. rewrite (lookup_nodup _ _ _ N5 Hd) in H5. destruct decls as [|[[[[n id] c] ty] [| |]] [|? ?]]; try discriminate. exists n, id, c, ty. reflexivity.
  - intros Hp. rewrite (mem_in _ _ Hp) in H6. discriminate.
Qed.
Lemma row_other Q r : row_b Q r = true -> ~ In (r_tyname r) (map fst (pr_lists Q)) -> means (pr_types Q) (ARef (r_tyname r)) (r_ty r).
Proof.
  intros Hr Hn. unfold row_b in Hr. destruct (lookup (r_tyname r) (pr_lists Q)) as [x|] eqn:E.
  - destruct Hn. apply lookup_in in E. apply in_map_iff. exists (r_tyname r, x). auto.
  - apply andb_prop in Hr as [Hr _]. apply (proj1 (check_sound _ 200)), Hr.
Qed.
Lemma row_pair Q r max set : names_b Q = true -> row_b Q r = true -> In (r_tyname r, (max, set)) (pr_pairs Q) -> r_ty r = pair_list max.
Proof.
  intros Hn Hr Hin. assert (Hl : ~ In (r_tyname r) (map fst (pr_lists Q))).
  { intros H. apply in_map_iff in H as ([k [mx st]]&E&H). cbn [fst] in E. subst k. apply (row_list Q r mx st Hn Hr) in H as (_&_&_&_&H). apply H.
    apply in_map_iff. exists (r_tyname r, (max, set)). auto. }
  unfold names_b in Hn. apply andb_prop in Hn as [Hn _]. apply andb_prop in Hn as [_ N4]. apply nodup_b_ok in N4.
  unfold row_b in Hr. destruct (lookup (r_tyname r) (pr_lists Q)) as [x|] eqn:E.
  - destruct Hl. apply lookup_in in E. apply in_map_iff. exists (r_tyname r, x). auto.
  - apply andb_prop in Hr as [_ Hr]. rewrite (lookup_nodup _ _ _ N4 Hin) in Hr. apply ty_eqb_eq, Hr.
Qed.
Lemma is_list_dec Q k : {In k (map fst (pr_lists Q))} + {~ In k (map fst (pr_lists Q))}.
Proof. apply in_dec, string_dec. Qed.
(* the octets of a row *)
Lemma row_value Q r v o : names_b Q = true -> row_b Q r = true -> encode (r_ty r) v = Some o ->
  (forall max set, In (r_tyname r, (max, set)) (pr_lists Q) ->
     exists decls l, In (set, decls) (pr_sets Q) /\ ies_of (value_of (pr_types Q)) decls l /\ v = compiled_value l) ->
  (forall max set, In (r_tyname r, (max, set)) (pr_pairs Q) ->
     exists decls ll, In (set, decls) (pr_pair_sets Q) /\ Forall (pairs_of (value_of (pr_types Q)) decls) ll /\ v = VList (map VList ll)) ->
  ie_value Q (r_tyname r) o.
Proof.
  intros Hn Hr He HL HP. split; [|split].
  - destruct (is_list_dec Q (r_tyname r)) as [Hin|Hno].
    + apply in_map_iff in Hin as ([k [max set]]&E&Hin). cbn [fst] in E. subst k. destruct (row_list Q r max set Hn Hr Hin) as (Ht&Hm&Hmean&_).
      destruct (HL _ _ Hin) as (decls&l&_&_&->). rewrite Ht, <- (list_one max l Hm) in He. exists (container_list max), (VList [VList l]). split; [exact Hmean|apply encode_x691, He].
    + exists (r_ty r), v. split; [apply row_other; assumption|apply encode_x691, He].
  - intros max set Hin. destruct (row_list Q r max set Hn Hr Hin) as (Ht&Hm&_). destruct (HL _ _ Hin) as (decls&l&Hs&Hi&->).
    rewrite Ht, <- (list_one max l Hm) in He. exists decls, [l]. split; [exact Hs|]. split; [apply encode_x691; exact He|]. constructor; [exact Hi|constructor].
  - intros max set Hin. rewrite (row_pair Q r max set Hn Hr Hin) in He. destruct (HP _ _ Hin) as (decls&ll&Hs&Hi&->).
    exists decls, ll. split; [exact Hs|]. split; [apply encode_x691, He|exact Hi].
Qed.

(* ---------------- the common end of the functions ---------------- *)
Definition same_protocol (P : proto) (Q : protocol) (ms : list msgdef) : Prop :=
  names_b Q = true /\ rows_b Q ms = true /\ means (pr_types Q) (ARef (pr_pdu Q)) (p_pdu P) /\ forall m, In m ms -> In m all_msgs.
Lemma same_row P Q ms m r : same_protocol P Q ms -> In m ms -> In (m_key m) (map snd (pr_procedures Q)) -> In r (m_rows m) -> row_b Q r = true.
Proof.
  intros (_&H&_&_) Hm Hk Hr. unfold rows_b in H. rewrite forallb_forall in H. specialize (H _ Hm). rewrite (mem_in _ _ Hk) in H. cbn [negb orb] in H.
  rewrite forallb_forall in H. exact (H _ Hr).
Qed.
Lemma proc_key Q d p c k : In (d, p, c, k) (pr_procedures Q) -> In k (map snd (pr_procedures Q)).
Proof. intros H. apply in_map_iff. exists (d, p, c, k). auto. Qed.
(* the declarations of a table are those of its object set, but for some that are
   not mandatory *)
Fixpoint sub (a b : list sig) : bool :=
  match b with
  | [] => match a with [] => true | _ => false end
  | y :: b' =>
      match a with
      | x :: a' => if sig_eqb x y then sub a' b' else negb (pres_eqb (snd y) Mandatory) && sub a b'
      | [] => negb (pres_eqb (snd y) Mandatory) && sub [] b'
      end
  end.
Lemma not_mandatory p : negb (pres_eqb p Mandatory) = true -> p <> Mandatory.
Proof. intros H ->. discriminate H. Qed.
Lemma sub_ies (is : string -> list N -> Prop) : forall b a l, sub a b = true -> ies_of is a l -> ies_of is b l.
Proof.
  induction b as [|y b IH]; intros [|x a] l H Hi; cbn [sub] in H; try discriminate.
  - exact Hi.
  - apply andb_prop in H as [H1 H2]. destruct y as [[[[n id] c] ty] p]. apply ies_left; [apply not_mandatory, H1|apply (IH []); assumption].
  - destruct (sig_eqb x y) eqn:E.
    + apply sig_eqb_ok in E. subst y. inversion Hi; subst; [eapply ies_sent; eauto|apply ies_left; eauto].
    + apply andb_prop in H as [H1 H2]. destruct y as [[[[n id] c] ty] p]. apply ies_left; [apply not_mandatory, H1|apply (IH (x :: a)); assumption].
Qed.
(* the object set of a message type *)
Definition set_ok (Q : protocol) (d p : N) (c : Z) (m : msgdef) : Prop :=
  In (d, p, c, m_key m) (pr_procedures Q) /\ exists decls, In (m_key m, decls) (pr_sets Q) /\ sub (map row_sig (m_rows m)) decls = true.

Lemma generate_message P Q ms d p declared sent m s b l : same_protocol P Q ms -> In m ms -> set_ok Q d p declared m ->
  elements_given Q m s -> length (i_fields s) = length (m_rows m) -> encode_rows m s (m_rows m) (i_fields s) = Some l ->
  generate P d p sent (m_cont m) (list_val l) = Some b -> b <> [] -> message_of Q (m_key m) declared sent b.
Proof.
  intros HQ Hm [Hp (decls&Hs&Hsub)] HE Hl He Hg Hb. pose proof HQ as (Hn&_&Hpdu&Hall). unfold generate in Hg. destruct (encode (m_cont m) (list_val l)) as [o|] eqn:Eo; [|discriminate].
  apply some_inv in Hg. unfold gen_msg in Hg. destruct (encode (p_pdu P) (pdu_val d p sent o)) as [b'|] eqn:Eb; [|congruence].
  destruct (_ <=? _)%N; [|congruence]. subst b'.
  exists l, d, p, decls, (p_pdu P), o. split; [exact Hp|]. split; [exact Hs|]. split; [exact Hpdu|].
  split; [apply encode_x691, Eb|]. split.
  - apply encode_x691. rewrite <- body_same. rewrite (cont_compiled m (Hall m Hm)) in Eo. exact Eo.
  - eapply sub_ies; [exact Hsub|]. eapply rows_ies; [|exact He|exact Hl]. intros i r v o' Hr Hw Hv Ho'.
    destruct (HE _ _ _ Hr Hw Hv) as [HL HP]. apply (row_value Q r v o' Hn); [|exact Ho'|exact HL|exact HP].
    apply (same_row P Q ms m r HQ Hm (proc_key _ _ _ _ _ Hp)), (nth_error_In _ _ Hr).
Qed.
Lemma finish_message P Q ms d p declared sent m s mid ko b : same_protocol P Q ms -> In m ms -> set_ok Q d p declared m -> elements_given Q m s ->
  length (i_fields s) = length (m_rows m) ->
  r_msg (finish P d p sent m s mid ko) = Some b -> b <> [] -> message_of Q (m_key m) declared sent b.
Proof.
  intros HQ Hm Hs HE Hl H Hb. unfold finish, add_ies in H. pose proof (add_rows_snd m s (m_rows m) (i_fields s) 0) as Ha.
  destruct (add_rows m s (m_rows m) (i_fields s) 0) as [t r]. cbn [snd] in Ha. subst r.
  destruct (encode_rows m s (m_rows m) (i_fields s)) as [l|] eqn:El; [|discriminate].
  destruct (generate P d p sent (m_cont m) (list_val l)) as [b'|] eqn:Eg; [|discriminate]. cbn [r_msg] in H. apply some_inv in H; subst b'.
  eapply generate_message; eassumption.
Qed.
Lemma rua_message p m s pre b ev : In m rua_msgs -> set_ok rua_protocol 1 p 1 m -> elements_given rua_protocol m s -> length (i_fields s) = length (m_rows m) ->
  same_protocol rua rua_protocol rua_msgs -> rua_end p m s pre = Ok (mkWrapped (Some (b, ppi_rua)) ev) -> b <> [] ->
  message_of rua_protocol (m_key m) 1 0 b.
Proof.
  intros Hm Hs HE Hl HQ H Hb. unfold rua_end, add_ies in H. pose proof (add_rows_snd m s (m_rows m) (i_fields s) 0) as Ha.
  destruct (add_rows m s (m_rows m) (i_fields s) 0) as [t r]. cbn [snd] in Ha. subst r.
  destruct (encode_rows m s (m_rows m) (i_fields s)) as [l|] eqn:El; [|discriminate].
  destruct (generate rua 1 p 0 (m_cont m) (list_val l)) as [b'|] eqn:Eg; [|discriminate].
  assert (b' = b) by congruence. subst b'. eapply generate_message; eassumption.
Qed.

Lemma same_ok P Q ms : names_b Q && rows_b Q ms && check (pr_types Q) 200 (ARef (pr_pdu Q)) (p_pdu P) = true ->
  (forall m, In m ms -> In m all_msgs) -> same_protocol P Q ms.
Proof.
  intros H H3. apply andb_prop in H as [H H2]. apply andb_prop in H as [H0 H1]. split; [exact H0|]. split; [exact H1|]. split; [|exact H3].
  exact (proj1 (check_sound (pr_types Q) 200) _ _ H2).
Qed.
Lemma ranap_same : same_protocol ranap ranap_protocol ranap_msgs.
Proof. apply same_ok; [vm_compute; reflexivity|intros m H; unfold all_msgs; rewrite !in_app_iff; auto]. Qed.
Lemma rua_same : same_protocol rua rua_protocol rua_msgs.
Proof. apply same_ok; [vm_compute; reflexivity|intros m H; unfold all_msgs; rewrite !in_app_iff; auto]. Qed.
Lemma hnbap_same : same_protocol hnbap hnbap_protocol hnbap_msgs.
Proof. apply same_ok; [vm_compute; reflexivity|intros m H; unfold all_msgs; rewrite !in_app_iff; auto]. Qed.
Lemma sabp_same : same_protocol sabp sabp_protocol sabp_msgs.
Proof. apply same_ok; [vm_compute; reflexivity|intros m H; unfold all_msgs; rewrite !in_app_iff; auto]. Qed.
Lemma all_same P Q ms : In (P, Q, ms) protocols -> same_protocol P Q ms.
Proof. intros [H|[H|[H|[H|[]]]]]; injection H as <- <- <-; [apply ranap_same|apply rua_same|apply hnbap_same|apply sabp_same]. Qed.

(* ---------------- lists among the fields ---------------- *)
Definition plain_row (Q : protocol) (r : row) : bool := negb (mem (r_tyname r) (map fst (pr_lists Q))) && negb (mem (r_tyname r) (map fst (pr_pairs Q))).
Lemma plain_no_list Q r max set : plain_row Q r = true -> ~ In (r_tyname r, (max, set)) (pr_lists Q).
Proof.
  intros H Hin. apply andb_prop in H as [H _]. rewrite mem_in in H; [discriminate|]. apply in_map_iff. exists (r_tyname r, (max, set)). auto.
Qed.
Lemma plain_no_pair Q r max set : plain_row Q r = true -> ~ In (r_tyname r, (max, set)) (pr_pairs Q).
Proof.
  intros H Hin. apply andb_prop in H as [_ H]. rewrite mem_in in H; [discriminate|]. apply in_map_iff. exists (r_tyname r, (max, set)). auto.
Qed.
(* no field that is sent is a list *)
Lemma plain_given Q m s : forallb (fun r => plain_row Q r || negb (wanted m s r)) (m_rows m) = true -> elements_given Q m s.
Proof.
  intros H i r v Hr Hw _. rewrite forallb_forall in H. specialize (H _ (nth_error_In _ _ Hr)). rewrite Hw, Bool.orb_false_r in H.
  split; intros max set Hin; [destruct (plain_no_list _ _ _ _ H Hin)|destruct (plain_no_pair _ _ _ _ H Hin)].
Qed.
Lemma no_lists Q m s : forallb (plain_row Q) (m_rows m) = true -> elements_given Q m s.
Proof.
  intros H. apply plain_given. apply forallb_forall. intros r Hr. rewrite forallb_forall in H. rewrite (H _ Hr). reflexivity.
Qed.

(* ---------------- RANAP ---------------- *)
(* membership in the tables, by computation *)
Definition in_procs (x : procedure) (l : list procedure) : bool :=
  existsb (fun y => let '(d, p, c, s) := x in let '(d', p', c', s') := y in
    (d =? d')%N && (p =? p')%N && (c =? c')%Z && String.eqb s s') l.
Lemma in_procs_ok x l : in_procs x l = true -> In x l.
Proof.
  intros H. apply existsb_exists in H as (y&Hy&He). destruct x as [[[d p] c] s], y as [[[d' p'] c'] s'].
  repeat (apply andb_prop in He as [He ?]). apply N.eqb_eq in He, H1. apply Z.eqb_eq in H0. apply String.eqb_eq in H. subst. exact Hy.
Qed.
Definition in_sets (k : string) (l : list sig) (sets : list (string * list sig)) : bool :=
  existsb (fun y => String.eqb k (fst y) && sub l (snd y)) sets.
Lemma in_sets_ok k l sets : in_sets k l sets = true -> exists decls, In (k, decls) sets /\ sub l decls = true.
Proof.
  intros H. apply existsb_exists in H as ([k' l']&Hy&He). apply andb_prop in He as [H1 H2]. cbn [fst snd] in *.
  apply String.eqb_eq in H1. subst. exists l'. split; assumption.
Qed.
Lemma set_ok_b Q d p c m : in_procs (d, p, c, m_key m) (pr_procedures Q) && in_sets (m_key m) (map row_sig (m_rows m)) (pr_sets Q) = true -> set_ok Q d p c m.
Proof. intros H. apply andb_prop in H as [H1 H2]. split; [apply in_procs_ok, H1|apply in_sets_ok, H2]. Qed.
Lemma len_set {A} (x : A) : forall n l, length (set_nth n x l) = length l.
Proof. induction n as [|n IH]; intros [|a l]; cbn [set_nth length]; auto. Qed.
Lemma len_put m n v s : length (i_fields (put_ie m n v s)) = length (i_fields s).
Proof. apply len_set. Qed.
Lemma len_zero m : length (i_fields (zero m)) = length (m_rows m).
Proof. apply map_length. Qed.
Lemma len_ifs {A} (o : option A) f s n : length (i_fields s) = n -> (forall a, length (i_fields (f a s)) = n) -> length (i_fields (ifs o f s)) = n.
Proof. intros H1 H2. destruct o; [apply H2|exact H1]. Qed.
Ltac len := repeat first [apply len_zero|apply len_ifs; [|intros ?]|rewrite len_put|
  match goal with |- length (i_fields (set_mask ?f ?s)) = _ => change (i_fields (set_mask f s)) with (i_fields s)
                | |- length (i_fields (or_mask ?f ?s)) = _ => change (i_fields (or_mask f s)) with (i_fields s) end].
Ltac pick_msg := first [left; reflexivity|right; pick_msg].
Lemma ranap_fin d p c m s mid ko b k : r_msg (finish ranap d p c m s mid ko) = Some b -> b <> [] -> In m ranap_msgs ->
  in_procs (d, p, c, m_key m) ranap_procedures && in_sets (m_key m) (map row_sig (m_rows m)) ranap_spec = true ->
  elements_given ranap_protocol m s -> length (i_fields s) = length (m_rows m) -> m_key m = k -> conforming ranap_protocol k b.
Proof.
  intros H Hne Hm Hs HE Hl <-. exists c.
  exact (finish_message ranap ranap_protocol ranap_msgs d p c c m s mid ko b ranap_same Hm (set_ok_b ranap_protocol d p c m Hs) HE Hl H Hne).
Qed.
Ltac given := first [apply no_lists; vm_compute; reflexivity|idtac].
Ltac fin Hb := cbv zeta in Hb; apply (ranap_fin _ _ _ _ _ _ _ _ _ Hb); [assumption|abstract pick_msg|abstract (vm_compute; reflexivity)|given|abstract len|reflexivity].
Lemma c_reset d c r b : r_msg (new_msg_reset2 d c r) = Some b -> b <> [] -> conforming ranap_protocol "ResetIEs" b.
Proof. intros Hb Hne. unfold new_msg_reset2 in Hb. fin Hb. Qed.
Lemma c_reset_ack d r b : r_msg (new_msg_reset_ack d r) = Some b -> b <> [] -> conforming ranap_protocol "ResetAcknowledgeIEs" b.
Proof. intros Hb Hne. unfold new_msg_reset_ack in Hb. fin Hb. Qed.
Lemma c_error_ind c cd d r b : r_msg (new_msg_error_ind c cd d r) = Some b -> b <> [] -> conforming ranap_protocol "ErrorIndicationIEs" b.
Proof. intros Hb Hne. unfold new_msg_error_ind in Hb. fin Hb. Qed.
Lemma c_initial le i p g n b : r_msg (new_msg_initial_ue le i p g n) = Some b -> b <> [] -> conforming ranap_protocol "InitialUE-MessageIEs" b.
Proof. intros Hb Hne. unfold new_msg_initial_ue in Hb. fin Hb. Qed.
Lemma c_dt x n b : r_msg (new_msg_dt x n) = Some b -> b <> [] -> conforming ranap_protocol "DirectTransferIEs" b.
Proof. intros Hb Hne. unfold new_msg_dt in Hb. fin Hb. Qed.
Lemma c_sec_mod_cmd ik ck st ia ea b : r_msg (new_msg_sec_mod_cmd2 ik ck st ia ea) = Some b -> b <> [] -> conforming ranap_protocol "SecurityModeCommandIEs" b.
Proof.
  intros Hb Hne. unfold new_msg_sec_mod_cmd2 in Hb. destruct (alg_loop uia ia bits8) as [l [|]]; cbn [negb] in Hb; [|discriminate].
  destruct ck as [ck|]; [|cbn [r_msg] in Hb; fin Hb].
  destruct (alg_loop uea ea bits8) as [l' [|]]; cbn [negb] in Hb; [|discriminate]. cbn [r_msg] in Hb. fin Hb.
Qed.
Lemma c_sec_mod_compl x y b : r_msg (new_msg_sec_mod_compl x y) = Some b -> b <> [] -> conforming ranap_protocol "SecurityModeCompleteIEs" b.
Proof. intros Hb Hne. unfold new_msg_sec_mod_compl in Hb. fin Hb. Qed.
Lemma c_common_id i m b : new_msg_common_id i = Ok m -> r_msg m = Some b -> b <> [] -> conforming ranap_protocol "CommonID-IEs" b.
Proof.
  intros H Hb Hne. unfold new_msg_common_id in H. destruct i as [i|].
  - destruct (imsi_encode 16 16 i) as [o|]; cbn [obind] in H; [|discriminate]. injection H as <-. cbn [r_msg] in Hb. fin Hb.
  - injection H as <-. fin Hb.
Qed.
Lemma c_iu_rel_cmd c b : r_msg (new_msg_iu_rel_cmd c) = Some b -> b <> [] -> conforming ranap_protocol "Iu-ReleaseCommandIEs" b.
Proof. intros Hb Hne. unfold new_msg_iu_rel_cmd in Hb. fin Hb. Qed.
Lemma c_iu_rel_compl b : r_msg new_msg_iu_rel_compl = Some b -> b <> [] -> conforming ranap_protocol "Iu-ReleaseCompleteIEs" b.
Proof. intros Hb Hne. unfold new_msg_iu_rel_compl in Hb. fin Hb. apply plain_given. vm_compute. reflexivity. Qed.
Lemma c_paging imsi tmsi is_ps pc m b : new_msg_paging_cmd imsi tmsi is_ps pc = Ok m -> r_msg m = Some b -> b <> [] -> conforming ranap_protocol "PagingIEs" b.
Proof.
  intros H Hb Hne. unfold new_msg_paging_cmd in H. destruct (imsi_encode 16 16 imsi) as [o|]; cbn [obind] in H; [|discriminate]. injection H as <-. cbn [r_msg] in Hb.
  destruct (pc =? 0)%N; fin Hb.
Qed.
Lemma ranap_type n t o v : check ranap_full 200 (ARef n) t = true -> encode t v = Some o -> value_of ranap_full n o.
Proof. intros H He. exists t, v. split; [apply (proj1 (check_sound _ 200)), H|apply encode_x691, He]. Qed.
(* only the field of the row [k] that is sent is a list *)
Fixpoint plain_but (Q : protocol) (m : msgdef) (s : ies) (k : nat) (rows : list row) : bool :=
  match rows with
  | [] => true
  | r :: rows' =>
      match k with
      | O => forallb (fun r => plain_row Q r || negb (wanted m s r)) rows'
      | S k' => (plain_row Q r || negb (wanted m s r)) && plain_but Q m s k' rows'
      end
  end.
Lemma plain_but_ok Q m s : forall rows k i r, plain_but Q m s k rows = true -> nth_error rows i = Some r -> i <> k -> plain_row Q r || negb (wanted m s r) = true.
Proof.
  induction rows as [|r0 rows IH]; intros k i r H Hr Hne; [destruct i; discriminate|]. destruct k as [|k]; cbn [plain_but] in H.
  - destruct i as [|i]; [congruence|]. rewrite forallb_forall in H. exact (H _ (nth_error_In rows i Hr)).
  - apply andb_prop in H as [H1 H2]. destruct i as [|i]; [injection Hr as ->; exact H1|]. apply (IH k i r H2 Hr). congruence.
Qed.
Lemma one_list Q m s k v r : plain_but Q m s k (m_rows m) = true -> nth_error (m_rows m) k = Some r -> nth_error (i_fields s) k = Some (Some v) ->
  (forall max set, In (r_tyname r, (max, set)) (pr_lists Q) ->
     exists decls l, In (set, decls) (pr_sets Q) /\ ies_of (value_of (pr_types Q)) decls l /\ v = compiled_value l) ->
  (forall max set, In (r_tyname r, (max, set)) (pr_pairs Q) ->
     exists decls ll, In (set, decls) (pr_pair_sets Q) /\ Forall (pairs_of (value_of (pr_types Q)) decls) ll /\ v = VList (map VList ll)) -> elements_given Q m s.
Proof.
  intros H Hr Hv HL HP i r' v' Hr' Hw Hv'. destruct (Nat.eq_dec i k) as [->|Hne].
  - rewrite Hr in Hr'. rewrite Hv in Hv'. injection Hr' as <-. injection Hv' as <-. split; assumption.
  - pose proof (plain_but_ok _ _ _ _ _ _ _ H Hr' Hne) as X. rewrite Hw, Bool.orb_false_r in X.
    split; intros max set Hin; [destruct (plain_no_list _ _ _ _ X Hin)|destruct (plain_no_pair _ _ _ _ X Hin)].
Qed.
Lemma c_rab x y b : valid T_RANAP_RAB_SetupOrModifyItemFirst x -> valid T_RANAP_RAB_SetupOrModifyItemSecond y ->
  r_msg (rab_assign x y) = Some b -> b <> [] -> conforming ranap_protocol "RAB-AssignmentRequestIEs" b.
Proof.
  intros V1 V2 Hb Hne. destruct (encode_total _ _ (eq_refl : few_adds T_RANAP_RAB_SetupOrModifyItemFirst = true) V1) as (o1&E1&_).
  destruct (encode_total _ _ (eq_refl : few_adds T_RANAP_RAB_SetupOrModifyItemSecond = true) V2) as (o2&E2&_).
  unfold rab_assign, new_ie_pair in Hb. rewrite E1, E2 in Hb. cbn [r_msg] in Hb. fin Hb.
  eapply (one_list _ _ _ 0); [vm_compute; reflexivity|reflexivity|reflexivity| |].
  - intros max set Hin. exfalso. revert Hin. apply lookup_none. vm_compute. reflexivity.
  - intros max set [Hin|[]]. injection Hin as <- <-. eexists. exists [[VSeq [some_int 53; some_enum 0; Some (VOcts o1); some_enum 1; Some (VOcts o2)] []]].
    split; [left; reflexivity|]. split; [|reflexivity]. constructor; [|constructor].
    apply (pairs_sent _ _ 53%N); [|  |constructor].
    + eapply ranap_type; [|exact E1]. vm_compute. reflexivity.
    + eapply ranap_type; [|exact E2]. vm_compute. reflexivity.
Qed.
Lemma c_iu_rel_req c b : r_msg (new_msg_iu_rel_req c) = Some b -> b <> [] -> conforming ranap_protocol "Iu-ReleaseRequestIEs" b.
Proof. intros Hb Hne. unfold new_msg_iu_rel_req in Hb. fin Hb. Qed.
(* the item of a list *)
Lemma item_ies m s t l : add_ies m s = (t, Some l) -> length (i_fields s) = length (m_rows m) ->
  forallb (fun r => check ranap_full 200 (ARef (r_tyname r)) (r_ty r)) (m_rows m) = true -> ies_of (value_of ranap_full) (map row_sig (m_rows m)) l.
Proof.
  intros Ha Hl Hc. unfold add_ies in Ha. pose proof (add_rows_snd m s (m_rows m) (i_fields s) 0) as Hs. rewrite Ha in Hs. cbn [snd] in Hs.
  eapply rows_ies; [|symmetry; exact Hs|exact Hl]. intros i r v o Hr _ _ Ho. rewrite forallb_forall in Hc. eapply ranap_type; [exact (Hc _ (nth_error_In _ _ Hr))|exact Ho].
Qed.
Lemma set_of (k x : string) (l : list (string * (Z * string))) max set :
  forallb (fun e => negb (String.eqb (fst e) k) || String.eqb (snd (snd e)) x) l = true -> In (k, (max, set)) l -> set = x.
Proof. intros H Hin. rewrite forallb_forall in H. specialize (H _ Hin). cbn [fst snd] in H. rewrite String.eqb_refl in H. apply String.eqb_eq, H. Qed.
Lemma c_rab_rel_req x c b : r_msg (new_msg_rab_rel_req x c) = Some b -> b <> [] -> conforming ranap_protocol "RAB-ReleaseRequestIEs" b.
Proof.
  intros Hb Hne. unfold new_msg_rab_rel_req in Hb. destruct (add_ies _ _) as [t [l|]] eqn:Ea; cbn [r_msg] in Hb; [|discriminate]. fin Hb.
  eapply (one_list _ _ _ 0); [vm_compute; reflexivity|reflexivity|reflexivity| |].
  - intros max set Hin. assert (Hs : set = "RAB-ReleaseItemIEs"%string) by (revert Hin; apply set_of; vm_compute; reflexivity). subst set. eexists. exists l.
    split; [apply lookup_in; vm_compute; reflexivity|]. split; [|reflexivity]. refine (item_ies _ _ _ _ Ea _ _); [len|vm_compute; reflexivity].
  - intros max set Hin. exfalso. revert Hin. apply lookup_none. vm_compute. reflexivity.
Qed.
Lemma c_reset_resource d c ids r b : r_msg (new_msg_reset_resource d c ids r) = Some b -> b <> [] -> conforming ranap_protocol "ResetResourceIEs" b.
Proof.
  intros Hb Hne. unfold new_msg_reset_resource in Hb. destruct ids as [|id [|? ?]]; try discriminate.
  destruct (add_ies _ _) as [t [l|]] eqn:Ea; cbn [r_msg] in Hb; [|discriminate]. fin Hb.
  eapply (one_list _ _ _ 2); [destruct r; vm_compute; reflexivity|reflexivity|destruct r; reflexivity| |].
  - intros max set Hin. assert (Hs : set = "ResetResourceItemIEs"%string) by (revert Hin; apply set_of; vm_compute; reflexivity). subst set. eexists. exists l.
    split; [apply lookup_in; vm_compute; reflexivity|]. split; [|reflexivity]. refine (item_ies _ _ _ _ Ea _ _); [len|vm_compute; reflexivity].
  - intros max set Hin. exfalso. revert Hin. apply lookup_none. vm_compute. reflexivity.
Qed.
Lemma ranap_conforming : forall k mk b, do_call k = Ok mk -> r_msg mk = Some b -> b <> [] -> conforming ranap_protocol (ranap_set k) b.
Proof.
  intros k mk b H Hb Hne. destruct k; cbn [do_call] in H; cbn [ranap_set]; try (injection H as <-).
  - exact (c_reset _ _ _ _ Hb Hne).
  - exact (c_reset_ack _ _ _ Hb Hne).
  - exact (c_error_ind _ _ _ _ _ Hb Hne).
  - exact (c_initial _ _ _ _ _ _ Hb Hne).
  - exact (c_dt _ _ _ Hb Hne).
  - exact (c_sec_mod_cmd _ _ _ _ _ _ Hb Hne).
  - exact (c_sec_mod_compl _ _ _ Hb Hne).
  - exact (c_common_id _ _ _ H Hb Hne).
  - exact (c_iu_rel_cmd _ _ Hb Hne).
  - exact (c_iu_rel_compl _ Hb Hne).
  - exact (c_paging _ _ _ _ _ _ H Hb Hne).
  - destruct (voice_shape rab_id rtp_ip rtp_port x213) as (f&s&E&V1&V2). rewrite E in Hb. exact (c_rab _ _ _ V1 V2 Hb Hne).
  - destruct (data_shape rab_id gtp_ip gtp_tei x213) as (f&s&E&V1&V2). rewrite E in Hb. exact (c_rab _ _ _ V1 V2 Hb Hne).
  - exact (c_iu_rel_req _ _ Hb Hne).
  - exact (c_rab_rel_req _ _ _ Hb Hne).
  - exact (c_reset_resource _ _ _ _ _ Hb Hne).
Qed.

(* ---------------- RUA ---------------- *)
Lemma rua_made c b ev : do_rua c = Ok (mkWrapped (Some (b, ppi_rua)) ev) -> b <> [] -> message_of rua_protocol (rua_set c) 1 0 b.
Proof.
  intros H Hne.
  assert (L : forall p m s pre k, rua_end p m s pre = Ok (mkWrapped (Some (b, ppi_rua)) ev) -> In m rua_msgs ->
    in_procs (1%N, p, 1%Z, m_key m) rua_procedures && in_sets (m_key m) (map row_sig (m_rows m)) rua_spec = true ->
    length (i_fields s) = length (m_rows m) -> m_key m = k -> message_of rua_protocol k 1 0 b).
  { intros p m s pre k He Hm Hs Hl <-. assert (HE : elements_given rua_protocol m s) by (intros i r v _ _ _; split; intros max set []).
    exact (rua_message p m s pre b ev Hm (set_ok_b rua_protocol 1 p 1 m Hs) HE Hl rua_same He Hne). }
  destruct c as [[i|]|x y [i|]|x y [i|]|x y [i|]]; cbn [do_rua rua_new_udt rua_new_conn rua_new_dt rua_new_disc] in H; try discriminate.
  4: destruct i.
  all: cbv zeta in H; apply (L _ _ _ _ _ H); [abstract pick_msg|abstract (vm_compute; reflexivity)|abstract len|reflexivity].
Qed.
(* the octets determine the criticality *)
Lemma sent_once P Q ms set declared sent b : same_protocol P Q ms -> nodup_b (map fst (g_types (pr_types Q))) && nodup_b (map fst (g_consts (pr_types Q))) = true ->
  message_of Q set declared sent b ->
  exists d p o, encode (p_pdu P) (pdu_val d p sent o) = Some b /\ In (d, p, declared, set) (pr_procedures Q).
Proof.
  intros (_&_&Hm&_) Hn (l&d&p&decls&t&o&Hp&_&Ht&Hb&_). exists d, p, o. split; [|exact Hp].
  apply andb_prop in Hn as [H1 H2]. apply nodup_b_ok in H1, H2. rewrite <- (means_fun _ H1 H2 _ _ Ht _ Hm). apply encode_x691, Hb.
Qed.
Lemma not_conforming P Q ms set declared sent b : same_protocol P Q ms -> nodup_b (map fst (g_types (pr_types Q))) && nodup_b (map fst (g_consts (pr_types Q))) = true ->
  forallb (fun x => match fst (fst (fst x)) with 0%N => false | _ => true end) (pr_procedures Q) = true ->
  message_of Q set declared sent b ->
  (forall d p c s, In (d, p, declared, set) (pr_procedures Q) -> In (d, p, c, s) (pr_procedures Q) -> c <> sent) ->
  forall s, ~ conforming Q s b.
Proof.
  intros HS Hn Hz H Hc s [c Hx]. destruct (sent_once _ _ _ _ _ _ _ HS Hn H) as (d&p&o&E1&I1). destruct (sent_once _ _ _ _ _ _ _ HS Hn Hx) as (d'&p'&o'&E2&I2).
  apply decode_encode in E1. apply decode_encode in E2. rewrite E1 in E2. unfold pdu_val in E2. injection E2 as Ed Ep Ec _.
  apply N2Z.inj in Ep. subst p' c. rewrite forallb_forall in Hz. pose proof (Hz _ I1) as Z1. pose proof (Hz _ I2) as Z2. cbn [fst] in Z1, Z2.
  assert (d' = d) by (destruct d, d'; try discriminate; lia). subst d'. exact (Hc _ _ _ _ I1 I2 eq_refl).
Qed.
Lemma rua_not_conforming c b ev : do_rua c = Ok (mkWrapped (Some (b, ppi_rua)) ev) -> b <> [] -> forall s, ~ conforming rua_protocol s b.
Proof.
  intros H Hne. eapply not_conforming; [exact rua_same|vm_compute; reflexivity|vm_compute; reflexivity|exact (rua_made _ _ _ H Hne)|].
  intros d p c' s _ Hin. assert (A : forallb (fun x => Z.eqb (snd (fst x)) 1) rua_procedures = true) by reflexivity.
  rewrite forallb_forall in A. specialize (A _ Hin). cbn [fst snd] in A. lia.
Qed.

(* ---------------- HNBAP ---------------- *)
Lemma hnbap_made p m s b : send_hnbap p m s = Ok [HSend PPI_HNBAP b] -> forall declared k, b <> [] -> In m hnbap_msgs ->
  in_procs (1%N, p, declared, m_key m) hnbap_procedures && in_sets (m_key m) (map row_sig (m_rows m)) hnbap_spec = true ->
  length (i_fields s) = length (m_rows m) -> m_key m = k -> message_of hnbap_protocol k declared 0 b.
Proof.
  intros H declared k Hne Hm Hs Hl <-. unfold send_hnbap in H. destruct (r_msg (finish hnbap 1 p 0 m s [] true)) as [b'|] eqn:E; [|discriminate].
  assert (b' = b) by congruence. subst b'.
  assert (HE : elements_given hnbap_protocol m s) by (intros i r v _ _ _; split; intros max set []).
  exact (finish_message hnbap hnbap_protocol hnbap_msgs 1 p declared 0 m s [] true b hnbap_same Hm (set_ok_b hnbap_protocol 1 p declared m Hs) HE Hl E Hne).
Qed.
Lemma send_hnbap_one p m s e : send_hnbap p m s = Ok e -> exists b, e = [HSend PPI_HNBAP b].
Proof. unfold send_hnbap. destruct (r_msg _) as [b|]; [|discriminate]. intros H. injection H as <-. eauto. Qed.
Lemma register_conforming e b : send_register_req = Ok e -> In (HSend PPI_HNBAP b) e -> b <> [] -> conforming hnbap_protocol "HNBRegisterRequestIEs" b.
Proof.
  intros H Hin Hne. unfold send_register_req in H. destruct (send_hnbap_one _ _ _ _ H) as (b'&->). destruct Hin as [Hin|[]]. assert (b' = b) by congruence. subst b'.
  exists 0%Z. cbv zeta in H; apply (hnbap_made _ _ _ _ H); [exact Hne|abstract pick_msg|abstract (vm_compute; reflexivity)|abstract len|reflexivity].
Qed.
Lemma ue_register_conforming imsi e b : send_ue_register imsi = Ok e -> In (HSend PPI_HNBAP b) e -> b <> [] -> conforming hnbap_protocol "UERegisterRequestIEs" b.
Proof.
  intros H Hin Hne. unfold send_ue_register in H. destruct (imsi_encode 16 16 imsi) as [o|]; cbn [obind] in H; [|discriminate].
  destruct (snd (add_ies _ _)); [|discriminate]. destruct (send_hnbap_one _ _ _ _ H) as (b'&->). destruct Hin as [Hin|[]]. assert (b' = b) by congruence. subst b'.
  exists 0%Z. cbv zeta in H; apply (hnbap_made _ _ _ _ H); [exact Hne|abstract pick_msg|abstract (vm_compute; reflexivity)|abstract len|reflexivity].
Qed.
Lemma deregister_made e b : send_deregister_req = Ok e -> In (HSend PPI_HNBAP b) e -> b <> [] ->
  message_of hnbap_protocol "HNBDe-RegisterIEs" 1 0 b /\ forall s, ~ conforming hnbap_protocol s b.
Proof.
  intros H Hin Hne. unfold send_deregister_req in H. destruct (send_hnbap_one _ _ _ _ H) as (b'&->). destruct Hin as [Hin|[]]. assert (b' = b) by congruence. subst b'.
  assert (M : message_of hnbap_protocol "HNBDe-RegisterIEs" 1 0 b).
  { cbv zeta in H; apply (hnbap_made _ _ _ _ H); [exact Hne|abstract pick_msg|abstract (vm_compute; reflexivity)|abstract len|reflexivity]. }
  split; [exact M|]. eapply not_conforming; [exact hnbap_same|vm_compute; reflexivity|vm_compute; reflexivity|exact M|].
  intros d p c s H1 H2. assert (A : forallb (fun x => negb (String.eqb (snd x) "HNBDe-RegisterIEs") ||
    ((fst (fst (fst x)) =? 1)%N && (snd (fst (fst x)) =? 2)%N)) hnbap_procedures = true) by (vm_compute; reflexivity).
  assert (B : forallb (fun x => negb ((fst (fst (fst x)) =? 1)%N && (snd (fst (fst x)) =? 2)%N) || (snd (fst x) =? 1)%Z) hnbap_procedures = true) by (vm_compute; reflexivity).
  rewrite forallb_forall in A, B. specialize (A _ H1). specialize (B _ H2). cbn [fst snd pr_procedures hnbap_protocol] in *. rewrite String.eqb_refl in A. lia.
Qed.

(* ---------------- any message ---------------- *)
Lemma sets_b : forallb (fun x => forallb (fun m => mem (m_key m) lacking || in_sets (m_key m) (map row_sig (m_rows m)) (pr_sets (snd (fst x)))) (snd x)) protocols = true.
Proof. vm_compute. reflexivity. Qed.
Lemma any_set P Q ms m d p c : In (P, Q, ms) protocols -> In m ms -> ~ In (m_key m) lacking -> In (d, p, c, m_key m) (pr_procedures Q) -> set_ok Q d p c m.
Proof.
  intros HP Hm Hn Hp. pose proof (proj1 (forallb_forall _ _) sets_b _ HP) as A. cbn [fst snd] in A. pose proof (proj1 (forallb_forall _ _) A _ Hm) as B. cbv beta in B.
  rewrite (mem_out _ _ Hn) in B. cbn [orb] in B. split; [exact Hp|apply in_sets_ok, B].
Qed.
Lemma any_conforming P Q ms m d p c s v b : In (P, Q, ms) protocols -> In m ms -> ~ In (m_key m) lacking -> In (d, p, c, m_key m) (pr_procedures Q) ->
  elements_given Q m s -> length (i_fields s) = length (m_rows m) -> encode_ies m s = Some v -> generate P d p c (m_cont m) v = Some b -> b <> [] -> conforming Q (m_key m) b.
Proof.
  intros HP Hm Hn Hp HE Hl He Hg Hb. unfold encode_ies in He. destruct (encode_rows m s (m_rows m) (i_fields s)) as [l|] eqn:El; [|discriminate].
  cbn [obind2] in He. apply some_inv in He. subst v. exists c. eapply generate_message; [apply all_same, HP|exact Hm|eapply any_set; eassumption|exact HE|exact Hl|exact El|exact Hg|exact Hb].
Qed.
