(* Exactly which PDUs reach the callback *)
From Coq Require Import String List.
From Verif Require Import Base Aper Container Container_proofs RanapTypes RanapTab AllMsgs DispatchTab Dispatch Dispatch_proofs RanapProc Deliver_spec.
Local Open Scope list_scope.

Definition accepts (P : path) : list (N * N * string) :=
  flat_map (fun d => map (fun e => (d, fst e, m_key (snd e))) (table_of P d)) dirs.
Definition entry_eqb (a b : N * N * string) : bool :=
  let '(d, p, k) := a in let '(d', p', k') := b in (d =? d')%N && (p =? p')%N && String.eqb k k'.
Lemma entry_eqb_eq a b : entry_eqb a b = true <-> a = b.
Proof.
  destruct a as [[d p] k], b as [[d' p'] k']. cbn [entry_eqb]. rewrite !andb_true_iff, !N.eqb_eq, String.eqb_eq.
  split; [intros [[-> ->] ->]; reflexivity|intros E; injection E; auto].
Qed.
Definition incl_b (a b : list (N * N * string)) : bool := forallb (fun x => existsb (entry_eqb x) b) a.
Lemma incl_b_in a b : incl_b a b = true -> forall x, In x a -> In x b.
Proof.
  intros H x Hx. pose proof (proj1 (forallb_forall _ _) H x Hx) as E. apply existsb_exists in E. destruct E as (y&Hy&E).
  apply entry_eqb_eq in E. subst. exact Hy.
Qed.
Fixpoint codes_once (tab : list (N * msgdef)) : bool :=
  match tab with [] => true | (c, _) :: r => negb (existsb (fun e => (fst e =? c)%N) r) && codes_once r end.
Lemma codes_once_case tab c m : codes_once tab = true -> In (c, m) tab -> case_of c tab = Some m.
Proof.
  induction tab as [|[c' m'] tab IH]; intros H Hin; [destruct Hin|]. cbn [codes_once] in H. apply andb_true_iff in H. destruct H as [H1 H2].
  cbn [case_of]. destruct Hin as [E|Hin].
  - injection E as -> ->. rewrite N.eqb_refl. reflexivity.
  - destruct (N.eqb_spec c c') as [->|]; [|exact (IH H2 Hin)]. apply negb_true_iff in H1.
    assert (existsb (fun e => (fst e =? c')%N) tab = true); [|congruence]. apply existsb_exists. exists (c', m). split; [exact Hin|apply N.eqb_refl].
Qed.
Lemma once_b : forallb (fun P => forallb (fun d => codes_once (table_of P d)) dirs) paths = true.
Proof. vm_compute. reflexivity. Qed.
Lemma accepts_dec P d p k : In P paths -> (In (d, p, k) (accepts P) <-> option_map m_key (decoded_as P d p) = Some k).
Proof.
  intros HP. unfold accepts, decoded_as. rewrite in_flat_map. split.
  - intros (d'&Hd&H). apply in_map_iff in H. destruct H as ([c m]&E&Hin). cbn [fst snd] in E. injection E as -> -> <-.
    pose proof (proj1 (forallb_forall _ _) once_b P HP) as HF. pose proof (proj1 (forallb_forall _ _) HF d Hd) as HG.
    unfold table_of in *. destruct (dec_tab P d); [|destruct Hin]. rewrite (codes_once_case _ _ _ HG Hin). reflexivity.
  - intros H. exists d. split.
    + apply (dec_tab_dirs P d HP). intros E. rewrite E in H. discriminate.
    + unfold table_of. destruct (dec_tab P d); [|discriminate]. destruct (case_of p l) as [m|] eqn:E; [|discriminate].
      cbn [option_map] in H. injection H as <-. apply in_map_iff. exists (p, m). split; [reflexivity|exact (case_in _ _ _ E)].
Qed.
Lemma list_dec P l : In P paths -> incl_b (accepts P) l = true -> incl_b l (accepts P) = true ->
  forall d p k, In (d, p, k) l <-> option_map m_key (decoded_as P d p) = Some k.
Proof.
  intros HP H1 H2 d p k. rewrite <- (accepts_dec P d p k HP). split; apply incl_b_in; assumption.
Qed.
Lemma cn_co_list d p k : In (d, p, k) cn_connection <-> option_map m_key (decoded_as cn_co d p) = Some k.
Proof. apply list_dec; [cbn; tauto| |]; vm_compute; reflexivity. Qed.
Lemma cn_cl_list d p k : In (d, p, k) cn_connectionless <-> option_map m_key (decoded_as cn_cl d p) = Some k.
Proof. apply list_dec; [cbn; tauto| |]; vm_compute; reflexivity. Qed.
Lemma ran_co_list d p k : In (d, p, k) ran_connection <-> option_map m_key (decoded_as ran_co d p) = Some k.
Proof. apply list_dec; [cbn; tauto| |]; vm_compute; reflexivity. Qed.

(* a generated message type is known by its name *)
Definition named (k : string) : option msgdef := find (fun m => String.eqb k (m_key m)) ranap_msgs.
Definition decoders (P : path) : list msgdef := flat_map (fun d => map snd (table_of P d)) dirs.
Lemma decoders_named : forall P, In P paths -> map (fun m => named (m_key m)) (decoders P) = map Some (decoders P).
Proof. intros P [<- | [<- | [<- | []]]]; vm_compute; reflexivity. Qed.
Fixpoint names_once (l : list msgdef) : bool :=
  match l with [] => true | m :: r => negb (existsb (fun x => String.eqb (m_key m) (m_key x)) r) && names_once r end.
Lemma ranap_names_once : names_once ranap_msgs = true. Proof. vm_compute. reflexivity. Qed.
Lemma names_find l m : names_once l = true -> In m l -> find (fun x => String.eqb (m_key m) (m_key x)) l = Some m.
Proof.
  induction l as [|x l IH]; [intros _ []|]. intros H [->|Hin]; cbn [names_once find] in *.
  - rewrite String.eqb_refl. reflexivity.
  - apply andb_true_iff in H. destruct H as [H1 H2]. destruct (String.eqb_spec (m_key m) (m_key x)) as [E|]; [|exact (IH H2 Hin)].
    apply negb_true_iff in H1. assert (existsb (fun y => String.eqb (m_key x) (m_key y)) l = true); [|congruence].
    apply existsb_exists. exists m. split; [exact Hin|]. rewrite E. apply String.eqb_refl.
Qed.
Lemma decoded_named P d p m k : In P paths -> option_map m_key (decoded_as P d p) = Some k -> In m ranap_msgs -> m_key m = k ->
  decoded_as P d p = Some m.
Proof.
  intros HP H Hm Hk. destruct (decoded_as P d p) as [m'|] eqn:E; [|discriminate]. cbn [option_map] in H. injection H as H.
  assert (Hin : In m' (decoders P)).
  { unfold decoders. apply in_flat_map. unfold decoded_as in E. destruct (dec_tab P d) as [tab|] eqn:Et; [|discriminate].
    exists d. split; [apply (dec_tab_dirs P d HP); congruence|]. unfold table_of. rewrite Et. apply in_map_iff. exists (p, m'). split; [reflexivity|exact (case_in _ _ _ E)]. }
  assert (Hn : named (m_key m') = Some m').
  { pose proof (decoders_named P HP) as Hd. clear - Hin Hd. induction (decoders P) as [|x l IH]; [destruct Hin|]. cbn [map] in Hd. injection Hd as Hx Hl.
    destruct Hin as [->|Hin]; [exact Hx|exact (IH Hin Hl)]. }
  assert (Hn' : named (m_key m) = Some m) by (apply names_find; [exact ranap_names_once|exact Hm]).
  f_equal. rewrite H, <- Hk in Hn. congruence.
Qed.

(* the callback, for each PDU *)
Lemma accepted P l data d p cr b k m : In P paths -> (forall d p k, In (d, p, k) l <-> option_map m_key (decoded_as P d p) = Some k) ->
  pdu_parts data = Some (d, p, cr, b) -> In (d, p, k) l -> In m ranap_msgs -> m_key m = k ->
  decode2 P data = mkDec2 (if d_ok (decode_msg m b) then 0 else -1) (mkRmsg d p cr (Some (m, d_ies (decode_msg m b)))) (d_lost (decode_msg m b)).
Proof.
  intros HP Hl Hp Hin Hm Hk. pose proof (decode2_shape P data) as H. rewrite Hp in H.
  rewrite (decoded_named P d p m k HP (proj1 (Hl d p k) Hin) Hm Hk) in H. exact H.
Qed.
Lemma not_accepted P l data d p cr b : (forall d p k, In (d, p, k) l <-> option_map m_key (decoded_as P d p) = Some k) ->
  pdu_parts data = Some (d, p, cr, b) -> (forall k, ~ In (d, p, k) l) -> e_rc (decode2 P data) = rc_default P.
Proof.
  intros Hl Hp Hn. pose proof (decode2_shape P data) as H. rewrite Hp in H. destruct (decoded_as P d p) as [m|] eqn:E; [|apply H].
  destruct (Hn (m_key m)). apply Hl. rewrite E. reflexivity.
Qed.
Lemma cn_co_exact data d p cr b : pdu_parts data = Some (d, p, cr, b) ->
  (forall k m, In (d, p, k) cn_connection -> In m ranap_msgs -> m_key m = k ->
     x_calls (rx_cn_co data) = if d_ok (decode_msg m b) then [mkRmsg d p cr (Some (m, d_ies (decode_msg m b)))] else []) /\
  ((forall k, ~ In (d, p, k) cn_connection) -> x_calls (rx_cn_co data) = [] /\ x_rc (rx_cn_co data) = (-1)%Z).
Proof.
  intros Hp. split.
  - intros k m Hin Hm Hk. unfold rx_cn_co. rewrite (accepted cn_co cn_connection data d p cr b k m ltac:(cbn; tauto) cn_co_list Hp Hin Hm Hk).
    cbn [e_rc e_msg e_lost]. destruct (d_ok _); reflexivity.
  - intros Hn. unfold rx_cn_co. rewrite (not_accepted cn_co cn_connection data d p cr b cn_co_list Hp Hn). split; reflexivity.
Qed.
Lemma ran_co_exact data d p cr b : pdu_parts data = Some (d, p, cr, b) ->
  (forall k m, In (d, p, k) ran_connection -> In m ranap_msgs -> m_key m = k ->
     x_calls (rx_ran_co data) = if d_ok (decode_msg m b) then [mkRmsg d p cr (Some (m, d_ies (decode_msg m b)))] else []) /\
  ((forall k, ~ In (d, p, k) ran_connection) -> x_calls (rx_ran_co data) = [] /\ x_rc (rx_ran_co data) = (-1)%Z).
Proof.
  intros Hp. split.
  - intros k m Hin Hm Hk. unfold rx_ran_co, rx_free. rewrite (accepted ran_co ran_connection data d p cr b k m ltac:(cbn; tauto) ran_co_list Hp Hin Hm Hk).
    cbn [e_rc e_msg e_lost x_calls]. destruct (d_ok _); reflexivity.
  - intros Hn. unfold rx_ran_co, rx_free. cbn [x_calls x_rc]. rewrite (not_accepted ran_co ran_connection data d p cr b ran_co_list Hp Hn). split; reflexivity.
Qed.
Lemma cn_cl_exact data d p cr b : pdu_parts data = Some (d, p, cr, b) ->
  (forall k m, In (d, p, k) cn_connectionless -> In m ranap_msgs -> m_key m = k ->
     x_calls (rx_cn_cl data) = if d_ok (decode_msg m b) then [mkRmsg d p cr (Some (m, d_ies (decode_msg m b)))] else []) /\
  ((forall k, ~ In (d, p, k) cn_connectionless) ->
     x_calls (rx_cn_cl data) = [if (d <=? 2)%N then mkRmsg d p cr None else mkRmsg d 0 0 None] /\ x_rc (rx_cn_cl data) = 0%Z).
Proof.
  intros Hp. split.
  - intros k m Hin Hm Hk. unfold rx_cn_cl, rx_free. rewrite (accepted cn_cl cn_connectionless data d p cr b k m ltac:(cbn; tauto) cn_cl_list Hp Hin Hm Hk).
    cbn [e_rc e_msg e_lost x_calls]. destruct (d_ok _); reflexivity.
  - intros Hn. assert (Hd : decoded_as cn_cl d p = None).
    { destruct (decoded_as cn_cl d p) as [m|] eqn:E; [|reflexivity]. destruct (Hn (m_key m)). apply cn_cl_list. rewrite E. reflexivity. }
    destruct (pdu_parts_range data d p cr b Hp) as (Hr&_&_).
    unfold rx_cn_cl, rx_free, decode2. cbn [x_calls x_rc]. rewrite Hp. unfold decoded_as in Hd.
    destruct Hr as [-> | [-> | [-> | ->]]]; cbn [dec_tab cn_cl rc_default] in *; cbn [N.eqb Pos.eqb PR_initiatingMessage PR_successfulOutcome] in *;
      try rewrite Hd; split; reflexivity.
Qed.
(* memory after a delivery *)
Lemma cn_co_released data : x_rc (rx_cn_co data) = 0%Z -> ids_once cn_co data -> x_freed (rx_cn_co data) = Some (x_alloc (rx_cn_co data)).
Proof.
  intros H Hi. unfold rx_cn_co in *. destruct (e_rc (decode2 cn_co data) =? 0)%Z eqn:E; cbn [x_rc x_freed x_alloc] in *.
  - rewrite (nothing_lost cn_co data ltac:(cbn; tauto) Hi), app_nil_r. apply frees_held. cbn; tauto.
  - rewrite H in E. discriminate.
Qed.
Lemma released data :
  (x_rc (rx_cn_co data) = 0%Z -> ids_once cn_co data -> x_freed (rx_cn_co data) = Some (x_alloc (rx_cn_co data))) /\
  (ids_once cn_cl data -> x_freed (rx_cn_cl data) = Some (x_alloc (rx_cn_cl data))) /\
  (ids_once ran_co data -> x_freed (rx_ran_co data) = Some (x_alloc (rx_ran_co data))).
Proof.
  split; [apply cn_co_released|]. unfold rx_cn_cl, rx_ran_co, rx_free. cbn [x_freed x_alloc]. split; intros H.
  - rewrite (nothing_lost cn_cl data ltac:(cbn; tauto) H), app_nil_r. apply frees_held. cbn; tauto.
  - rewrite (nothing_lost ran_co data ltac:(cbn; tauto) H), app_nil_r. apply frees_held. cbn; tauto.
Qed.
