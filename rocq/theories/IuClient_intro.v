(* Proofs for C104 *)
From Coq Require Import ZifyBool ZifyNat ZifyN Sorted.
From Verif Require Import Base Lai Lai_proofs IuClient IuClient_frame IuClient_spec IuClient_reg IuClient_step IuClient_inv IuClient_area IuClient_conn IuClient_life IuClient_life2 IuClient_loss IuClient_iso_spec.

Section Talk.
Variable E : env.
Variable p : ptr.
(* with [flag]: nothing is to be said about [p] once the trace has [size] entries *)
Variable flag : bool.
Variable size : nat.

Definition is_intro (e : eff) : Prop := exists nas ra sai, e = ERecv p nas (Some ra) (Some sai).
Definition said (t : list eff) : Prop := exists e, In e t /\ subject e = Some p.
Definition freed (t : list eff) : Prop := In (EApi (AFreeUe (Some p))) t \/ (flag = true /\ size <= length t).
(* newest first *)
Definition clean (t : list eff) : Prop :=
  forall t1 e t2, t = t1 ++ e :: t2 -> subject e = Some p -> ~ freed t2 /\ (said t2 \/ is_intro e).
Definition here (s : st) : Prop := exists u, In u (s_ues s) /\ u_ptr u = p.
Record J (w : world) : Prop := {
  j_next : forall u, In u (s_ues (w_st w)) -> (u_ptr u < s_next (w_st w))%N;
  j_said : said (w_tr w) -> (p < s_next (w_st w))%N;
  j_here : here (w_st w) -> said (w_tr w);
  j_len : flag = true -> size <= length (w_tr w);
  j_free : freed (w_tr w) -> (p < s_next (w_st w))%N /\ ~ here (w_st w);
  j_clean : clean (w_tr w) }.
Definition jpat {A} (m : M A) (w : world) : Prop :=
  J w -> clean (w_tr (fst (m w))) /\ (snd (m w) <> None -> J (fst (m w))).
Definition jp {A} (m : M A) : Prop := forall w, jpat m w.
Definition jps {A} (s : st) (m : M A) : Prop := forall w, w_st w = s -> jpat m w.
(* a change of state that makes no contexts *)
Definition sle (s s' : st) : Prop := (s_next s <= s_next s')%N /\
  forall u', In u' (s_ues s') -> exists u, In u (s_ues s) /\ u_ptr u' = u_ptr u.

Lemma said_cons e t : subject e <> Some p -> said (e :: t) -> said t.
Proof. intros H (x&[<-|Hx]&Hs); [contradiction|exists x; auto]. Qed.
Lemma freed_cons e t : (flag = true -> size <= length t) -> e <> EApi (AFreeUe (Some p)) -> freed (e :: t) -> freed t.
Proof. intros Hl H [[Hx|Hx]|[Hx _]]; [contradiction|left; exact Hx|right; auto]. Qed.
Lemma clean_cons e t : (subject e = Some p -> ~ freed t /\ (said t \/ is_intro e)) -> clean t -> clean (e :: t).
Proof.
  intros He Hc t1 x t2 Heq Hs. destruct t1 as [|y t1]; cbn [List.app] in Heq; injection Heq as -> ->; [exact (He Hs)|].
  eapply Hc; [reflexivity|exact Hs].
Qed.
Lemma clean_other e t : subject e <> Some p -> clean t -> clean (e :: t).
Proof. intros H. apply clean_cons. intros Hs. contradiction. Qed.
Lemma jp_ret {A} (a : A) : jp (ret a).
Proof. intros w H. split; [apply H|]. intros _. exact H. Qed.
Lemma jp_get : jp get.
Proof. intros w H. split; [apply H|]. intros _. exact H. Qed.
Lemma jp_trace : jp trace.
Proof. intros w H. split; [apply H|]. intros _. exact H. Qed.
Lemma jp_fail {A} f : jp (@fail A f).
Proof. intros w H. split; [cbn; apply clean_other; [discriminate|apply H]|]. intros Hx. exfalso. apply Hx. reflexivity. Qed.
Lemma jp_lift {A} (o : outcome A) : jp (lift o).
Proof. destruct o; [apply jp_ret|apply jp_fail]. Qed.
(* nothing is said about [p], nor is it freed *)
Lemma J_emit e w : subject e <> Some p -> e <> EApi (AFreeUe (Some p)) -> J w -> J (mkW (w_st w) (e :: w_tr w)).
Proof.
  intros H1 H2 H. constructor; cbn [w_st w_tr].
  - apply H.
  - intros Hs. apply (j_said _ H). eapply said_cons; eauto.
  - intros Hh. destruct (j_here _ H Hh) as (x&Hx&Hs). exists x. split; [right; exact Hx|exact Hs].
  - intros Hf. pose proof (j_len _ H Hf). cbn [length]. lia.
  - intros Hf. apply (j_free _ H). eapply freed_cons; eauto using j_len.
  - apply clean_other; [exact H1|apply H].
Qed.
Lemma jp_emit e : subject e <> Some p -> e <> EApi (AFreeUe (Some p)) -> jp (emit e).
Proof. intros H1 H2 w H. pose proof (J_emit e w H1 H2 H) as HJ. split; [apply HJ|intros _; exact HJ]. Qed.
(* [p] is there and something is said about it *)
Lemma J_say e w : here (w_st w) -> e <> EApi (AFreeUe (Some p)) -> J w -> J (mkW (w_st w) (e :: w_tr w)).
Proof.
  intros Hh He H. pose proof (j_here _ H Hh) as Hs. constructor; cbn [w_st w_tr].
  - apply H.
  - intros _. apply (j_said _ H Hs).
  - intros _. destruct Hs as (x&Hx&Hsx). exists x. split; [right; exact Hx|exact Hsx].
  - intros Hf. pose proof (j_len _ H Hf). cbn [length]. lia.
  - intros Hf. apply (j_free _ H). eapply freed_cons; eauto using j_len.
  - apply clean_cons; [|apply H]. intros _. split; [|left; exact Hs]. intros Hf. apply (j_free _ H Hf), Hh.
Qed.
Lemma jpat_bind {A B} (m : M A) (k : A -> M B) w : jpat m w -> (forall a w', m w = (w', Some a) -> jpat (k a) w') -> jpat (bind m k) w.
Proof.
  intros Hm Hk H. destruct (Hm H) as [Hc Hj]. unfold bind in *. destruct (m w) as [w' [a|]]; cbn [fst snd] in *.
  - apply (Hk a w' eq_refl). apply Hj. discriminate.
  - split; [exact Hc|]. intros Hx. exfalso. apply Hx. reflexivity.
Qed.
Lemma jp_bind {A B} (m : M A) (k : A -> M B) : jp m -> (forall a, jp (k a)) -> jp (bind m k).
Proof. intros Hm Hk w. apply jpat_bind; [apply Hm|]. intros a w' _. apply Hk. Qed.
Lemma jp_getb {B} (k : st -> M B) : (forall s, jps s (k s)) -> jp (bind get k).
Proof. intros Hk w. unfold jpat. rewrite bind_get. apply Hk. reflexivity. Qed.
Lemma jps_jp {A} s (m : M A) : jp m -> jps s m.
Proof. intros H w _. apply H. Qed.
Lemma here_sle s s' : sle s s' -> here s' -> here s.
Proof. intros (_&H) (u&Hu&Hp). destruct (H u Hu) as (v&Hv&Hvp). exists v. split; [exact Hv|congruence]. Qed.
Lemma jps_put s s' : sle s s' -> jps s (put_st s').
Proof.
  intros Hle w <- H. pose proof Hle as (Hn&Hu). cbn [put_st fst snd w_tr]. split; [apply H|]. intros _. constructor; cbn [w_st w_tr].
  - intros u Hi. destruct (Hu u Hi) as (v&Hv&->). pose proof (j_next _ H v Hv). lia.
  - intros Hs. pose proof (j_said _ H Hs). lia.
  - intros Hh. apply (j_here _ H). eapply here_sle; eauto.
  - apply H.
  - intros Hf. destruct (j_free _ H Hf) as [H1 H2]. split; [lia|]. intros Hh. apply H2. eapply here_sle; eauto.
  - apply H.
Qed.
Lemma jps_putb {B} s s' (k : unit -> M B) : sle s s' -> jp (k tt) -> jps s (bind (put_st s') k).
Proof. intros Hs Hk w Hw. apply jpat_bind; [apply (jps_put s s' Hs w Hw)|]. intros [] w' _. apply Hk. Qed.
Lemma jps_bind {A B} s (m : M A) (k : A -> M B) : jps s m -> (forall a, jp (k a)) -> jps s (bind m k).
Proof. intros Hm Hk w Hw. apply jpat_bind; [apply Hm, Hw|]. intros a w' _. apply Hk. Qed.
Lemma jp_deref q : jp (deref q).
Proof. unfold deref. apply jp_bind; [apply jp_get|]. intros s. destruct (live s q); [apply jp_ret|apply jp_fail]. Qed.
Lemma sle_ues s s' : (s_next s <= s_next s')%N -> s_ues s' = s_ues s -> sle s s'.
Proof. intros Hn Hu. split; [exact Hn|]. intros u Hi. rewrite Hu in Hi. exists u. auto. Qed.
Lemma sle_filter s f : sle s (set_ues s (filter f (s_ues s))).
Proof. split; [apply N.le_refl|]. intros u Hi. cbn [set_ues s_ues] in Hi. apply filter_In in Hi as [Hi _]. exists u. auto. Qed.
Lemma sle_upd s q f : (forall u, u_ptr (f u) = u_ptr u) -> sle s (set_ues s (upd_ue q f (s_ues s))).
Proof.
  intros Hp. split; [apply N.le_refl|]. intros u Hi. cbn [set_ues s_ues] in Hi. unfold upd_ue in Hi.
  apply in_map_iff in Hi as (v&Hv&Hi). exists v. split; [exact Hi|]. destruct (u_ptr v =? q)%N; subst u; auto.
Qed.
Lemma jp_send r : jp (sccp_send E r).
Proof. unfold sccp_send. repeat (apply jp_bind; [|intros]); auto using jp_trace, jp_ret. apply jp_emit; discriminate. Qed.
Lemma jp_encode m : jp (encode E m).
Proof. unfold encode. destruct (enc_ok E m); [apply jp_ret|apply jp_fail]. Qed.

Ltac jj := repeat
  match goal with
  | |- jp (ret _) => apply jp_ret
  | |- jp (fail _) => apply jp_fail
  | |- jp (lift _) => apply jp_lift
  | |- jp trace => apply jp_trace
  | |- jp get => apply jp_get
  | |- jp (deref _) => apply jp_deref
  | |- jp (sccp_send _ _) => apply jp_send
  | |- jp (encode _ _) => apply jp_encode
  | |- jp (emit _) => apply jp_emit; discriminate
  | |- jp (bind (ue_conn_ctx_alloc _ _) _) => fail 1
  | |- jp (bind get _) => apply jp_getb; intros
  | |- jp (bind _ _) => apply jp_bind; [|intros]
  | |- jp (match ?x with _ => _ end) => destruct x
  | |- jps _ (match ?x with _ => _ end) => destruct x
  | |- jps _ (put_st _) => apply jps_put
  | |- jps _ (bind get _) => apply jps_jp
  | |- jps _ (bind (put_st _) _) => apply jps_putb
  | |- jps _ (bind _ _) => apply jps_bind; [|intros]
  | |- jps _ _ => apply jps_jp
  end.
Lemma jp_page_loop l f i t b : forall n, jp (page_loop E l f i t b n).
Proof. induction l; intros n; cbn [page_loop]; unfold tx_paging_cmd; jj; auto. Qed.
Lemma jp_page i t l r b : jp (iu_page E i t l r b).
Proof. unfold iu_page, tx_paging_cmd. jj. Qed.
Lemma jp_free q : jp (free_ue E q).
Proof. unfold free_ue. jj. apply sle_filter. Qed.
(* the application frees [p] *)
Lemma jp_api_free : jp (run_api E (AFreeUe (Some p))).
Proof.
  intros w H. rewrite run_free_eq. assert (Hcl : clean (EApi (AFreeUe (Some p)) :: w_tr w)) by (apply clean_other; [discriminate|apply H]).
  destruct (live (w_st w) p) as [u|] eqn:Hl; cbn [fst snd w_tr].
  - destruct (live_in _ _ _ Hl) as [Hi Hp].
    assert (Hh : here (w_st w)) by (exists u; auto).
    assert (Hc : clean (ERet 0 :: ESccp (NDisconnectReq (u_conn u)) :: EApi (AFreeUe (Some p)) :: w_tr w)) by (do 2 (apply clean_other; [discriminate|]); exact Hcl).
    split; [exact Hc|]. intros _. constructor; cbn [w_st w_tr set_ues s_ues s_next].
    + intros v Hv. apply filter_In in Hv as [Hv _]. apply (j_next _ H v Hv).
    + intros _. rewrite <- Hp. apply (j_next _ H u Hi).
    + intros (v&Hv&Hvp). apply filter_In in Hv as [_ Hv]. lia.
    + intros Hf. pose proof (j_len _ H Hf). cbn [length]. lia.
    + intros _. split; [rewrite <- Hp; apply (j_next _ H u Hi)|]. intros (v&Hv&Hvp). apply filter_In in Hv as [_ Hv]. lia.
    + exact Hc.
  - split; [apply clean_other; [discriminate|exact Hcl]|]. intros Hx. exfalso. apply Hx. reflexivity.
Qed.
Lemma jp_api a : jp (run_api E a).
Proof.
  assert (Hdec : a = AFreeUe (Some p) \/ a <> AFreeUe (Some p)).
  { destruct a as [| | | | |[q|]| | | | | |]; try (right; discriminate). destruct (N.eq_dec q p) as [->|Hq]; [left; auto|right; congruence]. }
  destruct Hdec as [->|Hne]; [apply jp_api_free|].
  unfold run_api. apply jp_bind; [apply jp_emit; [discriminate|congruence]|]. intros _.
  apply jp_bind; [|intros; jj].
  unfold iu_tx, tx_sec_mode_cmd, tx_common_id, tx_release_free, tx_release, rab_act, page_cs2, page_ps2.
  destruct a as [b [q|] nas sapi|q ik ck sck nk|q imsi|q c|q c d|q|q m|q r|i t l|i t l r|i t l|i t r];
    try (jj; auto using jp_page, jp_free, jp_page_loop; fail).
  jj; apply sle_upd; auto.
Qed.
Lemma jp_apis l : jp (run_apis E l).
Proof. induction l; cbn [run_apis]; [apply jp_ret|]. apply jp_bind; auto using jp_api. Qed.
(* the part of a callback that follows *)
Lemma jp_after : jp (let! t := trace in run_apis E (app E t)).
Proof. apply jp_bind; [apply jp_trace|intros; apply jp_apis]. Qed.
Lemma jpat_callback e w : (subject e = Some p -> here (w_st w)) -> (forall a, e <> EApi a) -> jpat (callback E e) w.
Proof.
  intros Hs Ha H. unfold callback. rewrite bind_emit.
  assert (HJ : J (mkW (w_st w) (e :: w_tr w))).
  { destruct (subject e) as [q|] eqn:Hq; [destruct (N.eq_dec q p) as [->|Hn]|].
    - apply J_say; auto.
    - apply J_emit; [rewrite Hq; congruence|apply Ha|exact H].
    - apply J_emit; [rewrite Hq; discriminate|apply Ha|exact H]. }
  apply (jp_after _ HJ).
Qed.
Lemma live_here s : live s p <> None -> here s.
Proof. destruct (live s p) as [u|] eqn:Hl; [|congruence]. intros _. apply live_in in Hl as [H1 H2]. exists u. auto. Qed.
Lemma jp_event q ev : jp (global_iu_event E q ev).
Proof.
  destruct q as [q|].
  2:{ unfold global_iu_event. jj. intros w. apply jpat_callback; discriminate. }
  unfold global_iu_event. destruct (negb _); [apply jp_ret|]. intros w. apply jpat_bind; [apply jp_bind; [apply jp_deref|intros; apply jp_ret]|].
  intros b w' Hb. destruct (negb b); [apply jp_ret|]. apply jpat_bind.
  - apply jpat_callback; [|discriminate]. cbn [subject]. intros [= ->]. apply live_here.
    unfold deref in Hb. rewrite bind_assoc, bind_get in Hb. destruct (live (w_st w) p) as [u|] eqn:Hl; [|discriminate].
    rewrite bind_ret in Hb. cbn [ret] in Hb. injection Hb as <- _. congruence.
  - intros [] w1 _. assert (Hx : jp (let! t := trace in ret (app_rc E t))) by jj. apply Hx.
Qed.
Lemma jp_register id r a : jp (rnc_register E id r a).
Proof. unfold rnc_register, rnc_alloc, event_new_area. jj; auto using jp_event; apply sle_ues; cbn; auto; lia. Qed.
(* a new context is introduced *)
Lemma jp_new n conn ra nas sai (k : unit -> M Z) : (forall x, jp (k x)) ->
  jp (let! q := ue_conn_ctx_alloc n conn in
      let! s := get in
      let! _ := put_st (set_ues s (upd_ue q (fun u => mkUe (u_ptr u) (u_rnc u) (u_conn u) ra (u_notif u) (u_for u) (u_timer u)) (s_ues s))) in
      let! x := callback E (ERecv q nas (Some ra) (Some sai)) in k x).
Proof.
  intros Hk w H. unfold ue_conn_ctx_alloc, callback. rewrite bind_assoc, bind_get, bind_assoc, bind_put, bind_ret, bind_get, bind_put, bind_assoc, bind_emit.
  cbn [w_st w_tr set_ues s_ues s_next]. set (q := s_next (w_st w)). set (u0 := mkUe _ _ _ _ _ _ _). set (f := fun u => mkUe _ _ _ _ _ _ _).
  match goal with |- context [mkW ?s ?t] => set (w1 := mkW s t) end.
  assert (Hu : forall v, In v (s_ues (w_st w1)) -> u_ptr v = q \/ exists u, In u (s_ues (w_st w)) /\ u_ptr v = u_ptr u).
  { intros v Hv. unfold w1 in Hv. cbn [w_st set_ues s_ues] in Hv. unfold upd_ue in Hv. apply in_map_iff in Hv as (x&Hx&[<-|Hi]).
    - left. destruct (_ =? _)%N; subst v; reflexivity.
    - right. exists x. split; [exact Hi|]. destruct (_ =? _)%N; subst v; reflexivity. }
  assert (Hh : here (w_st w1) -> p = q \/ here (w_st w)).
  { intros (v&Hv&Hp). destruct (Hu v Hv) as [Hq|(u&Hi&Hup)]; [left; congruence|right; exists u; split; [exact Hi|congruence]]. }
  assert (HJ : J w1).
  { constructor.
    - intros v Hv. cbn [w1 w_st set_ues s_next]. destruct (Hu v Hv) as [->|(u&Hi&->)]; [lia|]. pose proof (j_next _ H u Hi). unfold q. lia.
    - intros (e&[<-|He]&Hs); cbn [w1 w_st set_ues s_next].
      + cbn [subject] in Hs. injection Hs as Hs. rewrite <- Hs. lia.
      + assert (Hsaid : said (w_tr w)) by (exists e; auto). pose proof (j_said _ H Hsaid). unfold q. lia.
    - intros Hx. destruct (Hh Hx) as [Hq|Hx'].
      + eexists. split; [left; reflexivity|]. cbn [subject]. congruence.
      + destruct (j_here _ H Hx') as (e&He&Hs). exists e. split; [right; exact He|exact Hs].
    - intros Hf. pose proof (j_len _ H Hf). cbn [w1 w_tr length]. lia.
    - intros Hf. assert (Hf' : freed (w_tr w)) by (eapply freed_cons; [apply (j_len _ H)| |exact Hf]; discriminate). destruct (j_free _ H Hf') as [H1 H2].
      cbn [w1 w_st set_ues s_next]. split; [unfold q; lia|]. intros Hx. destruct (Hh Hx) as [Hq|Hx']; [unfold q in Hq; lia|contradiction].
    - apply clean_cons; [|apply H]. cbn [subject]. intros [= Hq]. split.
      + intros Hf. destruct (j_free _ H Hf) as [H1 _]. unfold q in Hq. lia.
      + right. exists nas, ra, sai. rewrite Hq. reflexivity. }
  assert (Hm : jp (let! x := (let! t := trace in run_apis E (app E t)) in k x)) by (apply jp_bind; [apply jp_after|exact Hk]).
  apply (Hm w1 HJ).
Qed.
Lemma jp_initial c a m : jp (handle_co_initial E c a m).
Proof.
  unfold handle_co_initial, handle_co_initial_ue, nas_put.
  jj; auto using jp_register. apply jp_new. intros. jj.
Qed.

(* what is done with a message on the connection of [q], which is there *)
Definition same {A} (m : M A) : Prop := forall w, w_st (fst (m w)) = w_st w.
Lemma same_ret {A} (a : A) : same (ret a).
Proof. intros w. reflexivity. Qed.
Lemma same_fail {A} f : same (@fail A f).
Proof. intros w. reflexivity. Qed.
Lemma same_emit e : same (emit e).
Proof. intros w. reflexivity. Qed.
Lemma same_lift {A} (o : outcome A) : same (lift o).
Proof. destruct o; intros w; reflexivity. Qed.
Lemma same_bind {A B} (m : M A) (k : A -> M B) : same m -> (forall a, same (k a)) -> same (bind m k).
Proof. intros Hm Hk w. specialize (Hm w). unfold bind. destruct (m w) as [w1 [a|]]; cbn [fst] in *; [rewrite Hk|]; exact Hm. Qed.
Definition jl {A} (q : ptr) (m : M A) : Prop := forall w, live (w_st w) q <> None -> jpat m w.
Lemma jl_jp {A} q (m : M A) : jp m -> jl q m.
Proof. intros H w _. apply H. Qed.
Lemma jl_bind {A B} q (m : M A) (k : A -> M B) : same m -> jp m -> (forall a, jl q (k a)) -> jl q (bind m k).
Proof.
  intros Hs Hm Hk w Hl. apply jpat_bind; [apply Hm|]. intros a w' He. apply Hk. specialize (Hs w). rewrite He in Hs. cbn [fst] in Hs. rewrite Hs. exact Hl.
Qed.
Lemma jl_callback q e : subject e = Some q -> (forall a, e <> EApi a) -> jl q (callback E e).
Proof. intros Hs Ha w Hl. apply jpat_callback; [|exact Ha]. rewrite Hs. intros [= ->]. apply live_here, Hl. Qed.
Lemma jl_dt q d : jl q (handle_co_dt E q d).
Proof.
  unfold handle_co_dt, nas_put. apply jl_bind; [apply same_emit|apply jp_emit; discriminate|]. intros _.
  apply jl_bind.
  - repeat match goal with
    | |- same (match ?x with _ => _ end) => destruct x
    | |- same (bind _ _) => apply same_bind; [|intros]
    | |- same (ret _) => apply same_ret
    | |- same (lift _) => apply same_lift end.
  - jj.
  - intros [[ra sai]|]; [|apply jl_jp, jp_ret].
    apply jl_bind; [destruct (_ <=? _); [apply same_ret|apply same_fail]|jj|]. intros _.
    intros w Hl. apply jpat_bind; [apply (jl_callback q); [reflexivity|discriminate|exact Hl]|]. intros [] w' _.
    assert (Hx : jp (let! _ := emit EBufFree in ret 0%Z)) by jj. apply Hx.
Qed.
Lemma jl_co q m : jl q (handle_co E q m).
Proof.
  intros w Hl. unfold handle_co, handle_co_iu_rel_req, tx_release, handle_co_rab_ass_resp.
  apply jpat_bind; [|intros; apply jp_ret].
  repeat match goal with |- jpat (if ?b then _ else _) w => destruct b end; try (apply jp_ret); try apply jp_event;
    destruct (m_ies m); try apply jp_fail; try (apply jl_dt; exact Hl).
  all: match goal with |- jpat ?m ?w => assert (Hx : jp m) end; [jj; auto using jp_event|apply Hx].
Qed.
Lemma find_live s c u : ue_conn_ctx_find s c = Some u -> live s (u_ptr u) <> None.
Proof.
  unfold ue_conn_ctx_find. intros H. apply find_some in H as [Hi _]. intros Hn. pose proof (find_none _ _ Hn u Hi) as Hx. cbn in Hx. lia.
Qed.
Lemma jp_cl a m : jp (handle_cl E a m).
Proof. unfold handle_cl, handle_cl_reset_req. jj. Qed.
Lemma jp_link q : jp (link_invalidated_free E q).
Proof. unfold link_invalidated_free. jj; auto using jp_event, jp_free. Qed.
Lemma jp_loop r : forall fuel q, jp (invalidate_loop E fuel q r).
Proof. induction fuel; intros q; cbn [invalidate_loop]; jj; auto using jp_link. Qed.
Lemma jp_rncs h : forall l, jp (invalidate_rncs E l h).
Proof. induction l; cbn [invalidate_rncs]; [jj|]. apply jp_bind; [|auto]. unfold invalidate_rnc. jj. apply jp_loop. Qed.
Lemma jps_co s q d : live s q <> None -> jps s (rx_co E d (handle_co E q)).
Proof. intros Hl w Hw. unfold rx_co. destruct (dec_co E d); [|apply jp_ret]. apply jl_co. rewrite Hw. exact Hl. Qed.
Lemma jp_exec o : jp (exec E o).
Proof.
  destruct o as [c a l2| |c l2|c l2|a l2|a c|pc sp rem| | |q|a]; cbn [exec]; unfold sccp_sap_up, rx_cl, sccp_addr_add, sccp_addr_del,
    handle_notice_ind, handle_pcstate_ind, timer_fires; try (destruct (pcstate_decision sp rem)).
  3:{ apply jp_bind; [|intros; jj]. apply jp_bind; [jj; apply sle_ues; cbn; auto; lia|]. intros _. apply jp_getb. intros s.
      destruct (ue_conn_ctx_find s c) as [u|] eqn:Hf; [|jj]. apply jps_bind; [destruct l2; [apply jps_jp, jp_ret|apply jps_co; eapply find_live, Hf]|].
      intros _. jj. apply jp_link. }
  3:{ apply jp_bind; [|intros; jj]. apply jp_getb. intros s. destruct (ue_conn_ctx_find s c) as [u|] eqn:Hf; [apply jps_co; eapply find_live, Hf|].
      unfold rx_co. jj; auto using jp_initial; apply sle_ues; cbn; auto; lia. }
  all: unfold rx_co; jj; auto using jp_initial, jp_cl, jp_link, jp_rncs, jp_event, jp_api;
    try (apply sle_ues; cbn; auto; lia); apply sle_upd; auto.
Qed.
Lemma jp_run l : jp (run E l).
Proof. induction l; cbn [run]; [apply jp_ret|]. apply jp_bind; auto using jp_exec. Qed.
Lemma J0 : flag = false -> J w0.
Proof.
  intros Hfl. constructor; cbn; rewrite ?Hfl.
  - intros u [].
  - intros (e&[]&_).
  - intros (u&[]&_).
  - discriminate.
  - intros [[]|[]]; congruence.
  - intros t1 e t2 H. destruct t1; discriminate.
Qed.
Lemma talk_clean l : flag = false -> clean (w_tr (reach E l)).
Proof. intros Hf. destruct (jp_run l w0 (J0 Hf)) as [H _]. exact H. Qed.
End Talk.

Lemma first_l E l p t1 e t2 : rev (w_tr (reach E l)) = t1 ++ e :: t2 -> subject e = Some p ->
  (forall x, In x t1 -> subject x <> Some p) -> exists nas ra sai, e = ERecv p nas (Some ra) (Some sai).
Proof.
  intros H Hs Hn. assert (Hr : w_tr (reach E l) = rev t2 ++ e :: rev t1).
  { rewrite <- (rev_involutive (w_tr (reach E l))), H, rev_app_distr. cbn [rev]. rewrite <- app_assoc. reflexivity. }
  destruct (talk_clean E p false 0 l eq_refl _ _ _ Hr Hs) as (_&[(x&Hx&Hsx)|Hi]); [|exact Hi]. apply in_rev in Hx. destruct (Hn x Hx Hsx).
Qed.
Lemma last_l E l p t1 t2 e : rev (w_tr (reach E l)) = t1 ++ EApi (AFreeUe (Some p)) :: t2 -> In e t2 -> subject e <> Some p.
Proof.
  intros H Hi Hs. apply in_split in Hi as (a&b&->).
  assert (Hr : w_tr (reach E l) = rev b ++ e :: rev (t1 ++ EApi (AFreeUe (Some p)) :: a)).
  { rewrite <- (rev_involutive (w_tr (reach E l))), H.
    change (EApi (AFreeUe (Some p)) :: a ++ e :: b) with ((EApi (AFreeUe (Some p)) :: a) ++ e :: b). rewrite (app_assoc t1), (rev_app_distr _ (e :: b)).
    cbn [rev]. rewrite <- app_assoc. reflexivity. }
  destruct (talk_clean E p false 0 l eq_refl _ _ _ Hr Hs) as (Hf&_). apply Hf. left. rewrite <- in_rev. apply in_app_iff. right. left. reflexivity.
Qed.
(* a context that is gone, whoever freed it *)
Lemma gone_l E l l' p t e : snd (run E l w0) = Some tt -> said p (w_tr (reach E l)) -> (forall u, In u (s_ues (w_st (reach E l))) -> u_ptr u <> p) ->
  added (w_tr (reach E l)) (w_tr (fst (run E l' (reach E l)))) t -> In e t -> subject e <> Some p.
Proof.
  intros Hrun Hsaid Hgone Ht Hi Hs. set (w := reach E l) in *.
  pose proof (talk_clean E p false 0 l eq_refl) as Hc. fold w in Hc.
  assert (Hlt : (p < s_next (w_st w))%N).
  { destruct (jp_run E p false 0 l w0 (J0 p false 0 eq_refl)) as [_ HJ]. apply (j_said _ _ _ _ (HJ ltac:(rewrite Hrun; discriminate))). exact Hsaid. }
  assert (HJ : J p true (length (w_tr w)) w).
  { constructor.
    - apply (q_next _ (g_ues _ (reach_good E l))).
    - intros _. exact Hlt.
    - intros (u&Hu&Hp). destruct (Hgone u Hu Hp).
    - intros _. lia.
    - intros _. split; [exact Hlt|]. intros (u&Hu&Hp). exact (Hgone u Hu Hp).
    - intros t1 x t2 Heq Hx. destruct (Hc t1 x t2 Heq Hx) as [H1 H2]. split; [|exact H2]. intros [Hf|[_ Hl]]; [apply H1; left; exact Hf|].
      rewrite Heq, app_length in Hl. cbn [length] in Hl. lia. }
  destruct (jp_run E p true (length (w_tr w)) l' w HJ) as [Hcl _].
  unfold added in Ht. apply in_rev, in_split in Hi as (a&b&Hab). rewrite Ht, Hab, <- app_assoc in Hcl. cbn [List.app] in Hcl.
  destruct (Hcl a e (b ++ w_tr w) eq_refl Hs) as [Hf _]. apply Hf. right. split; [reflexivity|]. rewrite app_length. lia.
Qed.
