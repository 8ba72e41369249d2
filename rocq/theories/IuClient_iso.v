(* Proofs for C95: connections do not disturb each other. *)
From Coq Require Import ZifyBool ZifyNat ZifyN Sorted.
From Verif Require Import Base Lai IuClient IuClient_spec IuClient_frame IuClient_reg IuClient_step IuClient_inv IuClient_life2 IuClient_iso_spec.

Ltac okp := split; [intros ? Hsub; discriminate Hsub|exact I].
Section Iso.
Variable E : env.
Hypothesis Happ : minds_its_own E.
Variable x : option N.
(* the contexts of other connections *)
Variable B : ptr -> Prop.

Definition ok_eff (e : eff) : Prop :=
  (forall p, subject e = Some p -> ~ B p) /\
  match e with ESccp r => match request_conn r with Some c => x = Some c | None => True end | _ => True end.
Definition uok1 (s : st) : Prop := NoDup (map u_ptr (s_ues s)) /\ forall u, In u (s_ues s) -> (u_ptr u < s_next s)%N.
Definition bok (s : st) : Prop := (forall p, B p -> (p < s_next s)%N) /\ forall u, In u (s_ues s) -> B (u_ptr u) -> x <> Some (u_conn u).
Definition uok (s : st) : Prop := uok1 s /\ bok s.
(* what happens to the contexts of other connections *)
Definition Rs (s s' : st) : Prop := forall u, x <> Some (u_conn u) -> (In u (s_ues s) <-> In u (s_ues s')).
Definition R (w w' : world) : Prop := Rs (w_st w) (w_st w') /\ exists t, w_tr w' = t ++ w_tr w /\ Forall ok_eff t.
(* contexts at [p] belong to the connection *)
Definition K (p : option ptr) (s : st) : Prop := match p with None => True | Some p => ~ B p /\ forall u, In u (s_ues s) -> u_ptr u = p -> x = Some (u_conn u) end.
Definition iso {A} (p : option ptr) (m : M A) : Prop := forall w, uok (w_st w) -> K p (w_st w) -> R w (fst (m w)) /\ uok (w_st (fst (m w))).

Lemma Rs_refl s : Rs s s.
Proof. intros u _. tauto. Qed.
Lemma R_refl w : R w w.
Proof. split; [apply Rs_refl|]. exists []. split; [reflexivity|constructor]. Qed.
Lemma R_trans a b c : R a b -> R b c -> R a c.
Proof.
  intros (H1&t&T1&T2) (H2&u&U1&U2). split; [intros v Hv; rewrite (H1 v Hv); apply H2, Hv|].
  exists (u ++ t). split; [rewrite U1, T1, app_assoc; reflexivity|]. apply Forall_app. split; assumption.
Qed.
Lemma R_K p w w' : R w w' -> K p (w_st w) -> K p (w_st w').
Proof.
  intros (H&_) Hk. destruct p as [p|]; [|exact I]. destruct Hk as [Hb Hk]. split; [exact Hb|]. intros u Hu Hp.
  destruct x as [c|] eqn:Hx.
  - destruct (N.eq_dec c (u_conn u)) as [->|Hne]; [reflexivity|]. rewrite <- Hx in *. apply Hk; [|exact Hp]. apply H; [rewrite Hx; congruence|exact Hu].
  - rewrite <- Hx in *. apply Hk; [|exact Hp]. apply H; [rewrite Hx; discriminate|exact Hu].
Qed.
Lemma iso_ret {A} p (a : A) : iso p (ret a).
Proof. intros w Hu _. split; [apply R_refl|exact Hu]. Qed.
Lemma iso_emit p e : ok_eff e -> iso p (emit e).
Proof. intros He w Hu _. split; [|exact Hu]. split; [apply Rs_refl|]. exists [e]. split; [reflexivity|]. constructor; [exact He|constructor]. Qed.
Lemma iso_fail {A} p f : iso p (@fail A f).
Proof. intros w Hu _. split; [|exact Hu]. split; [apply Rs_refl|]. exists [EFault f]. split; [reflexivity|]. constructor; [okp|constructor]. Qed.
Lemma iso_get p : iso p get.
Proof. intros w Hu _. split; [apply R_refl|exact Hu]. Qed.
Lemma iso_trace p : iso p trace.
Proof. intros w Hu _. split; [apply R_refl|exact Hu]. Qed.
Lemma iso_lift {A} p (o : outcome A) : iso p (lift o).
Proof. destruct o; [apply iso_ret|apply iso_fail]. Qed.
Lemma iso_bind {A C} p (m : M A) (k : A -> M C) : iso p m -> (forall a, iso p (k a)) -> iso p (bind m k).
Proof.
  intros Hm Hk w Hu HK. destruct (Hm w Hu HK) as (H1&H2). unfold bind. destruct (m w) as [w1 [a|]]; cbn [fst] in *; [|split; assumption].
  destruct (Hk a w1 H2 (R_K _ _ _ H1 HK)) as (H3&H4). split; [eapply R_trans; eassumption|exact H4].
Qed.
Lemma iso_modify p (f : st -> st) : (forall s, uok s -> K p s -> Rs s (f s) /\ uok (f s)) -> iso p (let! s := get in put_st (f s)).
Proof.
  intros H w Hu HK. destruct (H _ Hu HK) as (H1&H2). cbn [bind get put_st fst w_st]. split; [|exact H2]. split; [exact H1|]. exists []. split; [reflexivity|constructor].
Qed.
Lemma live_in s p u : live s p = Some u -> In u (s_ues s) /\ u_ptr u = p.
Proof. intros H. unfold live in H. apply find_some in H as [H1 H2]. split; [exact H1|]. apply N.eqb_eq, H2. Qed.
Lemma iso_deref {C} p (k : ue -> M C) : (forall u, u_ptr u = p -> x = Some (u_conn u) -> iso (Some p) (k u)) -> iso (Some p) (bind (deref p) k).
Proof.
  intros H w Hu HK. unfold deref. rewrite bind_assoc, bind_get. destruct (live (w_st w) p) as [u|] eqn:Hl.
  - rewrite bind_ret. apply live_in in Hl as [Hi Hp]. apply H; [exact Hp|apply HK; assumption|exact Hu|exact HK].
  - rewrite bind_fail. exact (iso_fail (A:=C) (Some p) UseAfterFree w Hu HK).
Qed.
Lemma iso_send p r : (match request_conn r with Some c => x = Some c | None => True end) -> iso p (sccp_send E r).
Proof. intros H. unfold sccp_send. apply iso_bind; [apply iso_trace|intros t]. apply iso_bind; [apply iso_emit; split; [intros ? Hsub; discriminate Hsub|exact H]|intros; apply iso_ret]. Qed.
Lemma iso_encode p m : iso p (encode E m).
Proof. unfold encode. destruct (enc_ok E m); [apply iso_ret|apply iso_fail]. Qed.
Lemma nodup_filter f (l : list ue) : NoDup (map u_ptr l) -> NoDup (map u_ptr (filter f l)).
Proof.
  induction l as [|u l IH]; intros H; [constructor|]. cbn [map filter] in *. inversion H as [|? ? H1 H2]; subst. destruct (f u); [|apply IH, H2].
  cbn [map]. constructor; [|apply IH, H2]. intros Hi. apply H1. apply in_map_iff in Hi as (v&Hv&Hi). apply filter_In in Hi as [Hi _]. apply in_map_iff. exists v. split; assumption.
Qed.
Lemma iso_drop p : iso (Some p) (let! s := get in put_st (set_ues s (filter (fun u => negb (u_ptr u =? p)%N) (s_ues s)))).
Proof.
  apply iso_modify. intros s ((H1&H2)&B1&B2) (Hb&HK). split.
  - intros u Hc. cbn [set_ues s_ues]. rewrite filter_In. split; [|tauto]. intros Hi. split; [exact Hi|].
    destruct (N.eqb_spec (u_ptr u) p) as [He|]; [|reflexivity]. destruct Hc. apply HK; assumption.
  - split; split; cbn [set_ues s_ues s_next]; [apply nodup_filter, H1| |exact B1|]; intros u Hu; apply filter_In in Hu as [Hu _]; [apply H2, Hu|apply B2, Hu].
Qed.
Lemma iso_free p : iso (Some p) (free_ue E (Some p)).
Proof. unfold free_ue. apply iso_deref. intros u _ Hx. apply iso_bind; [apply iso_send; exact Hx|intros _]. apply iso_drop. Qed.
Lemma upd_ptrs p f l : (forall u, u_ptr (f u) = u_ptr u) -> map u_ptr (upd_ue p f l) = map u_ptr l.
Proof. intros H. unfold upd_ue. rewrite map_map. apply map_ext. intros u. destruct (u_ptr u =? p)%N; [apply H|reflexivity]. Qed.
Lemma iso_upd p f : (forall u, u_ptr (f u) = u_ptr u) -> (forall u, u_conn (f u) = u_conn u) ->
  forall s, uok s -> K (Some p) s -> Rs s (set_ues s (upd_ue p f (s_ues s))) /\ uok (set_ues s (upd_ue p f (s_ues s))).
Proof.
  intros Hp Hc s ((H1&H2)&B1&B2) (Hb&HK). split.
  - intros u Hu. cbn [set_ues s_ues]. unfold upd_ue. rewrite in_map_iff. split.
    + intros Hi. exists u. split; [|exact Hi]. destruct (N.eqb_spec (u_ptr u) p) as [He|]; [|reflexivity]. destruct Hu. apply HK; assumption.
    + intros (v&Hv&Hi). destruct (N.eqb_spec (u_ptr v) p) as [He|]; [|congruence]. destruct Hu. rewrite <- Hv, Hc. apply HK; assumption.
  - split; split; cbn [set_ues s_ues s_next]; [rewrite upd_ptrs by exact Hp; exact H1| |exact B1|]; intros u Hu; unfold upd_ue in Hu; apply in_map_iff in Hu as (v&<-&Hv).
    + destruct (u_ptr v =? p)%N; rewrite ?Hp; apply H2, Hv.
    + destruct (u_ptr v =? p)%N; rewrite ?Hp, ?Hc; apply B2, Hv.
Qed.
Lemma iso_update p f : (forall u, u_ptr (f u) = u_ptr u) -> (forall u, u_conn (f u) = u_conn u) -> iso (Some p) (let! s := get in put_st (set_ues s (upd_ue p f (s_ues s)))).
Proof. intros H1 H2. apply iso_modify. exact (iso_upd p f H1 H2). Qed.
Lemma iso_tx_release p c : iso (Some p) (tx_release E p c).
Proof. unfold tx_release. apply iso_bind; [apply iso_encode|intros m]. apply iso_deref. intros u _ Hx. apply iso_send. exact Hx. Qed.
Lemma iso_ext {A} p (m1 m2 : M A) : (forall w, m1 w = m2 w) -> iso p m1 -> iso p m2.
Proof. intros H H1 w. rewrite <- H. apply H1. Qed.
Lemma iso_tx_release_free p c t : iso (Some p) (tx_release_free E p c t).
Proof.
  unfold tx_release_free. apply iso_deref. intros _ _ _.
  apply (iso_ext _ (let! _ := (let! s := get in put_st (set_ues s (upd_ue p (fun u => mkUe (u_ptr u) (u_rnc u) (u_conn u) (u_ra u) false true (u_timer u)) (s_ues s)))) in
    let! rc := tx_release E p c in
    let! s := get in put_st (set_ues s (upd_ue p (fun u => mkUe (u_ptr u) (u_rnc u) (u_conn u) (u_ra u) (u_notif u) (u_for u) (Some (if (rc =? 0)%Z then t else 0%Z))) (s_ues s))))).
  { intros w. rewrite !bind_assoc, !bind_get. reflexivity. }
  apply iso_bind; [apply iso_update; reflexivity|intros _]. apply iso_bind; [apply iso_tx_release|intros rc]. apply iso_update; reflexivity.
Qed.
Lemma iso_page_loop p : forall l f imsi tmsi ps n, iso p (page_loop E l f imsi tmsi ps n).
Proof.
  induction l as [|v l IH]; intros; cbn [page_loop]; [apply iso_ret|]. destruct (existsb f (n_areas v)); [|apply IH].
  apply iso_bind; [|intros; apply IH]. unfold tx_paging_cmd. apply iso_bind; [apply iso_encode|intros]. apply iso_send. exact I.
Qed.
Lemma iso_api a q : api_target a = None \/ api_target a = q -> iso q (run_api E a).
Proof.
  intros Hq. unfold run_api. apply iso_bind; [apply iso_emit; okp|intros _]. apply iso_bind; [|intros; apply iso_emit; okp].
  assert (Hpage : forall i t l r b, iso q (iu_page E i t l r b)).
  { intros. unfold iu_page. apply iso_bind; [apply iso_get|intros s]. destruct (lac_rac_find_legacy s l r); [|apply iso_ret].
    apply iso_bind; [|intros; apply iso_ret]. unfold tx_paging_cmd. apply iso_bind; [apply iso_encode|intros]. apply iso_send. exact I. }
  destruct a; cbn [api_target] in Hq; try apply Hpage; try apply iso_ret.
  - destruct dst as [p|]; [|apply iso_ret]. destruct Hq as [Hq|<-]; [discriminate|]. unfold iu_tx. apply iso_deref. intros u _ Hx.
    apply iso_bind; [apply iso_emit; okp|intros _]. apply iso_bind; [apply iso_encode|intros m]. apply iso_send. exact Hx.
  - destruct Hq as [Hq|<-]; [discriminate|]. unfold tx_sec_mode_cmd. apply iso_bind; [apply iso_encode|intros m]. apply iso_deref. intros u _ Hx. apply iso_send. exact Hx.
  - destruct Hq as [Hq|<-]; [discriminate|]. unfold tx_common_id. apply iso_deref. intros u _ Hx. apply iso_bind; [apply iso_encode|intros m]. apply iso_send. exact Hx.
  - destruct Hq as [Hq|<-]; [discriminate|]. apply iso_tx_release.
  - destruct Hq as [Hq|<-]; [discriminate|]. apply iso_bind; [apply iso_tx_release_free|intros; apply iso_ret].
  - destruct ue as [p|]; [|apply iso_bind; [apply iso_ret|intros; apply iso_ret]]. destruct Hq as [Hq|<-]; [discriminate|]. apply iso_bind; [apply iso_free|intros; apply iso_ret].
  - destruct Hq as [Hq|<-]; [discriminate|]. unfold rab_act. apply iso_deref. intros u _ Hx. apply iso_send. exact Hx.
  - unfold page_cs2. apply iso_bind; [apply iso_get|intros]. apply iso_page_loop.
  - unfold page_ps2. apply iso_bind; [apply iso_get|intros]. apply iso_page_loop.
Qed.
Lemma iso_apis q : forall l, (forall a, In a l -> api_target a = None \/ api_target a = q) -> iso q (run_apis E l).
Proof.
  induction l as [|a l IH]; intros H; cbn [run_apis]; [apply iso_ret|]. apply iso_bind; [apply iso_api, H; left; reflexivity|intros _]. apply IH. intros b Hb. apply H. right. exact Hb.
Qed.
Lemma iso_callback e : (match e with ESccp _ => False | _ => True end) -> iso (subject e) (callback E e).
Proof.
  intros He0 w Hu HK. assert (He : ok_eff e) by (split; [intros p Hp; rewrite Hp in HK; apply HK|destruct e; tauto]). unfold callback. rewrite bind_emit, bind_trace. cbn [w_tr].
  destruct (iso_apis (subject e) (app E (e :: w_tr w))) with (w := mkW (w_st w) (e :: w_tr w)) as (H1&H2); [|exact Hu|exact HK|].
  - intros a Ha. destruct (api_target a) as [p|] eqn:Hp; [|left; reflexivity]. right. symmetry. exact (Happ _ _ _ _ Ha Hp).
  - split; [|exact H2]. eapply R_trans; [|exact H1]. split; [apply Rs_refl|]. exists [e]. split; [reflexivity|]. constructor; [exact He|constructor].
Qed.
Lemma iso_event p ev : iso p (global_iu_event E p ev).
Proof.
  unfold global_iu_event. destruct (negb (has_event_cb E)); [apply iso_ret|]. apply iso_bind.
  - destruct p as [p|]; [|apply iso_ret]. apply iso_deref. intros. apply iso_ret.
  - intros okv. destruct (negb okv); [apply iso_ret|]. apply iso_bind; [exact (iso_callback (EEvent p ev) I)|intros _].
    apply iso_bind; [apply iso_trace|intros; apply iso_ret].
Qed.
Lemma iso_weaken {A} p (m : M A) : iso None m -> iso p m.
Proof. intros H w Hu _. apply H; [exact Hu|exact I]. Qed.
Lemma K_of s u : uok s -> In u (s_ues s) -> x = Some (u_conn u) -> K (Some (u_ptr u)) s.
Proof.
  intros ((Hn&_)&_&Hb) Hi Hx. split; [intros Hbu; exact (Hb u Hi Hbu Hx)|]. intros v Hv Hp. assert (v = u) as ->; [|exact Hx]. clear -Hn Hi Hv Hp. induction (s_ues s) as [|y l IH]; [destruct Hi|].
  cbn [map] in Hn. inversion Hn as [|? ? H1 H2]; subst. destruct Hi as [->|Hi]; destruct Hv as [->|Hv]; try reflexivity.
  - destruct H1. rewrite <- Hp. apply in_map, Hv.
  - destruct H1. rewrite Hp. apply in_map, Hi.
  - apply IH; assumption.
Qed.
Lemma find_conn s c u : ue_conn_ctx_find s c = Some u -> In u (s_ues s) /\ u_conn u = c.
Proof. intros H. unfold ue_conn_ctx_find in H. apply find_some in H as [H1 H2]. split; [exact H1|apply N.eqb_eq, H2]. Qed.
Lemma iso_link p : iso (Some p) (link_invalidated_free E p).
Proof.
  unfold link_invalidated_free. apply iso_deref. intros u _ Hx. cbv zeta. apply iso_bind; [apply iso_event|intros _].
  intros w Hu HK. rewrite bind_get. destruct (ue_conn_ctx_find (w_st w) (u_conn u)) as [v|] eqn:Hf; [|exact (iso_ret None tt w Hu I)].
  destruct (u_for v); [|exact (iso_ret None tt w Hu I)]. apply find_conn in Hf as [Hi Hc]. apply iso_free; [exact Hu|]. apply K_of; [exact Hu|exact Hi|congruence].
Qed.
Lemma iso_new_area id r : iso None (event_new_area E id r).
Proof. unfold event_new_area. apply iso_bind; [apply iso_event|intros; apply iso_ret]. Qed.
Lemma put_same {A} p s s' (k : M A) : s_ues s' = s_ues s -> (s_next s <= s_next s')%N -> iso p k ->
  forall w, w_st w = s -> uok (w_st w) -> K p (w_st w) -> R w (fst ((let! _ := put_st s' in k) w)) /\ uok (w_st (fst ((let! _ := put_st s' in k) w))).
Proof.
  intros H1 H2 Hk w Hs Hu HK. rewrite bind_put.
  assert (Hr : R w (mkW s' (w_tr w))). { split; [intros u _; cbn [w_st]; rewrite Hs, H1; tauto|]. exists []. split; [reflexivity|constructor]. }
  destruct (Hk (mkW s' (w_tr w))) as (H3&H4).
  - subst s. destruct Hu as ((U1&U2)&B1&B2). split; split; cbn [w_st]; rewrite ?H1; [exact U1| | |exact B2]; [intros u Hi; specialize (U2 u Hi); lia|intros u Hi; specialize (B1 u Hi); lia].
  - eapply R_K; [exact Hr|exact HK].
  - split; [eapply R_trans; [exact Hr|exact H3]|exact H4].
Qed.
Lemma iso_register id r a : iso None (rnc_register E id r a).
Proof.
  intros w Hu HK. unfold rnc_register. rewrite bind_get.
  set (tail := fun p : ptr => _ : M ptr).
  assert (Ht : forall p, iso None (tail p)).
  { intros p w1 Hu1 HK1. unfold tail. rewrite bind_get. destruct (lac_rac_find (w_st w1) r) as [o|].
    - destruct (negb (n_ptr o =? p)%N); [|exact (iso_ret None p w1 Hu1 HK1)].
      eapply (put_same None (w_st w1)); [reflexivity|apply N.le_refl| |reflexivity|exact Hu1|exact HK1]. apply iso_bind; [apply iso_new_area|intros; apply iso_ret].
    - eapply (put_same None (w_st w1)); [reflexivity|apply N.le_refl| |reflexivity|exact Hu1|exact HK1]. apply iso_bind; [apply iso_new_area|intros; apply iso_ret]. }
  clearbody tail. destruct (rnc_id_find (w_st w) id) as [v|].
  - rewrite bind_assoc. destruct (same_sccp_addr E (n_addr v) a).
    + rewrite !bind_ret. apply Ht; assumption.
    + eapply (put_same None (w_st w)); [reflexivity|apply N.le_refl| |reflexivity|exact Hu|exact HK]. intros w1. rewrite bind_ret. apply Ht.
  - unfold rnc_alloc. rewrite bind_assoc, bind_get. cbv zeta. rewrite bind_assoc. eapply (put_same None (w_st w)); [reflexivity|cbn; lia| |reflexivity|exact Hu|exact HK].
    intros w1. rewrite bind_ret. apply Ht.
Qed.
Lemma iso_initial_ue c a i : x = Some c -> iso None (handle_co_initial_ue E c a i).
Proof.
  intros Hx. unfold handle_co_initial_ue. apply iso_bind; [apply iso_emit; okp|intros _]. apply iso_bind; [apply iso_lift|intros [rc ra]].
  destruct (negb (rc =? 0)%Z); [apply iso_ret|]. apply iso_bind; [destruct (iu_rac i); [apply iso_lift|apply iso_ret]|intros rac].
  destruct (_ && _); [apply iso_ret|]. cbv zeta. apply iso_bind; [apply iso_lift|intros [id|]]; [|apply iso_ret].
  apply iso_bind; [apply iso_lift|intros sai]. apply iso_bind; [unfold nas_put; destruct (_ <=? _); [apply iso_ret|apply iso_fail]|intros _].
  apply iso_bind; [apply iso_register|intros n].
  intros w Hu _. unfold ue_conn_ctx_alloc. rewrite bind_assoc, bind_get. cbv zeta. rewrite bind_assoc, bind_put, bind_ret, bind_get, bind_put.
  cbn [w_st w_tr set_ues s_ues s_rncs s_cache s_next].
  set (ra' := mkRaId _ _ _ _ _). set (p := s_next (w_st w)).
  match goal with |- context [mkW ?s (w_tr w)] => set (s2 := s) end.
  assert (Hfresh : forall u, In u (s_ues (w_st w)) -> u_ptr u <> p) by (intros u Hi He; destruct Hu as [[_ Hu] _]; specialize (Hu u Hi); unfold p in He; lia).
  assert (Hs2 : s_ues s2 = mkUe p n c ra' true false None :: s_ues (w_st w)).
  { unfold s2. cbn [set_ues s_ues upd_ue map u_ptr u_rnc u_conn u_notif u_for u_timer]. rewrite N.eqb_refl. f_equal.
    rewrite <- (map_id (s_ues (w_st w))) at 2. apply map_ext_in. intros u Hi. destruct (N.eqb_spec (u_ptr u) p) as [He|]; [destruct (Hfresh u Hi He)|reflexivity]. }
  assert (Hr : R w (mkW s2 (w_tr w))).
  { split; [|exists []; split; [reflexivity|constructor]]. intros u Hc. cbn [w_st]. rewrite Hs2. split; [intros Hi; right; exact Hi|]. intros [<-|Hi]; [|exact Hi]. destruct Hc. exact Hx. }
  assert (Hu2 : uok s2).
  { destruct Hu as [[U1 U2] [B1 B2]]. split; split; rewrite ?Hs2; cbn [map u_ptr].
    - constructor; [|exact U1]. intros Hi. apply in_map_iff in Hi as (v&Hv&Hi). exact (Hfresh v Hi Hv).
    - unfold s2. cbn [set_ues s_next]. intros u [<-|Hi]; cbn [u_ptr]; [unfold p; lia|]. specialize (U2 u Hi). lia.
    - unfold s2. cbn [set_ues s_next]. intros q Hq. specialize (B1 q Hq). unfold p. lia.
    - intros u [<-|Hi]; cbn [u_ptr]; [|apply B2, Hi]. intros Hq. specialize (B1 _ Hq). unfold p in B1. lia. }
  assert (HK : K (Some p) s2). { split; [intros Hq; destruct Hu as [_ [B1 _]]; specialize (B1 _ Hq); unfold p in B1; lia|]. intros u Hi Hp. rewrite Hs2 in Hi. destruct Hi as [<-|Hi]; [exact Hx|]. destruct (Hfresh u Hi Hp). }
  assert (Hc : iso (Some p) (let! _ := callback E (ERecv p (iu_nas i) (Some ra') (Some sai)) in let! _ := emit EBufFree in ret 0%Z)).
  { apply iso_bind; [exact (iso_callback (ERecv p (iu_nas i) (Some ra') (Some sai)) I)|intros _]. apply iso_bind; [apply iso_emit; okp|intros; apply iso_ret]. }
  destruct (Hc (mkW s2 (w_tr w)) Hu2 HK) as (H1&H2). split; [eapply R_trans; [exact Hr|exact H1]|exact H2].
Qed.
Lemma iso_dt p d : iso (Some p) (handle_co_dt E p d).
Proof.
  unfold handle_co_dt. apply iso_bind; [apply iso_emit; okp|intros _]. apply iso_bind.
  - destruct (dt_lai d); [|apply iso_ret]. apply iso_bind; [apply iso_lift|intros [rc ra]]. destruct (negb _); [apply iso_ret|].
    apply iso_bind; [destruct (dt_rac d); [apply iso_lift|apply iso_ret]|intros rac]. apply iso_bind; [destruct (dt_sac d); [apply iso_bind; [apply iso_lift|intros; apply iso_ret]|apply iso_ret]|intros; apply iso_ret].
  - intros [[ra sai]|]; [|apply iso_ret]. apply iso_bind; [unfold nas_put; destruct (_ <=? _); [apply iso_ret|apply iso_fail]|intros _].
    apply iso_bind; [exact (iso_callback (ERecv p (dt_nas d) ra sai) I)|intros _]. apply iso_bind; [apply iso_emit; okp|intros; apply iso_ret].
Qed.
Lemma iso_co p m : iso (Some p) (handle_co E p m).
Proof.
  unfold handle_co. apply iso_bind; [|intros; apply iso_ret].
  destruct (m_dir m =? PR_initiatingMessage)%N.
  - destruct (m_proc m =? id_InitialUE_Message)%N; [apply iso_ret|]. destruct (m_proc m =? id_DirectTransfer)%N; [destruct (m_ies m); try apply iso_fail; apply iso_dt|].
    destruct (m_proc m =? id_ErrorIndication)%N; [apply iso_ret|]. destruct (m_proc m =? id_Iu_ReleaseRequest)%N; [|apply iso_ret].
    destruct (m_ies m); try apply iso_fail. unfold handle_co_iu_rel_req. apply iso_bind; [apply iso_tx_release|intros; apply iso_ret].
  - destruct (m_dir m =? PR_successfulOutcome)%N.
    + destruct (m_proc m =? id_SecurityModeControl)%N; [apply iso_event|]. destruct (m_proc m =? id_Iu_Release)%N; [apply iso_event|apply iso_ret].
    + destruct (m_dir m =? PR_outcome)%N; [|apply iso_ret]. destruct (m_proc m =? id_RAB_Assignment)%N; [|apply iso_ret].
      destruct (m_ies m); try apply iso_fail. unfold handle_co_rab_ass_resp. apply iso_deref. intros u _ _. match goal with |- iso _ (match ?q with _ => _ end) => destruct q as [[|y l]|] end; [apply iso_fail| |apply iso_ret].
      apply iso_bind; [apply iso_lift|intros [z|]]; [apply iso_event|apply iso_ret].
Qed.
Lemma iso_initial c a m : x = Some c -> iso None (handle_co_initial E c a m).
Proof. intros Hx. unfold handle_co_initial. destruct (_ || _); [apply iso_ret|]. destruct (m_ies m); try apply iso_fail. apply iso_bind; [apply iso_initial_ue; exact Hx|intros; apply iso_ret]. Qed.
Lemma iso_rx p l h : (forall m, iso p (h m)) -> iso p (rx_co E l h).
Proof. intros H. unfold rx_co. destruct (dec_co E l); [apply H|apply iso_ret]. Qed.
Lemma iso_cache f : iso None (let! s := get in put_st (set_cache s (f s))).
Proof. apply iso_modify. intros s Hu _. split; [intros u _; cbn; tauto|exact Hu]. Qed.
End Iso.


(* the contexts of other connections *)
Definition others (x : option N) (s : st) (p : ptr) : Prop := exists u, In u (s_ues s) /\ u_ptr u = p /\ x <> Some (u_conn u).
Lemma nodup_same (l : list ue) u v : NoDup (map u_ptr l) -> In u l -> In v l -> u_ptr u = u_ptr v -> u = v.
Proof.
  intros Hn Hu Hv He. induction l as [|y l IH]; [destruct Hu|]. cbn [map] in Hn. inversion Hn as [|? ? H1 H2]; subst.
  destruct Hu as [->|Hu]; destruct Hv as [->|Hv]; try reflexivity.
  - destruct H1. rewrite He. apply in_map, Hv.
  - destruct H1. rewrite <- He. apply in_map, Hu.
  - apply IH; assumption.
Qed.
Lemma iso_exec E o w : minds_its_own E -> uok1 (w_st w) -> is_loss_ind o = false ->
  R (concerns (w_st w) o) (others (concerns (w_st w) o) (w_st w)) w (fst (exec E o w)).
Proof.
  intros Happ Hu1 Ho. set (x := concerns (w_st w) o). set (B := others x (w_st w)).
  assert (Hu : uok x B (w_st w)).
  { split; [exact Hu1|]. destruct Hu1 as [Hn Hl]. split; [intros p (u&Hi&<-&_); apply Hl, Hi|]. intros u Hi (v&Hv&Hp&Hx).
    assert (v = u) as <- by (eapply nodup_same; eassumption). exact Hx. }
  clear Hu1.
  assert (Hgen : forall p (m : M unit), iso x B p m -> K x B p (w_st w) -> R x B w (fst ((let! _ := m in emit EPrimFree) w))).
  { intros p m Hm HK. assert (H : iso x B p (let! _ := m in emit EPrimFree)) by (apply iso_bind; [exact Hm|intros; apply iso_emit; okp]). apply H; assumption. }
  assert (Hat : forall p, concerns (w_st w) o = conn_at (w_st w) p -> K x B (Some p) (w_st w)).
  { intros p Hp. unfold conn_at in Hp. split.
    - intros (u&Hi&Hq&Hx). destruct (find _ (s_ues (w_st w))) as [v|] eqn:Hf.
      + apply find_some in Hf as [Hv Hvp]. apply N.eqb_eq in Hvp. assert (v = u) as -> by (eapply nodup_same; [apply Hu|exact Hv|exact Hi|congruence]). destruct (Hx Hp).
      + pose proof (find_none _ _ Hf u Hi) as Hc. cbv beta in Hc. apply N.eqb_neq in Hc. congruence.
    - intros u Hi Hq. unfold x. rewrite Hp. destruct (find _ (s_ues (w_st w))) as [v|] eqn:Hf.
      + apply find_some in Hf as [Hv Hvp]. apply N.eqb_eq in Hvp. assert (v = u) as -> by (eapply nodup_same; [apply Hu|exact Hv|exact Hi|congruence]). reflexivity.
      + pose proof (find_none _ _ Hf u Hi) as Hc. cbv beta in Hc. apply N.eqb_neq in Hc. congruence. }
  destruct o; try discriminate Ho; cbn [exec]; unfold sccp_sap_up.
  - apply (Hgen None); [|exact I]. apply iso_bind; [apply iso_send; reflexivity|intros _]. destruct l2; [apply iso_cache|]. apply iso_rx. intros m. apply (iso_initial E Happ). reflexivity.
  - apply (Hgen None); [|exact I]. apply iso_ret.
  - apply (Hgen None); [|exact I]. apply iso_bind; [apply iso_cache|intros _]. intros w1 Hu1 _. rewrite bind_get.
    destruct (ue_conn_ctx_find (w_st w1) conn) as [u|] eqn:Hf; [|exact (iso_ret x B None tt w1 Hu1 I)]. apply find_conn in Hf as [Hi Hc].
    assert (Hin : iso x B (Some (u_ptr u)) (let! _ := match l2 with [] => ret tt | _ :: _ => rx_co E l2 (handle_co E (u_ptr u)) end in
      let! s := get in match ue_conn_ctx_find s conn with None => ret tt | Some u0 => link_invalidated_free E (u_ptr u0) end)).
    { apply iso_bind; [destruct l2; [apply iso_ret|apply iso_rx; intros; apply (iso_co E Happ)]|intros _].
      intros w2 Hu2 _. rewrite bind_get. destruct (ue_conn_ctx_find (w_st w2) conn) as [v|] eqn:Hf; [|exact (iso_ret x B None tt w2 Hu2 I)].
      apply find_conn in Hf as [Hv Hvc]. apply (iso_link E Happ); [exact Hu2|]. apply K_of; [exact Hu2|exact Hv|]. unfold x. cbn [concerns]. congruence. }
    apply Hin; [exact Hu1|]. apply K_of; [exact Hu1|exact Hi|]. unfold x. cbn [concerns]. congruence.
  - apply (Hgen None); [|exact I]. intros w1 Hu1 _. rewrite bind_get. destruct (ue_conn_ctx_find (w_st w1) conn) as [u|] eqn:Hf.
    + apply find_conn in Hf as [Hi Hc]. apply (iso_rx E x B (Some (u_ptr u))); [intros; apply (iso_co E Happ)|exact Hu1|]. apply K_of; [exact Hu1|exact Hi|]. unfold x. cbn [concerns]. congruence.
    + destruct (sccp_addr_find (w_st w1) conn) as [a|]; [|exact (iso_ret x B None tt w1 Hu1 I)].
      assert (Hin : iso x B None (let! _ := sccp_addr_del conn in rx_co E l2 (handle_co_initial E conn a))).
      { apply iso_bind; [apply iso_cache|intros _]. apply iso_rx. intros m. apply (iso_initial E Happ). reflexivity. }
      apply Hin; [exact Hu1|exact I].
  - apply (Hgen None); [|exact I]. unfold rx_cl, handle_cl. destruct (dec_cl E l2) as [m|]; [|apply iso_ret]. apply iso_bind; [|intros; apply iso_ret].
    destruct (m_dir m =? PR_initiatingMessage)%N; [|apply iso_ret]. destruct (m_proc m =? id_Reset)%N.
    + destruct (m_ies m); try apply iso_fail. unfold handle_cl_reset_req. destruct (enc_ok E _); [apply iso_send; exact I|apply iso_ret].
    + destruct (m_proc m =? id_ErrorIndication)%N; apply iso_ret.
  - apply (Hgen None); [|exact I]. apply iso_ret.
  - apply (Hgen None); [|exact I]. apply iso_ret.
  - assert (HK : K x B (Some ue) (w_st w)) by (apply Hat; reflexivity). unfold timer_fires. rewrite bind_get. destruct (live (w_st w) ue) as [u|]; [|apply R_refl].
    destruct (u_timer u); [|apply R_refl]. rewrite bind_put.
    destruct (iso_upd x B ue (fun u => mkUe (u_ptr u) (u_rnc u) (u_conn u) (u_ra u) (u_notif u) (u_for u) None) (fun _ => eq_refl) (fun _ => eq_refl) (w_st w) Hu HK) as (H1&H2).
    set (s1 := set_ues _ _) in *.
    assert (Hr : R x B w (mkW s1 (w_tr w))) by (split; [exact H1|exists []; split; [reflexivity|constructor]]).
    assert (Hin : iso x B (Some ue) (let! _ := global_iu_event E (Some ue) EvIuRelease in ret tt)) by (apply iso_bind; [apply (iso_event E Happ)|intros; apply iso_ret]).
    destruct (Hin (mkW s1 (w_tr w)) H2 (R_K x B (Some ue) _ _ Hr HK)) as (H3&_). eapply R_trans; [exact Hr|exact H3].
  - destruct (api_target a) as [p|] eqn:Hp.
    + apply (iso_api E x B a (Some p)); [right; exact Hp|exact Hu|]. apply Hat. cbn [concerns]. rewrite Hp. reflexivity.
    + apply (iso_api E x B a None); [left; exact Hp|exact Hu|exact I].
Qed.
Lemma iso_reach E l o : minds_its_own E -> is_loss_ind o = false ->
  let w := reach E l in let w' := fst (exec E o w) in let x := concerns (w_st w) o in
  (forall u, x <> Some (u_conn u) -> (In u (s_ues (w_st w)) <-> In u (s_ues (w_st w')))) /\
  exists t, added (w_tr w) (w_tr w') t /\ (forall r c, In r (sends t) -> request_conn r = Some c -> x = Some c) /\
    forall e u, In e t -> In u (s_ues (w_st w)) -> subject e = Some (u_ptr u) -> x = Some (u_conn u).
Proof.
  intros Happ Ho w w' x. assert (Hg : uok1 (w_st w)).
  { pose proof (g_ues _ (reach_good E l)) as Q. split; [apply sorted_nodup, (q_sorted _ Q)|apply (q_next _ Q)]. }
  destruct (iso_exec E o w Happ Hg Ho) as (H1&t&T1&T2). split; [exact H1|]. exists (rev t). unfold added. rewrite rev_involutive. split; [exact T1|].
  rewrite Forall_forall in T2. split.
  - intros r c Hr Hc. unfold sends in Hr. apply in_flat_map in Hr as (e&He&Hr). apply in_rev in He.
    destruct (T2 e He) as [_ T]. destruct e; try contradiction. destruct Hr as [->|[]]. rewrite Hc in T. exact T.
  - intros e u He Hu Hs. apply in_rev in He. destruct (T2 e He) as [T _]. specialize (T _ Hs).
    destruct x as [c|] eqn:Hx; fold x in T.
    + destruct (N.eq_dec c (u_conn u)) as [->|Hne]; [reflexivity|]. destruct T. exists u. split; [exact Hu|]. split; [reflexivity|]. rewrite Hx. congruence.
    + destruct T. exists u. split; [exact Hu|]. split; [reflexivity|]. rewrite Hx. discriminate.
Qed.
Lemma addresses_apart E l o c : let w := reach E l in concerns (w_st w) o <> Some c ->
  remembered (w_st (fst (exec E o w))) c = remembered (w_st w) c.
Proof.
  intros w Hc. unfold w. rewrite (exec_remembered E _ _ _ (reach_good E l)). destruct o; cbn [concerns] in Hc; try reflexivity.
  - destruct l2; [|reflexivity]. destruct (N.eqb_spec conn c); [congruence|reflexivity].
  - destruct (N.eqb_spec c conn); [congruence|reflexivity].
  - destruct (N.eqb_spec c conn); [congruence|reflexivity].
Qed.
Lemma frees_released_minds E : (forall t, app E t = frees_released t) -> minds_its_own E.
Proof.
  intros H e t a p Ha Hp. rewrite H in Ha. unfold frees_released in Ha. destruct e; try contradiction. destruct ue as [q|]; [|contradiction].
  destruct e; try contradiction. destruct Ha as [<-|[]]. exact Hp.
Qed.
Lemma added_unique b a t t' : added b a t -> added b a t' -> t = t'.
Proof. unfold added. intros -> H. apply app_inv_tail in H. rewrite <- (rev_involutive t), H. apply rev_involutive. Qed.
