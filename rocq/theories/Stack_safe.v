(* Which messages crash the client when the application calls nothing from its
   callbacks, for any decoder. *)
From Verif Require Import Base Lai Lai_proofs IuClient IuClient_spec IuClient_step Stack_spec.
From Coq Require Import List.
Local Open Scope list_scope.

Definition safe {A} (m : M A) : Prop := forall w, snd (m w) <> None.
Lemma safe_ret {A} (a : A) : safe (ret a). Proof. discriminate. Qed.
Lemma safe_emit e : safe (emit e). Proof. discriminate. Qed.
Lemma safe_get : safe get. Proof. discriminate. Qed.
Lemma safe_put s : safe (put_st s). Proof. discriminate. Qed.
Lemma safe_trace : safe trace. Proof. discriminate. Qed.
Lemma safe_bind {A B} (m : M A) (k : A -> M B) : safe m -> (forall a, safe (k a)) -> safe (bind m k).
Proof.
  intros H1 H2 w. unfold bind. specialize (H1 w). destruct (m w) as [w' [a|]]; [apply H2|destruct (H1 eq_refl)].
Qed.
(* a safe first step does not decide *)
Lemma crash_bind {A B} (m : M A) (k : A -> M B) w : snd (bind m k w) = None <->
  snd (m w) = None \/ exists w' a, m w = (w', Some a) /\ snd (k a w') = None.
Proof.
  unfold bind. destruct (m w) as [w' [a|]]; cbn [snd]; split; intros H; auto.
  - right. exists w', a. auto.
  - destruct H as [H|(w2&a2&E&H)]; [discriminate|]. injection E as <- <-. exact H.
Qed.

(* what kills the process whatever the application does *)
Definition bad_initial (i : initial_ue) : Prop :=
  (exists ra, parse_lai (iu_lai i) = Ok (0%Z, ra)) /\ iu_rac i <> Some [255%N] /\
  (exists id, grnc_id_parse (iu_grnc i) = Ok (Some id)) /\ (length (iu_sac i) < 2 \/ 256 < length (iu_nas i)).
Definition bad_transfer (d : direct_transfer) : Prop :=
  (dt_lai d = None \/ exists l ra, dt_lai d = Some l /\ parse_lai l = Ok (0%Z, ra)) /\ 256 < length (dt_nas d).
Definition one_octet (o : option (list N)) : Prop := match o with None => True | Some l => exists x, l = [x] end.
Definition two_octets (o : option (list N)) : Prop := match o with None => True | Some l => exists x y, l = [x; y] end.
Lemma initial_fatal E conn a i w : one_octet (iu_rac i) -> bad_initial i -> snd (handle_co_initial_ue E conn a i w) = None.
Proof.
  intros Hr ((ra&Hl)&Hn&(id&Hg)&Hb). unfold handle_co_initial_ue. rewrite Hl, Hg. cbn [lift]. unfold bind at 1. cbn [emit]. unfold bind at 1. cbn [ret Z.eqb negb].
  assert (HR : exists rac, (match iu_rac i with Some o => lift (asn1str_to_u8 o) | None => ret OSMO_RESERVED_RAC end) = ret rac /\
     (match iu_rac i with Some _ => true | None => false end) && (rac =? OSMO_RESERVED_RAC)%N = false).
  { destruct (iu_rac i) as [o|]; cbn [one_octet] in Hr; [|exists OSMO_RESERVED_RAC; split; reflexivity].
    destruct Hr as (x&->). exists x. split; [reflexivity|]. cbn [andb]. apply N.eqb_neq. unfold OSMO_RESERVED_RAC. congruence. }
  destruct HR as (rac&->&Hf). unfold bind at 1. cbn [ret]. rewrite Hf. unfold bind at 1. cbn [ret]. unfold bind at 1.
  destruct (iu_sac i) as [|s0 [|s1 sac]]; cbn [asn1str_to_u16 lift fail snd]; [reflexivity|reflexivity|]. cbn [ret]. unfold bind at 1, nas_put, NAS_BUF_SIZE.
  destruct Hb as [Hb|Hb]; [cbn in Hb; lia|]. destruct (Nat.leb_spec (length (iu_nas i)) 256); [lia|reflexivity].
Qed.
Lemma transfer_fatal E p d w : one_octet (dt_rac d) -> two_octets (dt_sac d) -> bad_transfer d -> snd (handle_co_dt E p d w) = None.
Proof.
  intros Hr Hs (Hl&Hn). unfold handle_co_dt. unfold bind at 1. cbn [emit].
  assert (Hput : forall x w', snd ((let! _ := nas_put (dt_nas d) in let! _ := callback E x in let! _ := emit EBufFree in ret 0%Z) w') = None).
  { intros x w'. unfold nas_put, NAS_BUF_SIZE. unfold bind at 1. destruct (Nat.leb_spec (length (dt_nas d)) 256); [lia|reflexivity]. }
  destruct Hl as [->|(l&ra&->&Hp)].
  - unfold bind at 1. cbn [ret]. apply Hput.
  - rewrite Hp. unfold bind at 1. cbn [lift]. unfold bind at 1. cbn [ret Z.eqb negb].
    assert (HR : exists rac, (match dt_rac d with Some o => lift (asn1str_to_u8 o) | None => ret (ra_rac ra) end) = ret rac).
    { destruct (dt_rac d) as [o|]; [destruct Hr as (x&->)|]; eexists; reflexivity. }
    destruct HR as (rac&->). unfold bind at 1. cbn [ret].
    assert (HS : exists sai, (match dt_sac d with Some o => let! v := lift (asn1str_to_u16 o) in ret (Some v) | None => ret None end) = ret sai).
    { destruct (dt_sac d) as [o|]; [destruct Hs as (x&y&->)|]; eexists; reflexivity. }
    destruct HS as (sai&->). unfold bind at 1. cbn [ret]. apply Hput.
Qed.

Section Quiet.
Variable E : env.
Hypothesis Q : quiet E.
Lemma safe_callback e : safe (callback E e).
Proof. unfold callback. apply safe_bind; [apply safe_emit|]. intros _. apply safe_bind; [apply safe_trace|]. intros t. rewrite Q. apply safe_ret. Qed.
Lemma safe_event_none ev : safe (global_iu_event E None ev).
Proof.
  unfold global_iu_event. destruct (has_event_cb E); cbn [negb]; [|apply safe_ret]. apply safe_bind; [apply safe_ret|].
  intros ok. destruct ok; cbn [negb]; [|apply safe_ret]. apply safe_bind; [apply safe_callback|]. intros _. apply safe_bind; [apply safe_trace|]. intros; apply safe_ret.
Qed.
Lemma safe_new_area id r : safe (event_new_area E id r).
Proof. unfold event_new_area. apply safe_bind; [apply safe_event_none|]. intros; apply safe_ret. Qed.
Lemma safe_register id r a : safe (rnc_register E id r a).
Proof.
  unfold rnc_register. apply safe_bind; [apply safe_get|]. intros s. apply safe_bind.
  - destruct (rnc_id_find s id); [|apply safe_bind; [apply safe_get|]; intros; apply safe_bind; [apply safe_put|]; intros; apply safe_ret].
    apply safe_bind; [destruct (same_sccp_addr E (n_addr r0) a); [apply safe_ret|apply safe_put]|]. intros; apply safe_ret.
  - intros p. apply safe_bind; [apply safe_get|]. intros s'. destruct (lac_rac_find s' r).
    + destruct (negb _); [|apply safe_ret]. apply safe_bind; [apply safe_put|]. intros. apply safe_bind; [apply safe_new_area|]. intros; apply safe_ret.
    + apply safe_bind; [apply safe_put|]. intros. apply safe_bind; [apply safe_new_area|]. intros; apply safe_ret.
Qed.

Lemma grnc_total g : exists o, grnc_id_parse g = Ok o.
Proof.
  unfold grnc_id_parse. destruct (length (g_plmn g) =? 3) eqn:El; cbn [negb]; [|eexists; reflexivity].
  apply Nat.eqb_eq in El. destruct (g_plmn g) as [|b0 [|b1 [|b2 [|]]]]; try discriminate El. eexists. reflexivity.
Qed.

(* Initial UE Message *)
Lemma initial_crash conn a i w : one_octet (iu_rac i) ->
  (snd (handle_co_initial_ue E conn a i w) = None <-> bad_initial i).
Proof.
  intros Hr. unfold bad_initial. unfold handle_co_initial_ue. destruct (lift_parse_lai (iu_lai i)) as (rc&ra&Hl). rewrite Hl.
  destruct (grnc_total (iu_grnc i)) as (og&Hg). rewrite Hg.
  cbn [lift]. unfold bind at 1. cbn [emit fst snd]. unfold bind at 1. cbn [ret].
  destruct (Z.eqb_spec rc 0) as [->|Hne]; cbn [negb].
  2:{ cbn [ret snd]. split; [discriminate|]. intros ((ra'&E')&_). injection E' as E1 _. congruence. }
  assert (HR : exists rac, (match iu_rac i with Some o => lift (asn1str_to_u8 o) | None => ret OSMO_RESERVED_RAC end) = ret rac /\
     ((match iu_rac i with Some _ => true | None => false end) && (rac =? OSMO_RESERVED_RAC)%N = true <-> iu_rac i = Some [255%N])).
  { destruct (iu_rac i) as [o|]; cbn [one_octet] in Hr.
    - destruct Hr as (x&->). exists x. split; [reflexivity|]. cbn [andb]. unfold OSMO_RESERVED_RAC. rewrite N.eqb_eq. split; [intros ->; reflexivity|congruence].
    - exists OSMO_RESERVED_RAC. split; [reflexivity|]. cbn [andb]. split; discriminate. }
  destruct HR as (rac&Hrac&Hff). rewrite Hrac. unfold bind at 1. cbn [ret].
  destruct (_ && _) eqn:Eff.
  { cbn [ret snd]. split; [discriminate|]. intros (_&H&_). destruct (H (proj1 Hff eq_refl)). }
  assert (Hn255 : iu_rac i <> Some [255%N]) by (intros H; apply Hff in H; discriminate).
  unfold bind at 1. cbn [ret]. destruct og as [id|].
  2:{ cbn [ret snd]. split; [discriminate|]. intros (_&_&(id&H)&_). discriminate. }
  unfold bind at 1.
  destruct (iu_sac i) as [|s0 [|s1 sac]] eqn:Es; cbn [asn1str_to_u16 lift fail snd].
  { split; [|reflexivity]. intros _. split; [eauto|]. split; [exact Hn255|]. split; [eauto|]. left. cbn. lia. }
  { split; [|reflexivity]. intros _. split; [eauto|]. split; [exact Hn255|]. split; [eauto|]. left. cbn. lia. }
  cbn [ret]. unfold nas_put, NAS_BUF_SIZE. unfold bind at 1.
  destruct (Nat.leb_spec (length (iu_nas i)) 256) as [Hle|Hgt]; cbn [ret fail snd].
  2:{ split; [|reflexivity]. intros _. split; [eauto|]. split; [exact Hn255|]. split; [eauto|]. right. exact Hgt. }
  split.
  - intros H. exfalso. revert H. 
    match goal with |- snd (?m ?w) = None -> False => assert (Hs : safe m); [|exact (Hs w)] end.
    apply safe_bind; [apply safe_register|]. intros n. apply safe_bind.
    { unfold ue_conn_ctx_alloc. apply safe_bind; [apply safe_get|]. intros s. apply safe_bind; [apply safe_put|]. intros; apply safe_ret. }
    intros p. apply safe_bind; [apply safe_get|]. intros s. apply safe_bind; [apply safe_put|]. intros _.
    apply safe_bind; [apply safe_callback|]. intros _. apply safe_bind; [apply safe_emit|]. intros; apply safe_ret.
  - intros (_&_&_&[H|H]); [cbn in H; lia|lia].
Qed.

(* Direct Transfer *)
Lemma transfer_crash p d w : one_octet (dt_rac d) -> two_octets (dt_sac d) ->
  (snd (handle_co_dt E p d w) = None <-> bad_transfer d).
Proof.
  intros Hr Hs. unfold bad_transfer. unfold handle_co_dt. unfold bind at 1. cbn [emit].
  assert (Hput : forall x w', snd ((let! _ := nas_put (dt_nas d) in let! _ := callback E x in let! _ := emit EBufFree in ret 0%Z) w') = None <->
            256 < length (dt_nas d)).
  { intros x w'. unfold nas_put, NAS_BUF_SIZE. unfold bind at 1. destruct (Nat.leb_spec (length (dt_nas d)) 256) as [Hle|Hgt]; cbn [ret fail snd].
    - split; [|lia]. intros H. exfalso. revert H.
      match goal with |- snd (?m ?w) = None -> False => assert (Hsf : safe m); [|exact (Hsf w)] end.
      apply safe_bind; [apply safe_callback|]. intros _. apply safe_bind; [apply safe_emit|]. intros; apply safe_ret.
    - split; auto. }
  destruct (dt_lai d) as [l|].
  - destruct (lift_parse_lai l) as (rc&ra&Hl). rewrite Hl. unfold bind at 1. cbn [lift]. unfold bind at 1. cbn [ret].
    destruct (Z.eqb_spec rc 0) as [->|Hne]; cbn [negb].
    2:{ cbn [ret snd]. split; [discriminate|]. intros ([H|(l'&ra'&H&E')]&_); [discriminate|]. injection H as <-. rewrite Hl in E'. injection E' as E1 _. congruence. }
    assert (HR : exists rac, (match dt_rac d with Some o => lift (asn1str_to_u8 o) | None => ret (ra_rac ra) end) = ret rac).
    { destruct (dt_rac d) as [o|]; [destruct Hr as (x&->)|]; eexists; reflexivity. }
    destruct HR as (rac&->). unfold bind at 1. cbn [ret].
    assert (HS : exists sai, (match dt_sac d with Some o => let! v := lift (asn1str_to_u16 o) in ret (Some v) | None => ret None end) = ret sai).
    { destruct (dt_sac d) as [o|]; [destruct Hs as (x&y&->)|]; eexists; reflexivity. }
    destruct HS as (sai&->). unfold bind at 1. cbn [ret]. rewrite Hput.
    split; [intros H; split; [right; eauto|exact H]|intros [_ H]; exact H].
  - unfold bind at 1. cbn [ret]. rewrite Hput. split; [auto|intros [_ H]; exact H].
Qed.
End Quiet.
