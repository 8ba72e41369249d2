(* Proofs for C108. *)
From Verif Require Import Base Lai IuClient IuClient_spec Start.

(* vocabulary of the proofs *)
Definition connects (o : op) : bool := match o with OConnectInd _ _ _ => true | _ => false end.

(* vocabulary of the proofs: what one operation does as long as nothing is recorded *)
Definition idle_step (E : env) (o : op) (w w' : world) : Prop :=
  w_st w' = init /\
  (sends (w_tr w') = sends (w_tr w) \/
   exists calling msg d g, o = OUnitdataInd calling msg /\
     dec_cl E msg = Some (mkMsg PR_initiatingMessage id_Reset (I_Reset d g)) /\
     sends (w_tr w') = NUnitdataReq calling (DL_ResetAck d g) :: sends (w_tr w)).

Lemma cl_step E calling m tr :
  let w' := fst (handle_cl E calling m (mkW init tr)) in
  w_st w' = init /\
  (sends (w_tr w') = sends tr \/ exists d g, m = mkMsg PR_initiatingMessage id_Reset (I_Reset d g) /\
     sends (w_tr w') = NUnitdataReq calling (DL_ResetAck d g) :: sends tr).
Proof.
  unfold handle_cl. destruct m as [dir proc ies]. cbn [m_dir m_proc m_ies].
  repeat match goal with |- context [if ?b then _ else _] => destruct b eqn:? end;
  destruct ies; cbv [ret bind fail emit encode sccp_send trace get put_st handle_cl_reset_req]; cbn [fst snd w_st w_tr];
  try (split; [reflexivity|left; reflexivity]).
  all: repeat match goal with |- context [if ?b then _ else _] => destruct b eqn:? end; cbn [fst snd w_st w_tr].
  all: split; [reflexivity|].
  all: try (left; reflexivity).
  all: right; repeat match goal with H : (_ && _)%bool = true |- _ => apply andb_prop in H; destruct H end;
    repeat match goal with H : (_ =? _)%N = true |- _ => apply N.eqb_eq in H; subst end; eauto.
Qed.

Lemma exec_step E o tr : connects o = false -> idle_step E o (mkW init tr) (fst (exec E o (mkW init tr))).
Proof.
  intros Hc. unfold idle_step. destruct o as [c a m| |c m|c m|calling m|calling c|pc sp rem| | |p|a]; try discriminate Hc;
    cbn [exec]; unfold sccp_sap_up.
  - split; [reflexivity|left; reflexivity].
  - split; [reflexivity|left; reflexivity].
  - split; [reflexivity|left; reflexivity].
  - unfold rx_cl. destruct (dec_cl E m) as [x|] eqn:Hd; [|split; [reflexivity|left; reflexivity]].
    pose proof (cl_step E calling x tr) as H. cbv zeta in H.
    unfold bind. destruct (handle_cl E calling x (mkW init tr)) as [w' [[]|]]; cbn [fst] in *.
    + cbn [emit fst w_st w_tr]. destruct H as [H1 H2]. split; [exact H1|].
      destruct H2 as [H2|(d & g & -> & H2)]; [left; exact H2|right; exists calling, m, d, g; repeat split; [exact Hd|exact H2]].
    + destruct H as [H1 H2]. split; [exact H1|].
      destruct H2 as [H2|(d & g & -> & H2)]; [left; exact H2|right; exists calling, m, d, g; repeat split; [exact Hd|exact H2]].
  - unfold handle_notice_ind. destruct (_ || _); split; solve [reflexivity|left; reflexivity].
  - unfold handle_pcstate_ind. destruct (pcstate_decision sp rem) as [x []]; split; solve [reflexivity|left; reflexivity].
  - split; [reflexivity|left; reflexivity].
  - split; [reflexivity|left; reflexivity].
  - split; [reflexivity|left; reflexivity].
  - destruct a; try (split; [reflexivity|left; reflexivity]).
    + destruct dst; split; solve [reflexivity|left; reflexivity].
    + unfold run_api, tx_sec_mode_cmd, encode. cbv [ret bind fail emit trace get put_st deref live]. cbn [fst snd w_st w_tr].
      destruct (enc_ok E _); split; solve [reflexivity|left; reflexivity].
    + unfold run_api, tx_release, encode. cbv [ret bind fail emit trace get put_st deref live]. cbn [fst snd w_st w_tr].
      destruct (enc_ok E _); split; solve [reflexivity|left; reflexivity].
    + destruct ue; split; solve [reflexivity|left; reflexivity].
Qed.

Lemma run_idle E l : forall tr, (forall o, In o l -> connects o = false) ->
  w_st (fst (run E l (mkW init tr))) = init /\
  exists t, sends (w_tr (fst (run E l (mkW init tr)))) = t ++ sends tr /\
    forall q, In q t -> exists calling msg d g, In (OUnitdataInd calling msg) l /\
      dec_cl E msg = Some (mkMsg PR_initiatingMessage id_Reset (I_Reset d g)) /\ q = NUnitdataReq calling (DL_ResetAck d g).
Proof.
  induction l as [|o l IH]; intros tr H.
  - split; [reflexivity|]. exists []. split; [reflexivity|intros q []].
  - cbn [run]. unfold bind.
    pose proof (exec_step E o tr (H o (or_introl eq_refl))) as [Hs Ht].
    destruct (exec E o (mkW init tr)) as [[s1 tr1] r]. cbn [fst w_st w_tr] in Hs, Ht. subst s1.
    assert (Hx : exists t, sends tr1 = t ++ sends tr /\ forall q, In q t -> exists calling msg d g, In (OUnitdataInd calling msg) (o :: l) /\
      dec_cl E msg = Some (mkMsg PR_initiatingMessage id_Reset (I_Reset d g)) /\ q = NUnitdataReq calling (DL_ResetAck d g)).
    { destruct Ht as [Ht|(calling & msg & d & g & -> & Hd & Ht)].
      - exists []. split; [exact Ht|intros q []].
      - exists [NUnitdataReq calling (DL_ResetAck d g)]. split; [exact Ht|].
        intros q [<-|[]]. exists calling, msg, d, g. repeat split; [left; reflexivity|exact Hd]. }
    destruct Hx as (t1 & Ht1 & Hq1).
    destruct r as [[]|].
    + destruct (IH tr1) as (Hst & t & Ht2 & Hq); [intros; apply H; right; assumption|].
      split; [exact Hst|]. exists (t ++ t1). rewrite Ht2, Ht1, app_assoc. split; [reflexivity|].
      intros q Hin. apply in_app_or in Hin. destruct Hin as [Hin|Hin]; [|exact (Hq1 q Hin)].
      destruct (Hq q Hin) as (calling & msg & d & g & A & B & C). exists calling, msg, d, g. repeat split; [right; exact A|exact B|exact C].
    + split; [reflexivity|]. exists t1. split; [exact Ht1|exact Hq1].
Qed.
