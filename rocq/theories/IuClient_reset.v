(* Proofs for C103 *)
From Coq Require Import ZifyBool ZifyNat ZifyN.
From Verif Require Import Base Lai IuClient IuClient_spec IuClient_iso_spec IuClient_rel.

Lemma cl_shape E l calling msg : let w := reach E l in
  exists t, exec E (OUnitdataInd calling msg) w = (mkW (w_st w) (t ++ w_tr w), snd (exec E (OUnitdataInd calling msg) w)) /\
    (t = [EPrimFree] \/ t = [EFault OobRead] \/ exists d g, t = [EPrimFree; ESccp (NUnitdataReq calling (DL_ResetAck d g))]).
Proof.
  cbv zeta. set (w := reach E l).
  assert (Hd : (exists d g, dec_cl E msg = Some (mkMsg 1 9 (I_Reset d g))) \/ (exists m, dec_cl E msg = Some m /\ m_dir m = 1%N /\ m_proc m = 9%N) \/
    (forall m, dec_cl E msg = Some m -> m_dir m <> 1%N \/ m_proc m <> 9%N)).
  { destruct (dec_cl E msg) as [m|]; [|right; right; discriminate]. destruct (N.eq_dec (m_dir m) 1) as [H1|H1]; [destruct (N.eq_dec (m_proc m) 9) as [H2|H2]|].
    - right. left. eauto.
    - right. right. intros m' [= <-]. auto.
    - right. right. intros m' [= <-]. auto. }
  destruct Hd as [(d&g&Hd)|[(m&Hd&H1&H2)|Ho]].
  - rewrite (reset_l E w calling msg), Hd. destruct (enc_ok E _); cbn [snd].
    + exists [EPrimFree; ESccp (NUnitdataReq calling (DL_ResetAck d g))]. split; [reflexivity|]. eauto.
    + exists [EPrimFree]. split; [reflexivity|]. auto.
  - rewrite (reset_l E w calling msg), Hd. destruct m as [dir proc i]. cbn [m_dir m_proc] in *. subst dir proc. cbn [m_dir m_proc].
    destruct i; cbn [snd];
      try (exists [EFault OobRead]; split; [reflexivity|auto]; fail).
    destruct (enc_ok E _).
    + eexists [EPrimFree; ESccp _]. split; [reflexivity|]. eauto.
    + exists [EPrimFree]. split; [reflexivity|]. auto.
  - exists [EPrimFree]. pose proof (other_cl_l E l calling msg Ho) as Hx. cbv zeta in Hx. fold w in Hx. rewrite Hx. split; [reflexivity|]. auto.
Qed.
Lemma cl_quiet_l E l calling msg : let w := reach E l in let w' := fst (exec E (OUnitdataInd calling msg) w) in
  w_st w' = w_st w /\ exists t, added (w_tr w) (w_tr w') t /\ events t = [] /\ recvs t = [] /\
    (sends t = [] \/ exists d g, sends t = [NUnitdataReq calling (DL_ResetAck d g)]).
Proof.
  cbv zeta. destruct (cl_shape E l calling msg) as (t&Ht&Hc). cbv zeta in Ht. rewrite Ht. cbn [fst w_st w_tr]. split; [reflexivity|].
  exists (rev t). split; [unfold added; rewrite rev_involutive; reflexivity|].
  destruct Hc as [->|[->|(d&g&->)]]; cbn; eauto 10.
Qed.
