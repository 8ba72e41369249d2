(* C103: what a Reset does to the connections of its sender. *)
From Verif Require Import Base Lai IuClient IuClient_spec IuClient_ex IuClient_iso_spec IuClient_bound_spec IuClient_reset.

(* False: after a Reset every context is what it was, and the application is told nothing. *)
Theorem C103_ended_refuted : forall E l calling msg d g,
  dec_cl E msg = Some (mkMsg PR_initiatingMessage id_Reset (I_Reset d g)) ->
  let w := reach E l in let w' := fst (exec E (OUnitdataInd calling msg) w) in
  s_ues (w_st w') = s_ues (w_st w) /\ exists t, added (w_tr w) (w_tr w') t /\ events t = [].
Proof. intros E l calling msg d g _ w w'. destruct (cl_quiet_l E l calling msg) as (H&t&H1&H2&_). split; [exact (f_equal s_ues H)|eauto]. Qed.
Print Assumptions C103_ended_refuted.
(* What does hold: no message without a connection, whatever its contents and whoever sent it,
   changes anything or reaches the application; at most its sender is sent a Reset Acknowledge. *)
Theorem C103_no_harm_partial : forall E l calling msg,
  let w := reach E l in let w' := fst (exec E (OUnitdataInd calling msg) w) in
  w_st w' = w_st w /\ exists t, added (w_tr w) (w_tr w') t /\ events t = [] /\ recvs t = [] /\
    (sends t = [] \/ exists d g, sends t = [NUnitdataReq calling (DL_ResetAck d g)]).
Proof. exact cl_quiet_l. Qed.
Print Assumptions C103_no_harm_partial.
Example C103_ex :
  (* RNC 1 has connection 5 when it resets; a message that it sends on it is still delivered *)
  let E := ex_env (msgs0 ++ [mkMsg PR_initiatingMessage id_Reset (I_Reset 1 (Some (mkGrnc plmn_26242 1)))]) 0 no_app in
  let l := h0 ++ [OUnitdataInd (mk_addr 100) [6]%N] in
  dec_cl E [6]%N = Some (mkMsg PR_initiatingMessage id_Reset (I_Reset 1 (Some (mkGrnc plmn_26242 1)))) /\
  map u_conn (s_ues (w_st (reach E l))) = [7; 6; 5]%N /\
  sends (w_tr (reach E l)) <> sends (w_tr (reach E h0)) /\
  length (recvs (w_tr (reach E (l ++ [ODataInd 5 [3]%N])))) = S (length (recvs (w_tr (reach E l)))).
Proof. repeat split; vm_compute; try reflexivity. discriminate. Qed.
