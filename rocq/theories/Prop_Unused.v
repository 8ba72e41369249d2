(* C96: connections the client has no use for. *)
From Verif Require Import Base Lai IuClient IuClient_spec IuClient_ex IuClient_inv IuClient_life2 IuClient_conn IuClient_iso_spec IuClient_quiet.

(* A connection opened with a message that cannot be read is confirmed, never used and never
   closed, whatever happens as long as the peer does not close and open it again. *)
Theorem C96_closed_refuted : forall E c a d, d <> [] -> dec_co E d = None ->
  forall l, not_reopened c l ->
  let w := reach E (OConnectInd c a d :: l) in unused (w_st w) c /\ on_conn c (rev (w_tr w)) = [NConnectResp c].
Proof. exact never_closed. Qed.
Print Assumptions C96_closed_refuted.
(* which first messages do that: all that are not accepted, in the connection indication *)
Theorem C96_refused_connect_partial : forall E l c a d,
  d <> [] -> unused (w_st (reach E l)) c -> opens E (w_st (reach E l)) (OConnectInd c a d) = None ->
  let w := reach E l in let w' := fst (exec E (OConnectInd c a d) w) in
  unused (w_st w') c /\ exists t, added (w_tr w) (w_tr w') t /\ sends t = [NConnectResp c].
Proof. exact refused_connect_l. Qed.
Print Assumptions C96_refused_connect_partial.
(* or in the first data of a connection that was opened without *)
Theorem C96_refused_data_partial : forall E l c d a,
  ue_on (w_st (reach E l)) c = None -> remembered (w_st (reach E l)) c = [a] -> opens E (w_st (reach E l)) (ODataInd c d) = None ->
  let w := reach E l in let w' := fst (exec E (ODataInd c d) w) in
  unused (w_st w') c /\ exists t, added (w_tr w) (w_tr w') t /\ sends t = [].
Proof. exact refused_data_l. Qed.
Print Assumptions C96_refused_data_partial.
(* An unused connection stays unused until it is opened anew, and nothing is sent on it. *)
Theorem C96_stays_unused : forall E l l' c, unused (w_st (reach E l)) c -> not_reopened c l' ->
  let w := reach E l in let w' := fst (run E l' w) in
  unused (w_st w') c /\ exists t, added (w_tr w) (w_tr w') t /\ on_conn c t = [].
Proof. exact stays_unused. Qed.
Print Assumptions C96_stays_unused.
(* What comes on it is dropped without a trace. *)
Theorem C96_dropped : forall E l c d, unused (w_st (reach E l)) c ->
  let w := reach E l in
  exec E (ODataInd c d) w = (mkW (w_st w) (EPrimFree :: w_tr w), Some tt) /\
  exec E (ODisconnectInd c d) w = (mkW (w_st w) (EPrimFree :: w_tr w), Some tt).
Proof. exact dropped. Qed.
Print Assumptions C96_dropped.
Example C96_ex :
  (* after a Direct Transfer as its first message, connection 8 is deaf to an Initial UE
     Message; the same message on connection 9 is accepted *)
  let l := h0 ++ [OConnectInd 8 (mk_addr 100) []; ODataInd 8 [3]%N] in
  unused (w_st (reach E0 l)) 8 /\ unused (w_st (reach E0 h0)) 9 /\ ~ unused (w_st (reach E0 h0)) 5 /\
  not_reopened 8 [ODataInd 8 [0]%N; OConnectInd 9 (mk_addr 100) [0]%N] /\
  map u_conn (s_ues (w_st (reach E0 (l ++ [ODataInd 8 [0]%N; OConnectInd 9 (mk_addr 100) [0]%N])))) = [9; 7; 6; 5]%N /\
  remembered (w_st (reach E0 (h0 ++ [OConnectInd 8 (mk_addr 100) []]))) 8 = [mk_addr 100] /\
  opens E0 (w_st (reach E0 (h0 ++ [OConnectInd 8 (mk_addr 100) []]))) (ODataInd 8 [3]%N) = None /\
  opens E0 (w_st (reach E0 h0)) (OConnectInd 9 (mk_addr 100) [3]%N) = None /\ dec_co E0 [77]%N = None.
Proof.
  split; [split; vm_compute; reflexivity|]. split; [split; vm_compute; reflexivity|]. split; [intros [H _]; vm_compute in H; discriminate H|].
  split; [intros a d [H|[H|[]]]; discriminate H|]. vm_compute. repeat split.
Qed.
