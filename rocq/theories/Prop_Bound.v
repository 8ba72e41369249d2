(* C102: the client keeps nothing for connections that are closed. *)
From Verif Require Import Base Lai IuClient IuClient_spec IuClient_ex IuClient_iso_spec IuClient_bound_spec IuClient_bound.

(* With an application that frees a context when it is told that its link is gone: after any
   history the client has no use for a connection that SCCP has closed or never opened. *)
Theorem C102_closed : forall E l c,
  frees_when_told E -> numbers_free E l -> snd (run E l w0) = Some tt ->
  ~ connected l c -> unused (w_st (reach E l)) c.
Proof. exact closed_l. Qed.
Print Assumptions C102_closed.
(* What it keeps is for connections that are open, at most one thing for each *)
Theorem C102_kept : forall E l,
  frees_when_told E -> numbers_free E l -> snd (run E l w0) = Some tt ->
  NoDup (kept (w_st (reach E l))) /\ forall c, In c (kept (w_st (reach E l))) -> connected l c.
Proof. intros E l H1 H2 H3. split; [exact (kept_nodup_l E l H1 H2 H3)|intros c; exact (kept_open_l E l c H1 H2 H3)]. Qed.
Print Assumptions C102_kept.
(* and so no more than there are open connections, however many there have been. *)
Theorem C102_bounded : forall E l,
  frees_when_told E -> numbers_free E l -> snd (run E l w0) = Some tt ->
  length (s_ues (w_st (reach E l))) + length (s_cache (w_st (reach E l))) <= length (open_conns l []).
Proof. exact count_l. Qed.
Print Assumptions C102_bounded.
(* [open_conns] lists the connections that are open, each once *)
Theorem C102_open_conns : forall l, NoDup (open_conns l []) /\ forall c, In c (open_conns l []) <-> connected l c.
Proof. intros l. split; [exact (open_conns_nodup_l l)|exact (open_conns_l l)]. Qed.
Print Assumptions C102_open_conns.
(* A context the application did not ask to have freed is one it is told about: at all times the
   library frees it on loss of its link or tells the application, never neither. *)
Theorem C102_told_or_freed : forall E l u, In u (s_ues (w_st (reach E l))) -> u_notif u = negb (u_for u).
Proof. exact reach_FL. Qed.
Print Assumptions C102_told_or_freed.
Example C102_ex :
  let E := ex_env msgs0 0 free_subject in
  let l := h0 ++ [ODisconnectInd 5 [3]%N; OConnectInd 8 (mk_addr 100) []; OConnectInd 5 (mk_addr 100) [0]%N;
                  OConnectInd 9 (mk_addr 100) []; ODisconnectInd 9 []; ODisconnectInd 6 []] in
  frees_when_told E /\ numbers_free E l /\ snd (run E l w0) = Some tt /\
  open_conns l [] = [5; 8; 7]%N /\ kept (w_st (reach E l)) = [5; 7; 8]%N /\
  (* with an application that frees nothing the contexts of closed connections are kept *)
  kept (w_st (reach E0 (h0 ++ [ODisconnectInd 5 []; ODisconnectInd 6 []; ODisconnectInd 7 []]))) = [7; 6; 5]%N /\
  open_conns (h0 ++ [ODisconnectInd 5 []; ODisconnectInd 6 []; ODisconnectInd 7 []]) [] = [].
Proof.
  cbv zeta. split; [split; [reflexivity|intros p t; left; reflexivity]|]. split.
  - intros x c a d y H. right. unfold h0 in H. cbn [List.app] in H.
    do 11 (destruct x as [|? x]; cbn [List.app] in H; [ try discriminate; injection H; intros; subst; split; vm_compute; reflexivity|injection H as <- H]).
    destruct x; discriminate H.
  - repeat split; vm_compute; reflexivity.
Qed.
