(* C94: the Iu client when memory runs out. *)
From Verif Require Import Base Lai IuClient IuClient_spec IuClient_ex ClientMem ClientMem_spec ClientMem_proofs ClientMem_count ClientMem_how.

(* enough memory: the client of the other theorems *)
Theorem C94_enough : forall E G l n w, (forall k, G k = true) -> snd (m_run E G l n w) = run E l w.
Proof. intros E G l n w H. destruct (sim_run E G l n w) as (_&_&Eq). apply Eq. intros k _. apply H. Qed.
Print Assumptions C94_enough.
(* the client does not go on when memory runs out: a new connection is enough *)
Theorem C94_goes_on_refuted : forall E, exists G l, snd (run E l w0) = Some tt /\ snd (snd (m_run E G l 0%N w0)) = None.
Proof. intros E. exists (all_but 0%N), [OConnectInd 1%N (mk_addr 1%N) []]. split; reflexivity. Qed.
Print Assumptions C94_goes_on_refuted.
(* whatever is denied when: until the process ends everything is as with enough memory *)
Theorem C94_same_until_end_partial : forall E G l n w,
  snd (m_run E G l n w) = run E l w \/ ended_early (snd (m_run E G l n w)) (w_tr (fst (run E l w))).
Proof. intros E G l n w. destruct (sim_run E G l n w) as (_&S&_). exact S. Qed.
Print Assumptions C94_same_until_end_partial.
(* An event that delivers a message, or that needs no buffer for one, is survived exactly
   if every request made on the way is granted. *)
Theorem C94_every_denial_ends_partial : forall E G o n w w1 t,
  exec E o w = (w1, Some tt) -> added (w_tr w) (w_tr w1) t -> recvs t <> [] \/ ~ In EBufAlloc t ->
  let r := m_exec E G o n w in snd (snd r) = Some tt <-> (forall k, (n <= k < fst r)%N -> G k = true).
Proof. exact survives_iff. Qed.
Print Assumptions C94_every_denial_ends_partial.
(* The one denial that is survived is that of the buffer of a message that is refused
   anyway: it is the last request, and the outcome is the same as with memory. *)
Theorem C94_survived_partial : forall E G o n w n' w' k,
  m_exec E G o n w = (n', (w', Some tt)) -> (n <= k < n')%N -> G k = false ->
  n' = (k + 1)%N /\ (w', Some tt) = exec E o w /\ exists t, added (w_tr w) (w_tr w') t /\ In EBufAlloc t /\ recvs t = [].
Proof. exact survived. Qed.
Print Assumptions C94_survived_partial.
(* all other events need no memory of the client's own *)
Theorem C94_no_request : forall E G o n w, may_ask o = false -> m_exec E G o n w = (n, exec E o w).
Proof. exact no_request. Qed.
Print Assumptions C94_no_request.
(* how many requests an event makes that completes, and that these decide *)
Theorem C94_requests : forall E G o n n' w w',
  m_exec E G o n w = (n', (w', Some tt)) -> n' = (n + asks E (w_st w) o)%N.
Proof. exact requests. Qed.
Print Assumptions C94_requests.
Theorem C94_suffices : forall E G o n w w1, exec E o w = (w1, Some tt) ->
  (forall k, (n <= k < n + asks E (w_st w) o)%N -> G k = true) ->
  m_exec E G o n w = ((n + asks E (w_st w) o)%N, (w1, Some tt)).
Proof. exact suffices. Qed.
Print Assumptions C94_suffices.
(* the process ends at the denied request, by an assertion if that was for the record of an
   RNC and by an access through NULL for all others *)
Theorem C94_how : forall E G o n w w1 n' w', exec E o w = (w1, Some tt) -> m_exec E G o n w = (n', (w', None)) ->
  (n < n')%N /\ G (n' - 1)%N = false /\ exists t, w_tr w' = EFault (ends_with E (w_st w) o (n' - n)) :: t.
Proof. exact how_it_ends. Qed.
Print Assumptions C94_how.
Example C94_how_ex :
  (* the five requests of the first message of an unknown RNC, each denied *)
  let Eb := ex_env [initial 10 (Some [1%N]) 2 [4]%N] 0 no_app in let o := OConnectInd 7 (mk_addr 201) [0]%N in
  snd (exec Eb o w0) = Some tt /\
  map (fun k => fst (m_exec Eb (all_but k) o 0%N w0)) [0; 1; 2; 3; 4]%N = [1; 2; 3; 4; 5]%N /\
  map (fun k => snd (snd (m_exec Eb (all_but k) o 0%N w0))) [0; 1; 2; 3; 4]%N = repeat None 5 /\
  map (ends_with Eb (w_st w0) o) [1; 2; 3; 4; 5]%N = [NullDeref; NullDeref; Assertion; NullDeref; NullDeref].
Proof. vm_compute. repeat split; reflexivity. Qed.
Example C94_requests_ex :
  (* a first message of an unknown RNC with a new area: answer, buffer, RNC, area, context *)
  (let Eb := ex_env [initial 10 (Some [1%N]) 2 [4]%N] 0 no_app in
   asks Eb (w_st w0) (OConnectInd 7 (mk_addr 201) [0]%N) = 5%N /\
   snd (exec Eb (OConnectInd 7 (mk_addr 201) [0]%N) w0) = Some tt) /\
  (* of the same RNC and area: answer, buffer, context *)
  (let Eb := ex_env [initial 10 (Some [1%N]) 2 [4]%N] 0 no_app in
   let w1 := fst (exec Eb (OConnectInd 7 (mk_addr 201) [0]%N) w0) in
   asks Eb (w_st w1) (OConnectInd 8 (mk_addr 201) [0]%N) = 3%N /\
   snd (exec Eb (OConnectInd 8 (mk_addr 201) [0]%N) w1) = Some tt).
Proof. vm_compute. repeat split; reflexivity. Qed.
Example C94_ex :
  (* five events with two RNCs, three contexts and a Direct Transfer make 15 requests; the
     denial of each ends the process; with other denials it goes on *)
  fst (m_run E0 (fun _ => true) h0 0%N w0) = 15%N /\ snd (run E0 h0 w0) = Some tt /\
  forallb (fun k => match snd (snd (m_run E0 (all_but k) h0 0%N w0)) with None => true | Some _ => false end) (map N.of_nat (List.seq 0 15)) = true /\
  snd (snd (m_run E0 (all_but 15) h0 0%N w0)) = Some tt /\
  (* a message that is refused anyway: RAC 255 *)
  (let Eb := ex_env [initial 10 (Some [255%N]) 2 [4]%N] 0 no_app in
   exists w', m_exec Eb (all_but 1) (OConnectInd 7 (mk_addr 201) [0]%N) 0%N w0 = (2%N, (w', Some tt))).
Proof. split; [vm_compute; reflexivity|]. split; [vm_compute; reflexivity|]. split; [vm_compute; reflexivity|]. split; [vm_compute; reflexivity|]. eexists. vm_compute. reflexivity. Qed.
