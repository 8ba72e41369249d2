(* C95: connections do not disturb each other. *)
From Verif Require Import Base Lai IuClient IuClient_spec IuClient_ex IuClient_iso_spec IuClient_iso.

(* Contexts of other connections stay, unchanged, and none appears. *)
Theorem C95_contexts : forall E l o, minds_its_own E -> is_loss_ind o = false ->
  let w := reach E l in
  forall u, concerns (w_st w) o <> Some (u_conn u) ->
    (In u (s_ues (w_st w)) <-> In u (s_ues (w_st (fst (exec E o w))))).
Proof. intros E l o Ha Ho w. exact (proj1 (iso_reach E l o Ha Ho)). Qed.
Print Assumptions C95_contexts.
(* Nothing is sent on another connection, *)
Theorem C95_requests : forall E l o t r c, minds_its_own E -> is_loss_ind o = false ->
  let w := reach E l in added (w_tr w) (w_tr (fst (exec E o w))) t ->
  In r (sends t) -> request_conn r = Some c -> concerns (w_st w) o = Some c.
Proof.
  intros E l o t r c Ha Ho w Ht. destruct (iso_reach E l o Ha Ho) as (_&t'&Ht'&H&_).
  assert (t = t') as -> by (eapply added_unique; eassumption). apply H.
Qed.
Print Assumptions C95_requests.
(* the application is told nothing about the context of another connection, *)
Theorem C95_callbacks : forall E l o t e u, minds_its_own E -> is_loss_ind o = false ->
  let w := reach E l in added (w_tr w) (w_tr (fst (exec E o w))) t ->
  In e t -> In u (s_ues (w_st w)) -> subject e = Some (u_ptr u) -> concerns (w_st w) o = Some (u_conn u).
Proof.
  intros E l o t e u Ha Ho w Ht. destruct (iso_reach E l o Ha Ho) as (_&t'&Ht'&_&H).
  assert (t = t') as -> by (eapply added_unique; eassumption). apply H.
Qed.
Print Assumptions C95_callbacks.
(* and the address remembered for another connection stays as it is. *)
Theorem C95_addresses : forall E l o c, let w := reach E l in concerns (w_st w) o <> Some c ->
  remembered (w_st (fst (exec E o w))) c = remembered (w_st w) c.
Proof. exact addresses_apart. Qed.
Print Assumptions C95_addresses.
Example C95_ex :
  (* three contexts on three connections; the release of connection 6 is complete, the
     application frees its context, and the other two are left *)
  let E := ex_env msgs0 0 frees_released in let w := reach E h0 in let o := ODataInd 6 [5]%N in
  minds_its_own E /\ map u_conn (s_ues (w_st w)) = [7; 6; 5]%N /\ concerns (w_st w) o = Some 6%N /\
  map u_conn (s_ues (w_st (fst (exec E o w)))) = [7; 5]%N /\
  (* an application that frees the first context whatever it is told does not mind its own *)
  ~ minds_its_own (ex_env msgs0 0 (fun _ => [AFreeUe (Some 0%N)])).
Proof.
  split; [apply frees_released_minds; reflexivity|]. split; [vm_compute; reflexivity|]. split; [vm_compute; reflexivity|]. split; [vm_compute; reflexivity|].
  intros H. specialize (H EPrimFree [] (AFreeUe (Some 0%N)) 0%N (or_introl eq_refl) eq_refl). discriminate H.
Qed.
