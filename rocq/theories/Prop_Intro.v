(* C104: callbacks about a context come between its introduction and its end. *)
From Verif Require Import Base Lai IuClient IuClient_spec IuClient_ex IuClient_iso_spec IuClient_intro.

(* In the order in which things happened: the first that the application hears of a context is a
   message together with its area and service area. *)
Theorem C104_introduced : forall E l p t1 e t2,
  rev (w_tr (reach E l)) = t1 ++ e :: t2 -> subject e = Some p ->
  (forall x, In x t1 -> subject x <> Some p) ->
  exists nas ra sai, e = ERecv p nas (Some ra) (Some sai).
Proof. exact first_l. Qed.
Print Assumptions C104_introduced.
(* After the application has freed a context it hears nothing more of it. *)
Theorem C104_ended : forall E l p t1 t2 e,
  rev (w_tr (reach E l)) = t1 ++ EApi (AFreeUe (Some p)) :: t2 -> In e t2 -> subject e <> Some p.
Proof. exact last_l. Qed.
Print Assumptions C104_ended.
(* Nor does it hear of a context that the library has freed: one it has heard of and that is
   not there any more. *)
Theorem C104_gone : forall E l l' p t e,
  snd (run E l w0) = Some tt -> (exists x, In x (w_tr (reach E l)) /\ subject x = Some p) ->
  (forall u, In u (s_ues (w_st (reach E l))) -> u_ptr u <> p) ->
  added (w_tr (reach E l)) (w_tr (fst (run E l' (reach E l)))) t -> In e t -> subject e <> Some p.
Proof. exact gone_l. Qed.
Print Assumptions C104_gone.
Example C104_ex :
  (* the context of connection 5 is introduced, loses its link and is freed; the later messages
     are about others *)
  let E := ex_env msgs0 0 free_subject in
  let l := h0 ++ [ODisconnectInd 5 []; ODataInd 5 [3]%N; ODataInd 6 [3]%N] in
  flat_map (fun e => match subject e with Some p => [p] | None => [] end) (rev (w_tr (reach E l))) = [1; 3; 4; 1; 1; 3]%N /\
  In (EApi (AFreeUe (Some 1%N))) (w_tr (reach E l)) /\
  exists t1 e t2, rev (w_tr (reach E l)) = t1 ++ e :: t2 /\ subject e = Some 1%N /\ forall x, In x t1 -> subject x <> Some 1%N.
Proof.
  cbv zeta. split; [vm_compute; reflexivity|]. split; [vm_compute; tauto|].
  eexists [_; _; _], _, _. split; [vm_compute; reflexivity|]. split; [reflexivity|].
  intros x [<-|[<-|[<-|[]]]]; discriminate.
Qed.
Example C104_gone_ex :
  (* the release of connection 5 was asked for, with the context to be freed; the library frees it
     when the connection is closed *)
  let l := h0 ++ [OApi (ATxReleaseFree 1%N None 10%Z); ODisconnectInd 5 []] in
  snd (run E0 l w0) = Some tt /\ (exists x, In x (w_tr (reach E0 l)) /\ subject x = Some 1%N) /\
  map u_ptr (s_ues (w_st (reach E0 l))) = [4; 3]%N.
Proof.
  split; [vm_compute; reflexivity|]. split; [|vm_compute; reflexivity].
  assert (H : existsb (fun e => match subject e with Some p => (p =? 1)%N | None => false end) (w_tr (reach E0 (h0 ++ [OApi (ATxReleaseFree 1%N None 10%Z); ODisconnectInd 5 []]))) = true) by (vm_compute; reflexivity).
  apply existsb_exists in H as (x&Hx&Hs). exists x. split; [exact Hx|]. destruct (subject x) as [q|]; [|discriminate]. apply N.eqb_eq in Hs. f_equal. exact Hs.
Qed.
