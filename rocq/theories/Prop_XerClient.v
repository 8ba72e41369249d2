(* Property C107, what printing does to the client: [printing out E] is the client that prints, on
   top of the codec; [stack E] the one that does not. *)
From Verif Require Import Base Lai Factory_spec Factory IuClient IuClient_spec IuClient_rel2 IuClient_ex Stack Prop_Stack XerStack XerStack_proofs.
From Coq Require Import List ZArith NArith.
Import ListNotations.

(* What is sent is not affected as long as the output works.  (What is received never is:
   C107_decoded.) *)
Theorem C107_client_partial : forall out E m, (forall j, out m j = true) -> enc_ok (printing out E) m = enc_ok (stack E) m.
Proof. intros out E m H. exact (printing_same (out m) m H). Qed.
Print Assumptions C107_client_partial.
(* But a call that makes a message whose first IE cannot be printed ends the process: the client
   does not check whether it was given a message (C56). *)
Theorem C107_client_crash_refuted : forall out E a p m u w, api_msg a = Some (p, m) -> (forall b, m <> DL_Raw b) ->
  live (w_st w) p = Some u -> out m 0 = false ->
  let res := run_api (printing out E) a w in snd res = None /\ exists t, w_tr (fst res) = EFault NullDeref :: t.
Proof.
  intros out E a p m u w Ha Hm Hu H. assert (X := encoder_failure_l (printing out E) a p m u w Ha Hu). cbv zeta in X.
  replace (enc_ok (printing out E) m) with false in X by (symmetry; exact (printing_none (out m) m Hm H)). exact X.
Qed.
Print Assumptions C107_client_crash_refuted.

(* a UE whose Initial UE Message came in on connection 5, and a NAS message for it: sent if it can
   be printed, fatal if it cannot *)
Example C107_client_ex :
  let w good := reach (printing (fun _ _ => good) Eq) h5 in let a := ATx 0 (Some 1%N) [1; 2; 3]%N 0 in
  (forall good, live (w_st (w good)) 1%N <> None) /\ (exists m, api_msg a = Some (1%N, m) /\ forall b, m <> DL_Raw b) /\
  snd (run_api (printing (fun _ _ => true) Eq) a (w true)) = Some tt /\ snd (run_api (printing (fun _ _ => false) Eq) a (w false)) = None.
Proof.
  cbv zeta. split; [intros [|]; vm_compute; discriminate|]. split; [eexists; split; [reflexivity|discriminate]|]. split; vm_compute; reflexivity.
Qed.
