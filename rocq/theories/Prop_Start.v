(* C108: starting the client *)
From Verif Require Import Base Lai IuClient IuClient_spec IuClient_ex Start Start_proofs.

(* The client is bound to subsystem 142 of the instance it was given, under the name it was given, and has
   the address that SCCP gives for that subsystem. *)
Theorem C108_bound : forall instance user (local_addr : instance -> N -> Z * sccp_addr)
    (user_bind : instance -> list N -> N -> option user) sccp name cb,
  let L := snd (iu_init local_addr user_bind sccp name cb) in
  lib_sccp L = sccp /\ lib_user L = user_bind sccp name 142%N /\ lib_local L = snd (local_addr sccp 142%N) /\ lib_event_cb L = cb.
Proof. intros. repeat split. Qed.
Print Assumptions C108_bound.

(* In every history each request goes to SCCP through this binding; the connectionless ones, and only these,
   with the client's address as the calling one. *)
Theorem C108_requests : forall instance user (local_addr : instance -> N -> Z * sccp_addr)
    (user_bind : instance -> list N -> N -> option user) sccp name cb u,
  user_bind sccp name 142%N = Some u ->
  let L := snd (iu_init local_addr user_bind sccp name cb) in
  forall E l q, In q (sends (w_tr (reach E l))) ->
    exists h, hand_over L q = Ok h /\ h_user h = u /\ h_req h = q /\
      ((exists called m, q = NUnitdataReq called m) /\ h_calling h = Some (snd (local_addr sccp 142%N)) \/
       (forall called m, q <> NUnitdataReq called m) /\ h_calling h = None).
Proof.
  intros instance user local_addr user_bind sccp name cb u H L E l q _.
  unfold L, hand_over, iu_init. cbn [snd lib_user lib_local]. change SSN_RANAP with 142%N. rewrite H.
  eexists. split; [reflexivity|]. cbn [h_user h_calling h_req].
  split; [reflexivity|]. split; [reflexivity|].
  destruct q; [right|right|right|left]; (split; [|reflexivity]); try (intros; discriminate). eauto.
Qed.
Print Assumptions C108_requests.

(* False of the code: success is reported although SCCP has no address for the client and does not bind it;
   a request would then be made through a null pointer. *)
Theorem C108_failure_reported_refuted :
  exists (local_addr : N -> N -> Z * sccp_addr) (user_bind : N -> list N -> N -> option N) sccp name,
    (fst (local_addr sccp 142%N) < 0)%Z /\ user_bind sccp name 142%N = None /\
    fst (iu_init local_addr user_bind sccp name true) = 0%Z /\
    forall q, hand_over (snd (iu_init local_addr user_bind sccp name true)) q = Fault NullDeref.
Proof.
  exists (fun _ _ => ((-22)%Z, mkAddr None None 0)), (fun _ _ _ => None), 0%N, [73; 117]%N.
  repeat split.
Qed.
Print Assumptions C108_failure_reported_refuted.

(* But while SCCP delivers nothing, as it will if the client is not bound, nothing is given to SCCP either,
   whatever the application calls.  Missing: the failure is not reported. *)
Theorem C108_unbound_partial : forall E l,
  (forall o, In o l -> (exists p, o = OTimer p) \/ (exists a, o = OApi a)) ->
  sends (w_tr (reach E l)) = [] /\ s_ues (w_st (reach E l)) = [] /\ s_rncs (w_st (reach E l)) = [].
Proof.
  intros E l H. destruct (run_idle E l []) as (Hs & t & Ht & Hq).
  { intros o Hin. destruct (H o Hin) as [[p ->]|[a ->]]; reflexivity. }
  unfold reach, w0. rewrite Hs. split; [|split; reflexivity].
  rewrite Ht. destruct t as [|q t]; [reflexivity|].
  destruct (Hq q (or_introl eq_refl)) as (calling & msg & d & g & Hin & _).
  destruct (H _ Hin) as [[p Hp]|[a Ha]]; discriminate.
Qed.
Print Assumptions C108_unbound_partial.

(* And until the first connection is opened it only acknowledges Resets, to their senders. *)
Theorem C108_before_connections : forall E l,
  (forall o, In o l -> forall c a m, o <> OConnectInd c a m) ->
  s_ues (w_st (reach E l)) = [] /\ s_rncs (w_st (reach E l)) = [] /\ s_cache (w_st (reach E l)) = [] /\
  forall q, In q (sends (w_tr (reach E l))) -> exists calling msg d g,
    In (OUnitdataInd calling msg) l /\
    dec_cl E msg = Some (mkMsg 1 9 (I_Reset d g)) /\ q = NUnitdataReq calling (DL_ResetAck d g).
Proof.
  intros E l H. destruct (run_idle E l []) as (Hs & t & Ht & Hq).
  { intros o Hin. specialize (H o Hin). destruct o; try reflexivity. exfalso. exact (H _ _ _ eq_refl). }
  unfold reach, w0. rewrite Hs. split; [reflexivity|]. split; [reflexivity|]. split; [reflexivity|].
  rewrite Ht, app_nil_r. exact Hq.
Qed.
Print Assumptions C108_before_connections.

(* a client that was bound as user 7 with address 1 and acknowledges a Reset, and pages nothing before that *)
Example C108_ex :
  let local_addr := fun (_ : N) ssn => (0%Z, mkAddr (Some 1%N) (Some ssn) 0) in
  let user_bind := fun (_ : N) (_ : list N) (_ : N) => Some 7%N in
  let L := snd (iu_init local_addr user_bind 0%N [73; 117]%N true) in
  exists E msg calling d,
    let l := [OApi (APageCs [49%N] None 10); OUnitdataInd calling msg] in
    (forall o, In o l -> forall c a m, o <> OConnectInd c a m) /\
    sends (w_tr (reach E l)) = [NUnitdataReq calling (DL_ResetAck d None)] /\
    hand_over L (NUnitdataReq calling (DL_ResetAck d None)) =
      Ok (mkHanded 7%N (Some (mkAddr (Some 1%N) (Some 142%N) 0)) (NUnitdataReq calling (DL_ResetAck d None))).
Proof.
  exists (mkEnv (fun _ => None) (fun _ => Some (mkMsg 1 9 (I_Reset 0 None))) (fun _ => Ok None) (fun _ => true) (fun _ _ => 0%Z)
            (fun _ => []) (fun _ => 0%Z) true (fun _ => []) (fun _ _ => false)), [0%N], (mkAddr (Some 2%N) None 0), 0%N.
  split; [|split; vm_compute; reflexivity].
  intros o Hin. repeat (destruct Hin as [<-|Hin]; [intros; discriminate|]). destruct Hin.
Qed.
