(* Proofs for C107: the client with printing. *)
From Verif Require Import Base Aper RanapTypes RanapTab Container Helpers Factory_spec Factory Lai IuClient Stack Xer Xer_spec Xer_proofs XerFactory XerFactory_proofs XerStack.
From Coq Require Import String List ZArith NArith Lia.
Import ListNotations.
Local Open Scope list_scope.
Local Open Scope nat_scope.

Lemma call_for_octets m : match call_for m with
  | Some k => Stack.octets_of m = made_msg (do_call k) /\ rab_request k = false
  | None => exists b, Stack.octets_of m = Ok (Some b) end.
Proof. destruct m; cbn [call_for]; try (split; reflexivity). eexists. reflexivity. Qed.
Lemma printing_same out m : (forall j, out j = true) -> made_x out m = has_octets m.
Proof.
  intro H. unfold made_x, has_octets. assert (X := call_for_octets m). destruct (call_for m) as [k|]; [|destruct X as [b ->]; reflexivity].
  destruct X as [-> Hr]. destruct (do_call k) as [g|f] eqn:E; cbn [made_msg].
  - destruct (same_or_none k g E Hr) as [p Hp]. destruct (Hp out) as [A _]. rewrite A by (intros; apply H). destruct (r_msg g); reflexivity.
  - assert (Y : forall c, do_call_x true out k <> Ok c).
    { intros c Hc. destruct k; try discriminate Hr; try discriminate E; unfold do_call, new_msg_common_id, new_msg_paging_cmd, do_call_x, obind in *.
      - destruct imsi as [i|]; [|discriminate E]. destruct (imsi_encode 16 16 i); [discriminate E|discriminate Hc].
      - destruct (imsi_encode 16 16 imsi); [discriminate E|discriminate Hc]. }
    destruct (do_call_x true out k) as [c|]; [|reflexivity]. exfalso. exact (Y c eq_refl).
Qed.
(* the first IE cannot be printed *)
Lemma finish_first out P d p crit m s r rs : m_rows m = r :: rs -> is_opt r = false -> out 0 = false -> fst (finish_x true out P d p crit m s []) = None.
Proof.
  intros Hm Ho H. unfold finish_x, ies_x. rewrite Hm. destruct (i_fields s) as [|f fs]; [reflexivity|]. cbn [encode_rows_x].
  replace (wanted m s r) with true by (unfold wanted; rewrite Ho; reflexivity).
  destruct f as [v|]; [|reflexivity]. unfold new_ie_x, print. destruct (new_ie r v); [|reflexivity]. cbn [List.length]. rewrite H. reflexivity.
Qed.
Lemma printing_none out m : (forall b, m <> DL_Raw b) -> out 0 = false -> made_x out m = false.
Proof.
  intros Hm H.
  assert (fin : forall P d p crit M s r rs, m_rows M = r :: rs -> is_opt r = false ->
    match @Ok (option (list N) * list printed) (finish_x true out P d p crit M s []) with Ok (Some _, _) => true | _ => false end = false).
  { intros P d p crit M s r rs A B. assert (X := finish_first out P d p crit M s r rs A B H). destruct (finish_x true out P d p crit M s []) as [[x|] l]; [discriminate X|reflexivity]. }
  destruct m; [| | | | | |destruct (Hm _ eq_refl)]; unfold made_x, call_for, do_call_x, sec_mod_cmd2_x, obind; cbv zeta.
  - eapply fin; reflexivity.
  - destruct (alg_loop uia 6 bits8) as [ia [|]]; cbn [negb]; [|reflexivity]. destruct ck as [ck|]; [|eapply fin; reflexivity].
    destruct (alg_loop uea 6 bits8) as [ea [|]]; cbn [negb]; [|reflexivity]. eapply fin; reflexivity.
  - destruct (imsi_encode 16 16 imsi); [|reflexivity]. eapply fin; reflexivity.
  - eapply fin; reflexivity.
  - destruct (imsi_encode 16 16 imsi); [|reflexivity]. eapply fin; reflexivity.
  - eapply fin; reflexivity.
Qed.
