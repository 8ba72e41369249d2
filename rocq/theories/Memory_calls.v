(* The calls of the RANAP factory when memory runs out. *)
From Verif Require Import Base Aper Container Helpers RanapTypes RuaTypes RanapTab RuaTab Factory_spec Factory RuaFactory Memory_spec Memory Memory_proofs.
From Coq Require Import String List Lia.
Local Open Scope list_scope.

(* ---------------- every call ---------------- *)
Section Calls.
Context (deny : oracle).
Lemma W_assign a b : W any (rab_assign_m deny a b).
Proof. unfold rab_assign_m. cbv zeta. wa. Qed.
Ltac wb := repeat (first [apply W_assign | apply W_bind; [wa|intro] | wa]).
Lemma W_call c m : do_call c = Ok m -> W any (do_call_m deny c).
Proof.
  intro E. destruct c; cbn [do_call_m]; cbv zeta; try (apply Wa, W_fin).
  - unfold sec_mod_cmd2_m. cbv zeta. wa.
  - unfold common_id_m. cbv zeta. destruct imsi as [i|]; [|wa]. cbn [do_call] in E. unfold new_msg_common_id in E.
    destruct (imsi_encode 16 16 i) as [o|] eqn:Ei; [|discriminate E]. apply W_bind; [apply un_any; eapply W_imsi; exact Ei|intro; wa].
  - unfold paging_m. cbv zeta. cbn [do_call] in E. unfold new_msg_paging_cmd in E.
    destruct (imsi_encode 16 16 imsi) as [o|] eqn:Ei; [|discriminate E]. apply W_bind; [apply un_any; eapply W_imsi; exact Ei|intro].
    apply W_bind; [destruct tmsi; wa|intro; apply Wa, W_fin].
  - unfold rab_voice_m. cbv zeta. wb.
  - unfold rab_data_m. cbv zeta. wb.
  - unfold rab_rel_req_m. cbv zeta. wa.
  - unfold reset_resource_m. cbv zeta. wa.
Qed.
Lemma L_assign a b : L (rab_assign_m deny a b).
Proof.
  unfold rab_assign_m. cbv zeta. apply L_bind_args; [wu|intro; wa|intro].
  apply L_bind_args; [wu|intro; wa|intro]. apply L_bind_args; [wu|intro; wa|intro]. apply L_bind_args; [wu|intro; wa|intro]. apply L_fin.
Qed.
Lemma L_call c m : do_call c = Ok m -> L (do_call_m deny c).
Proof.
  intro E. destruct c; cbn [do_call_m]; cbv zeta; try apply L_fin.
  - unfold sec_mod_cmd2_m. cbv zeta. apply L_bind_args; [wu|intro; wa|]. intros [ia|]; [|apply L_ret].
    apply L_bind_args; [wu|intro; wa|intro]. destruct ck as [ck|]; [|apply L_fin].
    apply L_bind_args; [wu|intro; wa|]. intros [ea|]; [|apply L_ret].
    apply L_bind_args; [wu|intro; wa|intro]. apply L_fin.
  - unfold common_id_m. cbv zeta. destruct imsi as [i|]; [|apply L_fin]. cbn [do_call] in E. unfold new_msg_common_id in E.
    destruct (imsi_encode 16 16 i) as [o|] eqn:Ei; [|discriminate E]. apply L_bind_args; [eapply W_imsi; exact Ei|intro; wa|intro; apply L_fin].
  - unfold paging_m. cbv zeta. cbn [do_call] in E. unfold new_msg_paging_cmd in E.
    destruct (imsi_encode 16 16 imsi) as [o|] eqn:Ei; [|discriminate E]. apply L_bind_args; [eapply W_imsi; exact Ei|intro; apply W_bind; [destruct tmsi; wa|intro; apply Wa, W_fin]|intro].
    apply L_bind_args; [destruct tmsi; wu|intro; apply Wa, W_fin|intro; apply L_fin].
  - unfold rab_voice_m. cbv zeta. do 5 (apply L_bind_args; [wu|intro; wb|intro]). apply L_assign.
  - unfold rab_data_m. cbv zeta. do 9 (apply L_bind_args; [wu|intro; wb|intro]). apply L_assign.
  - unfold rab_rel_req_m. cbv zeta. apply L_bind_args; [wu|intro; wa|intro].
    apply L_bind_opt; [wa|intro; wa|apply L_ies|reflexivity|]. intros [l|]; [apply L_fin|apply L_ret].
  - unfold reset_resource_m. cbv zeta. destruct ids as [|i [|]]; try apply L_ret.
    apply L_bind_opt; [wa|intro; wa|apply L_ies|reflexivity|]. intros [l|]; [apply L_fin|apply L_ret].
Qed.
Lemma U_call c m : do_call c = Ok m -> U (do_call_m deny c) (eq (Ok (r_msg m))).
Proof.
  intro E. destruct c; cbn [do_call] in E; try (injection E as <-); cbn [do_call_m]; cbv zeta; try apply U_fin.
  - unfold sec_mod_cmd2_m, new_msg_sec_mod_cmd2. cbv zeta.
    eapply U_bind; [wa|intro; wa|apply U_alg|]. intros o (c & E & H). injection E as ->.
    destruct (alg_loop uia uia_mask bits8) as [ia [|]]; cbn [negb]; [|destruct c; [discriminate H|apply U_ret; reflexivity]].
    destruct c as [c|]; [|discriminate H]. cbn in H. injection H as H.
    eapply U_eq_bind; [wa|intro; wa|apply U_prot; exact H|]. destruct ck as [ck|]; [|cbn [r_msg]; apply U_fin].
    eapply U_bind; [wa|intro; wa|apply U_alg|]. intros o (c2 & E & H2). injection E as ->.
    destruct (alg_loop uea uea_mask bits8) as [ea [|]]; cbn [negb]; [|destruct c2; [discriminate H2|apply U_ret; reflexivity]].
    destruct c2 as [c2|]; [|discriminate H2]. cbn in H2. injection H2 as H2.
    eapply U_eq_bind; [wa|intro; wa|apply U_prot; exact H2|]. cbn [r_msg]. apply U_fin.
  - unfold common_id_m, new_msg_common_id in *. cbv zeta in *. destruct imsi as [i|]; [|injection E as <-; apply U_fin].
    destruct (imsi_encode 16 16 i) as [o|] eqn:Ei; [|discriminate E]. cbn [obind] in E. injection E as <-.
    eapply U_eq_bind; [apply un_any; eapply W_imsi; exact Ei|intro; wa|apply U_imsi; exact Ei|]. cbn [r_msg]. apply U_fin.
  - unfold paging_m, new_msg_paging_cmd in *. cbv zeta in *.
    destruct (imsi_encode 16 16 imsi) as [o|] eqn:Ei; [|discriminate E]. cbn [obind] in E. injection E as <-.
    eapply U_eq_bind; [apply un_any; eapply W_imsi; exact Ei|intro; apply W_bind; [destruct tmsi; wa|intro; apply Wa, W_fin]|apply U_imsi; exact Ei|]. cbn [r_msg].
    destruct tmsi as [t|].
    + apply U_temp_bind; [intro; apply Wa, W_fin|]. apply U_fin.
    + apply (U_eq_bind _ _ _ _ tt); [wa|intro; apply Wa, W_fin|apply U_ret; reflexivity|]. apply U_fin.
  - unfold rab_voice_m, new_msg_rab_assign_voice. cbv zeta.
    eapply U_eq_bind; [wa|intro; wb|apply U_id|].
    eapply U_eq_bind; [wa|intro; wb|apply U_nas|].
    eapply U_eq_bind; [wa|intro; wb|apply U_par_voice|].
    eapply U_eq_bind; [wa|intro; wb|apply U_upi|].
    eapply U_eq_bind; [wa|intro; wb|apply U_rtp|]. apply U_assign.
  - unfold rab_data_m, new_msg_rab_assign_data. cbv zeta.
    eapply U_eq_bind; [wa|intro; wb|apply U_id|].
    eapply U_eq_bind; [wa|intro; wb|apply U_par_data|].
    eapply U_eq_bind; [wa|intro; wb|apply U_upi|].
    eapply U_eq_bind; [wa|intro; wb|apply U_gtp|].
    eapply U_list_bind; [wa|intro; wb|apply U_tlist|]. intros c1 H1.
    eapply U_list_bind; [wa|intro; wb|apply U_long|]. intros c2 H2.
    do 3 (apply U_temp_bind; [intro; wb|]). unfold list_of, option_map. rewrite H2, H1. apply U_assign.
  - unfold rab_rel_req_m, new_msg_rab_rel_req. cbv zeta. eapply U_eq_bind; [wa|intro; wa|apply U_id|].
    eapply U_eq_bind; [wa|intro; wa|apply U_ies|]. destruct (add_ies _ _) as [t [l|]]; cbn [snd r_msg]; [apply U_fin|apply U_ret; reflexivity].
  - unfold reset_resource_m, new_msg_reset_resource. cbv zeta. destruct ids as [|i [|]]; try (apply U_ret; reflexivity).
    eapply U_eq_bind; [wa|intro; wa|apply U_ies|]. destruct (add_ies _ _) as [t [l|]]; cbn [snd r_msg]; [apply U_fin|apply U_ret; reflexivity].
Qed.
End Calls.

