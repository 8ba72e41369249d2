(* Concrete environments and histories, used to show that the hypotheses of the
   client theorems can be met and as witnesses of the refuted properties. *)
From Verif Require Import Base Lai IuClient IuClient_spec.

(* Messages are selected by their first octet; SCCP returns [rc]; the
   application reacts as [ap] says. *)
Definition ex_env (msgs : list message) (rc : Z) (ap : list eff -> list api) : env :=
  mkEnv (fun l => match l with b :: _ => nth_error msgs (N.to_nat b) | [] => None end)
        (fun l => match l with b :: _ => nth_error msgs (N.to_nat b) | [] => None end)
        (fun _ => Ok (Some 5%N))
        (fun _ => true)
        (fun _ _ => rc)
        ap
        (fun _ => 0%Z)
        true
        (fun a => match a_pc a with Some pc => [pc] | None => [] end)
        (fun a b => match a_pc a, a_pc b with Some p, Some q => (p =? q)%N | _, _ => false end).
Definition no_app : list eff -> list api := fun _ => [].

Definition mk_addr (pc : N) : sccp_addr := mkAddr (Some pc) (Some 142%N) 0.
(* Initial UE of RNC [id] in PLMN 262-42, LAC [lac] *)
Definition plmn_26242 : list N := [98; 242; 36]%N.
Definition initial (lac : N) (rac : option (list N)) (id : N) (nas : list N) : message :=
  mkMsg PR_initiatingMessage id_InitialUE_Message
    (I_InitialUE (mkInitialUe 0 (mkRLai plmn_26242 [0; lac]%N) rac [0; 7]%N nas (mkGrnc plmn_26242 id))).
Definition rai_of (lac rac : N) : rai := mkRai (mkLai (mkPlmn 262 42 false) lac) rac.
Definition id_of (id : N) : rnc_id := mkRncId (mkPlmn 262 42 false) id.
Definition dt (nas : list N) : message :=
  mkMsg PR_initiatingMessage id_DirectTransfer (I_DirectTransfer (mkDt nas None None None)).
Definition rel_req (c : cause) : message :=
  mkMsg PR_initiatingMessage id_Iu_ReleaseRequest (I_IuReleaseRequest c).
Definition rel_complete : message := mkMsg PR_successfulOutcome id_Iu_Release I_Other.

(* 0: RNC 1 in LAC 10; 1: RNC 2 in LAC 10; 2: RNC 2 in RAC 3 of LAC 10;
   3: a Direct Transfer; 4: Release Request; 5: Release Complete *)
Definition msgs0 : list message :=
  [ initial 10 None 1 [1; 2]%N; initial 10 None 2 [3]%N; initial 10 (Some [3%N]) 2 [4]%N;
    dt [9; 9]%N; rel_req (mkCause 1 15); rel_complete ].
Definition E0 := ex_env msgs0 0 no_app.
(* RNC 1 at point code 100 opens connection 5; RNC 2 at 200 opens 6 by an empty
   connect followed by data, taking over the area; then 7 with a RAC *)
Definition h0 : list op :=
  [ OConnectInd 5 (mk_addr 100) [0]%N; OConnectInd 6 (mk_addr 200) []; ODataInd 6 [1]%N;
    OConnectInd 7 (mk_addr 201) [2]%N; ODataInd 5 [3]%N ].
Definition conn_fresh_b (E : env) (pre : list op) (o : op) : bool :=
  match o with OConnectInd c _ _ => is_none (ue_on (w_st (reach E pre)) c) | _ => true end.
Fixpoint fresh_b (E : env) (pre l : list op) : bool :=
  match l with
  | [] => true
  | o :: r => conn_fresh_b E pre o && fresh_b E (pre ++ [o]) r
  end.
Lemma fresh_b_ok E : forall l pre, fresh_b E pre l = true ->
  forall l1 c a d l2, l = l1 ++ OConnectInd c a d :: l2 -> ue_on (w_st (reach E (pre ++ l1))) c = None.
Proof.
  induction l as [|o l IH]; intros pre H l1 c a d l2 Heq; [destruct l1; discriminate|].
  cbn [fresh_b] in H. apply andb_prop in H as [H1 H2]. destruct l1 as [|x l1]; cbn [List.app] in Heq; injection Heq as -> Heq.
  - rewrite app_nil_r. cbn [conn_fresh_b] in H1. destruct (ue_on _ c); [discriminate|reflexivity].
  - subst l. specialize (IH _ H2 l1 c a d l2 eq_refl). rewrite <- app_assoc in IH. exact IH.
Qed.
Lemma fresh_ex E l : fresh_b E [] l = true -> fresh_conns E l.
Proof. intros H l1 c a d l2 Heq. exact (fresh_b_ok E l [] H l1 c a d l2 Heq). Qed.
Lemma no_app_touches msgs rc : touches_only_subject (ex_env msgs rc no_app).
Proof. split; [intros p t q []|intros p t q c d []]. Qed.
(* an application that frees the context in its LINK_INVALIDATED callback *)
Definition free_subject : list eff -> list api :=
  fun t => match t with EEvent (Some p) EvLinkInvalidated :: _ => [AFreeUe (Some p)] | _ => [] end.
Lemma free_subject_touches msgs rc : touches_only_subject (ex_env msgs rc free_subject).
Proof.
  split.
  - intros p t q H. cbn in H. destruct H as [H|[]]. congruence.
  - intros p t q c d H. cbn in H. destruct H as [H|[]]. discriminate.
Qed.
