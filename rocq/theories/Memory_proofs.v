(* Proofs about the factories when memory runs out. *)
From Verif Require Import Base Aper Container Helpers RanapTypes RuaTypes RanapTab RuaTab Factory_spec Factory RuaFactory Memory_spec Memory.
From Coq Require Import String List Lia.
Local Open Scope list_scope.

(* requests of the kinds K only; a crash only after ATemp was denied *)
Definition W (K : akind -> bool) {A} (m : mem A) : Prop :=
  forall s, exists ks r n, m s = (r, mkMst n (ks ++ q_denied s)) /\ forallb K ks = true /\ (forall f, r = Fault f -> In ATemp ks).
(* if nothing is denied, the result satisfies Q *)
Definition U {A} (m : mem A) (Q : outcome A -> Prop) : Prop :=
  forall s n r, m s = (r, mkMst n (q_denied s)) -> Q r.
(* if a request of a kind that is looked at is denied, the result is NULL *)
Definition L {A} (m : mem (option A)) : Prop :=
  forall s ks n r, m s = (r, mkMst n (ks ++ q_denied s)) -> existsb looked_at ks = true -> r = Ok None.

Definition unlooked (k : akind) : bool := negb (looked_at k).
Definition any (_ : akind) : bool := true.

Lemma app_self {A} (l l' : list A) : l' = l ++ l' -> l = [].
Proof. intro H. assert (E : List.length l' = List.length (l ++ l')) by congruence. rewrite app_length in E. destruct l; [reflexivity|cbn [List.length] in E; lia]. Qed.

Lemma W_weaken K K' A (m : mem A) : (forall k, K k = true -> K' k = true) -> W K m -> W K' m.
Proof.
  intros HK H s. destruct (H s) as (ks & r & n & E & H1 & H2). exists ks, r, n. repeat split; try assumption.
  rewrite forallb_forall in *. auto.
Qed.
Lemma W_ret K A (a : A) : W K (mret a).
Proof. intro s. exists [], (Ok a), (q_next s). destruct s. repeat split. intros f H; discriminate H. Qed.
Lemma W_ask K deny k : K k = true -> W K (ask deny k).
Proof.
  intros HK s. unfold ask. destruct (deny (q_next s) k).
  - exists [k], (Ok false), (S (q_next s)). repeat split; [cbn; rewrite HK; reflexivity|intros f H; discriminate H].
  - exists [], (Ok true), (S (q_next s)). repeat split. intros f H; discriminate H.
Qed.
Lemma W_bind K A B (m : mem A) (k : A -> mem B) : W K m -> (forall a, W K (k a)) -> W K (mbind m k).
Proof.
  intros H1 H2 s. unfold mbind. destruct (H1 s) as (ks & r & n & E & F1 & F2). rewrite E. destruct r as [a|f].
  - destruct (H2 a (mkMst n (ks ++ q_denied s))) as (ks' & r' & n' & E' & F1' & F2'). rewrite E'.
    exists (ks' ++ ks), r', n'. cbn [q_denied]. rewrite app_assoc. repeat split.
    + rewrite forallb_app, F1, F1'. reflexivity.
    + intros f Hf. apply in_or_app. left. eauto.
  - exists ks, (Fault f), n. repeat split; [assumption|]. intros f' Hf. eauto.
Qed.
Lemma W_lift K A (a : A) : W K (mlift (Ok a)).
Proof. apply W_ret. Qed.
(* a crash right after a request that is not granted *)
Lemma W_ask_crash K deny B (k : mem B) : K ATemp = true -> W K k -> W K (mbind (ask deny ATemp) (fun ok => if ok : bool then k else mcrash)).
Proof.
  intros HK H s. unfold mbind, ask. destruct (deny (q_next s) ATemp).
  - exists [ATemp], (Fault NullDeref), (S (q_next s)). repeat split; [cbn; rewrite HK; reflexivity|intros; left; reflexivity].
  - destruct (H (mkMst (S (q_next s)) (q_denied s))) as (ks & r & n & E & F). exists ks, r, n. cbn [q_denied] in E. exact (conj E F).
Qed.
Lemma W_temp K deny : K ATemp = true -> W K (temp deny).
Proof. intro HK. apply W_ask_crash; [exact HK|apply W_ret]. Qed.
(* the same, with something in between that cannot be told apart from its failure *)
Lemma W_ask_crash2 K deny A B (m : mem A) (k : A -> mem B) : K ATemp = true -> W K m -> (forall a, W K (k a)) ->
  W K (mbind (ask deny ATemp) (fun ok => mbind m (fun a => if ok : bool then k a else mcrash))).
Proof.
  intros HK H1 H2 s. unfold mbind at 1. unfold ask. destruct (deny (q_next s) ATemp).
  - unfold mbind. destruct (H1 (mkMst (S (q_next s)) (ATemp :: q_denied s))) as (ks & r & n & E & F1 & F2). rewrite E. cbn [q_denied].
    destruct r as [a|f].
    + exists (ks ++ [ATemp]), (Fault NullDeref), n. rewrite <- app_assoc. repeat split.
      * rewrite forallb_app, F1. cbn. rewrite HK. reflexivity.
      * intros. apply in_or_app. right. left. reflexivity.
    + exists (ks ++ [ATemp]), (Fault f), n. rewrite <- app_assoc. repeat split.
      * rewrite forallb_app, F1. cbn. rewrite HK. reflexivity.
      * intros. apply in_or_app. right. left. reflexivity.
  - destruct (W_bind K _ _ m k H1 H2 (mkMst (S (q_next s)) (q_denied s))) as (ks & r & n & E & F). exists ks, r, n. cbn [q_denied] in E. exact (conj E F).
Qed.

Lemma U_ret A (a : A) (Q : outcome A -> Prop) : Q (Ok a) -> U (mret a) Q.
Proof. intros H s n r E. injection E as <- _. exact H. Qed.
Lemma U_lift A (o : outcome A) (Q : outcome A -> Prop) : Q o -> U (mlift o) Q.
Proof. intros H s n r E. injection E as <- _. exact H. Qed.
Lemma U_ask_bind deny k B (f : bool -> mem B) Q : (forall b, W any (f b)) -> U (f true) Q -> U (mbind (ask deny k) f) Q.
Proof.
  intros HW H s n r E. unfold mbind, ask in E. destruct (deny (q_next s) k).
  - destruct (HW false (mkMst (S (q_next s)) (k :: q_denied s))) as (ks & r' & n' & E' & _). rewrite E' in E. injection E as _ _ E.
    cbn [q_denied] in E. change (k :: q_denied s) with ([k] ++ q_denied s) in E. rewrite app_assoc in E. symmetry in E. apply app_self in E. destruct ks; discriminate E.
  - eapply (H (mkMst (S (q_next s)) (q_denied s))). exact E.
Qed.
Lemma U_bind A B (m : mem A) (k : A -> mem B) (P : outcome A -> Prop) Q :
  W any m -> (forall a, W any (k a)) -> U m P ->
  (forall a, P (Ok a) -> U (k a) Q) -> U (mbind m k) Q.
Proof.
  intros W1 W2 H1 H2 s n r E. unfold mbind in E. destruct (W1 s) as (ks & r1 & n1 & E1 & _ & F). rewrite E1 in E. destruct r1 as [a|f].
  - destruct (W2 a (mkMst n1 (ks ++ q_denied s))) as (ks' & r' & n' & E' & _). rewrite E' in E. injection E as <- <- E.
    cbn [q_denied] in E. rewrite app_assoc in E. symmetry in E. apply app_self in E. apply app_eq_nil in E. destruct E as [-> ->].
    cbn [app q_denied] in *. eapply H2; [eapply H1; exact E1|]. exact E'.
  - injection E as <- <- E. symmetry in E. apply app_self in E. subst. destruct (F f eq_refl).
Qed.
(* crash parts *)
Lemma U_crash_bind deny B (f : mem B) Q : W any f -> U f Q -> U (mbind (ask deny ATemp) (fun ok => if ok : bool then f else mcrash)) Q.
Proof.
  intros HW H s n r E. unfold mbind, ask in E. destruct (deny (q_next s) ATemp).
  - injection E as _ _ E. change (ATemp :: q_denied s) with ([ATemp] ++ q_denied s) in E. symmetry in E. apply app_self in E. discriminate E.
  - eapply (H (mkMst (S (q_next s)) (q_denied s))). exact E.
Qed.
Lemma U_temp_bind deny B (f : unit -> mem B) Q : (forall u, W any (f u)) -> U (f tt) Q -> U (mbind (temp deny) f) Q.
Proof.
  intros HW H. eapply (U_bind _ _ _ _ (fun o => o = Ok tt)); [apply W_temp; reflexivity|exact HW| |intros [] _; exact H].
  apply U_crash_bind; [apply W_ret|apply U_ret; reflexivity].
Qed.

Lemma L_ret A (a : option A) : L (mret a).
Proof. intros s ks n r E Hk. injection E as _ E. destruct s as [x y]. injection E as _ E. apply app_self in E. subst ks. discriminate Hk. Qed.
Lemma L_ask deny k B (f : option B) (m : mem (option B)) : W any m -> L m -> f = None ->
  L (mbind (ask deny k) (fun ok => if ok : bool then m else mret f)).
Proof.
  intros HW H -> s ks n r E Hk. unfold mbind, ask in E. destruct (deny (q_next s) k).
  - injection E as <- _ _. reflexivity.
  - eapply (H (mkMst (S (q_next s)) (q_denied s)) ks); eassumption.
Qed.
Lemma unlooked_looked ks : forallb unlooked ks = true -> existsb looked_at ks = false.
Proof. induction ks as [|k ks IH]; [reflexivity|]. cbn. unfold unlooked at 1. destruct (looked_at k); cbn; [discriminate|exact IH]. Qed.
Lemma L_bind_args A B (m : mem A) (k : A -> mem (option B)) :
  W unlooked m -> (forall a, W any (k a)) -> (forall a, L (k a)) -> L (mbind m k).
Proof.
  intros W1 W2 H s ks n r E Hk. unfold mbind in E. destruct (W1 s) as (ks1 & r1 & n1 & E1 & F1 & F2). rewrite E1 in E. apply unlooked_looked in F1. destruct r1 as [a|f].
  - destruct (W2 a (mkMst n1 (ks1 ++ q_denied s))) as (ks2 & r2 & n2 & E2 & _). rewrite E2 in E. injection E as <- <- E.
    cbn [q_denied] in E. rewrite app_assoc in E. apply app_inv_tail in E. subst ks. rewrite existsb_app, F1, orb_false_r in Hk.
    eapply (H a); eassumption.
  - injection E as <- <- E. apply app_inv_tail in E. subst. rewrite F1 in Hk. discriminate Hk.
Qed.
Lemma L_bind_opt A B (m : mem (option A)) (k : option A -> mem (option B)) :
  W any m -> (forall a, W any (k a)) -> L m -> (forall s, k None s = (Ok None, s)) -> (forall a, L (k a)) -> L (mbind m k).
Proof.
  intros W1 W2 H1 Hn H2 s ks n r E Hk. unfold mbind in E. destruct (W1 s) as (ks1 & r1 & n1 & E1 & F1 & F2). rewrite E1 in E. destruct r1 as [a|f].
  - destruct (W2 a (mkMst n1 (ks1 ++ q_denied s))) as (ks2 & r2 & n2 & E2 & _). rewrite E2 in E. injection E as <- <- E.
    cbn [q_denied] in E. rewrite app_assoc in E. apply app_inv_tail in E. subst ks. rewrite existsb_app in Hk. apply orb_prop in Hk. destruct Hk as [Hk|Hk].
    + eapply (H2 a); eassumption.
    + assert (Ok a = Ok (@None A)) as Ea by (eapply H1; [exact E1|exact Hk]). injection Ea as ->.
      rewrite Hn in E2. injection E2 as <- _ _. reflexivity.
  - injection E as <- <- E. apply app_inv_tail in E. subst. assert (Fault f = Ok (@None A)) as Ea by (eapply H1; eassumption). discriminate Ea.
Qed.

(* ---------------- which requests each piece makes ---------------- *)
Ltac w1 :=
  match goal with
  | |- W _ (mret _) => apply W_ret
  | |- W _ (mlift (Ok _)) => apply W_lift
  | |- W _ (ask _ _) => apply W_ask; reflexivity
  | |- W _ (temp _) => apply W_temp; reflexivity
  | |- W _ (mbind (ask _ ATemp) (fun ok => if ok then _ else mcrash)) => apply W_ask_crash; [reflexivity|]
  | |- W _ (mbind (ask _ ATemp) (fun ok => mbind _ (fun _ => if ok then _ else mcrash))) => apply W_ask_crash2; [reflexivity| |intro]
  | |- W _ (mbind _ _) => apply W_bind; [|intro]
  | |- W _ (if ?b then _ else _) => destruct b
  | |- W _ (match ?x with _ => _ end) => destruct x
  | |- W _ (let _ := _ in _) => cbv zeta
  end.
Ltac w := repeat w1.
(* the kinds of the requests made while the arguments are built *)
Section Kinds.
Context (deny : oracle).
Lemma W_add K A l (x : A) : K ACell = true -> W K (add deny l x).
Proof. intro HK. unfold add. w. apply W_ask. exact HK. Qed.
Lemma W_add_opt K A l (x : option A) : K ACell = true -> W K (add_opt deny l x).
Proof. intro HK. unfold add_opt. w. apply W_add; exact HK. Qed.
Lemma W_copy K A (l : list A) : K ACopy = true -> W K (copy deny l).
Proof. intro HK. unfold copy. w. apply W_ask. exact HK. Qed.
End Kinds.
Ltac w2 := repeat (first [w1 | apply W_add; reflexivity | apply W_add_opt; reflexivity | apply W_copy; reflexivity]).
Section Kinds2.
Context (deny : oracle).
Notation X := (fun k => match k with ABody | AMsg => false | AIe | AValue | APair | ATemp | ACell | ACopy | AExt => true end).
Lemma W_alg K (HT : K ATemp = true) (HC : K ACell = true) alg mask bits : forall l, W K (alg_loop_m deny alg mask bits l).
Proof.
  induction bits as [|i r IH]; intro l; cbn [alg_loop_m]; w; try (apply W_temp; exact HT); try (apply W_add; exact HC); apply IH.
Qed.
Lemma W_prot K (HC : K ACopy = true) a k : W K (prot_info_m deny a k).
Proof. unfold prot_info_m. w. apply W_copy. exact HC. Qed.
Lemma W_long l v : W unlooked (add_long deny l v).
Proof. unfold add_long. w2. Qed.
Lemma W_tlist : W unlooked (temp_list deny).
Proof. unfold temp_list. w2. Qed.
Lemma W_fmti l v : W unlooked (add_fmti deny l v).
Proof. unfold add_fmti. w2. apply W_long. Qed.
Lemma W_sdu_voice a b c d e : W unlooked (sdu_voice_m deny a b c d e).
Proof. unfold sdu_voice_m. w2; first [apply W_tlist | apply W_fmti]. Qed.
Lemma W_sdu_data : W unlooked (sdu_data_m deny).
Proof. unfold sdu_data_m. w2. Qed.
Lemma W_par_voice a b : W unlooked (rab_par_voice_m deny a b).
Proof. unfold rab_par_voice_m. w2; first [apply W_tlist | apply W_long | apply W_sdu_voice]. Qed.
Lemma W_nas v : W unlooked (nas_sync_m deny v).
Proof. unfold nas_sync_m. w2. Qed.
Lemma W_par_data a b : W unlooked (rab_par_data_m deny a b).
Proof. unfold rab_par_data_m. w2; first [apply W_tlist | apply W_long | apply W_sdu_data]. Qed.
Lemma W_upi a b : W unlooked (upi_m deny a b).
Proof. unfold upi_m. w2. Qed.
Lemma W_id a : W unlooked (rab_id_m deny a).
Proof. unfold rab_id_m. w2. Qed.
Lemma W_tla o a x : W unlooked (transp_layer_addr_m deny o a x).
Proof. unfold transp_layer_addr_m. w2. Qed.
(* if tli is NULL, either the family is wrong or the write crashes *)
Lemma W_ti a x p o : W unlooked (mbind (ask deny ATemp) (fun ok => transp_info_m deny ok a x p o)).
Proof.
  intro s. unfold mbind at 1. unfold ask. destruct (deny (q_next s) ATemp).
  - unfold transp_info_m, mbind. destruct (W_tla [] a x (mkMst (S (q_next s)) (ATemp :: q_denied s))) as (ks & r & n & E & F1 & F2). rewrite E. cbn [q_denied].
    assert (G : forallb unlooked (ks ++ [ATemp]) = true) by (rewrite forallb_app, F1; reflexivity).
    assert (I : In ATemp (ks ++ [ATemp])) by (apply in_or_app; right; left; reflexivity).
    destruct r as [r|f]; [destruct (fst r <? 0)%Z|].
    + exists (ks ++ [ATemp]), (Ok None), n. rewrite <- app_assoc. repeat split; [exact G|intros; exact I].
    + exists (ks ++ [ATemp]), (Fault NullDeref), n. rewrite <- app_assoc. repeat split; [exact G|intros; exact I].
    + exists (ks ++ [ATemp]), (Fault f), n. rewrite <- app_assoc. repeat split; [exact G|intros; exact I].
  - assert (H : W unlooked (transp_info_m deny true a x p o)) by (unfold transp_info_m; w2; apply W_tla).
    destruct (H (mkMst (S (q_next s)) (q_denied s))) as (ks & r & n & E & F). exists ks, r, n. cbn [q_denied] in E. exact (conj E F).
Qed.
Lemma W_rtp a x : W unlooked (transp_info_rtp_m deny a x).
Proof. unfold transp_info_rtp_m. destruct (_ || _); [apply W_ti|apply W_ret]. Qed.
Lemma W_gtp a t x : W unlooked (transp_info_gtp_m deny a t x).
Proof. apply W_ti. Qed.
Lemma W_pair a b c d e f g : W unlooked (new_ie_pair_m deny a b c d e f g).
Proof. unfold new_ie_pair_m. w2. Qed.
Lemma W_imsi i o : imsi_encode 16 16 i = Ok o -> W unlooked (imsi_m deny i).
Proof.
  intros E. unfold imsi_m. rewrite E. destruct i as [|d i].
  - w2.
  - apply W_ask_crash; [reflexivity|apply W_lift].
Qed.
End Kinds2.

Lemma un_any A (m : mem A) : W unlooked m -> W any m.
Proof. apply W_weaken. reflexivity. Qed.

(* the common end asks for no heap arguments *)
Definition ends (k : akind) : bool := match k with AIe | AValue | ABody | AMsg | ACell => true | _ => false end.
Section Ends.
Context (deny : oracle).
Lemma W_ie r v : W ends (new_ie_m deny r v).
Proof. unfold new_ie_m. w2. Qed.
Lemma W_rows m s rows : forall fields l, W ends (add_rows_m deny m s rows fields l).
Proof.
  induction rows as [|r rs IH]; intros fields l; destruct fields as [|f fs]; cbn [add_rows_m]; try apply W_ret.
  destruct (wanted m s r); [|apply IH]. destruct f as [v|]; [|apply W_ret].
  apply W_bind; [apply W_ie|]. intros [ie|]; [|apply W_ret]. apply W_bind; [apply W_add; reflexivity|intro; apply IH].
Qed.
Lemma W_ies m s : W ends (add_ies_m deny m s).
Proof. unfold add_ies_m. apply W_bind; [apply W_rows|intro; apply W_ret]. Qed.
Lemma W_gen P d p c t o : W ends (generate_m deny P d p c t o).
Proof. unfold generate_m. w2. Qed.
Lemma W_fin P d p c m s : W ends (finish_m deny P d p c m s).
Proof. unfold finish_m. apply W_bind; [apply W_ies|]. intros [l|]; [apply W_gen|apply W_ret]. Qed.
Lemma Wa A (m : mem A) : W ends m -> W any m.
Proof. apply W_weaken. reflexivity. Qed.

Lemma L_ie r v : L (new_ie_m deny r v).
Proof.
  unfold new_ie_m. apply L_ask; [w2| |reflexivity]. apply L_ask; [w2|apply L_ret|reflexivity].
Qed.
Lemma L_rows m s rows : forall fields l, L (add_rows_m deny m s rows fields l).
Proof.
  induction rows as [|r rs IH]; intros fields l; destruct fields as [|f fs]; cbn [add_rows_m]; try apply L_ret.
  destruct (wanted m s r); [|apply IH]. destruct f as [v|]; [|apply L_ret].
  apply L_bind_opt.
  - apply Wa, W_ie.
  - intros [ie|]; [|apply W_ret]. apply Wa. apply W_bind; [apply W_add; reflexivity|intro; apply W_rows].
  - apply L_ie.
  - reflexivity.
  - intros [ie|]; [|apply L_ret]. apply L_bind_args; [apply W_add; reflexivity|intro; apply Wa, W_rows|intro; apply IH].
Qed.
Lemma L_ies m s : L (add_ies_m deny m s).
Proof.
  unfold add_ies_m. apply L_bind_opt; [apply Wa, W_rows|intro; apply W_ret|apply L_rows|reflexivity|intro; apply L_ret].
Qed.
Lemma L_gen P d p c t o : L (generate_m deny P d p c t o).
Proof.
  unfold generate_m. apply L_ask; [w2| |reflexivity]. destruct (encode t o); [|apply L_ret].
  apply L_ask; [w2|apply L_ret|reflexivity].
Qed.
Lemma L_fin P d p c m s : L (finish_m deny P d p c m s).
Proof.
  unfold finish_m. apply L_bind_opt; [apply Wa, W_ies|intros [l|]; [apply Wa, W_gen|apply W_ret]|apply L_ies|reflexivity|].
  intros [l|]; [apply L_gen|apply L_ret].
Qed.

(* nothing denied *)
Lemma U_add A l (x : A) : U (add deny l x) (fun o => exists c, o = Ok c /\ ce_items c = ce_items l ++ [x]).
Proof.
  unfold add. destruct (_ =? _)%nat.
  - apply U_ask_bind; [intro; w2|]. apply U_ret. eexists. split; reflexivity.
  - apply U_ret. eexists. split; reflexivity.
Qed.
Lemma U_ie r v : U (new_ie_m deny r v) (eq (Ok (new_ie r v))).
Proof. unfold new_ie_m. apply U_ask_bind; [intro; w2|]. apply U_ask_bind; [intro; w2|]. apply U_ret. reflexivity. Qed.
Lemma U_rows m s rows : forall fields l k,
  U (add_rows_m deny m s rows fields l) (fun o => exists c, o = Ok c /\ option_map ce_items c = option_map (app (ce_items l)) (snd (add_rows m s rows fields k))).
Proof.
  induction rows as [|r rs IH]; intros fields l k; destruct fields as [|f fs]; cbn [add_rows_m add_rows]; try (apply U_ret; eexists; split; [reflexivity|cbn; rewrite ?app_nil_r; reflexivity]).
  destruct (wanted m s r); [|apply IH]. destruct f as [v|]; [|apply U_ret; eexists; split; reflexivity].
  eapply U_bind; [apply Wa, W_ie| |apply U_ie|].
  - intros [ie|]; [|apply W_ret]. apply Wa. apply W_bind; [apply W_add; reflexivity|intro; apply W_rows].
  - intros o E. injection E as <-. destruct (new_ie r v) as [ie|]; [|apply U_ret; eexists; split; reflexivity].
    eapply U_bind; [apply W_add; reflexivity|intro; apply Wa, W_rows|apply U_add|].
    intros c (c' & E & Hc). injection E as <-. intros s0 n0 r0 E0. destruct (IH fs c (S k) s0 n0 r0 E0) as (c2 & -> & H2).
    exists c2. split; [reflexivity|]. rewrite H2, Hc. destruct (add_rows m s rs fs (S k)) as [t o]. destruct o as [x|]; cbn; [rewrite <- app_assoc; reflexivity|reflexivity].
Qed.
Lemma U_ies m s : U (add_ies_m deny m s) (eq (Ok (snd (add_ies m s)))).
Proof.
  unfold add_ies_m, add_ies. eapply U_bind; [apply Wa, W_rows|intro; apply W_ret|apply (U_rows m s _ _ _ 0)|].
  intros c (c' & E & H). injection E as <-. apply U_ret. rewrite H. destruct (snd (add_rows m s (m_rows m) (i_fields s) 0)); reflexivity.
Qed.
Lemma U_gen P d p c t o : U (generate_m deny P d p c t o) (eq (Ok (generate P d p c t o))).
Proof.
  unfold generate_m, generate. apply U_ask_bind; [intro; w2|]. destruct (encode t o); [|apply U_ret; reflexivity].
  apply U_ask_bind; [intro; w2|]. apply U_ret. reflexivity.
Qed.
Lemma fin_msg P d p c m s mid ko : r_msg (finish P d p c m s mid ko) =
  match snd (add_ies m s) with None => None | Some l => generate P d p c (m_cont m) (list_val l) end.
Proof. unfold finish. destruct (add_ies m s) as [t [l|]]; cbn [snd]; [|reflexivity]. destruct (generate _ _ _ _ _ _); reflexivity. Qed.
Lemma U_fin P d p c m s mid ko : U (finish_m deny P d p c m s) (eq (Ok (r_msg (finish P d p c m s mid ko)))).
Proof.
  rewrite fin_msg. unfold finish_m. eapply U_bind; [apply Wa, W_ies| |apply U_ies|].
  - intros [l|]; [apply Wa, W_gen|apply W_ret].
  - intros l E. injection E as <-. destruct (snd (add_ies m s)); [apply U_gen|apply U_ret; reflexivity].
Qed.
End Ends.

(* ---------------- the arguments when nothing is denied ---------------- *)
Ltac wa := repeat (first [w1 | apply W_add; reflexivity | apply W_add_opt; reflexivity | apply W_copy; reflexivity
  | apply W_alg; reflexivity | apply W_prot; reflexivity
  | apply un_any; first [apply W_long | apply W_tlist | apply W_fmti | apply W_sdu_voice | apply W_sdu_data | apply W_par_voice
      | apply W_nas | apply W_par_data | apply W_upi | apply W_id | apply W_tla | apply W_rtp | apply W_gtp | apply W_pair]
  | apply Wa; first [apply W_ies | apply W_gen | apply W_fin]]).
Ltac wu := repeat (first [w1 | apply W_add; reflexivity | apply W_add_opt; reflexivity | apply W_copy; reflexivity
  | apply W_alg; reflexivity | apply W_prot; reflexivity
  | apply W_long | apply W_tlist | apply W_fmti | apply W_sdu_voice | apply W_sdu_data | apply W_par_voice
  | apply W_nas | apply W_par_data | apply W_upi | apply W_id | apply W_tla | apply W_rtp | apply W_gtp | apply W_pair]).
Section Granted.
Context (deny : oracle).
(* a list pointer that is not NULL, with these elements *)
Definition holds_list (l : list val) (o : outcome (option (cells val))) : Prop := exists c, o = Ok (Some c) /\ ce_items c = l.
Lemma U_imp A (m : mem A) (P Q : outcome A -> Prop) : U m P -> (forall o, P o -> Q o) -> U m Q.
Proof. intros H HP s n r E. apply HP. eapply H. exact E. Qed.
(* for a piece with one result *)
Lemma U_eq_bind A B (m : mem A) (k : A -> mem B) a Q : W any m -> (forall a, W any (k a)) -> U m (eq (Ok a)) -> U (k a) Q -> U (mbind m k) Q.
Proof. intros W1 W2 H1 H2. eapply U_bind; [exact W1|exact W2|exact H1|]. intros a' E. injection E as <-. exact H2. Qed.
Lemma U_list_bind B (m : mem (option (cells val))) (k : option (cells val) -> mem B) l Q :
  W any m -> (forall a, W any (k a)) -> U m (holds_list l) -> (forall c, ce_items c = l -> U (k (Some c)) Q) -> U (mbind m k) Q.
Proof. intros W1 W2 H1 H2. eapply U_bind; [exact W1|exact W2|exact H1|]. intros a' (c & E & Hc). injection E as ->. apply H2. exact Hc. Qed.
Lemma U_add_bind A B l (x : A) (k : cells A -> mem B) Q : (forall a, W any (k a)) ->
  (forall c, ce_items c = ce_items l ++ [x] -> U (k c) Q) -> U (mbind (add deny l x) k) Q.
Proof. intros W2 H. eapply U_bind; [wa|exact W2|apply U_add|]. intros a (c & E & Hc). injection E as <-. apply H. exact Hc. Qed.
Lemma U_tlist : U (temp_list deny) (holds_list []).
Proof. unfold temp_list. apply U_ask_bind; [intro; wa|]. apply U_ret. eexists. split; reflexivity. Qed.
Lemma U_long c v : U (add_long deny (Some c) v) (holds_list (ce_items c ++ [v])).
Proof.
  unfold add_long. apply U_temp_bind; [intro; wa|]. apply U_add_bind; [intro; wa|]. intros c' H. apply U_ret. eexists. split; [reflexivity|exact H].
Qed.
Lemma U_fmti c z : U (add_fmti deny (Some c) z) (holds_list (ce_items c ++ [fmti z])).
Proof. unfold add_fmti. apply U_temp_bind; [intro; wa|]. apply U_long. Qed.
Lemma U_copy A (l : list A) : U (copy deny l) (eq (Ok l)).
Proof. unfold copy. apply U_ask_bind; [intro; wa|]. apply U_ret. reflexivity. Qed.
Lemma U_crash2 A B (m : mem A) (k : A -> mem B) Q : W any m -> (forall a, W any (k a)) -> U (mbind m k) Q ->
  U (mbind (ask deny ATemp) (fun ok => mbind m (fun a => if ok : bool then k a else mcrash))) Q.
Proof.
  intros W1 W2 H s n r E. unfold mbind at 1 in E. unfold ask in E. destruct (deny (q_next s) ATemp).
  - unfold mbind in E. destruct (W1 (mkMst (S (q_next s)) (ATemp :: q_denied s))) as (ks & r1 & n1 & E1 & _). rewrite E1 in E.
    assert (X : ks ++ ATemp :: q_denied s = q_denied s) by (destruct r1; injection E as _ _ E; exact E).
    change (ATemp :: q_denied s) with ([ATemp] ++ q_denied s) in X. rewrite app_assoc in X. symmetry in X. apply app_self in X. destruct ks; discriminate X.
  - eapply (H (mkMst (S (q_next s)) (q_denied s))). exact E.
Qed.
Lemma U_sdu_voice err res e s1 s2 : U (sdu_voice_m deny err res e s1 s2)
  (eq (Ok (VSeq [option_map (fun e => ratio (fst e) (snd e)) err; Some res; some_enum e; Some (VList [fmti s1; fmti s2]); None] []))).
Proof.
  unfold sdu_voice_m. apply U_crash2; [wa|intro; wa|]. eapply U_list_bind; [wa|intro; wa|apply U_tlist|]. intros c Hc.
  assert (G : U (mbind (add_fmti deny (Some c) s1) (fun f => mbind (add_fmti deny f s2) (fun f => 
     mret (VSeq [option_map (fun e => ratio (fst e) (snd e)) err; Some res; some_enum e; list_of f; None] []))))
     (eq (Ok (VSeq [option_map (fun e => ratio (fst e) (snd e)) err; Some res; some_enum e; Some (VList [fmti s1; fmti s2]); None] [])))).
  { eapply U_list_bind; [wa|intro; wa|apply U_fmti|]. intros c1 H1. eapply U_list_bind; [wa|intro; wa|apply U_fmti|]. intros c2 H2.
    apply U_ret. unfold list_of, option_map. rewrite H2, H1, Hc. reflexivity. }
  destruct err as [er|].
  - apply U_temp_bind; [intro; wa|exact G].
  - exact G.
Qed.
Lemma U_sdu_data : U (sdu_data_m deny) (eq (Ok sdu_data)).
Proof.
  unfold sdu_data_m. apply U_crash2; [wa|intro; wa|]. apply U_ask_bind; [intro; wa|]. apply U_temp_bind; [intro; wa|]. apply U_ret. reflexivity.
Qed.
Lemma U_par_voice a b : U (rab_par_voice_m deny a b) (eq (Ok (rab_par_voice a b))).
Proof.
  unfold rab_par_voice_m. apply U_temp_bind; [intro; wa|].
  eapply U_list_bind; [wa|intro; wa|apply U_long|]. intros c1 H1.
  eapply U_list_bind; [wa|intro; wa|apply U_tlist|]. intros c2 H2.
  eapply U_list_bind; [wa|intro; wa|apply U_long|]. intros c3 H3.
  eapply U_eq_bind; [wa|intro; wa|apply U_sdu_voice|]. apply U_add_bind; [intro; wa|]. intros l1 L1.
  eapply U_eq_bind; [wa|intro; wa|apply U_sdu_voice|]. apply U_add_bind; [intro; wa|]. intros l2 L2.
  eapply U_eq_bind; [wa|intro; wa|apply U_sdu_voice|]. apply U_add_bind; [intro; wa|]. intros l3 L3.
  do 3 (apply U_temp_bind; [intro; wa|]). apply U_ret. unfold list_of, option_map. rewrite L3, L2, L1, H3, H2, H1. reflexivity.
Qed.
Lemma U_nas v : U (nas_sync_m deny v) (eq (Ok (Some (nas_sync_ind v)))).
Proof.
  unfold nas_sync_m. apply U_ask_bind; [intro; wa|]. eapply U_eq_bind; [wa|intro; wa|apply U_copy|]. apply U_ret. reflexivity.
Qed.
Lemma U_par_data a b : U (rab_par_data_m deny a b) (eq (Ok (rab_par_data a b))).
Proof.
  unfold rab_par_data_m. apply U_temp_bind; [intro; wa|].
  eapply U_list_bind; [wa|intro; wa|apply U_long|]. intros c1 H1.
  eapply U_list_bind; [wa|intro; wa|apply U_long|]. intros c2 H2.
  eapply U_eq_bind; [wa|intro; wa|apply U_sdu_data|]. apply U_add_bind; [intro; wa|]. intros l1 L1.
  do 2 (apply U_temp_bind; [intro; wa|]).
  eapply U_list_bind; [wa|intro; wa|apply U_tlist|]. intros c3 H3.
  eapply U_list_bind; [wa|intro; wa|apply U_long|]. intros c4 H4.
  apply (U_eq_bind _ _ _ _ ext_mbr); [wa|intro; wa| |].
  - unfold list_of, option_map. rewrite H4, H3. apply U_ask_bind; [intro; wa|]. apply U_ret. reflexivity.
  - eapply U_list_bind; [wa|intro; wa|apply U_tlist|]. intros c5 H5.
    eapply (U_list_bind _ _ _ [VSeq [some_int 177; some_enum 1; Some (VOcts ext_mbr)] []]); [wa|intro; wa| |].
    + apply U_add_bind; [intro; wa|]. intros c6 H6. apply U_ret. eexists. split; [reflexivity|]. rewrite H6, H5. reflexivity.
    + intros c6 H6. apply U_ret. unfold list_of, option_map. rewrite L1, H2, H1, H6. reflexivity.
Qed.
Lemma U_upi a b : U (upi_m deny a b) (eq (Ok (upi a b))).
Proof.
  unfold upi_m. apply U_crash2; [wa|intro; wa|]. apply U_temp_bind; [intro; wa|]. apply U_ret. reflexivity.
Qed.
Lemma U_id a : U (rab_id_m deny a) (eq (Ok (rab_id_val a))).
Proof. unfold rab_id_m. apply U_temp_bind; [intro; wa|]. apply U_ret. reflexivity. Qed.
Lemma U_tla o a x : U (transp_layer_addr_m deny o a x) (eq (Ok (new_transp_layer_addr o a x))).
Proof.
  unfold transp_layer_addr_m. destruct (_ || _); [apply U_temp_bind; [intro; wa|]|]; apply U_ret; reflexivity.
Qed.
Lemma U_ti a x p o : U (mbind (ask deny ATemp) (fun ok => transp_info_m deny ok a x p o))
  (eq (Ok (let '(rc, tla) := new_transp_layer_addr [] a x in if (rc <? 0)%Z then None else Some (mkTli tla (mkAssoc p o))))).
Proof.
  intros s n r E. unfold mbind at 1 in E. unfold ask in E. destruct (deny (q_next s) ATemp).
  - unfold transp_info_m, mbind in E. destruct (W_tla deny [] a x (mkMst (S (q_next s)) (ATemp :: q_denied s))) as (ks & r1 & n1 & E1 & _). rewrite E1 in E.
    assert (X : ks ++ ATemp :: q_denied s = q_denied s).
    { destruct r1 as [r1|]; [destruct (fst r1 <? 0)%Z|]; injection E as _ _ E; exact E. }
    change (ATemp :: q_denied s) with ([ATemp] ++ q_denied s) in X. rewrite app_assoc in X. symmetry in X. apply app_self in X. destruct ks; discriminate X.
  - assert (H : U (transp_info_m deny true a x p o) (eq (Ok (let '(rc, tla) := new_transp_layer_addr [] a x in if (rc <? 0)%Z then None else Some (mkTli tla (mkAssoc p o)))))).
    { unfold transp_info_m. eapply U_eq_bind; [wa|intro; wa|apply U_tla|]. destruct (new_transp_layer_addr [] a x) as [rc tla]. cbn [fst snd].
      destruct (rc <? 0)%Z; [apply U_ret; reflexivity|]. eapply U_eq_bind; [wa|intro; wa|apply U_copy|]. apply U_ret. reflexivity. }
    eapply (H (mkMst (S (q_next s)) (q_denied s))). exact E.
Qed.
Lemma U_rtp a x : U (transp_info_rtp_m deny a x) (eq (Ok (new_transp_info_rtp a x))).
Proof. unfold transp_info_rtp_m, new_transp_info_rtp. destruct (_ || _); [apply U_ti|apply U_ret; reflexivity]. Qed.
Lemma U_gtp a t x : U (transp_info_gtp_m deny a t x) (eq (Ok (new_transp_info_gtp a t x))).
Proof. apply U_ti. Qed.
Lemma U_pair a b c d e f g : U (new_ie_pair_m deny a b c d e f g) (eq (Ok (new_ie_pair a b c d e f g))).
Proof.
  unfold new_ie_pair_m. do 2 (apply U_ask_bind; [intro; wa|]). unfold new_ie_pair. destruct (encode c d).
  - apply U_ask_bind; [intro; wa|]. apply U_ret. reflexivity.
  - apply U_ret. reflexivity.
Qed.
Lemma U_imsi i o : imsi_encode 16 16 i = Ok o -> U (imsi_m deny i) (eq (Ok o)).
Proof.
  intro E. unfold imsi_m. rewrite E. destruct i as [|d i].
  - apply U_ask_bind; [intro; wa|]. apply U_lift. reflexivity.
  - apply U_crash_bind; [wa|]. apply U_lift. reflexivity.
Qed.
Lemma U_alg alg mask bits : forall l, U (alg_loop_m deny alg mask bits l)
  (fun o => exists c, o = Ok c /\ option_map ce_items c = (let '(x, ok) := alg_loop alg mask bits in if ok then Some (ce_items l ++ x) else None)).
Proof.
  induction bits as [|i r IH]; intro l; cbn [alg_loop_m alg_loop].
  - apply U_ret. eexists. split; [reflexivity|]. cbn. rewrite app_nil_r. reflexivity.
  - destruct (N.testbit_nat mask i); [|apply IH]. destruct (alg i) as [a|]; [|apply U_ret; eexists; split; reflexivity].
    apply U_temp_bind; [intro; wa|]. apply U_add_bind; [intro; wa|]. intros c Hc. eapply U_imp; [apply IH|]. intros o (c' & -> & H). exists c'. split; [reflexivity|].
    rewrite H, Hc. destruct (alg_loop alg mask r) as [x [|]]; [rewrite <- app_assoc|]; reflexivity.
Qed.
Lemma U_prot c k a : ce_items c = a -> U (prot_info_m deny c k) (eq (Ok (prot_info a k))).
Proof. intros <-. unfold prot_info_m. eapply U_eq_bind; [wa|intro; wa|apply U_copy|]. apply U_ret. reflexivity. Qed.
Lemma U_assign a b : U (rab_assign_m deny a b) (eq (Ok (r_msg (rab_assign a b)))).
Proof.
  unfold rab_assign_m. eapply U_eq_bind; [wa|intro; wa|apply U_pair|].
  eapply U_list_bind; [wa|intro; wa|apply U_tlist|]. intros c Hc.
  match goal with |- context [new_ie_pair ?x1 ?x2 ?x3 ?x4 ?x5 ?x6 ?x7] => set (pr := new_ie_pair x1 x2 x3 x4 x5 x6 x7) end.
  eapply (U_list_bind _ _ _ (match pr with Some v => [v] | None => [] end)); [wa|intro; wa| |].
  - destruct pr as [v|]; cbn [add_opt].
    + apply U_add_bind; [intro; wa|]. intros c' H. apply U_ret. eexists. split; [reflexivity|]. rewrite H, Hc. reflexivity.
    + apply (U_eq_bind _ _ _ _ c); [wa|intro; wa|apply U_ret; reflexivity|]. apply U_ret. eexists. split; [reflexivity|exact Hc].
  - intros c' H'. change (add_opt deny no_cells (list_of (Some c'))) with (add deny no_cells (VList (ce_items c'))).
    apply U_add_bind; [intro; wa|]. intros l Hl. rewrite Hl, H'. unfold rab_assign. cbv zeta. cbn [r_msg]. subst pr. apply U_fin.
Qed.
End Granted.
