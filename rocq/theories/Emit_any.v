(* Proofs for C100, any file of ASN.1 *)
From Verif Require Import Base Aper Container Regex Generator_spec Generator_repo_spec Generator_proofs Generator Naming Naming_spec Naming_proofs Emit Emit_spec.
From Coq Require Import String.
Local Open Scope list_scope.

Lemma teq_refl n : teq n n = true. Proof. now apply teq_eq. Qed.
Lemma teq_no a b : teq a b = false <-> a <> b.
Proof. rewrite <- teq_eq. destruct (teq a b); split; congruence. Qed.
Lemma found_eqb_eq a b : found_eqb a b = true <-> a = b.
Proof.
  unfold found_eqb. rewrite !andb_true_iff, !teq_eq. destruct a, b; cbn [Generator.f_id Generator.f_crit Generator.f_type Generator.f_pres]. split; [intros [[[-> ->] ->] ->]; reflexivity|intros E; injection E as -> -> -> ->; auto].
Qed.

(* ---------------- when the script gives up ---------------- *)
Definition clash (l : list found) (f : found) : Prop := exists g, In g l /\ g <> f /\ f_id g = f_id f.
Lemma unique_none l f : unique_name l f = None <-> clash l f.
Proof.
  unfold unique_name, clash. destruct (existsb (fun o => teq (f_id o) (f_id f)) _) eqn:E.
  - split; [intros _|reflexivity]. apply existsb_exists in E as (g&I&T). apply filter_In in I as [I N]. apply teq_eq in T.
    exists g. repeat split; auto. intros ->. rewrite (proj2 (found_eqb_eq f f) eq_refl) in N. discriminate.
  - split; [discriminate|]. intros (g&I&N&T). exfalso. rewrite <- not_true_iff_false in E. apply E. apply existsb_exists.
    exists g. split; [|now apply teq_eq]. apply filter_In. split; [exact I|]. destruct (found_eqb g f) eqn:K; [|reflexivity]. apply found_eqb_eq in K. contradiction.
Qed.
Lemma macros_none prefix k all : forall l s, macros_of prefix k all l s = None <-> exists f, In f l /\ clash all f.
Proof.
  induction l as [|f l IH]; intros s; cbn [macros_of]; [split; [discriminate|intros (f&[]&_)]|].
  unfold obind2. destruct (unique_name all f) as [u|] eqn:U.
  - assert (Hf : ~ clash all f) by (rewrite <- unique_none, U; discriminate).
    assert (E : (exists g, In g (f :: l) /\ clash all g) <-> (exists g, In g l /\ clash all g)).
    { split; intros (g&I&K); [destruct I as [->|I]; [contradiction|]|]; exists g; split; auto; now right. }
    rewrite E. destruct (marked f); [rewrite <- (IH (s + 1)%N); destruct (macros_of prefix k all l (s + 1)); split; congruence|apply IH].
  - apply unique_none in U. split; [intros _; exists f; split; [now left|exact U]|reflexivity].
Qed.
Lemma each_none {A} (f : found -> option text -> A) prefix k all : forall l, each f prefix k all l = None <-> exists g, In g l /\ clash all g.
Proof.
  induction l as [|g l IH]; cbn [each]; [split; [discriminate|intros (f0&[]&_)]|].
  unfold obind2. destruct (unique_name all g) as [u|] eqn:U.
  - assert (Hf : ~ clash all g) by (rewrite <- unique_none, U; discriminate).
    split.
    + destruct (each f prefix k all l); [discriminate|]. intros _. destruct (proj1 IH eq_refl) as (h&I&K). exists h. split; [now right|exact K].
    + intros (h&[->|I]&K); [contradiction|]. rewrite (proj2 IH); [reflexivity|eauto].
  - apply unique_none in U. split; [intros _; exists g; split; [now left|exact U]|reflexivity].
Qed.
Lemma refused_l : forall prefix file defs, write_code prefix file defs = None <->
  exists k l f g, In (k, l) defs /\ In f l /\ In g l /\ f <> g /\ f_id f = f_id g.
Proof.
  intros prefix file. induction defs as [|[k l] defs IH]; cbn [write_code]; [split; [discriminate|intros (k&l&f&g&[]&_)]|].
  destruct (macros_of prefix k l l 0) as [ms|] eqn:M; unfold obind2.
  - assert (Hn : ~ exists f, In f l /\ clash l f) by (rewrite <- (macros_none prefix k l l 0), M; discriminate).
    unfold decoder_text, encoder_text, free_text, obind2.
    destruct (each (case_text prefix) prefix k l l) as [x|] eqn:E1; [|apply each_none in E1; contradiction].
    destruct (each (step_text prefix) prefix k l l) as [y|] eqn:E2; [|apply each_none in E2; contradiction].
    destruct (each (drop_text prefix) prefix k l l) as [z|] eqn:E3; [|apply each_none in E3; contradiction].
    split.
    + destruct (write_code prefix file defs); [discriminate|]. intros _. destruct (proj1 IH eq_refl) as (k'&l'&f&g&I&R). exists k', l', f, g. split; [now right|exact R].
    + intros (k'&l'&f&g&[E|I]&If&Ig&N&T).
      * injection E as -> ->. exfalso. apply Hn. exists g. split; [exact Ig|]. exists f. auto.
      * rewrite (proj2 IH); [reflexivity|]. exists k', l', f, g. auto.
  - apply macros_none in M as (f&I&g&J&N&T). split; [intros _|reflexivity]. exists k, l, g, f. repeat split; auto. now left.
Qed.

(* ---------------- what is written for a message ---------------- *)
Lemma write_in prefix file k l : forall defs C, write_code prefix file defs = Some C -> In (k, l) defs ->
  exists ms d e f, macros_of prefix k l l 0 = Some ms /\ incl ms (cd_macros C) /\ In (struct_text prefix k l) (cd_structs C) /\
    decoder_text prefix file k l = Some d /\ In d (cd_decoders C) /\ encoder_text prefix file k l = Some e /\ In e (cd_encoders C) /\
    free_text prefix file k l = Some f /\ In f (cd_frees C).
Proof.
  induction defs as [|[k' l'] defs IH]; intros C W I; [destruct I|]. cbn [write_code] in W. unfold obind2 in W.
  destruct (macros_of prefix k' l' l' 0) as [ms|] eqn:M; [|discriminate]. destruct (decoder_text prefix file k' l') as [d|] eqn:D; [|discriminate].
  destruct (encoder_text prefix file k' l') as [e|] eqn:E; [|discriminate]. destruct (free_text prefix file k' l') as [f|] eqn:F; [|discriminate].
  destruct (write_code prefix file defs) as [C'|] eqn:W'; [|discriminate]. injection W as <-. cbn [cd_macros cd_structs cd_decoders cd_encoders cd_frees].
  destruct I as [K|I].
  - injection K as -> ->. exists ms, d, e, f. repeat split; auto; try (now left). apply incl_appl, incl_refl.
  - destruct (IH C' eq_refl I) as (ms'&d'&e'&f'&A1&A2&A3&A4&A5&A6&A7&A8&A9). exists ms', d', e', f'. repeat split; auto; try (now right).
    apply incl_appr, A2.
Qed.
Lemma filter_one {A} (p : A -> bool) l x y : filter p l = [x] -> In y l -> p y = true -> y = x.
Proof. intros E I P. assert (H : In y (filter p l)) by (apply filter_In; auto). rewrite E in H. destruct H as [H|[]]. auto. Qed.
Lemma all_some_all {A B} (f : A -> option B) : forall l r, all_some f l = Some r -> Forall2 (fun a b => f a = Some b) l r.
Proof.
  induction l as [|a l IH]; intros r E; cbn [all_some] in E; [injection E as <-; constructor|]. unfold obind2 in E.
  destruct (f a) as [b|] eqn:F; [|discriminate]. destruct (all_some f l) as [rs|]; [|discriminate]. injection E as <-. constructor; auto.
Qed.
Lemma each_all {A} (f : found -> option text -> A) prefix k all : forall l r, each f prefix k all l = Some r ->
  Forall2 (fun g a => exists u, unique_name all g = Some u /\ a = f g (if not_mandatory g then Some (flag_macro prefix k u) else None)) l r.
Proof.
  induction l as [|a l IH]; intros r E; cbn [each] in E; [injection E as <-; constructor|]. unfold obind2 in E.
  destruct (unique_name all a) as [u|] eqn:F; [|discriminate]. destruct (each f prefix k all l) as [rs|]; [|discriminate]. injection E as <-. constructor; eauto.
Qed.
Lemma Forall2_comp {A B C} (P : A -> B -> Prop) (Q : B -> C -> Prop) : forall l m n, Forall2 P l m -> Forall2 Q m n -> Forall2 (fun a c => exists b, P a b /\ Q b c) l n.
Proof. induction l as [|a l IH]; intros m n H1 H2; inversion H1; subst; inversion H2; subst; constructor; eauto. Qed.

(* macros *)
Lemma macro_value_in : forall ms n v, NoDup (map fst ms) -> In (n, v) ms -> macro_value n ms = Some v.
Proof.
  induction ms as [|[n' v'] ms IH]; intros n v D I; [destruct I|]. cbn [macro_value]. cbn [map fst] in D. inversion D as [|? ? Hn D']; subst.
  destruct I as [E|I].
  - injection E as -> ->. assert (E : macro_value n ms = None).
    { clear IH D D'. induction ms as [|[a b] ms IH]; [reflexivity|]. cbn [macro_value map fst] in *. rewrite IH by (intros K; apply Hn; now right).
      rewrite (proj2 (teq_no a n)); [reflexivity|]. intros ->. apply Hn. now left. }
    rewrite E, teq_refl. reflexivity.
  - rewrite (IH n v D' I). reflexivity.
Qed.
Lemma known_marked f : presence_known f -> marked f = not_mandatory f.
Proof. unfold presence_known, marked, not_mandatory. cbn [map In]. intros [E|[E|[E|[]]]]; rewrite <- E; reflexivity. Qed.
Lemma not_mandatory_iff f : not_mandatory f = true <-> optional f.
Proof. unfold not_mandatory, optional. rewrite negb_true_iff. change (codes "mandatory") with (chars "mandatory"). apply teq_no. Qed.
Lemma optionals_filter l : optionals l = filter not_mandatory l.
Proof.
  apply filter_ext. intros f. unfold not_mandatory. change (codes "mandatory") with (chars "mandatory"). destruct (list_eq_dec N.eq_dec (f_pres f) (chars "mandatory")) as [->|N].
  - now rewrite teq_refl.
  - now rewrite (proj2 (teq_no _ _) N).
Qed.
Lemma optionals_in l f : In f (optionals l) <-> In f l /\ optional f.
Proof. rewrite optionals_filter, filter_In, not_mandatory_iff. reflexivity. Qed.
Lemma macros_in prefix k all : forall l s ms f, macros_of prefix k all l s = Some ms -> Forall presence_known l -> NoDup (map f_id l) -> In f l -> optional f ->
  exists u, unique_name all f = Some u /\ In (flag_macro prefix k u, 2 ^ (s + bit_of l f))%N ms.
Proof.
  unfold bit_of. induction l as [|g l IH]; intros s ms f M K D I O; [destruct I|]. cbn [macros_of] in M. unfold obind2 in M.
  inversion K as [|? ? Kg K']; subst. cbn [map] in D. inversion D as [|? ? Hg D']; subst. rewrite optionals_filter. cbn [filter]. rewrite <- optionals_filter.
  destruct (unique_name all g) as [u|] eqn:U; [|discriminate]. rewrite (known_marked _ Kg) in M. destruct (not_mandatory g) eqn:N.
  - destruct (macros_of prefix k all l (s + 1)) as [ms'|] eqn:M'; [|discriminate]. injection M as <-. cbn [place].
    destruct I as [->|I].
    + exists u. split; [exact U|]. left. destruct (list_eq_dec N.eq_dec (f_id f) (f_id f)) as [_|C]; [|congruence]. now rewrite N.add_0_r.
    + destruct (IH _ _ _ M' K' D' I O) as (v&Uv&Iv). exists v. split; [exact Uv|]. right.
      destruct (list_eq_dec N.eq_dec (f_id g) (f_id f)) as [C|_]; [exfalso; apply Hg; rewrite C; now apply in_map|]. now rewrite N.add_assoc.
  - destruct I as [->|I]; [apply not_mandatory_iff in O; congruence|]. now apply (IH _ _ _ M).
Qed.

(* members: the compiler has seen each once *)
Lemma once_nodup : forall (l pre : list (text * text)), (forall x, In x l -> exists y, filter (fun d => teq (snd d) (snd x)) (pre ++ l) = [y]) -> NoDup (map snd l).
Proof.
  induction l as [|x l IH]; intros pre H; cbn [map]; constructor.
  - intros K. apply in_map_iff in K as (y&E&I). destruct (H x (or_introl eq_refl)) as (z&F). rewrite filter_app in F. cbn [filter] in F. rewrite teq_refl in F.
    assert (J : In y (filter (fun d => teq (snd d) (snd x)) l)) by (apply filter_In; split; [exact I|]; rewrite E; apply teq_refl).
    apply (f_equal (@List.length _)) in F. rewrite app_length in F. cbn [List.length] in F. destruct (filter (fun d => teq (snd d) (snd x)) l); [destruct J|]. cbn [List.length] in F. lia.
  - apply (IH (pre ++ [x])). intros y I. rewrite <- app_assoc. cbn [app]. apply H. now right.
Qed.

Definition case_fact (H : headers) (prefix : text) (l : list found) (f : found) (c : case_x) : Prop :=
  named_in (id_constant prefix (f_id f)) (h_ids H) = Some (x_label c) /\
  described H (type_name prefix (f_type f)) (desc_name prefix (f_type f)) = Some (x_desc c) /\
  x_member c = member (f_id f) /\ x_or c = if not_mandatory f then Some (2 ^ bit_of l f)%N else None.
Definition step_fact (H : headers) (prefix : text) (l : list found) (f : found) (p : step_x) : Prop :=
  means H prefix f (y_id p) (y_crit p) (y_desc p) /\ y_member p = member (f_id f) /\ y_flag p = if not_mandatory f then Some (2 ^ bit_of l f)%N else None.
Definition drop_fact (l : list found) (f : found) (q : drop_x) : Prop :=
  z_member q = member (f_id f) /\ z_flag q = if not_mandatory f then Some (2 ^ bit_of l f)%N else None.
Lemma Forall2_impl_in {A B} (P Q : A -> B -> Prop) : forall l m, (forall a b, In a l -> In b m -> P a b -> Q a b) -> Forall2 P l m -> Forall2 Q l m.
Proof. intros l m F H. induction H; constructor; [apply F; auto; now left|apply IHForall2; intros a b I J; apply F; now right]. Qed.
Lemma Forall2_in_l {A B} (P : A -> B -> Prop) l m a : Forall2 P l m -> In a l -> exists b, In b m /\ P a b.
Proof. intros H. induction H as [|x y l m Hxy H IH]; intros I; [destruct I|]; destruct I as [->|I]; [exists y; split; [now left|exact Hxy]|]. destruct (IH I) as (b&J&K). exists b. split; [now right|exact K]. Qed.
Lemma Forall2_in_r {A B} (P : A -> B -> Prop) l m b : Forall2 P l m -> In b m -> exists a, In a l /\ P a b.
Proof. intros H. induction H as [|x y l m Hxy H IH]; intros I; [destruct I|]; destruct I as [->|I]; [exists x; split; [now left|exact Hxy]|]. destruct (IH I) as (a&J&K). exists a. split; [now right|exact K]. Qed.
Lemma labels_nodup : forall l, labels_differ l = true -> NoDup l.
Proof.
  induction l as [|a l IH]; intros H; constructor; cbn [labels_differ] in H; apply andb_prop in H as [H1 H2]; [|auto].
  intros I. apply negb_true_iff in H1. rewrite <- not_true_iff_false in H1. apply H1. apply existsb_exists. exists a. split; [exact I|apply N.eqb_refl].
Qed.

Lemma facts H prefix file defs k l d e f : compiled H prefix file defs k l d e f ->
  NoDup (map (fun g => member (f_id g)) l) /\ x_members d = map (fun g => member (f_id g)) l /\ NoDup (map x_label (x_cases d)) /\
  Forall2 (case_fact H prefix l) l (x_cases d) /\ Forall2 (step_fact H prefix l) l e /\ Forall2 (drop_fact l) l f.
Proof.
  intros [(C&W&DM&DD&DE&DF) I K]. destruct (write_in prefix file k l defs C W I) as (ms&d0&e0&f0&M&Inc&IS&TD&ID&TE&IE&TF&IF).
  assert (SN : forall st, struct_named C (struct_type prefix k) = Some st -> st = struct_text prefix k l).
  { intros st E. unfold struct_named in E. destruct (filter _ (cd_structs C)) as [|s [|? ?]] eqn:Fl; try discriminate. injection E as <-.
    symmetry. eapply filter_one; [exact Fl|exact IS|]. apply teq_refl. }
  unfold decoder_text, obind2 in TD. destruct (each (case_text prefix) prefix k l l) as [cs|] eqn:EC; [|discriminate]. injection TD as <-.
  unfold encoder_text, obind2 in TE. destruct (each (step_text prefix) prefix k l l) as [ss|] eqn:ES; [|discriminate]. injection TE as <-.
  unfold free_text, obind2 in TF. destruct (each (drop_text prefix) prefix k l l) as [qs|] eqn:EQ; [|discriminate]. injection TF as <-.
  unfold decoder_named in DD. destruct (filter _ (cd_decoders C)) as [|x [|? ?]] eqn:FD; try discriminate.
  rewrite <- (filter_one _ _ _ _ FD ID) in DD by (cbn [dc_name]; apply teq_refl). clear FD x.
  unfold encoder_named in DE. destruct (filter _ (cd_encoders C)) as [|x [|? ?]] eqn:FE; try discriminate.
  rewrite <- (filter_one _ _ _ _ FE IE) in DE by (cbn [ec_name]; apply teq_refl). clear FE x.
  unfold free_named in DF. destruct (filter _ (cd_frees C)) as [|x [|? ?]] eqn:FF; try discriminate.
  rewrite <- (filter_one _ _ _ _ FF IF) in DF by (cbn [fc_name]; apply teq_refl). clear FF x.
  unfold compile_decoder, obind2 in DD. cbn [dc_struct dc_message dc_desc dc_cases dc_list dc_element] in DD.
  destruct (struct_named C (struct_type prefix k)) as [st|] eqn:St; [|discriminate]. pose proof (SN st eq_refl) as Est. subst st. clear SN.
  destruct (described H (message_type prefix k) (message_desc prefix k)) as [t|]; [|discriminate].
  destruct (all_some (compile_case H C (struct_text prefix k l)) cs) as [xs|] eqn:AX; [|discriminate].
  destruct (is_list _ _ _ _); [|discriminate]. destruct (labels_differ (map x_label xs)) eqn:LD; [|discriminate]. injection DD as <-.
  unfold compile_encoder, obind2 in DE. cbn [ec_struct ec_message ec_list ec_element ec_steps] in DE. rewrite St in DE.
  destruct (named_in (message_type prefix k) (h_types H)); [|discriminate]. destruct (is_list _ _ _ _); [|discriminate].
  unfold compile_free, obind2 in DF. cbn [fc_struct fc_drops] in DF. rewrite St in DF.
  apply all_some_all in AX, DE, DF. apply each_all in EC, ES, EQ.
  pose proof (Forall2_comp _ _ _ _ _ EC AX) as PC. pose proof (Forall2_comp _ _ _ _ _ ES DE) as PE. pose proof (Forall2_comp _ _ _ _ _ EQ DF) as PF.
  set (St' := struct_text prefix k l) in *.
  assert (ON : forall g, In g l -> filter (fun x => teq (snd x) (member (f_id g))) (declared St') = [(type_name prefix (f_type g), member (f_id g))]).
  { intros g Ig. destruct (Forall2_in_l _ _ _ _ PC Ig) as (c&_&b&(u&_&->)&E). unfold compile_case, obind2 in E. cbn [k_label k_flag k_type k_desc k_member case_text] in E.
    destruct (named_in _ (h_ids H)); [|discriminate]. destruct (flag_value C St' _); [|discriminate]. destruct (described H _ _); [|discriminate].
    unfold has_member in E. destruct (filter (fun x => teq (snd x) (member (f_id g))) (declared St')) as [|[t1 n1] [|? ?]] eqn:Fl; try discriminate.
    f_equal. symmetry. eapply filter_one; [exact Fl| |apply teq_refl]. unfold declared. apply in_or_app. right. unfold St', struct_text. cbn [sc_members].
    apply (in_map (fun ie => (type_name prefix (f_type ie), member (f_id ie)))), Ig. }
  assert (ND : NoDup (map (fun g => member (f_id g)) l)).
  { pose proof (once_nodup (sc_members St') (if sc_mask St' then [(codes "uint16_t", codes "presenceMask")] else [])) as Q. fold (declared St') in Q.
    change (map (fun g => member (f_id g)) l) with (map (fun g => snd (type_name prefix (f_type g), member (f_id g))) l).
    rewrite <- (map_map (fun ie => (type_name prefix (f_type ie), member (f_id ie))) snd). apply Q. intros x Ix.
    unfold St', struct_text in Ix. cbn [sc_members] in Ix. apply in_map_iff in Ix as (g&<-&Ig). cbn [snd]. eexists. apply ON, Ig. }
  assert (NI : NoDup (map f_id l)).
  { rewrite <- (map_map f_id member) in ND. eapply NoDup_map_inv, ND. }
  assert (FV : forall g u z, In g l -> unique_name l g = Some u -> flag_value C St' (if not_mandatory g then Some (flag_macro prefix k u) else None) = Some z ->
            z = if not_mandatory g then Some (2 ^ bit_of l g)%N else None).
  { intros g u z Ig U E. destruct (not_mandatory g) eqn:N; cbn [flag_value] in E; [|injection E as <-; reflexivity]. unfold obind2 in E.
    destruct (macros_in prefix k l l 0 ms g M K NI Ig (proj1 (not_mandatory_iff g) N)) as (u'&U'&J). rewrite U in U'. injection U' as <-.
    rewrite (macro_value_in _ _ _ DM (Inc _ J)) in E. destruct (filter _ (declared St')) as [|[ty' ?] [|? ?]]; try discriminate. destruct (teq ty' _); [|discriminate].
    injection E as <-. reflexivity. }
  assert (MD : forall g, In g l -> member_desc H St' (member (f_id g)) (desc_name prefix (f_type g)) = described H (type_name prefix (f_type g)) (desc_name prefix (f_type g))).
  { intros g Ig. unfold member_desc. rewrite ON by exact Ig. reflexivity. }
  split; [exact ND|]. split; [unfold St', struct_text; cbn [x_members sc_members]; rewrite map_map; reflexivity|]. split; [apply labels_nodup, LD|].
  cbn [x_cases]. split; [|split].
  - eapply Forall2_impl_in; [|exact PC]. intros g c Ig _ (b&(u&U&->)&E). unfold compile_case, obind2 in E. cbn [k_label k_flag k_type k_desc k_member case_text] in E.
    destruct (named_in _ (h_ids H)) as [n|] eqn:E1; [|discriminate]. destruct (flag_value C St' _) as [fl|] eqn:E2; [|discriminate]. destruct (described H _ _) as [t'|] eqn:E3; [|discriminate].
    destruct (has_member _ _ _); [|discriminate]. injection E as <-. unfold case_fact. cbn [x_label x_or x_desc x_member]. repeat split; auto. eapply FV; eauto.
  - eapply Forall2_impl_in; [|exact PE]. intros g pp Ig _ (b&(u&U&->)&E). unfold compile_step, obind2 in E. cbn [p_flag p_id p_crit p_desc p_member step_text] in E.
    destruct (flag_value C St' _) as [fl|] eqn:E2; [|discriminate]. destruct (named_in _ (h_ids H)) as [n|] eqn:E1; [|discriminate]. destruct (named_in _ (h_crits H)) as [cr|] eqn:E4; [|discriminate].
    rewrite MD in E by exact Ig. destruct (described H _ _) as [t'|] eqn:E3; [|discriminate]. injection E as <-. unfold step_fact, means. cbn [y_flag y_id y_crit y_desc y_member]. repeat split; auto. eapply FV; eauto.
  - eapply Forall2_impl_in; [|exact PF]. intros g q Ig _ (b&(u&U&->)&E). unfold compile_drop, obind2 in E. cbn [q_flag q_desc q_member drop_text] in E.
    destruct (flag_value C St' _) as [fl|] eqn:E2; [|discriminate]. destruct (member_desc _ _ _ _) as [t'|]; [|discriminate]. injection E as <-.
    unfold drop_fact. cbn [z_member z_flag]. split; [reflexivity|]. eapply FV; eauto.
Qed.

(* ---------------- objects ---------------- *)
Lemma store_names o n v : map fst (o_members (store o n v)) = map fst (o_members o).
Proof. unfold store. cbn [o_members]. rewrite map_map. apply map_ext. intros [a b]. cbn [fst]. destruct (teq a n); reflexivity. Qed.
Lemma load_other o n v x : x <> n -> load (store o n v) x = load o x.
Proof.
  intros N. unfold load, store. cbn [o_members]. induction (o_members o) as [|[a b] ms IH]; [reflexivity|]. cbn [map named_in fst].
  destruct (teq a n) eqn:E; cbn [named_in fst]; [|destruct (teq a x); [reflexivity|exact IH]]. apply teq_eq in E as ->. rewrite (proj2 (teq_no n x)) by congruence. exact IH.
Qed.
Lemma load_same o n v : In n (map fst (o_members o)) -> load (store o n v) n = v.
Proof.
  unfold load, store. cbn [o_members]. induction (o_members o) as [|[a b] ms IH]; [intros []|]. cbn [map named_in fst In]. intros I.
  destruct (teq a n) eqn:E; cbn [named_in fst]; rewrite E; [reflexivity|]. apply IH. destruct I as [->|I]; [rewrite teq_refl in E; discriminate|exact I].
Qed.
Lemma or_names o f : o_members (or_mask o f) = o_members o.
Proof. destruct f; reflexivity. Qed.
Lemma load_or o f x : load (or_mask o f) x = load o x.
Proof. destruct f; reflexivity. Qed.
Lemma ones16 k : (k < 16)%N -> N.testbit 65535 k = true.
Proof. intros H. change 65535%N with (N.ones 16). now apply N.ones_spec_low. Qed.
Lemma or_bits o b k : (k < 16)%N -> N.testbit (o_mask (or_mask o (Some (2 ^ b)%N))) k = N.testbit (o_mask o) k || (k =? b)%N.
Proof. intros H. cbn [or_mask o_mask]. rewrite N.land_spec, N.lor_spec, ones16, andb_true_r, N.pow2_bits_eqb by exact H. f_equal. apply N.eqb_sym. Qed.
Lemma test_bit o b : test_mask o (Some (2 ^ b)%N) = N.testbit (o_mask o) b.
Proof.
  cbn [test_mask]. destruct (N.testbit (o_mask o) b) eqn:E.
  - apply N.eqb_eq. apply N.bits_inj. intros i. rewrite N.land_spec, N.pow2_bits_eqb. destruct (N.eqb_spec b i) as [<-|N]; [now rewrite E|apply andb_false_r].
  - apply N.eqb_neq. intros F. apply (f_equal (fun x => N.testbit x b)) in F. rewrite N.land_spec, N.pow2_bits_true, E in F. discriminate.
Qed.
Lemma there_l l o f : test_mask o (if not_mandatory f then Some (2 ^ bit_of l f)%N else None) = there l o f.
Proof.
  unfold there, not_mandatory. change (codes "mandatory") with (chars "mandatory"). destruct (list_eq_dec N.eq_dec (f_pres f) (chars "mandatory")) as [->|N].
  - rewrite teq_refl. reflexivity.
  - rewrite (proj2 (teq_no _ _) N). apply test_bit.
Qed.
Lemma select_in cs : NoDup (map x_label cs) -> forall c, In c cs -> select (x_label c) cs = Some c.
Proof.
  unfold select. induction cs as [|x cs IH]; intros D c I; [destruct I|]. cbn [List.find]. cbn [map] in D. inversion D as [|? ? Hx D']; subst.
  destruct I as [->|I]; [now rewrite N.eqb_refl|]. destruct (N.eqb_spec (x_label x) (x_label c)) as [E|_]; [|auto]. exfalso. apply Hx. rewrite E. now apply in_map.
Qed.
Lemma select_none n cs : (forall c, In c cs -> x_label c <> n) -> select n cs = None.
Proof.
  unfold select. induction cs as [|x cs IH]; intros H; [reflexivity|]. cbn [List.find]. destruct (N.eqb_spec (x_label x) n) as [E|_]; [exfalso; now apply (H x (or_introl eq_refl))|].
  apply IH. intros c I. apply H. now right.
Qed.
Lemma element_parts n c o : ie_parts (element n c o) = Some (n, o).
Proof. unfold element, ie_parts. now rewrite N2Z.id. Qed.

(* ---------------- the decoder ---------------- *)
Section Any.
Context (H : headers) (prefix file : list N) (defs : list (list N * list found)) (k : list N) (l : list found)
  (d : decoder_x) (e : list step_x) (fr : list drop_x).
Hypothesis CO : compiled H prefix file defs k l d e fr.

Lemma any_decoded : forall f n c t octets v, In f l -> means H prefix f n c t -> decode t octets = Some v ->
  forall c' o lost rest, of_message l o ->
  exists o', run_cases (x_cases d) o lost (element n c' octets :: rest) =
    run_cases (x_cases d) o' (match load o (member (f_id f)) with Some w => lost ++ [w] | None => lost end) rest /\
  of_message l o' /\ load o' (member (f_id f)) = Some v /\ (forall x, x <> member (f_id f) -> load o' x = load o x) /\
  forall b, (b < 16)%N -> N.testbit (o_mask o') b = true <-> N.testbit (o_mask o) b = true \/ optional f /\ b = bit_of l f.
Proof.
  destruct (facts _ _ _ _ _ _ _ _ _ CO) as (ND&XM&NL&FC&_&_).
  intros f n c t octets v I (M1&M2&M3) D c' o lost rest O. destruct (Forall2_in_l _ _ _ _ FC I) as (x&Ix&L&T&Mb&Or).
  rewrite M1 in L. injection L as L. rewrite M3 in T. injection T as T.
  cbn [run_cases]. rewrite element_parts, L, (select_in _ NL _ Ix), <- T, D, Mb, load_or.
  exists (store (or_mask o (x_or x)) (member (f_id f)) (Some v)). split; [reflexivity|].
  assert (In (member (f_id f)) (map fst (o_members (or_mask o (x_or x))))).
  { rewrite or_names, O. apply (in_map (fun g => member (f_id g))), I. }
  split; [unfold of_message; rewrite store_names, or_names; exact O|]. split; [now apply load_same|].
  split; [intros y N; now rewrite load_other, load_or|]. intros b B. change (o_mask (store (or_mask o (x_or x)) (member (f_id f)) (Some v))) with (o_mask (or_mask o (x_or x))).
  rewrite Or. destruct (not_mandatory f) eqn:N.
  - rewrite or_bits, orb_true_iff, N.eqb_eq by exact B. apply not_mandatory_iff in N. tauto.
  - cbn [or_mask]. split; [auto|]. intros [K|[K _]]; [exact K|]. apply not_mandatory_iff in K. congruence.
Qed.
Lemma any_undecodable : forall f n c t octets, In f l -> means H prefix f n c t -> decode t octets = None ->
  forall c' o lost rest, fst (fst (run_cases (x_cases d) o lost (element n c' octets :: rest))) = false.
Proof.
  destruct (facts _ _ _ _ _ _ _ _ _ CO) as (ND&XM&NL&FC&_&_).
  intros f n c t octets I (M1&M2&M3) D c' o lost rest. destruct (Forall2_in_l _ _ _ _ FC I) as (x&Ix&L&T&Mb&Or).
  rewrite M1 in L. injection L as L. rewrite M3 in T. injection T as T.
  cbn [run_cases]. rewrite element_parts, L, (select_in _ NL _ Ix), <- T, D. reflexivity.
Qed.
Lemma any_unknown : forall n, (forall f, In f l -> named_in (id_constant prefix (f_id f)) (h_ids H) <> Some n) ->
  forall c' octets o lost rest, fst (fst (run_cases (x_cases d) o lost (element n c' octets :: rest))) = false.
Proof.
  destruct (facts _ _ _ _ _ _ _ _ _ CO) as (ND&XM&NL&FC&_&_).
  intros n Hn c' octets o lost rest. cbn [run_cases]. rewrite element_parts, select_none; [reflexivity|].
  intros c I E. destruct (Forall2_in_r _ _ _ _ FC I) as (f&If&L&_). apply (Hn f If). now rewrite <- E.
Qed.
(* every IE has a meaning, and no two the same number *)
Lemma any_means : (forall f, In f l -> exists n c t, means H prefix f n c t) /\
  forall f g n c t c' t', In f l -> In g l -> means H prefix f n c t -> means H prefix g n c' t' -> f = g.
Proof.
  destruct (facts _ _ _ _ _ _ _ _ _ CO) as (ND&XM&NL&FC&FS&_). split.
  - intros f I. destruct (Forall2_in_l _ _ _ _ FS I) as (p&_&M&_). eauto.
  - intros f g n c t c' t' If Ig (A1&_) (B1&_). clear FS XM ND. revert If Ig NL. induction FC as [|x y l' cs Hxy FC' IH]; [intros []|].
    intros If Ig NL. cbn [map] in NL. inversion NL as [|? ? Hn NL']; subst.
    destruct Hxy as (L&_). destruct If as [->|If], Ig as [->|Ig]; auto.
    + exfalso. apply Hn. destruct (Forall2_in_l _ _ _ _ FC' Ig) as (z&Iz&Lz&_). rewrite A1 in L. rewrite B1 in Lz. injection L as <-. injection Lz as ->. now apply in_map.
    + exfalso. apply Hn. destruct (Forall2_in_l _ _ _ _ FC' If) as (z&Iz&Lz&_). rewrite B1 in L. rewrite A1 in Lz. injection L as <-. injection Lz as ->. now apply in_map.
Qed.
Lemma any_members : NoDup (map (fun f => member (f_id f)) l) /\ forall octets o, snd (fst (run_decoder d octets)) = o -> of_message l o.
Proof.
  destruct (facts _ _ _ _ _ _ _ _ _ CO) as (ND&XM&NL&FC&_&_). split; [exact ND|]. intros octets o <-.
  assert (Z : of_message l (mkObject 0 (map (fun n => (n, None)) (x_members d)))).
  { unfold of_message. cbn [o_members]. rewrite map_map. cbn [fst]. rewrite map_id. exact XM. }
  assert (R : forall es o lost, of_message l o -> of_message l (snd (fst (run_cases (x_cases d) o lost es)))).
  { induction es as [|ie es IH]; intros o lost O; cbn [run_cases]; [exact O|]. destruct (ie_parts ie) as [[n oc]|]; [|exact O].
    destruct (select n (x_cases d)) as [c|]; [|exact O]. destruct (decode (x_desc c) oc) as [v|]; [|cbn [fst snd]; unfold of_message; rewrite or_names; exact O].
    apply IH. unfold of_message. rewrite store_names, or_names. exact O. }
  unfold run_decoder. destruct (decode (x_message d) octets) as [[ | | | | | |[|[[ | | | | | | |es| ]|] [|? ?]] ad| | ]|]; try exact Z. apply R, Z.
Qed.

(* ---------------- the encoder ---------------- *)
Lemma any_encoder : forall o b, run_encoder e o = Some b <->
  exists els, b = VSeq [Some (VList els)] [] /\
  Forall2 (fun f v => exists n c t w octets, means H prefix f n c t /\ load o (member (f_id f)) = Some w /\ encode t w = Some octets /\ v = element n c octets)
    (filter (there l o) l) els.
Proof.
  destruct (facts _ _ _ _ _ _ _ _ _ CO) as (_&_&_&_&FS&_). intros o.
  assert (R : forall l' e', Forall2 (step_fact H prefix l) l' e' -> forall els, run_steps e' o = Some els <->
    Forall2 (fun f v => exists n c t w octets, means H prefix f n c t /\ load o (member (f_id f)) = Some w /\ encode t w = Some octets /\ v = element n c octets)
      (filter (there l o) l') els).
  { intros l' e' F. induction F as [|f p l' e' Hfp F IH]; intros els; cbn [run_steps filter].
    - split; [intros E; injection E as <-; constructor|intros E; inversion E; reflexivity].
    - destruct Hfp as (M&Mb&Fl). rewrite Fl, there_l, Mb. destruct (there l o f); [|apply IH].
      split.
      + destruct (load o (member (f_id f))) as [w|] eqn:Lw; [|discriminate]. destruct (encode (y_desc p) w) as [oc|] eqn:Ew; [|discriminate].
        unfold obind2. destruct (run_steps e' o) as [rest|] eqn:Er; [|discriminate]. intros E. injection E as <-. constructor; [|now apply IH].
        exists (y_id p), (y_crit p), (y_desc p), w, oc. repeat split; auto; apply M.
      + intros E. inversion E as [|? ? ? ? (n&c&t&w&oc&M'&Lw&Ew&->) E']; subst. rewrite Lw.
        destruct M as (A1&A2&A3), M' as (B1&B2&B3). rewrite A1 in B1. rewrite A2 in B2. rewrite A3 in B3. injection B1 as <-. injection B2 as <-. injection B3 as <-.
        rewrite Ew. apply IH in E'. rewrite E'. reflexivity. }
  intros b. unfold run_encoder, obind2. specialize (R l e FS). split.
  - destruct (run_steps e o) as [els|] eqn:E; [|discriminate]. intros K. injection K as <-. exists els. split; [reflexivity|]. apply (proj1 (R els)). reflexivity.
  - intros (els&->&F). apply (proj2 (R els)) in F. rewrite F. reflexivity.
Qed.

(* ---------------- release ---------------- *)
Lemma place_lt f : forall x, In f x -> (place x (f_id f) < N.of_nat (List.length x))%N.
Proof.
  induction x as [|g x IH]; intros I; [destruct I|]. cbn [place List.length]. destruct (list_eq_dec N.eq_dec (f_id g) (f_id f)) as [E|E]; [lia|].
  destruct I as [->|I]; [congruence|]. specialize (IH I). lia.
Qed.
Definition flagged (o : object) : Prop := of_message l o /\ forall f, In f l -> load o (member (f_id f)) <> None -> there l o f = true.
Lemma run_flagged : (List.length (optionals l) <= 16)%nat -> forall es o lost, flagged o -> flagged (snd (fst (run_cases (x_cases d) o lost es))).
Proof.
  destruct (facts _ _ _ _ _ _ _ _ _ CO) as (ND&XM&NL&FC&_&_). intros L16.
  assert (G : forall o c f, In f l -> case_fact H prefix l f c -> flagged o -> flagged (or_mask o (x_or c)) /\ there l (or_mask o (x_or c)) f = true).
  { intros o c f If (_&_&_&Or) (O1&O2).
    assert (B : forall g, In g l -> there l o g = true \/ g = f -> there l (or_mask o (x_or c)) g = true).
    { intros g Ig K. unfold there in *. destruct (list_eq_dec N.eq_dec (f_pres g) (chars "mandatory")) as [E|E]; [reflexivity|].
      assert (B16 : (bit_of l g < 16)%N). { pose proof (place_lt g (optionals l) (proj2 (optionals_in l g) (conj Ig E))). unfold bit_of. lia. }
      rewrite Or. destruct (not_mandatory f) eqn:N.
      - rewrite or_bits by exact B16. destruct K as [->| ->]; [reflexivity|]. rewrite N.eqb_refl. apply orb_true_r.
      - cbn [or_mask]. destruct K as [K|K]; [exact K|]. subst g. apply not_mandatory_iff in E. congruence. }
    split; [|apply B; auto]. split; [unfold of_message; rewrite or_names; exact O1|]. intros g Ig K. rewrite load_or in K. apply B; auto. }
  induction es as [|ie es IH]; intros o lost O; cbn [run_cases]; [exact O|]. destruct (ie_parts ie) as [[n oc]|]; [|exact O].
  destruct (select n (x_cases d)) as [c|] eqn:Sc; [|exact O]. unfold select in Sc. apply find_some in Sc as [Ic _].
  destruct (Forall2_in_r _ _ _ _ FC Ic) as (f&If&Cf). destruct (G o c f If Cf O) as [G1 G2].
  destruct (decode (x_desc c) oc) as [v|]; [|exact G1]. apply IH. destruct G1 as [G1 G3]. split; [unfold of_message; rewrite store_names; exact G1|].
  intros g Ig K. change (there l (store (or_mask o (x_or c)) (x_member c) (Some v)) g) with (there l (or_mask o (x_or c)) g).
  destruct Cf as (_&_&Mb&_). rewrite Mb in K. destruct (list_eq_dec N.eq_dec (member (f_id g)) (member (f_id f))) as [E|E].
  - assert (g = f); [|subst g; exact G2]. clear -ND If Ig E. induction l as [|x l' IHl]; [destruct If|]. cbn [map] in ND. inversion ND as [|? ? Hx ND']; subst.
    destruct If as [->|If], Ig as [->|Ig]; auto; exfalso; apply Hx; [rewrite <- E|rewrite E]; now apply (in_map (fun g => member (f_id g))).
  - rewrite load_other in K by exact E. now apply G3.
Qed.
Lemma any_released : (List.length (optionals l) <= 16)%nat -> forall octets, run_free fr (snd (fst (run_decoder d octets))) = held (snd (fst (run_decoder d octets))).
Proof.
  destruct (facts _ _ _ _ _ _ _ _ _ CO) as (ND&XM&NL&FC&_&FD). intros L16 octets.
  assert (Fl : flagged (snd (fst (run_decoder d octets)))).
  { assert (Z : flagged (mkObject 0 (map (fun n => (n, None)) (x_members d)))).
    { split; [unfold of_message; cbn [o_members]; rewrite map_map; cbn [fst]; rewrite map_id; exact XM|]. intros f _ K. exfalso. apply K. unfold load. cbn [o_members].
      clear. induction (x_members d) as [|x xs IH]; [reflexivity|]. cbn [map named_in]. destruct (teq x _); [reflexivity|]. exact IH. }
    unfold run_decoder. destruct (decode (x_message d) octets) as [[ | | | | | |[|[[ | | | | | | |es| ]|] [|? ?]] ad| | ]|]; try exact Z. now apply run_flagged. }
  revert Fl. generalize (snd (fst (run_decoder d octets))). intros o [O1 O2]. unfold run_free, held.
  assert (E1 : flat_map (fun q => if test_mask o (z_flag q) then match load o (z_member q) with Some v => [v] | None => [] end else []) fr =
               flat_map (fun n => match load o n with Some v => [v] | None => [] end) (map (fun f => member (f_id f)) l)).
  { assert (O3 : forall f, In f l -> load o (member (f_id f)) <> None -> there l o f = true) by exact O2. clear O2 O1 ND XM NL FC.
    assert (X : forall l' fr', Forall2 (drop_fact l) l' fr' -> (forall f, In f l' -> load o (member (f_id f)) <> None -> there l o f = true) ->
      flat_map (fun q => if test_mask o (z_flag q) then match load o (z_member q) with Some v => [v] | None => [] end else []) fr' =
      flat_map (fun n => match load o n with Some v => [v] | None => [] end) (map (fun f => member (f_id f)) l')); [|now apply X].
    intros l' fr' F. induction F as [|f q l' fr' (Mb&Fl) F IH]; intros K; [reflexivity|]. cbn [flat_map map]. rewrite IH by (intros g Ig; apply K; now right). f_equal.
    rewrite Fl, there_l, Mb. specialize (K f (or_introl eq_refl)). destruct (load o (member (f_id f))) as [v|]; [rewrite K by discriminate; reflexivity|destruct (there l o f); reflexivity]. }
  rewrite E1. rewrite <- O1 in *. clear E1. unfold load. 
  assert (X : forall ms pre : list (text * option val), NoDup (map fst (pre ++ ms)) -> flat_map (fun n => match match named_in n (pre ++ ms) with Some v => v | None => None end with Some v => [v] | None => [] end) (map fst ms) =
    flat_map (fun x => match snd x with Some v => [v] | None => [] end) ms).
  { induction ms as [|[a b] ms IH]; intros pre D; [reflexivity|]. cbn [map flat_map fst snd]. rewrite map_app in D. cbn [map fst] in D.
    assert (E : named_in a (pre ++ (a, b) :: ms) = Some b).
    { apply NoDup_remove_2 in D. assert (Q : ~ In a (map fst pre)) by (intros Q; apply D, in_or_app; now left). clear -Q.
      induction pre as [|[x y] pre IH]; cbn [app named_in]; [now rewrite teq_refl|]. cbn [map fst In] in Q. rewrite (proj2 (teq_no x a)) by tauto. apply IH. tauto. }
    rewrite E. f_equal. specialize (IH (pre ++ [(a, b)])). rewrite <- app_assoc in IH. cbn [app] in IH. apply IH. rewrite map_app. exact D. }
  apply (X (o_members o) []). cbn [app]. exact ND.
Qed.
End Any.

(* ---------------- seventeen optional IEs ---------------- *)
Definition letters : list string := ["A"; "B"; "C"; "D"; "E"; "F"; "G"; "H"; "I"; "J"; "K"; "L"; "M"; "N"; "O"; "P"; "Q"]%string.
Definition many_lines : list string :=
  ["MessageIEs X-PROTOCOL-IES ::= {"%string] ++
  map (fun x => ("	{ ID id-" ++ x ++ " CRITICALITY reject TYPE T PRESENCE optional } |")%string) letters ++ ["	..."; "}"; "END"]%string.
Definition many_headers : headers :=
  mkHeaders [(chars "Message_t", (chars "asn_DEF_Message", RuaTypes.T_RUA_Connect)); (chars "T_t", (chars "asn_DEF_T", TBool))]
    [(chars "Message_t", chars "message_ies", chars "IE_t")]
    (combine (map (fun x => chars ("ProtocolIE_ID_id_" ++ x)) letters) (map N.of_nat (seq 0 17))) [(chars "Criticality_reject", 0%Z)].
Definition many_octets (n : N) : option (list N) := opt x <- encode TBool (VBool true) ;; encode RuaTypes.T_RUA_Connect (VSeq [Some (VList [element n 0 x])] []).
Definition many_lost (n : N) : bool :=
  match script [] [file_lines many_lines], many_octets n with
  | Some C, Some octets =>
      match decoder_named many_headers C (chars "x_decode_messageies"), encoder_named many_headers C (chars "x_encode_messageies"), free_named many_headers C (chars "x_free_messageies") with
      | Some d, Some e, Some f =>
          let '(ok, o, lost) := run_decoder d octets in
          ok && match load o (chars "q") with Some (VBool true) => true | _ => false end &&
          match run_free f o with [] => true | _ => false end && match run_encoder e o with Some (VSeq [Some (VList [])] []) => true | _ => false end
      | _, _, _ => false
      end
  | _, _ => false
  end.
Lemma many_l : exists H prefix lines C d e f octets ok o lost x v, script prefix [file_lines lines] = Some C /\ NoDup (map fst (cd_macros C)) /\
  decoder_named H C (chars "x_decode_messageies") = Some d /\ encoder_named H C (chars "x_encode_messageies") = Some e /\ free_named H C (chars "x_free_messageies") = Some f /\
  run_decoder d octets = (ok, o, lost) /\ ok = true /\ load o x = Some v /\ run_free f o = [] /\ run_encoder e o = Some (VSeq [Some (VList [])] []).
Proof.
  exists many_headers, [], many_lines. destruct (script [] [file_lines many_lines]) as [C|] eqn:E; [|vm_compute in E; discriminate].
  exists C. vm_compute in E. injection E as <-.
  do 3 eexists. exists [0; 0; 1; 0; 16; 0; 1; 128]%N. do 3 eexists. exists (chars "q"). eexists.
  split; [reflexivity|]. split; [apply Naming_proofs.nodup_l; vm_compute; reflexivity|].
  do 3 (split; [vm_compute; reflexivity|]). split; [vm_compute; reflexivity|]. repeat split; vm_compute; reflexivity.
Qed.

(* an example for any file: two IEs *)
Definition two_lines : list string :=
  ["MessageIEs X-PROTOCOL-IES ::= {"; "	{ ID id-First CRITICALITY reject TYPE T PRESENCE mandatory } |";
   "	{ ID id-Second CRITICALITY ignore TYPE U-V PRESENCE conditional },"; "	..."; "}"; "END"]%string.
Definition two_headers : headers :=
  mkHeaders [(chars "P_Message_t", (chars "asn_DEF_P_Message", RuaTypes.T_RUA_Connect)); (chars "P_T_t", (chars "asn_DEF_P_T", TBool));
             (chars "P_U_V_t", (chars "asn_DEF_P_U_V", TBool))]
    [(chars "P_Message_t", chars "message_ies", chars "P_IE_t")]
    [(chars "P_ProtocolIE_ID_id_First", 7%N); (chars "P_ProtocolIE_ID_id_Second", 9%N)] [(chars "P_Criticality_reject", 0%Z); (chars "P_Criticality_ignore", 1%Z)].
Definition two_defs : list (list N * list found) :=
  [(chars "MessageIEs", [mkFound (chars "id-First") (chars "reject") (chars "T") (chars "mandatory"); mkFound (chars "id-Second") (chars "ignore") (chars "U-V") (chars "conditional")])].
Lemma two_l : exists l d e f, option_map t_defs (generate_tables [file_lines two_lines]) = Some two_defs /\
  compiled two_headers (chars "P_") (chars "x") two_defs (chars "MessageIEs") l d e f /\ List.length l = 2%nat /\ (List.length (optionals l) <= 16)%nat.
Proof.
  do 4 eexists. split; [vm_compute; reflexivity|]. split; [|split; [|]].
  - constructor; [eexists; split; [vm_compute; reflexivity|]|left; reflexivity|].
    + split; [vm_compute; constructor; [intros []|constructor]|]. repeat split; vm_compute; reflexivity.
    + constructor; [left; reflexivity|]. constructor; [right; right; left; reflexivity|constructor].
  - reflexivity.
  - vm_compute. lia.
Qed.
