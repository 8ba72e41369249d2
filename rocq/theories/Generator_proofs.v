(* Proofs about Generator.v *)
From Verif Require Import Base Regex Generator Generator_spec.
From Coq Require Import String Ascii Lia ZifyBool ZifyN ZifyNat.
Local Open Scope nat_scope.
Local Open Scope list_scope.

Lemma codes_chars s : codes s = chars s.
Proof. induction s as [|c s IH]; [reflexivity|]. cbn [codes chars]. now rewrite IH. Qed.

(* ---------------- the matcher ---------------- *)
Inductive reads : list item -> text -> list text -> text -> Prop :=
| reads_nil t : reads [] t [] t
| reads_one f p c t gs r : f c = true -> reads p t gs r -> reads (One f :: p) (c :: t) gs r
| reads_rep f min g p a b gs r : forallb f a = true -> min <= List.length a -> reads p b gs r ->
    reads (Rep f min g :: p) (a ++ b) (if g then a :: gs else gs) r.

Definition go (f : N -> bool) (g : bool) (p' : list item) := fix go (t taken : text) (min : nat) : option (list text * text) :=
  match (match t with c :: r => if f c then go r (c :: taken) (pred min) else None | [] => None end) with
  | Some x => Some x
  | None =>
      match min with
      | O => match matches p' t with
             | Some (gs, r) => Some (if g then rev taken :: gs else gs, r)
             | None => None
             end
      | S _ => None
      end
  end.
Lemma matches_rep f min g p t : matches (Rep f min g :: p) t = go f g p t [] min.
Proof. reflexivity. Qed.
Lemma go_nil f g p taken min : go f g p [] taken min =
  match min with O => match matches p [] with Some (gs, r) => Some (if g then rev taken :: gs else gs, r) | None => None end | S _ => None end.
Proof. reflexivity. Qed.
Lemma go_cons f g p c t taken min : go f g p (c :: t) taken min =
  match (if f c then go f g p t (c :: taken) (pred min) else None) with
  | Some x => Some x
  | None => match min with O => match matches p (c :: t) with Some (gs, r) => Some (if g then rev taken :: gs else gs, r) | None => None end | S _ => None end
  end.
Proof. reflexivity. Qed.
Lemma matches_one f p c t : matches (One f :: p) (c :: t) = if f c then matches p t else None.
Proof. reflexivity. Qed.

Lemma go_sound f g p (IH : forall t gs r, matches p t = Some (gs, r) -> reads p t gs r) :
  forall t taken min gs r, go f g p t taken min = Some (gs, r) ->
  exists a b gs', t = a ++ b /\ forallb f a = true /\ min <= List.length a /\ reads p b gs' r /\
    gs = (if g then (rev taken ++ a) :: gs' else gs').
Proof.
  induction t as [|c t IHt]; intros taken min gs r H; [rewrite go_nil in H|rewrite go_cons in H].
  - destruct min; [|discriminate]. destruct (matches p []) as [[gs' r']|] eqn:E; [|discriminate]. injection H as <- <-.
    exists [], [], gs'. repeat split; try reflexivity; [apply IH, E|]. rewrite app_nil_r. reflexivity.
  - destruct (if f c then go f g p t (c :: taken) (pred min) else None) as [[gs' r']|] eqn:E.
    + injection H as <- <-. destruct (f c) eqn:Fc; [|discriminate]. apply IHt in E as (a&b&gs''&->&Ha&Hm&Hr&Hg).
      exists (c :: a), b, gs''. cbn [rev] in Hg. rewrite <- app_assoc in Hg. cbn [app] in Hg. repeat split; try assumption.
      * cbn [forallb]. now rewrite Fc.
      * cbn [List.length]. lia.
    + destruct min; [|discriminate]. destruct (matches p (c :: t)) as [[gs' r']|] eqn:E2; [|discriminate]. injection H as <- <-.
      exists [], (c :: t), gs'. repeat split; try reflexivity; [apply IH, E2|]. rewrite app_nil_r. reflexivity.
Qed.
Lemma matches_sound : forall p t gs r, matches p t = Some (gs, r) -> reads p t gs r.
Proof.
  induction p as [|[f|f min g] p IH]; intros t gs r H.
  - injection H as <- <-. constructor.
  - destruct t as [|c t]; [discriminate|]. rewrite matches_one in H. destruct (f c) eqn:E; [|discriminate]. constructor; auto.
  - rewrite matches_rep in H. apply (go_sound f g p IH) in H as (a&b&gs'&->&Ha&Hm&Hr&->). cbn [rev app]. constructor; assumption.
Qed.
Lemma matches_none p t : (forall gs r, ~ reads p t gs r) -> matches p t = None.
Proof. intros H. destruct (matches p t) as [[gs r]|] eqn:E; [|reflexivity]. destruct (H gs r). apply matches_sound, E. Qed.

(* the longest run that lets the remainder match *)
Lemma go_greedy f g p b gs r : matches p b = Some (gs, r) ->
  (forall b1 b2, b = b1 ++ b2 -> b1 <> [] -> forallb f b1 = true -> matches p b2 = None) ->
  forall a taken min, forallb f a = true -> min <= List.length a ->
  go f g p (a ++ b) taken min = Some (if g then (rev taken ++ a) :: gs else gs, r).
Proof.
  intros Hb Hno. 
  assert (Hnone : forall b' b0, b = b0 ++ b' -> forallb f b0 = true -> b0 <> [] -> forall taken min, go f g p b' taken min = None).
  { induction b' as [|c b' IH]; intros b0 E F N taken min; [rewrite go_nil|rewrite go_cons].
    - destruct min; [|reflexivity]. now rewrite (Hno b0 [] E N F).
    - destruct (f c) eqn:Fc.
      + rewrite (IH (b0 ++ [c])); [|now rewrite E, <- app_assoc|rewrite forallb_app, F; cbn; now rewrite Fc|destruct b0; discriminate].
        destruct min; [|reflexivity]. now rewrite (Hno b0 (c :: b') E N F).
      + destruct min; [|reflexivity]. now rewrite (Hno b0 (c :: b') E N F). }
  induction a as [|c a IH]; intros taken min Ha Hm.
  - cbn [List.length] in Hm. replace min with 0 by lia. rewrite app_nil_r. cbn [app]. destruct b as [|c b]; [rewrite go_nil|rewrite go_cons].
    + rewrite Hb. reflexivity.
    + destruct (f c) eqn:Fc.
      * rewrite (Hnone b [c] eq_refl); [|cbn; now rewrite Fc|discriminate]. rewrite Hb. reflexivity.
      * rewrite Hb. reflexivity.
  - cbn [forallb] in Ha. apply andb_prop in Ha as [Fc Fa]. cbn [app]. rewrite go_cons, Fc. rewrite IH; [|exact Fa|cbn [List.length] in Hm; lia].
    cbn [rev]. rewrite <- app_assoc. reflexivity.
Qed.
Lemma rep_greedy f min g p a b gs r : forallb f a = true -> min <= List.length a -> matches p b = Some (gs, r) ->
  (forall b1 b2, b = b1 ++ b2 -> b1 <> [] -> forallb f b1 = true -> matches p b2 = None) ->
  matches (Rep f min g :: p) (a ++ b) = Some (if g then a :: gs else gs, r).
Proof. intros Ha Hm Hb Hno. rewrite matches_rep. rewrite (go_greedy f g p b gs r Hb Hno a [] min Ha Hm). reflexivity. Qed.
(* the run ends because the next character is another one *)
Definition stops (f : N -> bool) (b : text) : bool := match b with [] => true | c :: _ => negb (f c) end.
Lemma rep_stop f min g p a b gs r : forallb f a = true -> min <= List.length a -> stops f b = true ->
  matches p b = Some (gs, r) -> matches (Rep f min g :: p) (a ++ b) = Some (if g then a :: gs else gs, r).
Proof.
  intros Ha Hm Hs Hb. apply rep_greedy; try assumption. intros b1 b2 -> N F. exfalso. destruct b1 as [|c b1]; [now apply N|].
  cbn in F, Hs. destruct (f c); discriminate.
Qed.
Lemma lit_codes s p t : matches (lit s ++ p) (codes s ++ t) = matches p t.
Proof.
  induction s as [|c s IH]; [reflexivity|]. unfold lit. cbn [codes map app]. rewrite matches_one, N.eqb_refl. exact IH.
Qed.
Lemma reads_lit s p t gs r : reads (lit s ++ p) t gs r -> exists t', t = codes s ++ t' /\ reads p t' gs r.
Proof.
  revert t. induction s as [|c s IH]; intros t H; [exists t; auto|]. unfold lit in H. cbn [codes map app] in H.
  inversion H as [|f p' c' t' gs' r' E H'| ]; subst. apply N.eqb_eq in E as <-. apply IH in H' as (t''&->&H'). exists t''. split; [reflexivity|exact H'].
Qed.
Lemma reads_rep_inv f min g p t gs r : reads (Rep f min g :: p) t gs r ->
  exists a b gs', t = a ++ b /\ forallb f a = true /\ min <= List.length a /\ reads p b gs' r.
Proof. intros H. inversion H; subst. eauto 10. Qed.
Lemma reads_one_inv f p t gs r : reads (One f :: p) t gs r -> exists c t', t = c :: t' /\ f c = true /\ reads p t' gs r.
Proof. intros H. inversion H; subst. eauto. Qed.

(* ---------------- findall ---------------- *)
Lemma findall_skip p x u : findall_from p (List.length x) (x ++ u) = findall p u.
Proof. induction x as [|c x IH]; [reflexivity|]. cbn [List.length app findall_from]. exact IH. Qed.
Lemma findall_match p c x rest gs : matches p (c :: x ++ rest) = Some (gs, rest) -> findall p (c :: x ++ rest) = gs :: findall p rest.
Proof.
  intros H. unfold findall at 1. cbn [findall_from]. rewrite H. f_equal. rewrite app_length.
  replace (List.length x + List.length rest - List.length rest) with (List.length x) by lia. apply findall_skip.
Qed.
Lemma findall_none p c u : matches p (c :: u) = None -> findall p (c :: u) = findall p u.
Proof. intros H. unfold findall. cbn [findall_from]. now rewrite H. Qed.
(* nothing is found in a text where no match starts *)
Lemma findall_pass p x u : (forall x1 x2, x = x1 ++ x2 -> x2 <> [] -> matches p (x2 ++ u) = None) -> findall p (x ++ u) = findall p u.
Proof.
  induction x as [|c x IH]; intros H; [reflexivity|]. cbn [app]. rewrite findall_none.
  - apply IH. intros x1 x2 -> N. apply (H (c :: x1) x2); [reflexivity|exact N].
  - apply (H [] (c :: x)); [reflexivity|discriminate].
Qed.
Lemma findall_empty p x : (forall x1 x2, x = x1 ++ x2 -> x2 <> [] -> matches p x2 = None) -> findall p x = [].
Proof.
  intros H. rewrite <- (app_nil_r x). rewrite findall_pass; [reflexivity|]. intros x1 x2 E N. rewrite app_nil_r. exact (H x1 x2 E N).
Qed.

(* ---------------- classes of characters ---------------- *)
Lemma one_of_set c : one_of ",|{}.{3} " c = ((c =? 44) || ((c =? 124) || ((c =? 123) || ((c =? 125) || ((c =? 46) || ((c =? 123) || ((c =? 51) || ((c =? 125) || ((c =? 32) || false)))))))))%N.
Proof. reflexivity. Qed.
Lemma one_of_bar c : one_of "|," c = ((c =? 124) || ((c =? 44) || false))%N.
Proof. reflexivity. Qed.
Ltac chr := unfold set_char in *; rewrite ?one_of_set, ?one_of_bar in *; unfold ie_char in *; unfold is_gap_char, is_name_char, is_class_char, is_capital, word, caps, space, capital, small, digit in *; lia.
Lemma gap_space c : is_gap_char c = true -> space c = true.
Proof. chr. Qed.
Lemma gap_not_word c : is_gap_char c = true -> word c = false.
Proof. chr. Qed.
Lemma gap_not_caps c : is_gap_char c = true -> caps c = false.
Proof. chr. Qed.
Lemma gap_not_capital c : is_gap_char c = true -> capital c = false.
Proof. chr. Qed.
Lemma name_word c : is_name_char c = true -> word c = true.
Proof. chr. Qed.
Lemma word_name c : word c = true -> is_name_char c = true.
Proof. chr. Qed.
Lemma word_not_space c : word c = true -> space c = false.
Proof. chr. Qed.
Lemma class_caps c : is_class_char c = true -> caps c = true.
Proof. chr. Qed.
Lemma capital_word c : is_capital c = true -> word c = true.
Proof. chr. Qed.
Lemma gap_set c : is_gap_char c = true -> set_char c = true.
Proof. chr. Qed.
Lemma word_set c : word c = true -> set_char c = true.
Proof. chr. Qed.
Lemma word_ie c : word c = true -> ie_char c = true.
Proof. chr. Qed.
Lemma blank_ie c : is_gap_char c = true -> c <> 10%N -> ie_char c = true.
Proof. chr. Qed.
Lemma ie_not_newline c : ie_char c = true -> c <> 10%N.
Proof. chr. Qed.
Lemma forallb_imp {A} (f g : A -> bool) l : (forall c, f c = true -> g c = true) -> forallb f l = true -> forallb g l = true.
Proof. intros H. rewrite !forallb_forall. eauto. Qed.
Lemma stop_all f g l b : (forall c, f c = true -> g c = false) -> forallb f l = true -> l <> [] -> stops g (l ++ b) = true.
Proof. intros H F N. destruct l as [|c l]; [now destruct N|]. cbn [forallb] in F. apply andb_prop in F as [F _]. cbn. now rewrite (H c F). Qed.
Lemma stop_gap f l b : (forall c, is_gap_char c = true -> f c = false) -> gap1 l -> stops f (l ++ b) = true.
Proof. intros H [G N]. eapply stop_all; eauto. Qed.
Lemma stop_name l b : name l -> stops space (l ++ b) = true.
Proof. intros [F N]. eapply stop_all; [|exact F|exact N]. intros c H. apply word_not_space, name_word, H. Qed.
Lemma stop_field l b : field_name l -> stops space (l ++ b) = true.
Proof. intros [F N]. eapply stop_all; [|exact F|exact N]. intros c H. apply word_not_space, capital_word, H. Qed.
Lemma stop_class l b : class_name l -> stops space (l ++ b) = true.
Proof. intros [F N]. eapply stop_all; [|exact F|exact N]. intros c H. apply word_not_space, name_word. chr. Qed.
Lemma gap_spaces g : gap g -> forallb space g = true.
Proof. apply forallb_imp, gap_space. Qed.
Lemma gap1_spaces g : gap1 g -> forallb space g = true /\ 1 <= List.length g.
Proof. intros [G N]. split; [now apply gap_spaces|]. destruct g; [now destruct N|cbn; lia]. Qed.
Lemma name_words n : name n -> forallb word n = true /\ 1 <= List.length n.
Proof. intros [G N]. split; [now apply (forallb_imp _ _ _ name_word)|]. destruct n; [now destruct N|cbn; lia]. Qed.
Lemma field_caps n : field_name n -> forallb capital n = true /\ 1 <= List.length n.
Proof. intros [G N]. split; [exact G|]. destruct n; [now destruct N|cbn; lia]. Qed.
Lemma class_capss n : class_name n -> forallb caps n = true /\ 1 <= List.length n.
Proof. intros [G N]. split; [now apply (forallb_imp _ _ _ class_caps)|]. destruct n; [now destruct N|cbn; lia]. Qed.

(* ---------------- one element ---------------- *)
Lemma ie_match d kind g1 g2 g3 g4 g5 g6 g7 g8 :
  name (d_id d) -> name (d_crit d) -> field_name kind -> name (d_type d) -> name (d_pres d) ->
  gap1 g1 -> gap1 g2 -> gap1 g3 -> gap1 g4 -> gap1 g5 -> gap1 g6 -> gap1 g7 -> stops word g8 = true ->
  matches ie_re (codes "ID" ++ g1 ++ d_id d ++ g2 ++ codes "CRITICALITY" ++ g3 ++ d_crit d ++ g4 ++
       kind ++ g5 ++ d_type d ++ g6 ++ codes "PRESENCE" ++ g7 ++ d_pres d ++ g8) =
  Some ([d_id d; d_crit d; d_type d; d_pres d], g8).
Proof.
  intros Hi Hc Hk Ht Hp G1 G2 G3 G4 G5 G6 G7 G8. unfold ie_re. rewrite lit_codes. cbn [app].
  apply gap1_spaces in G1 as K1. apply gap1_spaces in G2 as K2. apply gap1_spaces in G3 as K3. apply gap1_spaces in G4 as K4.
  apply gap1_spaces in G5 as K5. apply gap1_spaces in G6 as K6. apply gap1_spaces in G7 as K7.
  apply name_words in Hi as Ki. apply name_words in Hc as Kc. apply name_words in Ht as Kt. apply name_words in Hp as Kp. apply field_caps in Hk as Kk.
  refine (rep_stop _ _ _ _ _ _ _ _ (proj1 K1) (Nat.le_0_l _) (stop_name _ _ Hi) _).
  refine (rep_stop word 1 true _ _ _ _ _ (proj1 Ki) (proj2 Ki) (stop_gap _ _ _ gap_not_word G2) _).
  refine (rep_stop _ _ _ _ _ _ _ _ (proj1 K2) (Nat.le_0_l _) _ _); [reflexivity|]. rewrite lit_codes.
  refine (rep_stop _ _ _ _ _ _ _ _ (proj1 K3) (Nat.le_0_l _) (stop_name _ _ Hc) _).
  refine (rep_stop word 1 true _ _ _ _ _ (proj1 Kc) (proj2 Kc) (stop_gap _ _ _ gap_not_word G4) _).
  refine (rep_stop _ _ _ _ _ _ _ _ (proj1 K4) (proj2 K4) (stop_field _ _ Hk) _).
  refine (rep_stop _ _ _ _ _ _ _ _ (proj1 Kk) (proj2 Kk) (stop_gap _ _ _ gap_not_capital G5) _).
  refine (rep_stop _ _ _ _ _ _ _ _ (proj1 K5) (proj2 K5) (stop_name _ _ Ht) _).
  refine (rep_stop word 1 true _ _ _ _ _ (proj1 Kt) (proj2 Kt) (stop_gap _ _ _ gap_not_word G6) _).
  refine (rep_stop _ _ _ _ _ _ _ _ (proj1 K6) (Nat.le_0_l _) _ _); [reflexivity|]. rewrite lit_codes.
  refine (rep_stop _ _ _ _ _ _ _ _ (proj1 K7) (Nat.le_0_l _) (stop_name _ _ Hp) _).
  exact (rep_stop word 1 true [] (d_pres d) g8 [] g8 (proj1 Kp) (proj2 Kp) G8 eq_refl).
Qed.
Lemma ie_re_blank g : forallb (fun c => negb (word c)) g = true -> findall ie_re g = [].
Proof.
  intros H. apply findall_empty. intros x1 x2 -> N. apply matches_none. intros gs r R. unfold ie_re in R.
  apply reads_lit in R as (t'&E&_). subst x2. rewrite forallb_app in H. apply andb_prop in H as [_ H]. discriminate.
Qed.

(* the words of an element *)
Definition inner (d : ie_def) (kind g1 g2 g3 g4 g5 g6 g7 : text) : text :=
  codes "ID" ++ g1 ++ d_id d ++ g2 ++ codes "CRITICALITY" ++ g3 ++ d_crit d ++ g4 ++
  kind ++ g5 ++ d_type d ++ g6 ++ codes "PRESENCE" ++ g7 ++ d_pres d.
Definition entry (d : ie_def) : found := mkFound (d_id d) (d_crit d) (d_type d) (d_pres d).
Lemma ie_found d kind g1 g2 g3 g4 g5 g6 g7 g8 :
  name (d_id d) -> name (d_crit d) -> field_name kind -> name (d_type d) -> name (d_pres d) ->
  gap1 g1 -> gap1 g2 -> gap1 g3 -> gap1 g4 -> gap1 g5 -> gap1 g6 -> gap1 g7 -> gap g8 ->
  flat_map tuple (findall ie_re (inner d kind g1 g2 g3 g4 g5 g6 g7 ++ g8)) = [entry d].
Proof.
  intros Hi Hc Hk Ht Hp G1 G2 G3 G4 G5 G6 G7 G8.
  assert (W : forallb (fun c => negb (word c)) g8 = true).
  { revert G8. apply forallb_imp. intros c H. now rewrite (gap_not_word c H). }
  assert (S : stops word g8 = true).
  { destruct g8 as [|c g8]; [reflexivity|]. cbn [forallb] in W. apply andb_prop in W as [W _]. exact W. }
  pose proof (ie_match d kind g1 g2 g3 g4 g5 g6 g7 g8 Hi Hc Hk Ht Hp G1 G2 G3 G4 G5 G6 G7 S) as M.
  unfold inner. rewrite <- !app_assoc.
  match type of M with matches _ (codes "ID" ++ ?x) = _ => set (X := x) in * end.
  assert (E : exists x, codes "ID" ++ X = 73%N :: x ++ g8).
  { exists (68%N :: g1 ++ d_id d ++ g2 ++ codes "CRITICALITY" ++ g3 ++ d_crit d ++ g4 ++ kind ++ g5 ++ d_type d ++ g6 ++ codes "PRESENCE" ++ g7 ++ d_pres d).
    unfold X. cbn [app]. rewrite <- !app_assoc. reflexivity. }
  destruct E as (x&E). rewrite E in M |- *. rewrite (findall_match _ _ _ _ _ M). rewrite (ie_re_blank g8 W). reflexivity.
Qed.

(* ---------------- an element in its braces ---------------- *)
Lemma span f (l : text) : exists a b, l = a ++ b /\ forallb f a = true /\ stops f b = true.
Proof.
  induction l as [|c l (a&b&->&Ha&Hb)]; [exists [], []; auto|]. destruct (f c) eqn:E.
  - exists (c :: a), b. cbn [forallb app]. rewrite E. auto.
  - exists [], (c :: a ++ b). cbn. rewrite E. auto.
Qed.
Lemma forallb_app_true {A} (f : A -> bool) a b : forallb f (a ++ b) = true <-> forallb f a = true /\ forallb f b = true.
Proof. rewrite forallb_app. apply andb_true_iff. Qed.
Lemma braces_good w g0 i g8 g s rest :
  forallb space w = true -> gap g0 -> forallb ie_char i = true -> stops space i = true -> i <> [] -> gap g8 -> gap g ->
  forallb (one_of "|,") s = true -> stops space (s ++ rest) = true -> stops (one_of "|,") rest = true ->
  exists g8', gap g8' /\
  matches braces_re (w ++ codes "{" ++ g0 ++ i ++ g8 ++ codes "}" ++ g ++ s ++ rest) = Some ([i ++ g8'], rest).
Proof.
  intros Hw G0 Hi Si Ni G8 G Hs S1 S2. destruct (span ie_char g8) as (a&b&->&Ha&Hb).
  apply (proj1 (forallb_app_true is_gap_char _ _)) in G8 as [Ga Gb]. exists a. split; [exact Ga|]. unfold braces_re. cbn [app].
  refine (rep_stop _ _ _ _ w _ _ _ Hw (Nat.le_0_l _) _ _); [reflexivity|]. rewrite lit_codes.
  refine (rep_stop _ _ _ _ g0 _ _ _ (gap_spaces _ G0) (Nat.le_0_l _) _ _).
  { destruct i as [|c i]; [now destruct Ni|]. exact Si. }
  rewrite <- app_assoc. rewrite (app_assoc i a). 
  refine (rep_stop ie_char 1 true _ (i ++ a) _ [] _ _ _ _ _).
  - apply forallb_app_true. auto.
  - destruct i; [now destruct Ni|cbn; lia].
  - destruct b as [|c b]; [reflexivity|exact Hb].
  - refine (rep_stop _ _ _ _ b _ _ _ (gap_spaces _ Gb) (Nat.le_0_l _) _ _); [reflexivity|]. rewrite lit_codes.
    refine (rep_stop _ _ _ _ g _ _ _ (gap_spaces _ G) (Nat.le_0_l _) S1 _).
    exact (rep_stop (one_of "|,") 0 false [] s rest [] rest Hs (Nat.le_0_l _) S2 eq_refl).
Qed.
(* a text in which the first character that is not space is not an opening brace *)
Lemma braces_none t : (forall a b, t = a ++ codes "{" ++ b -> forallb space a = true -> False) -> matches braces_re t = None.
Proof.
  intros H. apply matches_none. intros gs r R. unfold braces_re in R. cbn [app] in R.
  apply reads_rep_inv in R as (a&b&gs'&->&Ha&_&R). apply reads_lit in R as (t'&->&_). exact (H a t' eq_refl Ha).
Qed.
Lemma app_cons_split {A} (x : A) (a b c d : list A) : a ++ x :: b = c ++ x :: d -> ~ In x a -> ~ In x c -> a = c /\ b = d.
Proof.
  revert c. induction a as [|y a IH]; intros [|z c] E Na Nc.
  - injection E as ->. auto.
  - injection E as -> _. destruct Nc. now left.
  - injection E as -> _. destruct Na. now left.
  - injection E as -> E. apply IH in E as [-> ->]; [auto| |]; intros H; [apply Na|apply Nc]; now right.
Qed.
Lemma not_in_class f (x : N) l : f x = false -> forallb f l = true -> ~ In x l.
Proof. intros H F I. rewrite forallb_forall in F. rewrite (F x I) in H. discriminate. Qed.
Lemma braces_broken w g0 m1 m2 g8 u : forallb space w = true -> gap g0 -> gap g8 -> stops space m1 = true -> m1 <> [] ->
  (exists l c, m2 = l ++ [c] /\ word c = true) -> forallb (fun c => word c || is_gap_char c) (m1 ++ 10%N :: m2) = true ->
  matches braces_re (w ++ codes "{" ++ g0 ++ m1 ++ 10%N :: m2 ++ g8 ++ codes "}" ++ u) = None.
Proof.
  intros Hw G0 G8 S1 N1 (l&c0&->&W) F. apply matches_none. intros gs r R. unfold braces_re in R. cbn [app] in R.
  apply reads_rep_inv in R as (a&b&gs'&E&Ha&_&R). apply reads_lit in R as (t'&->&R).
  change (codes "}" ++ u) with (125%N :: u) in E. match type of E with _ ++ codes "{" ++ ?x = _ ++ codes "{" ++ ?y => change (w ++ 123%N :: x = a ++ 123%N :: y) in E end. apply app_cons_split in E as [_ E]; [|exact (not_in_class space 123%N w eq_refl Hw)|exact (not_in_class space 123%N a eq_refl Ha)].
  apply reads_rep_inv in R as (a1&b1&gs1&->&Ha1&_&R). apply reads_rep_inv in R as (a2&b2&gs2&->&Ha2&_&R).
  apply reads_rep_inv in R as (a3&b3&gs3&->&Ha3&_&R). apply reads_lit in R as (t'&->&R).
  replace (g0 ++ m1 ++ 10%N :: (l ++ [c0]) ++ g8 ++ 125%N :: u) with ((g0 ++ m1 ++ 10%N :: (l ++ [c0]) ++ g8) ++ 125%N :: u) in E
    by (rewrite <- !app_assoc; cbn [app]; rewrite <- !app_assoc; reflexivity).
  replace (a1 ++ a2 ++ a3 ++ codes "}" ++ t') with ((a1 ++ a2 ++ a3) ++ 125%N :: t') in E by (rewrite <- !app_assoc; reflexivity).
  apply app_cons_split in E as [E _].
  - (* the newline is in a1 or a3 *)
    assert (NS : forall x, In c0 x -> forallb space x = true -> False).
    { intros x I X. rewrite forallb_forall in X. specialize (X c0 I). rewrite (word_not_space c0 W) in X. discriminate. }
    rewrite app_assoc in E. apply app_eq_app in E as (e&[[E1 E2]|[E1 E2]]).
    + apply app_eq_app in E2 as (f&[[-> E2]|[-> ->]]).
      * destruct f as [|y f].
        -- cbn [app] in E2. apply (NS a3); [|exact Ha3]. rewrite <- E2. right. rewrite <- app_assoc. apply in_or_app. right. now left.
        -- injection E2 as <- _. rewrite forallb_app in Ha2. apply andb_prop in Ha2 as [_ Ha2]. cbn [forallb] in Ha2. apply andb_prop in Ha2 as [H _]. now apply ie_not_newline in H.
      * apply (NS (f ++ 10%N :: (l ++ [c0]) ++ g8)); [|exact Ha3]. apply in_or_app. right. right. rewrite <- app_assoc. apply in_or_app. right. now left.
    + subst a1. rewrite !forallb_app in Ha1. apply andb_prop in Ha1 as [Ha1 _]. apply andb_prop in Ha1 as [_ Ha1].
      destruct m1 as [|y m1]; [now destruct N1|]. cbn in Ha1, S1. destruct (space y); discriminate.
  - assert (Hg : forall g, gap g -> ~ In 125%N g) by (intros g Hg; now apply (not_in_class is_gap_char)).
    intros I. rewrite app_assoc in I. apply in_app_or in I as [I|I].
    + apply in_app_or in I as [I|I]; [now apply (Hg g0)|]. rewrite forallb_app in F. apply andb_prop in F as [F _]. exact (not_in_class _ 125%N m1 eq_refl F I).
    + destruct I as [I|I]; [discriminate|]. apply in_app_or in I as [I|I]; [|now apply (Hg g8)]. rewrite forallb_app in F. apply andb_prop in F as [_ F]. cbn [forallb] in F. apply andb_prop in F as [_ F].
      exact (not_in_class _ 125%N _ eq_refl F I).
  - intros I. apply in_app_or in I as [I|I]; [|apply in_app_or in I as [I|I]].
    + exact (not_in_class space 125%N _ eq_refl Ha1 I).
    + exact (not_in_class ie_char 125%N _ eq_refl Ha2 I).
    + exact (not_in_class space 125%N _ eq_refl Ha3 I).
Qed.

(* ---------------- elements in sequence ---------------- *)
Lemma findall_match' p t y rest gs : matches p t = Some (gs, rest) -> t = y ++ rest -> y <> [] -> findall p t = gs :: findall p rest.
Proof. intros M -> N. destruct y as [|c y]; [now destruct N|]. exact (findall_match p c y rest gs M). Qed.
Lemma suffix_forallb {A} (f : A -> bool) x1 x2 : forallb f (x1 ++ x2) = true -> forallb f x2 = true.
Proof. rewrite forallb_app. intros H. now apply andb_prop in H as [_ H]. Qed.
Definition no_open (x : text) : Prop := ~ In 123%N x.
Lemma no_open_app a b : no_open (a ++ b) <-> no_open a /\ no_open b.
Proof. unfold no_open. rewrite in_app_iff. tauto. Qed.
Lemma braces_pass x c u : no_open x -> space c = false -> c <> 123%N -> findall braces_re ((x ++ [c]) ++ u) = findall braces_re u.
Proof.
  intros Hx Hc Nc. apply findall_pass. intros x1 x2 E N. apply braces_none. intros a b Eq Ha.
  assert (L : exists y, x2 = y ++ [c]).
  { destruct (exists_last N) as (y&c'&->). exists y. rewrite app_assoc in E. apply app_inj_tail in E as [_ ->]. reflexivity. }
  destruct L as (y&->). assert (Hy : no_open y).
  { rewrite app_assoc in E. apply app_inj_tail in E as [-> _]. apply no_open_app in Hx. tauto. }
  assert (I : In c a).
  { clear -Eq Hy Nc. revert a Eq. induction y as [|z y IH]; intros a Eq.
    - destruct a as [|q a]; [injection Eq as ->; now destruct Nc|]. injection Eq as -> _. now left.
    - destruct a as [|q a]; [injection Eq as -> _; destruct Hy; now left|]. injection Eq as -> Eq. right.
      apply IH; [|exact Eq]. intros H. apply Hy. now right. }
  rewrite forallb_forall in Ha. rewrite (Ha c I) in Hc. discriminate.
Qed.
Lemma braces_no_open x : no_open x -> findall braces_re x = [].
Proof.
  intros H. apply findall_empty. intros x1 x2 -> _. apply braces_none. intros a b -> _. apply no_open_app in H as [_ H]. apply no_open_app in H as [_ H].
  apply H. now left.
Qed.
Lemma ies_of_match body y rest j : matches braces_re body = Some ([j], rest) -> body = y ++ rest -> y <> [] ->
  ies_of body = flat_map tuple (findall ie_re j) ++ ies_of rest.
Proof. intros M E N. unfold ies_of. rewrite (findall_match' _ _ _ _ _ M E N). reflexivity. Qed.
Lemma gap_no_open g : gap g -> no_open g.
Proof. intros H. exact (not_in_class is_gap_char 123%N g eq_refl H). Qed.

(* the two kinds of elements *)
Lemma written_shape d b t : ie_written d b t -> exists g0 i g8, t = codes "{" ++ g0 ++ i ++ g8 ++ codes "}" /\ gap g0 /\ gap g8 /\
  stops space i = true /\ i <> [] /\ no_open i /\
  if b then forallb ie_char i = true /\ (forall g, gap g -> flat_map tuple (findall ie_re (i ++ g)) = [entry d])
  else exists m1 m2, i = m1 ++ 10%N :: m2 /\ stops space m1 = true /\ m1 <> [] /\ (exists l c, m2 = l ++ [c] /\ word c = true) /\
       forallb (fun c => word c || is_gap_char c) i = true.
Proof.
  intros H. destruct H as [d kind g0 g1 g2 g3 g4 g5 g6 g7 g8 Hi Hc Hk Ht Hp G0 G1 G2 G3 G4 G5 G6 G7 G8].
  exists g0, (inner d kind g1 g2 g3 g4 g5 g6 g7), g8.
  assert (W : forallb (fun c => word c || is_gap_char c) (inner d kind g1 g2 g3 g4 g5 g6 g7) = true).
  { assert (Wn : forall n, name n -> forallb (fun c => word c || is_gap_char c) n = true).
    { intros n [F _]. revert F. apply forallb_imp. intros c H. now rewrite (name_word c H). }
    assert (Wf : forall n, field_name n -> forallb (fun c => word c || is_gap_char c) n = true).
    { intros n [F _]. revert F. apply forallb_imp. intros c H. now rewrite (capital_word c H). }
    assert (Wg : forall n, gap1 n -> forallb (fun c => word c || is_gap_char c) n = true).
    { intros n [F _]. revert F. apply forallb_imp. intros c H. rewrite H. apply orb_true_r. }
    unfold inner. rewrite !forallb_app. rewrite (Wn _ Hi), (Wn _ Hc), (Wn _ Ht), (Wn _ Hp), (Wf _ Hk), (Wg _ G1), (Wg _ G2), (Wg _ G3), (Wg _ G4), (Wg _ G5), (Wg _ G6), (Wg _ G7). reflexivity. }
  split. { unfold inner. rewrite <- !app_assoc. reflexivity. }
  split; [exact G0|]. split; [exact G8|]. split; [reflexivity|]. split; [discriminate|].
  split; [exact (not_in_class _ 123%N _ eq_refl W)|].
  destruct (existsb has_newline [g1; g2; g3; g4; g5; g6; g7]) eqn:E; cbn [negb].
  - (* a newline *)
    apply existsb_exists in E as (g&Ig&En). apply existsb_exists in En as (c&Ic&Ec). apply N.eqb_eq in Ec as <-.
    assert (I : exists x, inner d kind g1 g2 g3 g4 g5 g6 g7 = x ++ d_pres d /\ In 10%N x).
    { exists (codes "ID" ++ g1 ++ d_id d ++ g2 ++ codes "CRITICALITY" ++ g3 ++ d_crit d ++ g4 ++ kind ++ g5 ++ d_type d ++ g6 ++ codes "PRESENCE" ++ g7).
      split; [unfold inner; rewrite <- !app_assoc; reflexivity|]. rewrite !in_app_iff. cbn [In] in Ig.
      decompose [or] Ig; subst; try contradiction; tauto. }
    destruct I as (x&Ex&Ix). apply in_split in Ix as (m1&m2&->). exists m1, (m2 ++ d_pres d).
    split; [rewrite Ex, <- app_assoc; reflexivity|].
    assert (M : exists m1', m1 = 73%N :: m1').
    { unfold inner in Ex. destruct m1 as [|y m1]; [discriminate Ex|]. injection Ex as <- _. eauto. }
    destruct M as (m1'&->). split; [reflexivity|]. split; [discriminate|]. split; [|exact W].
    destruct Hp as [F N]. destruct (exists_last N) as (y&c&Ey). exists (m2 ++ y), c. rewrite Ey, app_assoc. split; [reflexivity|].
    rewrite Ey, forallb_app in F. apply andb_prop in F as [_ F]. cbn in F. rewrite andb_true_r in F. now apply name_word.
  - split; [|intros g Hg; apply ie_found; assumption].
    cbn [existsb] in E. repeat (apply orb_false_elim in E as [?E E]).
    assert (Wn : forall n, name n -> forallb ie_char n = true).
    { intros n [F _]. revert F. apply forallb_imp. intros c H. apply word_ie, name_word, H. }
    assert (Wf : forall n, field_name n -> forallb ie_char n = true).
    { intros n [F _]. revert F. apply forallb_imp. intros c H. apply word_ie, capital_word, H. }
    assert (Wg : forall n, gap1 n -> has_newline n = false -> forallb ie_char n = true).
    { intros n [F _] H. apply forallb_forall. intros c I. apply blank_ie.
      - unfold gap in F. rewrite forallb_forall in F. now apply F.
      - intros ->. unfold has_newline in H. rewrite (proj2 (existsb_exists _ _) (ex_intro _ 10%N (conj I eq_refl))) in H. discriminate. }
    unfold inner. rewrite !forallb_app. rewrite (Wn _ Hi), (Wn _ Hc), (Wn _ Ht), (Wn _ Hp), (Wf _ Hk), (Wg g1), (Wg g2), (Wg g3), (Wg g4), (Wg g5), (Wg g6), (Wg g7) by assumption. reflexivity.
Qed.
(* what may follow an element *)
Definition ending (e : text) : Prop := exists g s r, e = g ++ s ++ r /\ gap g /\ forallb (one_of "|,") s = true /\
  stops space (s ++ r) = true /\ stops (one_of "|,") r = true.
Definition kept (l : list (ie_def * bool)) : list found := map entry (map fst (filter snd l)).
Lemma broken_step w t d : ie_written d false t -> forallb space w = true -> forall e,
  exists x, findall braces_re (w ++ t ++ e) = findall braces_re (x ++ codes "}" ++ e) /\ no_open x.
Proof.
  intros H Hw e. destruct (written_shape _ _ _ H) as (g0&i&g8&->&G0&G8&_&_&NO&(m1&m2&->&S1&N1&L&F)).
  exists (g0 ++ (m1 ++ 10%N :: m2) ++ g8). split.
  - replace (w ++ (codes "{" ++ g0 ++ (m1 ++ 10%N :: m2) ++ g8 ++ codes "}") ++ e) with ((w ++ codes "{") ++ (g0 ++ (m1 ++ 10%N :: m2) ++ g8) ++ codes "}" ++ e)
      by (rewrite <- !app_assoc; cbn [app codes]; rewrite <- ?app_assoc; reflexivity).
    apply findall_pass. intros x1 x2 E N.
    assert (P : exists w2, x2 = w2 ++ codes "{" /\ forallb space w2 = true).
    { destruct (exists_last N) as (w2&c&->). rewrite app_assoc in E. apply app_inj_tail in E as [E <-]. exists w2. split; [reflexivity|].
      rewrite E in Hw. exact (suffix_forallb _ _ _ Hw). }
    destruct P as (w2&->&Hw2).
    replace ((w2 ++ codes "{") ++ (g0 ++ (m1 ++ 10%N :: m2) ++ g8) ++ codes "}" ++ e) with (w2 ++ codes "{" ++ g0 ++ m1 ++ 10%N :: m2 ++ g8 ++ codes "}" ++ e)
      by (rewrite <- !app_assoc; cbn [app codes]; rewrite <- ?app_assoc; reflexivity).
    now apply braces_broken.
  - apply no_open_app. split; [now apply gap_no_open|]. apply no_open_app. split; [exact NO|now apply gap_no_open].
Qed.
Lemma good_step w t d : ie_written d true t -> forallb space w = true -> forall g s r, gap g -> forallb (one_of "|,") s = true ->
  stops space (s ++ r) = true -> stops (one_of "|,") r = true -> ies_of (w ++ t ++ g ++ s ++ r) = entry d :: ies_of r.
Proof.
  intros H Hw g s r G Hs Ss Sr. destruct (written_shape _ _ _ H) as (g0&i&g8&->&G0&G8&Si&Ni&_&F&T).
  destruct (braces_good w g0 i g8 g s r Hw G0 F Si Ni G8 G Hs Ss Sr) as (g8'&G8'&M).
  rewrite (ies_of_match _ (w ++ (codes "{" ++ g0 ++ i ++ g8 ++ codes "}") ++ g ++ s) r (i ++ g8')).
  - rewrite (T g8' G8'). reflexivity.
  - eapply eq_trans; [|exact M]. f_equal. rewrite <- !app_assoc. reflexivity.
  - rewrite <- !app_assoc. reflexivity.
  - intros E. apply app_eq_nil in E as [_ E]. discriminate.
Qed.
Lemma ies_written_open l t : ies_written l t -> exists t', t = 123%N :: t'.
Proof.
  assert (A : forall d b t, ie_written d b t -> exists t', t = 123%N :: t').
  { intros d b x []. eexists. reflexivity. }
  intros []; [eauto|]. destruct (A _ _ _ H) as (t'&->). cbn [app]. eauto.
Qed.
Lemma ies_read l t : ies_written l t -> forall w e, forallb space w = true -> ending e -> no_open e -> ies_of (w ++ t ++ e) = kept l.
Proof.
  induction 1 as [d b t H|d b t g g' l rest H G G' Hl IH]; intros w e Hw He Ne.
  - destruct He as (g&s&r&->&G&Hs&Ss&Sr). destruct b.
    + rewrite (good_step w t d H Hw g s r G Hs Ss Sr). unfold ies_of. rewrite braces_no_open; [reflexivity|].
      apply no_open_app in Ne as [_ Ne]. now apply no_open_app in Ne.
    + destruct (broken_step w t d H Hw (g ++ s ++ r)) as (x&E&Nx). unfold ies_of. rewrite E, braces_no_open; [reflexivity|].
      apply no_open_app. split; [exact Nx|]. intros [I|I]; [discriminate|now apply Ne].
  - destruct (ies_written_open _ _ Hl) as (rest'&Er).
    replace (w ++ (t ++ g ++ chars "|" ++ g' ++ rest) ++ e) with (w ++ t ++ g ++ chars "|" ++ g' ++ rest ++ e) by (rewrite <- !app_assoc; reflexivity).
    destruct b.
    + rewrite (good_step w t d H Hw g (chars "|") (g' ++ rest ++ e) G eq_refl eq_refl).
      * rewrite (IH g' e (gap_spaces _ G') He Ne). reflexivity.
      * subst rest. destruct g' as [|c g']; [reflexivity|]. unfold gap in G'. cbn [forallb] in G'. apply andb_prop in G' as [G' _].
        cbn [app stops]. rewrite one_of_bar. clear -G'. chr.
    + destruct (broken_step w t d H Hw (g ++ chars "|" ++ g' ++ rest ++ e)) as (x&E&Nx). unfold ies_of. rewrite E.
      replace (x ++ codes "}" ++ g ++ chars "|" ++ g' ++ rest ++ e) with (((x ++ codes "}" ++ g) ++ [124%N]) ++ g' ++ rest ++ e)
        by (rewrite <- !app_assoc; reflexivity).
      rewrite braces_pass; [|apply no_open_app; split; [exact Nx|intros [I|I]; [discriminate|now apply (gap_no_open _ G)]]|reflexivity|discriminate].
      exact (IH g' e (gap_spaces _ G') He Ne).
Qed.
Lemma dots_no_open g : gap g -> no_open (chars "..." ++ g).
Proof. intros G I. apply in_app_or in I as [I|I]; [vm_compute in I; intuition discriminate|now apply (gap_no_open g)]. Qed.
Lemma body_read l b g : body_written l b -> gap g -> ies_of (b ++ g) = kept l.
Proof.
  intros H G. destruct H as [l t H|l t g1 g2 H G1 G2|].
  - apply (ies_read l t H [] g eq_refl); [|now apply gap_no_open]. exists g, [], []. rewrite app_nil_r. auto.
  - rewrite <- !app_assoc. apply (ies_read l t H [] _ eq_refl).
    + exists g1, (chars ","), (g2 ++ chars "..." ++ g). repeat split; auto.
      destruct g2 as [|c g2]; [reflexivity|]. unfold gap in G2. cbn [forallb] in G2. apply andb_prop in G2 as [G2 _].
      cbn [app stops]. rewrite one_of_bar. clear -G2. chr.
    + apply no_open_app. split; [now apply gap_no_open|]. intros I. change (In 123%N (44%N :: g2 ++ chars "..." ++ g)) in I. destruct I as [I|I]; [discriminate|]. revert I. apply no_open_app. split; [now apply gap_no_open|].
      apply (dots_no_open g G).
  - unfold ies_of. rewrite braces_no_open; [reflexivity|]. apply (dots_no_open g G).
Qed.

(* ---------------- one object set ---------------- *)
Lemma name_set n : name n -> forallb set_char n = true.
Proof. intros [F _]. revert F. apply forallb_imp. intros c H. apply word_set, name_word, H. Qed.
Lemma gaps_set g : gap g -> forallb set_char g = true.
Proof. apply forallb_imp, gap_set. Qed.
Lemma field_set n : field_name n -> forallb set_char n = true.
Proof. intros [F _]. revert F. apply forallb_imp. intros c H. apply word_set, capital_word, H. Qed.
Lemma ie_set d b t : ie_written d b t -> forallb set_char t = true.
Proof.
  intros [d' kind g0 g1 g2 g3 g4 g5 g6 g7 g8 Hi Hc Hk Ht Hp G0 [G1 _] [G2 _] [G3 _] [G4 _] [G5 _] [G6 _] [G7 _] G8].
  rewrite !forallb_app. apply name_set in Hi, Hc, Ht, Hp. apply field_set in Hk. apply gaps_set in G0, G1, G2, G3, G4, G5, G6, G7, G8.
  rewrite Hi, Hc, Hk, Ht, Hp, G0, G1, G2, G3, G4, G5, G6, G7, G8. reflexivity.
Qed.
Lemma ies_set l t : ies_written l t -> forallb set_char t = true.
Proof.
  induction 1 as [d b t H|d b t g g' l rest H G G' Hl IH]; [now apply (ie_set d b)|].
  rewrite !forallb_app. rewrite (ie_set _ _ _ H), (gaps_set _ G), (gaps_set _ G'), IH. reflexivity.
Qed.
Lemma body_set l b : body_written l b -> forallb set_char b = true /\ stops space b = true /\ b <> [].
Proof.
  intros [l' t H|l' t g g' H G G'|].
  - destruct (ies_written_open _ _ H) as (t'&E). split; [exact (ies_set _ _ H)|]. subst t. split; [reflexivity|discriminate].
  - destruct (ies_written_open _ _ H) as (t'&E). split.
    + rewrite !forallb_app. rewrite (ies_set _ _ H), (gaps_set _ G), (gaps_set _ G'). reflexivity.
    + subst t. split; [reflexivity|discriminate].
  - repeat split; discriminate.
Qed.
Lemma set_no_colon x : forallb set_char x = true -> ~ In 58%N x.
Proof. exact (not_in_class set_char 58%N x eq_refl). Qed.
Lemma tail_none x : (forall a b, x = a ++ 125%N :: b -> forallb space a = true -> 1 <= List.length a -> False) ->
  matches (sp1 :: lit "}" ++ [newline]) x = None.
Proof.
  intros H. apply matches_none. intros gs r R. apply reads_rep_inv in R as (a&b&gs'&->&Ha&Hm&R). apply reads_lit in R as (t'&->&_).
  exact (H a t' eq_refl Ha Hm).
Qed.
Lemma set_match o b g1 g2 g3 g4 g5 rest :
  name (o_name o) -> class_name (o_class o) -> body_written (o_ies o) b ->
  gap1 g1 -> gap g2 -> gap g3 -> gap1 g4 -> gap1 g5 -> quiet rest ->
  matches set_re (o_name o ++ g1 ++ o_class o ++ g2 ++ codes "::=" ++ g3 ++ codes "{" ++ g4 ++ b ++ g5 ++ codes "}" ++ 10%N :: rest) =
  Some ([o_name o; o_class o; b ++ removelast g5], rest).
Proof.
  intros Hn Hc Hb G1 G2 G3 G4 G5 Q. destruct (body_set _ _ Hb) as (Sb&Pb&Nb).
  apply gap1_spaces in G1 as K1. apply gap_spaces in G2 as K2. apply gap_spaces in G3 as K3. apply gap1_spaces in G4 as K4.
  apply name_words in Hn as Kn. apply class_capss in Hc as Kc. unfold set_re. cbn [app].
  refine (rep_stop word 1 true _ _ _ _ _ (proj1 Kn) (proj2 Kn) (stop_gap _ _ _ gap_not_word G1) _).
  refine (rep_stop _ _ _ _ _ _ _ _ (proj1 K1) (proj2 K1) (stop_class _ _ Hc) _).
  refine (rep_stop caps 1 true _ _ _ _ _ (proj1 Kc) (proj2 Kc) _ _).
  { destruct g2 as [|c g2]; [reflexivity|]. apply (stop_gap caps (c :: g2) _ gap_not_caps). split; [exact G2|discriminate]. }
  refine (rep_stop _ _ _ _ _ _ _ _ K2 (Nat.le_0_l _) _ _); [reflexivity|]. rewrite lit_codes.
  refine (rep_stop _ _ _ _ _ _ _ _ K3 (Nat.le_0_l _) _ _); [reflexivity|]. rewrite lit_codes.
  refine (rep_stop _ _ _ _ _ _ _ _ (proj1 K4) (proj2 K4) _ _).
  { destruct b as [|c b]; [now destruct Nb|]. exact Pb. }
  destruct G5 as [G5 N5]. destruct (exists_last N5) as (g&c&->). rewrite removelast_last.
  unfold gap in G5. apply forallb_app_true in G5 as [Gg Gc]. cbn [forallb] in Gc. rewrite andb_true_r in Gc.
  replace (b ++ (g ++ [c]) ++ codes "}" ++ 10%N :: rest) with ((b ++ g) ++ c :: 125%N :: 10%N :: rest) by (rewrite <- !app_assoc; reflexivity).
  refine (rep_greedy set_char 1 true _ _ _ [] rest _ _ _ _).
  - apply forallb_app_true. split; [exact Sb|now apply gaps_set].
  - rewrite app_length. destruct b; [now destruct Nb|apply le_n_S, Nat.le_0_l].
  - change (c :: 125%N :: 10%N :: rest) with ([c] ++ codes "}" ++ 10%N :: rest).
    refine (rep_stop _ _ _ _ _ _ _ _ _ _ _ _); [cbn; now rewrite (gap_space c Gc)|apply Nat.le_refl|reflexivity|]. rewrite lit_codes. reflexivity.
  - intros b1 b2 E N F. apply tail_none. intros a b' -> Ha Hm.
    destruct b1 as [|c1 b1]; [now destruct N|]. injection E as <- E.
    destruct b1 as [|c1 b1].
    { destruct a as [|a0 a]; [inversion Hm|]. injection E as <- _. discriminate Ha. }
    injection E as <- E. destruct b1 as [|c1 b1].
    { destruct a as [|a0 a]; [inversion Hm|]. injection E as <- E. cbn [forallb] in Ha. apply andb_prop in Ha as [_ Ha].
      exact (not_in_class space 58%N a eq_refl Ha (Q a b' E)). }
    injection E as <- E. cbn [forallb] in F. apply andb_prop in F as [_ F]. apply andb_prop in F as [_ F]. apply andb_prop in F as [_ F].
    rewrite app_assoc in E. pose proof (Q _ _ E) as I. apply in_app_or in I as [I|I]; [exact (set_no_colon _ F I)|exact (not_in_class space 58%N a eq_refl Ha I)].
Qed.

(* ---------------- a file ---------------- *)
Lemma reads_set_re t gs r : reads set_re t gs r -> exists w s1 c s2 s3 z, t = w ++ s1 ++ c ++ s2 ++ codes "::=" ++ s3 ++ codes "{" ++ z /\
  (exists p y, z = p ++ codes "}" ++ 10%N :: y /\ ~ In 58%N p) /\
  forallb word w = true /\ forallb space s1 = true /\ forallb caps c = true /\ forallb space s2 = true /\ forallb space s3 = true /\
  w <> [] /\ s1 <> [] /\ c <> [].
Proof.
  unfold set_re. cbn [app]. intros R.
  apply reads_rep_inv in R as (w&t1&g1&->&Hw&Mw&R). apply reads_rep_inv in R as (s1&t2&g2&->&H1&M1&R).
  apply reads_rep_inv in R as (c&t3&g3&->&Hc&Mc&R). apply reads_rep_inv in R as (s2&t4&g4&->&H2&_&R).
  apply reads_lit in R as (t5&->&R). apply reads_rep_inv in R as (s3&t6&g6&->&H3&_&R). apply reads_lit in R as (z&->&R).
  exists w, s1, c, s2, s3, z. split; [reflexivity|]. split.
  { apply reads_rep_inv in R as (s4&t7&g7&->&H4&_&R). apply reads_rep_inv in R as (y&t8&g8&->&Hy&_&R). apply reads_rep_inv in R as (s5&t9&g9&->&H5&_&R).
    apply reads_lit in R as (t10&->&R). apply reads_one_inv in R as (c10&t11&->&E&_). apply N.eqb_eq in E as <-.
    exists (s4 ++ y ++ s5), t11. split; [rewrite <- !app_assoc; reflexivity|]. rewrite !in_app_iff. intros [I|[I|I]].
    - exact (not_in_class space 58%N _ eq_refl H4 I).
    - exact (not_in_class set_char 58%N _ eq_refl Hy I).
    - exact (not_in_class space 58%N _ eq_refl H5 I). }
  repeat split; try assumption; [destruct w|destruct s1|destruct c]; try discriminate; cbn in *; lia.
Qed.
(* beginnings of words *)
Fixpoint begins (prev : bool) (t : text) : nat :=
  match t with [] => 0 | c :: r => (if negb prev && word c then 1 else 0) + begins (word c) r end.
Lemma begins_words prev a b : forallb word a = true -> a <> [] -> begins prev (a ++ b) = (if prev then 0 else 1) + begins true b.
Proof.
  revert prev. induction a as [|c a IH]; intros prev H N; [now destruct N|]. cbn [forallb] in H. apply andb_prop in H as [Hc H].
  cbn [app begins]. rewrite Hc. destruct a as [|c' a]; [destruct prev; reflexivity|]. rewrite (IH true H) by discriminate. destruct prev; reflexivity.
Qed.
Lemma begins_spaces prev a b : forallb space a = true -> a <> [] -> begins prev (a ++ b) = begins false b.
Proof.
  revert prev. induction a as [|c a IH]; intros prev H N; [now destruct N|]. cbn [forallb] in H. apply andb_prop in H as [Hc H].
  cbn [app begins]. assert (W : word c = false) by (destruct (word c) eqn:W; [apply word_not_space in W; congruence|reflexivity]). rewrite W, andb_false_r.
  destruct a as [|c' a]; [reflexivity|]. apply (IH false H). discriminate.
Qed.
Lemma begins_prefix prev a c b : word c = false -> begins false b <= begins prev ((a ++ [c]) ++ b).
Proof.
  intros Hc. revert prev. induction a as [|x a IH]; intros prev; cbn [app begins].
  - rewrite Hc, andb_false_r. lia.
  - specialize (IH (word x)). lia.
Qed.
Lemma caps_word c : caps c = true -> word c = true.
Proof. unfold caps, word. intros H. apply orb_prop in H as [H|H]; [apply orb_prop in H as [H|H]|]; rewrite H; rewrite ?orb_true_r; reflexivity. Qed.
Lemma gap_other t s : forallb (fun c => is_gap_char c || (33 <=? c)%N) t = true -> forallb space s = true -> (forall c, In c s -> In c t) -> gap s.
Proof.
  intros Ft Fs I. apply forallb_forall. intros c Ic. rewrite forallb_forall in Ft, Fs. specialize (Ft c (I c Ic)). specialize (Fs c Ic).
  apply orb_prop in Ft as [Ft|Ft]; [exact Ft|]. clear -Ft Fs. chr.
Qed.
Lemma set_none_end t : other t -> matches set_re t = None.
Proof.
  intros (Ho&_&Hc). apply matches_none. intros gs r R. apply reads_set_re in R as (w&s1&c&s2&s3&z&E&_&_&_&_&_&H3&_).
  apply (Ho (w ++ s1 ++ c ++ s2) s3 z).
  - apply (gap_other t s3 Hc H3). intros x I. rewrite E. rewrite !in_app_iff. tauto.
  - rewrite E, <- !app_assoc. reflexivity.
Qed.
Lemma first_colon (t : text) : In 58%N t -> exists a b, t = a ++ 58%N :: b /\ ~ In 58%N a.
Proof.
  induction t as [|c t IH]; intros I; [destruct I|]. destruct (N.eq_dec c 58) as [->|N]; [exists [], t; auto|].
  destruct I as [I|I]; [congruence|]. destruct (IH I) as (a&b&->&Na). exists (c :: a), b. split; [reflexivity|]. intros [J|J]; [congruence|auto].
Qed.
Lemma set_none_before x2 o g1 g2 u :
  x2 <> [] -> (forall a g b, gap g -> x2 <> a ++ chars "::=" ++ g ++ chars "{" ++ b) -> (forall a c, x2 = a ++ [c] -> is_name_char c = false) ->
  forallb (fun c => is_gap_char c || (33 <=? c)%N) x2 = true ->
  name (o_name o) -> class_name (o_class o) -> gap1 g1 -> gap g2 ->
  matches set_re (x2 ++ o_name o ++ g1 ++ o_class o ++ g2 ++ codes "::=" ++ u) = None.
Proof.
  intros Nx Ho Hl Hx Hn Hc G1 G2. apply matches_none. intros gs r R.
  apply reads_set_re in R as (w&s1&c&s2&s3&z&E&_&Hw&H1&Hcc&H2&H3&Nw&N1&Nc).
  assert (NC : ~ In 58%N (w ++ s1 ++ c ++ s2)).
  { rewrite !in_app_iff. intros [I|[I|[I|I]]].
    - exact (not_in_class word 58%N w eq_refl Hw I).
    - exact (not_in_class space 58%N s1 eq_refl H1 I).
    - exact (not_in_class caps 58%N c eq_refl Hcc I).
    - exact (not_in_class space 58%N s2 eq_refl H2 I). }
  destruct (in_dec N.eq_dec 58%N x2) as [I|NI].
  - destruct (first_colon _ I) as (p&q&Ex&Np).
    assert (E' : p ++ 58%N :: (q ++ o_name o ++ g1 ++ o_class o ++ g2 ++ codes "::=" ++ u) = (w ++ s1 ++ c ++ s2) ++ 58%N :: (58%N :: 61%N :: s3 ++ 123%N :: z)).
    { rewrite Ex in E. rewrite <- app_assoc in E. cbn [app] in E. rewrite E, <- !app_assoc. reflexivity. }
    apply app_cons_split in E' as [-> E']; [|exact Np|exact NC].
    destruct Hn as [Fn Nn]. destruct (o_name o) as [|n0 n]; [now destruct Nn|]. cbn [forallb] in Fn. apply andb_prop in Fn as [Fn _].
    change (58%N :: 61%N :: s3 ++ 123%N :: z) with ((58%N :: 61%N :: s3) ++ 123%N :: z) in E'.
    apply app_eq_app in E' as (e&[[E1 E2]|[E1 E2]]).
    + destruct e as [|e0 e]; [injection E2 as E2 _; subst n0; discriminate Fn|]. injection E2 as <- E2.
      apply (Ho (w ++ s1 ++ c ++ s2) s3 e).
      * apply (gap_other x2 s3 Hx H3). intros y Iy. rewrite Ex, E1. apply in_or_app. right. right. apply in_or_app. left. right. now right.
      * rewrite Ex, E1. rewrite <- !app_assoc. reflexivity.
    + destruct e as [|e0 e]; [injection E2 as E2 _; subst n0; discriminate Fn|]. injection E2 as <- E2.
      assert (J : In n0 (58%N :: 61%N :: s3)) by (rewrite E1; apply in_or_app; right; now left).
      destruct J as [J|[J|J]]; [subst n0; discriminate Fn|subst n0; discriminate Fn|].
      rewrite forallb_forall in H3. apply H3 in J. apply name_word, word_not_space in Fn. congruence.
  - assert (E' : (x2 ++ o_name o ++ g1 ++ o_class o ++ g2) ++ 58%N :: (58%N :: 61%N :: u) = (w ++ s1 ++ c ++ s2) ++ 58%N :: (58%N :: 61%N :: s3 ++ 123%N :: z)).
    { rewrite <- !app_assoc. exact E. }
    apply app_cons_split in E' as [E' _]; [| |exact NC].
    + destruct (exists_last Nx) as (x&k&->). specialize (Hl x k eq_refl).
      assert (Wk : word k = false) by (destruct (word k) eqn:W; [apply word_name in W; congruence|reflexivity]).
      pose proof (begins_prefix true x k (o_name o ++ g1 ++ o_class o ++ g2) Wk) as B. rewrite E' in B.
      pose proof (proj2 Hn) as Nn. apply name_words in Hn as [Fn _]. destruct G1 as [G1 M1]. apply gap_spaces in G1.
      assert (Fc : forallb word (o_class o) = true) by (apply class_capss in Hc as [Fc _]; revert Fc; apply forallb_imp; exact caps_word).
      rewrite begins_words in B; [|exact Fn|exact Nn].
      rewrite begins_spaces in B by assumption. rewrite begins_words in B; [|exact Fc|apply Hc].
      rewrite begins_words in B by assumption. rewrite begins_spaces in B by assumption.
      rewrite begins_words in B; [|revert Hcc; apply forallb_imp; exact caps_word|exact Nc].
      destruct s2 as [|q s2]; [cbn in B; clear -B; lia|]. rewrite <- (app_nil_r (q :: s2)), begins_spaces in B; [cbn in B; clear -B; lia|exact H2|discriminate].
    + rewrite !in_app_iff. intros [I|[I|[I|[I|I]]]]; [now apply NI| | | |].
      * apply name_words in Hn as [F _]. exact (not_in_class word 58%N _ eq_refl F I).
      * exact (not_in_class is_gap_char 58%N _ eq_refl (proj1 G1) I).
      * apply class_capss in Hc as [F _]. exact (not_in_class caps 58%N _ eq_refl F I).
      * exact (not_in_class is_gap_char 58%N _ eq_refl G2 I).
Qed.

(* a set whose line does not end behind its brace *)
Lemma head_cases n g1 cls g2 x1 h : name n -> gap1 g1 -> class_name cls -> gap g2 -> n ++ g1 ++ cls ++ g2 = x1 ++ h ->
  (exists c r, h = c :: r /\ word c = true) -> begins true h = 1 -> exists n', h = n' ++ g1 ++ cls ++ g2 /\ forallb word n' = true.
Proof.
  intros Hn [G1 N1] Hc G2 E (c&r&Eh&Wc) B. apply name_words in Hn as [Fn _].
  assert (Fc : forallb word cls = true) by (apply class_capss in Hc as [Fc _]; revert Fc; apply forallb_imp; exact caps_word).
  assert (B2 : forall p, begins p g2 = 0).
  { intros p. destruct g2 as [|q g2]; [reflexivity|]. rewrite <- (app_nil_r (q :: g2)), begins_spaces; [reflexivity|now apply gap_spaces|discriminate]. }
  apply app_eq_app in E as (e&[[E1 E2]|[E1 E2]]).
  - exists e. split; [exact E2|]. rewrite E1 in Fn. exact (suffix_forallb _ _ _ Fn).
  - exfalso. apply app_eq_app in E2 as (f&[[E3 E4]|[E3 E4]]).
    + destruct f as [|q f].
      * cbn [app] in E4. rewrite E4 in B. rewrite begins_words in B; [|exact Fc|apply Hc]. rewrite B2 in B. discriminate.
      * rewrite E4 in Eh. injection Eh as -> _. unfold gap in G1. rewrite E3, forallb_app in G1. apply andb_prop in G1 as [_ G1].
        cbn [forallb] in G1. apply andb_prop in G1 as [G1 _]. apply gap_not_word in G1. congruence.
    + apply app_eq_app in E4 as (k&[[E5 E6]|[E5 E6]]).
      * destruct k as [|q k].
        -- cbn [app] in E6. rewrite E6, B2 in B. discriminate.
        -- rewrite E6 in B. rewrite begins_words in B; [|rewrite E5 in Fc; exact (suffix_forallb _ _ _ Fc)|discriminate]. rewrite B2 in B. discriminate.
      * rewrite E6 in G2. apply suffix_forallb in G2. rewrite Eh in G2. cbn [forallb] in G2. apply andb_prop in G2 as [G2 _]. apply gap_not_word in G2. congruence.
Qed.
Lemma head_facts w s1 c s2 : forallb word w = true -> forallb space s1 = true -> forallb caps c = true -> forallb space s2 = true ->
  w <> [] -> s1 <> [] -> c <> [] ->
  ~ In 58%N (w ++ s1 ++ c ++ s2) /\ ~ In 125%N (w ++ s1 ++ c ++ s2) /\ begins true (w ++ s1 ++ c ++ s2) = 1 /\
  exists c0 r, w ++ s1 ++ c ++ s2 = c0 :: r /\ word c0 = true.
Proof.
  intros Hw H1 Hc H2 Nw N1 Nc.
  assert (NI : forall k, word k = false -> space k = false -> caps k = false -> ~ In k (w ++ s1 ++ c ++ s2)).
  { intros k K1 K2 K3. rewrite !in_app_iff. intros [I|[I|[I|I]]].
    - exact (not_in_class word k w K1 Hw I).
    - exact (not_in_class space k s1 K2 H1 I).
    - exact (not_in_class caps k c K3 Hc I).
    - exact (not_in_class space k s2 K2 H2 I). }
  split; [now apply NI|]. split; [now apply NI|]. split.
  - rewrite begins_words by assumption. rewrite begins_spaces by assumption. rewrite begins_words; [|revert Hc; apply forallb_imp; exact caps_word|exact Nc].
    destruct s2 as [|q s2]; [reflexivity|]. rewrite <- (app_nil_r (q :: s2)), begins_spaces; [reflexivity|exact H2|discriminate].
  - destruct w as [|c0 w]; [now destruct Nw|]. cbn [forallb] in Hw. apply andb_prop in Hw as [Hw _]. cbn [app]. eauto.
Qed.
Lemma open_none o b g1 g2 g3 g4 g5 rest :
  name (o_name o) -> class_name (o_class o) -> body_written (o_ies o) b ->
  gap1 g1 -> gap g2 -> gap g3 -> gap1 g4 -> gap1 g5 -> (forall x y, b ++ g5 <> x ++ chars "}" ++ 10%N :: y) ->
  quiet rest -> (forall r, rest <> 10%N :: r) -> forall x1 x2,
  o_name o ++ g1 ++ o_class o ++ g2 ++ codes "::=" ++ g3 ++ codes "{" ++ g4 ++ b ++ g5 ++ codes "}" = x1 ++ x2 -> x2 <> [] ->
  matches set_re (x2 ++ rest) = None.
Proof.
  intros Hn Hc Hb G1 G2 G3 G4 G5 NB Q NL x1 x2 E N. apply matches_none. intros gs r R.
  apply reads_set_re in R as (w&s1&c&s2&s3&z&ER&(p&y&Ez&Np)&Hw&H1&Hcc&H2&H3&Nw&N1&Nc).
  destruct (head_facts w s1 c s2 Hw H1 Hcc H2 Nw N1 Nc) as (NC&NB2&B&S). remember (w ++ s1 ++ c ++ s2) as H eqn:EH.
  assert (ER' : x2 ++ rest = H ++ 58%N :: 58%N :: 61%N :: s3 ++ 123%N :: z) by (rewrite ER, EH, <- !app_assoc; reflexivity).
  destruct (body_set _ _ Hb) as (Sb&_&_).
  assert (CB : ~ In 58%N (g3 ++ codes "{" ++ g4 ++ b ++ g5 ++ codes "}")).
  { rewrite !in_app_iff. intros [I|[I|[I|[I|[I|I]]]]].
    - exact (not_in_class is_gap_char 58%N _ eq_refl G3 I).
    - destruct I as [I|[]]; discriminate.
    - exact (not_in_class is_gap_char 58%N _ eq_refl (proj1 G4) I).
    - exact (set_no_colon _ Sb I).
    - exact (not_in_class is_gap_char 58%N _ eq_refl (proj1 G5) I).
    - destruct I as [I|[]]; discriminate. }
  destruct (in_dec N.eq_dec 58%N x2) as [I|NI].
  - destruct (first_colon _ I) as (h&q&Ex&Nh).
    assert (Eh : h = H /\ q ++ rest = 58%N :: 61%N :: s3 ++ 123%N :: z).
    { apply (app_cons_split 58%N); [|exact Nh|exact NC]. rewrite <- ER', Ex, <- app_assoc. reflexivity. }
    destruct Eh as [-> Eq].
    (* the head is in front of the assignment *)
    assert (EE : (o_name o ++ g1 ++ o_class o ++ g2) ++ 58%N :: 58%N :: 61%N :: g3 ++ codes "{" ++ g4 ++ b ++ g5 ++ codes "}" = (x1 ++ H) ++ 58%N :: q).
    { rewrite Ex in E. rewrite <- (app_assoc x1). eapply eq_trans; [|exact E]. rewrite <- !app_assoc. reflexivity. }
    assert (NH : ~ In 58%N (o_name o ++ g1 ++ o_class o ++ g2)).
    { rewrite !in_app_iff. intros [J|[J|[J|J]]].
      - apply name_words in Hn as [F _]. exact (not_in_class word 58%N _ eq_refl F J).
      - exact (not_in_class is_gap_char 58%N _ eq_refl (proj1 G1) J).
      - apply class_capss in Hc as [F _]. exact (not_in_class caps 58%N _ eq_refl F J).
      - exact (not_in_class is_gap_char 58%N _ eq_refl G2 J). }
    destruct S as (c0&r0&Ec0&Wc0).
    assert (K : o_name o ++ g1 ++ o_class o ++ g2 = x1 ++ H /\ q = 58%N :: 61%N :: g3 ++ codes "{" ++ g4 ++ b ++ g5 ++ codes "}").
    { destruct (in_dec N.eq_dec 58%N (x1 ++ H)) as [J|NJ]; [exfalso|].
      - (* a colon before: then the head would begin with a colon or with what follows *)
        destruct (first_colon _ J) as (a&a'&Ea&Na). rewrite Ea, <- (app_assoc a) in EE. cbn [app] in EE.
        apply app_cons_split in EE as [_ EE]; [|exact NH|exact Na].
        apply in_app_or in J as [J|J]; [|now apply NC].
        assert (T : exists a'', a' = a'' ++ H).
        { clear -Ea NC. revert a Ea. induction x1 as [|k x1 IH]; intros a Ea.
          - cbn [app] in Ea. destruct NC. rewrite Ea. apply in_or_app. right. now left.
          - destruct a as [|k' a].
            + injection Ea as _ <-. now exists x1.
            + injection Ea as _ Ea. exact (IH a Ea). }
        destruct T as (a''&->). rewrite <- app_assoc in EE.
        destruct a'' as [|k a'']; [cbn [app] in EE; rewrite Ec0 in EE; injection EE as <- _; discriminate Wc0|].
        injection EE as <- EE. destruct a'' as [|k a'']; [cbn [app] in EE; rewrite Ec0 in EE; injection EE as <- _; discriminate Wc0|].
        injection EE as <- EE. apply CB. change (In 58%N (g3 ++ 123%N :: g4 ++ b ++ g5 ++ [125%N])). rewrite EE. rewrite app_assoc. apply in_or_app. right. now left.
      - apply (app_cons_split 58%N) in EE; [|exact NH|exact NJ]. destruct EE as [EE1 EE2]. auto. }
    destruct K as [K1 ->].
    assert (Z : z = g4 ++ b ++ g5 ++ codes "}" ++ rest).
    { assert (Eq' : g3 ++ 123%N :: (g4 ++ b ++ g5 ++ codes "}" ++ rest) = s3 ++ 123%N :: z).
      { injection Eq as Eq. rewrite <- Eq, <- !app_assoc. cbn [app codes]. rewrite <- !app_assoc. reflexivity. }
      apply (app_cons_split 123%N) in Eq' as [_ Eq'].
      - symmetry. exact Eq'.
      - exact (not_in_class is_gap_char 123%N _ eq_refl G3).
      - exact (not_in_class space 123%N _ eq_refl H3). }
    rewrite Ez in Z.
    assert (Z' : p ++ 125%N :: 10%N :: y = (g4 ++ b ++ g5) ++ 125%N :: rest) by (rewrite <- !app_assoc; exact Z).
    apply app_eq_app in Z' as (e&[[E1 E2]|[E1 E2]]).
    + destruct e as [|e0 e]; [injection E2 as E2; exact (NL _ E2)|]. injection E2 as <- E2.
      apply Np. rewrite E1. apply in_or_app. right. right. exact (Q e (10%N :: y) E2).
    + destruct e as [|e0 e]; [injection E2 as E2; exact (NL _ (eq_sym E2))|]. injection E2 as <- E2.
      destruct e as [|e1 e]; [discriminate E2|]. injection E2 as <- E2.
      apply app_eq_app in E1 as (f&[[E3 E4]|[E3 E4]]).
      * destruct f as [|f0 f].
        -- cbn [app] in E4. exact (NB [] e (eq_sym E4)).
        -- injection E4 as <- _. destruct G4 as [G4 _]. unfold gap in G4. rewrite E3, forallb_app in G4. apply andb_prop in G4 as [_ G4]. discriminate.
      * exact (NB f e E4).
  - apply app_eq_app in ER' as (e&[[E1 E2]|[E1 E2]]).
    + destruct e as [|e0 e]; [|injection E2 as <- _; apply NI; rewrite E1; apply in_or_app; right; now left].
      rewrite app_nil_r in E1. apply NB2. rewrite <- E1.
      destruct (exists_last N) as (x&k&->). assert (k = 125%N) as ->; [|apply in_or_app; right; now left].
      rewrite !app_assoc in E. apply app_inj_tail in E as [_ E]. symmetry. exact E.
    + apply NB2. rewrite E1. apply in_or_app. left.
      destruct (exists_last N) as (x&k&->). assert (k = 125%N) as ->; [|apply in_or_app; right; now left].
      rewrite !app_assoc in E. apply app_inj_tail in E as [_ E]. symmetry. exact E.
Qed.

(* one entry of findall for each set *)
Definition seen (o : obj_set) (gs : list text) : Prop := exists body, gs = [o_name o; o_class o; body] /\ ies_of body = map entry (one_line_ies o).
Lemma gap_removelast g : gap g -> gap (removelast g).
Proof.
  intros G. destruct g as [|c g]; [reflexivity|]. destruct (exists_last (l := c :: g)) as (x&y&E); [discriminate|]. rewrite E in *. rewrite removelast_last.
  unfold gap in *. rewrite forallb_app in G. now apply andb_prop in G as [G _].
Qed.
Lemma file_read l t : file_written l t -> Forall2 seen (filter o_ends_line l) (findall set_re t).
Proof.
  induction 1 as [t H|o l before t rest Hb Ht Q NL Hr IH].
  - rewrite findall_empty; [constructor|]. intros x1 x2 -> N. apply set_none_end. destruct H as (H1&H2&H3). split; [|split].
    + intros a g b G E. apply (H1 (x1 ++ a) g b G). rewrite E, <- !app_assoc. reflexivity.
    + intros a c E. apply (H2 (x1 ++ a) c). rewrite E, app_assoc. reflexivity.
    + exact (suffix_forallb _ _ _ H3).
  - assert (PB : findall set_re (before ++ t ++ rest) = findall set_re (t ++ rest)).
    { assert (X : exists g1 g2 u, t = o_name o ++ g1 ++ o_class o ++ g2 ++ codes "::=" ++ u /\ name (o_name o) /\ class_name (o_class o) /\ gap1 g1 /\ gap g2).
      { destruct Ht; eexists g1, g2, _; repeat split; try apply H; try apply H0; try apply H2; try exact H3; reflexivity. }
      destruct X as (g1&g2&u&->&Hn&Hc&G1&G2). apply findall_pass. intros x1 x2 -> N. destruct Hb as (H1&H2&H3).
      rewrite <- !app_assoc. apply set_none_before; try assumption.
      - intros a g b' G E. apply (H1 (x1 ++ a) g b' G). rewrite E, <- !app_assoc. reflexivity.
      - intros a c E. apply (H2 (x1 ++ a) c). rewrite E, app_assoc. reflexivity.
      - exact (suffix_forallb _ _ _ H3). }
    rewrite PB. clear PB. destruct Ht as [o b g1 g2 g3 g4 g5 Hn Hc Hbody G1 G2 G3 G4 G5 EL|o b g1 g2 g3 g4 g5 Hn Hc Hbody G1 G2 G3 G4 G5 EL NB]; cbn [filter]; rewrite EL.
    + pose proof (set_match o b g1 g2 g3 g4 g5 rest Hn Hc Hbody G1 G2 G3 G4 G5 Q) as M.
      match goal with |- context [findall set_re (?x ++ rest)] => set (X := x) end.
      assert (MX : matches set_re (X ++ rest) = Some ([o_name o; o_class o; b ++ removelast g5], rest)).
      { eapply eq_trans; [|exact M]. f_equal. unfold X. rewrite <- !app_assoc. reflexivity. }
      rewrite (findall_match' _ _ X rest _ MX eq_refl).
      * constructor; [|exact IH]. eexists. split; [reflexivity|]. apply body_read; [exact Hbody|]. apply gap_removelast, G5.
      * unfold X. destruct Hn as [_ Nn]. destruct (o_name o); [now destruct Nn|discriminate].
    + rewrite findall_pass; [exact IH|]. intros x1 x2 E N. exact (open_none o b g1 g2 g3 g4 g5 rest Hn Hc Hbody G1 G2 G3 G4 G5 NB Q (NL EL) x1 x2 E N).
Qed.

(* ---------------- comments, extensions, the dictionary ---------------- *)
Lemma find_unfold s t : find s t = if starts s t then Some 0 else match t with [] => None | _ :: t' => option_map S (find s t') end.
Proof. destruct t; reflexivity. Qed.
Lemma find_contains s t : find s t = None <-> contains s t = false.
Proof.
  induction t as [|c t IH]; rewrite find_unfold; cbn [contains].
  - destruct (starts s []); split; [discriminate|discriminate|reflexivity|reflexivity].
  - destruct (starts s (c :: t)); cbn [orb]; [split; discriminate|]. rewrite <- IH. destruct (find s t); cbn; split; congruence.
Qed.
Lemma clean_uncommented line t : uncommented line t -> clean line = t.
Proof.
  intros [CR H]. unfold clean.
  assert (F : filter (fun c => negb (c =? 13)%N) t = t).
  { clear H. induction t as [|c t IH]; [reflexivity|]. cbn [filter]. destruct (N.eqb_spec c 13) as [->|N]; [destruct CR; now left|].
    cbn [negb]. f_equal. apply IH. intros I. apply CR. now right. }
  destruct H as [[-> H]|(c&->&H)].
  - apply find_contains in H. change (codes "--") with (chars "--"). rewrite H. exact F.
  - assert (E : find (codes "--") (t ++ chars "--" ++ c) = Some (List.length t)).
    { clear CR F. induction t as [|x t IH]; [reflexivity|]. rewrite find_unfold. cbn [app contains] in H. apply orb_false_elim in H as [H1 H2].
      assert (S1 : starts (codes "--") ((x :: t) ++ chars "--" ++ c) = false).
      { change (codes "--") with [45%N; 45%N]. change (chars "--") with [45%N; 45%N] in H1 |- *. change (chars "-") with [45%N] in H1.
        destruct t as [|y t]; cbn [app starts] in H1 |- *; exact H1. }
      rewrite S1. cbn [app]. rewrite (IH H2). reflexivity. }
    rewrite E, firstn_app, firstn_all. replace (List.length t - List.length t) with 0 by lia. cbn [firstn]. rewrite app_nil_r. exact F.
Qed.
Lemma read_uncommented lines ts : Forall2 uncommented lines ts -> read_lines lines = List.concat ts.
Proof. unfold read_lines. induction 1 as [|x y l l' H Hl IH]; [reflexivity|]. cbn [map List.concat]. now rewrite (clean_uncommented _ _ H), IH. Qed.
Lemma teq_eq a b : teq a b = true <-> a = b.
Proof.
  revert b. induction a as [|x a IH]; intros [|y b]; cbn [teq]; try (split; discriminate || reflexivity).
  rewrite andb_true_iff, N.eqb_eq, IH. split; [intros [-> ->]; reflexivity|intros E; injection E; auto].
Qed.
Lemma put_new {A} k (v : A) d : ~ In k (map fst d) -> put k v d = d ++ [(k, v)].
Proof.
  induction d as [|[k' v'] d IH]; intros N; [reflexivity|]. cbn [put]. destruct (teq k k') eqn:E.
  - apply teq_eq in E as ->. destruct N. now left.
  - cbn [app]. f_equal. apply IH. intros I. apply N. now right.
Qed.
Definition set_row (o : obj_set) : text * list found := (o_name o, map entry (one_line_ies o)).
Definition keeps (o : obj_set) : bool := negb (extension o) && negb (match one_line_ies o with [] => true | _ => false end).
Lemma keeps_useful l : filter keeps (filter o_ends_line l) = filter useful l.
Proof.
  induction l as [|o l IH]; [reflexivity|]. cbn [filter]. unfold useful at 1. rewrite <- andb_assoc. fold (keeps o).
  destruct (o_ends_line o); cbn [andb filter]; [destruct (keeps o)|]; rewrite IH; reflexivity.
Qed.
Lemma add_sets l gss : Forall2 seen l gss -> forall s,
  NoDup (map fst (t_defs s) ++ map o_name (filter keeps l)) ->
  t_defs (fold_left add_set gss s) = t_defs s ++ map set_row (filter keeps l) /\ t_lists (fold_left add_set gss s) = t_lists s.
Proof.
  induction 1 as [|o gs l gss (body&->&B) Hl IH]; intros s ND; [cbn; now rewrite app_nil_r|].
  cbn [fold_left filter]. unfold add_set at 2 4. unfold keeps, extension in *. cbn [filter] in ND.
  destruct (find (codes "EXTENSION") (o_class o)) eqn:F.
  - assert (C : contains (chars "EXTENSION") (o_class o) = true).
    { destruct (contains (chars "EXTENSION") (o_class o)) eqn:C; [reflexivity|]. apply find_contains in C. change (chars "EXTENSION") with (codes "EXTENSION") in C. congruence. }
    rewrite C in ND |- *. cbn [negb andb] in ND |- *. exact (IH s ND).
  - apply find_contains in F. change (codes "EXTENSION") with (chars "EXTENSION") in F. rewrite F in ND |- *. cbn [negb andb] in ND |- *.
    rewrite B. destruct (one_line_ies o) as [|d ds] eqn:O; cbn [negb andb map] in ND |- *.
    + exact (IH (mkTables _ _ _) ND).
    + destruct (IH (mkTables (put (o_name o) (entry d :: map entry ds) (t_defs s)) (t_lists s)
        (match t_prefix s with [] => lower (match find (codes "-") (o_class o) with Some k => firstn k (o_class o) | None => removelast (o_class o) end) | p => p end))) as [E1 E2].
      * cbn [t_defs]. rewrite put_new.
        -- rewrite map_app, <- app_assoc. exact ND.
        -- apply NoDup_remove_2 in ND. intros I. apply ND. apply in_or_app. now left.
      * rewrite E1, E2. cbn [t_defs t_lists]. rewrite put_new.
        -- rewrite <- app_assoc. unfold set_row at 2. rewrite O. auto.
        -- apply NoDup_remove_2 in ND. intros I. apply ND. apply in_or_app. now left.
Qed.
Lemma add_lists gss : forall s, t_defs (fold_left add_list gss s) = t_defs s /\ t_prefix (fold_left add_list gss s) = t_prefix s.
Proof.
  induction gss as [|gs gss IH]; intros s; [auto|]. cbn [fold_left]. destruct (IH (add_list s gs)) as [-> ->].
  destruct gs as [|a [|b [|c gs]]]; auto.
Qed.
Lemma tables_read lines ts sets : Forall2 uncommented lines ts -> file_written sets (List.concat ts) -> NoDup (map o_name (filter useful sets)) ->
  generate_tables [lines] = None /\ filter useful sets = [] \/
  exists T, generate_tables [lines] = Some T /\ t_defs T = map set_row (filter useful sets).
Proof.
  intros U W ND. unfold generate_tables. cbn [fold_left add_file fst snd app]. rewrite (read_uncommented _ _ U). unfold add_text.
  set (s := fold_left add_list _ _). assert (D : t_defs s = []).
  { unfold s. rewrite (proj1 (add_lists _ _)), (proj1 (add_lists _ _)). reflexivity. }
  destruct (add_sets _ _ (file_read _ _ W) s) as [E _]; [rewrite D, keeps_useful; exact ND|]. rewrite D, keeps_useful in E. cbn [app] in E.
  destruct (t_defs (fold_left add_set (findall set_re (List.concat ts)) s)) as [|x y] eqn:X.
  - left. split; [reflexivity|]. destruct (filter useful sets); [reflexivity|discriminate].
  - right. eexists. split; [reflexivity|]. rewrite X. exact E.
Qed.
