(* Proofs: the lists that the generator reads *)
From Verif Require Import Base Regex Generator Generator_spec Generator_lists_spec Generator_proofs Generator_more.
From Coq Require Import String Ascii Lia ZifyBool ZifyN ZifyNat.
Local Open Scope nat_scope.
Local Open Scope list_scope.

Lemma reads_group f min p t gs r : reads (Rep f min true :: p) t gs r ->
  exists a b gs', t = a ++ b /\ gs = a :: gs' /\ forallb f a = true /\ min <= List.length a /\ reads p b gs' r.
Proof. intros H. inversion H; subst. eauto 10. Qed.
Lemma reads_plain f min p t gs r : reads (Rep f min false :: p) t gs r ->
  exists a b, t = a ++ b /\ forallb f a = true /\ min <= List.length a /\ reads p b gs r.
Proof. intros H. inversion H; subst. eauto 10. Qed.
Lemma len1 {A} (l : list A) : 1 <= List.length l <-> l <> [].
Proof. destruct l; cbn; split; intros; try lia; congruence. Qed.
Lemma word_eq c : word c = is_name_char c.
Proof. unfold word, is_name_char, is_class_char, small, capital, digit, is_capital. lia. Qed.
Lemma words_name l : forallb word l = true <-> forallb is_name_char l = true.
Proof. split; apply forallb_imp; intros c; rewrite word_eq; auto. Qed.

(* ---------------- any expression for such definitions ---------------- *)
Section Any.
Context (p : list item) (W : list N -> list N -> list N -> Prop).
Context (F1 : forall t gs r, reads p t gs r -> exists n s x, gs = [n; s] /\ t = x ++ r /\ W n s x).
Context (F2 : forall n s x r, W n s x -> matches p (x ++ r) = Some ([n; s], r)).
Context (F3 : forall n s x, W n s x -> exists g y, x = n ++ g ++ 58%N :: 58%N :: 61%N :: y ++ [125%N] /\ name n /\ forallb space g = true /\ ~ In 58%N y).
Context (F4 : forall n s x c, W n s x -> is_name_char c = true -> W (c :: n) s (c :: x)).

Definition ends (a : text) : Prop := forall a' c, a = a' ++ [c] -> is_name_char c = false.
Lemma ends_nil : ends [].
Proof. intros [|? ?] c E; discriminate. Qed.
Lemma ends_suffix x a : ends (x ++ a) -> ends a.
Proof. intros H a' c ->. apply (H (x ++ a') c). now rewrite app_assoc. Qed.
Lemma ends_snoc a c : is_name_char c = false -> ends (a ++ [c]).
Proof. intros H a' c' E. apply app_inj_tail in E as [_ <-]. exact H. Qed.
Lemma W_nonempty n s x : W n s x -> x <> [].
Proof. intros H. destruct (F3 _ _ _ H) as (g&y&->&[_ N]&_). destruct n; [now destruct N|discriminate]. Qed.

Lemma name_no_colon n : name n -> ~ In 58%N n.
Proof. intros [H _]. exact (not_in_class is_name_char 58%N n eq_refl H). Qed.
Lemma white_no_colon g : forallb space g = true -> ~ In 58%N g.
Proof. exact (not_in_class space 58%N g eq_refl). Qed.

(* two definitions do not overlap *)
Lemma apart n s x n' s' x' a z b r : W n s x -> W n' s' x' -> a <> [] -> ends a -> x' = a ++ z -> z <> [] -> x ++ b = z ++ r -> False.
Proof.
  intros H H' Na Ea Ez Nz E. destruct (F3 _ _ _ H) as (g&y&Ex&Hn&Hg&Hy), (F3 _ _ _ H') as (g'&y'&Ex'&Hn'&Hg'&Hy').
  (* z ends in a closing brace, so that the colon of x is in it *)
  assert (Z : exists z1, z = z1 ++ [125%N]).
  { rewrite Ex' in Ez. destruct (exists_last Nz) as (z1&l&->). exists z1. f_equal. f_equal.
    rewrite (app_assoc a), (app_assoc n'), !app_comm_cons, (app_assoc (n' ++ g')) in Ez. now apply app_inj_tail in Ez as [_ <-]. }
  destruct Z as (z1&->). rewrite Ex in E. rewrite <- !app_assoc in E.
  assert (C : exists z2, z1 ++ [125%N] = n ++ g ++ 58%N :: z2).
  { rewrite (app_assoc n) in E. set (h := n ++ g) in *. assert (Hh : ~ In 125%N h).
    { unfold h. rewrite in_app_iff. intros [I|I]; [exact (not_in_class is_name_char 125%N n eq_refl (proj1 Hn) I)|exact (not_in_class space 125%N g eq_refl Hg I)]. }
    cut (exists z2, z1 ++ [125%N] = h ++ 58%N :: z2); [intros (z2&K); exists z2; rewrite K; unfold h; now rewrite <- app_assoc|].
    clear - E Hh. revert z1 E. induction h as [|c h IH]; intros z1 E.
    - destruct z1 as [|d z1]; cbn [app] in E; [discriminate|]. injection E as <- _. exists (z1 ++ [125%N]). reflexivity.
    - destruct z1 as [|d z1]; cbn [app] in E.
      + injection E as -> _. destruct Hh. now left.
      + injection E as -> E. destruct (IH (fun I => Hh (or_intror I)) z1 E) as (z2&K). exists z2. cbn [app]. now rewrite K. }
  destruct C as (z2&C). rewrite C in Ez. rewrite Ex' in Ez.
  assert (H0 : ~ In 58%N (n' ++ g')) by (rewrite in_app_iff; intros [I|I]; [exact (name_no_colon _ Hn' I)|exact (white_no_colon _ Hg' I)]).
  assert (H1 : ~ In 58%N (n ++ g)) by (rewrite in_app_iff; intros [I|I]; [exact (name_no_colon _ Hn I)|exact (white_no_colon _ Hg I)]).
  destruct (in_dec N.eq_dec 58%N a) as [I|I].
  - apply first_colon in I as (a1&a2&->&Na1). rewrite <- app_assoc in Ez. cbn [app] in Ez. rewrite (app_assoc n') in Ez.
    apply app_cons_split in Ez as [_ Ez]; [|assumption|assumption]. destruct a2 as [|c a2]; cbn [app] in Ez.
    + destruct Hn as [Hn Nn]. destruct n as [|c n]; [now destruct Nn|]. cbn [app] in Ez. injection Ez as <- _. discriminate.
    + injection Ez as _ Ez. assert (J : In 58%N (61%N :: y' ++ [125%N])) by (rewrite Ez, !in_app_iff; cbn [In]; tauto).
      cbn [In] in J. rewrite in_app_iff in J. cbn [In] in J. destruct J as [J|[J|[J|[]]]]; try discriminate. contradiction.
  - rewrite (app_assoc n'), (app_assoc n), (app_assoc a) in Ez. apply app_cons_split in Ez as [Ez _]; [|assumption|rewrite in_app_iff; tauto].
    (* the first character of n is in n', so a is a part of a name *)
    destruct (exists_last Na) as (a'&c&->). specialize (Ea a' c eq_refl). destruct Hn as [Hn Nn]. destruct n as [|d n]; [now destruct Nn|].
    cbn [forallb] in Hn. apply andb_prop in Hn as [Hd _]. rewrite <- app_assoc in Ez. cbn [app] in Ez. destruct Hn' as [Hn' _]. clear - Ez Ea Hd Hn' Hg'.
    revert n' Hn' Ez. induction a' as [|e a' IH]; intros n' Hn' Ez; cbn [app] in Ez.
    + destruct n' as [|k n']; cbn [app] in Ez.
      * subst g'. cbn [forallb] in Hg'. apply andb_prop in Hg' as [_ Hg']. apply andb_prop in Hg' as [Hg' _]. rewrite <- word_eq in Hd. rewrite (word_not_space _ Hd) in Hg'. discriminate.
      * injection Ez as -> _. cbn [forallb] in Hn'. apply andb_prop in Hn' as [K _]. congruence.
    + destruct n' as [|k n']; cbn [app] in Ez.
      * assert (J : In d g') by (rewrite Ez; cbn [In]; rewrite in_app_iff; cbn [In]; tauto). rewrite forallb_forall in Hg'. apply Hg' in J.
        rewrite <- word_eq in Hd. rewrite (word_not_space _ Hd) in J. discriminate.
      * injection Ez as -> Ez. cbn [forallb] in Hn'. apply andb_prop in Hn' as [_ K]. exact (IH n' K Ez).
Qed.

Lemma found_all : forall k t, List.length t <= k -> forall a x b n s, t = a ++ x ++ b -> W n s x -> ends a -> exists l, findall p t = l ++ [n; s] :: findall p b.
Proof.
  induction k as [|k IH]; intros t L a x b n s E H Ea.
  { exfalso. pose proof (W_nonempty _ _ _ H) as Nx. destruct x; [now destruct Nx|]. subst t. rewrite !app_length in L. cbn in L. lia. }
  destruct a as [|c a].
  - subst t. cbn [app]. rewrite (findall_match' p (x ++ b) x b [n; s] (F2 n s x b H) eq_refl (W_nonempty _ _ _ H)). now exists [].
  - subst t. destruct (matches p ((c :: a) ++ x ++ b)) as [[gs r]|] eqn:M.
    + apply matches_sound in M as R. apply F1 in R as (n'&s'&x'&->&E'&H'). rewrite (findall_match' p _ x' r _ M E' (W_nonempty _ _ _ H')).
      pose proof (W_nonempty _ _ _ H') as Nx'.
      assert (D : (exists a2, c :: a = x' ++ a2 /\ r = a2 ++ x ++ b) \/ exists z, x' = (c :: a) ++ z /\ z <> [] /\ x ++ b = z ++ r).
      { apply app_eq_app in E' as (l&[[-> ->]|[-> E']]); [left; exists l; auto|]. destruct l as [|l0 l]; [left; exists []; rewrite !app_nil_r; auto|]. right. exists (l0 :: l). repeat split; auto. discriminate. }
      destruct D as [(a2&Ea2&->)|(z&Ez&Nz&E2)].
      * destruct (IH (a2 ++ x ++ b)) with (a := a2) (x := x) (b := b) (n := n) (s := s) as (l&El); [|reflexivity|exact H|rewrite Ea2 in Ea; exact (ends_suffix _ _ Ea)|exists ([n'; s'] :: l); now rewrite El].
        rewrite Ea2 in L. rewrite <- app_assoc, app_length in L. destruct x'; [now destruct Nx'|]. cbn in L. lia.
      * exfalso. refine (apart n s x n' s' x' (c :: a) z b r H H' _ Ea Ez Nz E2). discriminate.
    + cbn [app] in *. rewrite (findall_none p c _ M). apply (IH (a ++ x ++ b)) with (a := a) (x := x) (b := b); [cbn in L; lia|reflexivity|exact H|exact (ends_suffix [c] _ Ea)].
Qed.
Lemma found_only : forall k t, List.length t <= k -> forall a0 gs,
  ends a0 \/ (exists a1 c, a0 = a1 ++ [c] /\ is_name_char c = true /\ matches p (c :: t) = None) ->
  In gs (findall p t) -> exists n s a x b, gs = [n; s] /\ a0 ++ t = a ++ x ++ b /\ W n s x /\ ends a.
Proof.
  induction k as [|k IH]; intros t L a0 gs A I; [destruct t; [destruct I|cbn in L; lia]|].
  destruct t as [|c t]; [destruct I|]. destruct (matches p (c :: t)) as [[gs' r]|] eqn:M.
  - apply matches_sound in M as R. apply F1 in R as (n&s&x&->&E&H). rewrite (findall_match' p _ x r _ M E (W_nonempty _ _ _ H)) in I.
    destruct I as [<-|I].
    + exists n, s, a0, x, r. split; [reflexivity|]. split; [now rewrite E|]. split; [exact H|]. destruct A as [A|(a1&d&->&Hd&Mn)]; [exact A|].
      exfalso. pose proof (F2 _ _ _ r (F4 _ _ _ d H Hd)) as K. cbn [app] in K. rewrite <- E in K. congruence.
    + destruct (IH r) with (a0 := a0 ++ x) (gs := gs) as (n1&s1&a&y&b&Eg&Et&Hy&He); [| |exact I|].
      * rewrite E in L. rewrite app_length in L. pose proof (W_nonempty _ _ _ H) as Nx. destruct x; [now destruct Nx|]. cbn in L. lia.
      * left. destruct (F3 _ _ _ H) as (g&y&->&_). rewrite !app_assoc. change (58%N :: 58%N :: 61%N :: y ++ [125%N]) with ((58%N :: 58%N :: 61%N :: y) ++ [125%N]). rewrite app_assoc. now apply ends_snoc.
      * exists n1, s1, a, y, b. rewrite <- app_assoc, <- E in Et. auto.
  - rewrite (findall_none p c _ M) in I. destruct (IH t) with (a0 := a0 ++ [c]) (gs := gs) as (n1&s1&a&y&b&Eg&Et&Hy&He); [cbn in L; lia| |exact I|].
    + destruct (is_name_char c) eqn:K; [right; eauto|left; now apply ends_snoc].
    + exists n1, s1, a, y, b. rewrite <- app_assoc in Et. auto.
Qed.
Lemma found_iff t gs : In gs (findall p t) <-> exists n s, gs = [n; s] /\ has_definition W t n s.
Proof.
  split.
  - intros I. destruct (found_only _ t (Nat.le_refl _) [] gs (or_introl ends_nil) I) as (n&s&a&x&b&->&E&H&Ea). exists n, s. split; [reflexivity|]. exists a, x, b. auto.
  - intros (n&s&->&a&x&b&E&H&Ea). destruct (found_all _ t (Nat.le_refl _) a x b n s E H Ea) as (l&->). apply in_app_iff. right. now left.
Qed.
End Any.

(* ---------------- the two expressions ---------------- *)
Lemma white_space g : white g <-> forallb space g = true.
Proof. reflexivity. Qed.
Lemma alpha_eq c : alpha_dash c = (is_capital c || (97 <=? c)%N && (c <=? 122)%N || (c =? 45)%N).
Proof. unfold alpha_dash, small, capital, is_capital. lia. Qed.
Lemma stop_word f w b : (forall c, f c = true -> word c = false) -> forallb f w = true -> (w = [] -> stops word b = true) -> stops word (w ++ b) = true.
Proof. intros H F B. destruct w as [|c w]; [now apply B|]. cbn [forallb] in F. apply andb_prop in F as [F _]. cbn. now rewrite (H c F). Qed.
Lemma white_stop f g b : (forall c, space c = true -> f c = false) -> white g -> stops f b = true -> stops f (g ++ b) = true.
Proof. intros H F B. destruct g as [|c w]; [exact B|]. unfold white in F. cbn [forallb] in F. apply andb_prop in F as [F _]. cbn. now rewrite (H c F). Qed.
Lemma space_not_word c : space c = true -> word c = false.
Proof. unfold space, word, small, capital, digit. lia. Qed.
Lemma space_not_digit c : space c = true -> digit c = false.
Proof. unfold space, digit. lia. Qed.
Lemma space_not_alpha c : space c = true -> alpha_dash c = false.
Proof. unfold space, alpha_dash, small, capital. lia. Qed.
Lemma stop_number l b : number l -> stops space (l ++ b) = true.
Proof. intros [F N]. destruct l as [|c l]; [now destruct N|]. cbn [forallb] in F. cbn. unfold space. lia. Qed.
Lemma stop_letters l b : letters l -> stops space (l ++ b) = true.
Proof. intros [F N]. destruct l as [|c l]; [now destruct N|]. cbn [forallb] in F. apply andb_prop in F as [F _]. cbn. unfold space. unfold is_capital in F. lia. Qed.
Lemma number_digits l : number l -> forallb digit l = true /\ 1 <= List.length l.
Proof. intros [F N]. split; [exact F|now apply len1]. Qed.
Lemma letters_alpha l : letters l -> forallb alpha_dash l = true /\ 1 <= List.length l.
Proof. intros [F N]. split; [|now apply len1]. revert F. apply forallb_imp. intros c H. now rewrite alpha_eq. Qed.
Lemma alpha_letters l : forallb alpha_dash l = true -> 1 <= List.length l -> letters l.
Proof. intros F N. split; [|now apply len1]. revert F. apply forallb_imp. intros c H. now rewrite alpha_eq in H. Qed.
Lemma words_to_name l : forallb word l = true -> 1 <= List.length l -> name l.
Proof. intros F N. split; [now apply words_name|now apply len1]. Qed.
Lemma to_white1 g : forallb space g = true -> 1 <= List.length g -> white1 g.
Proof. intros F N. split; [exact F|now apply len1]. Qed.
Lemma of_white1 g : white1 g -> forallb space g = true /\ 1 <= List.length g.
Proof. intros [F N]. split; [exact F|now apply len1]. Qed.

Lemma reads_lit_end s t gs r : reads (lit s) t gs r -> t = codes s ++ r /\ gs = [].
Proof. intros H. rewrite <- (app_nil_r (lit s)) in H. apply reads_lit in H as (t'&->&H). inversion H; subst. auto. Qed.
Ltac next R := first
  [ apply reads_lit in R; destruct R as (?&->&R)
  | apply reads_group in R; let F := fresh "F" in let M := fresh "M" in destruct R as (?&?&?&->&->&F&M&R)
  | apply reads_plain in R; let F := fresh "F" in let M := fresh "M" in destruct R as (?&?&->&F&M&R)
  | apply reads_lit_end in R; destruct R as [-> ->] ].

Lemma seq_app n s lo hi ty g1 g2 g3 g4 g5 g6 g7 g8 g9 g10 g11 g12 g13 g14 g15 g16 g17 (r : list N) :
  n ++ g1 ++ chars "::=" ++ g2 ++ chars "SEQUENCE" ++ g3 ++ chars "(" ++ g4 ++ chars "SIZE" ++ g5 ++ chars "(" ++ g6 ++ lo ++ g7 ++ chars ".." ++ g8 ++ hi ++ g9 ++ chars ")" ++ g10 ++ chars ")" ++ g11 ++ chars "OF" ++ g12 ++ ty ++ g13 ++ chars "{" ++ g14 ++ chars "{" ++ g15 ++ s ++ g16 ++ chars "}" ++ g17 ++ chars "}" ++ r =
  (n ++ g1 ++ chars "::=" ++ g2 ++ chars "SEQUENCE" ++ g3 ++ chars "(" ++ g4 ++ chars "SIZE" ++ g5 ++ chars "(" ++ g6 ++ lo ++ g7 ++ chars ".." ++ g8 ++ hi ++ g9 ++ chars ")" ++ g10 ++ chars ")" ++ g11 ++ chars "OF" ++ g12 ++ ty ++ g13 ++ chars "{" ++ g14 ++ chars "{" ++ g15 ++ s ++ g16 ++ chars "}" ++ g17 ++ chars "}") ++ r.
Proof. rewrite <- !app_assoc. reflexivity. Qed.
Lemma e_rab_app n s g1 g2 g3 g4 g5 g6 g7 (r : list N) :
  n ++ g1 ++ chars "::=" ++ g2 ++ chars "E-RAB-IE-ContainerList" ++ g3 ++ chars "{" ++ g4 ++ chars "{" ++ g5 ++ s ++ g6 ++ chars "}" ++ g7 ++ chars "}" ++ r =
  (n ++ g1 ++ chars "::=" ++ g2 ++ chars "E-RAB-IE-ContainerList" ++ g3 ++ chars "{" ++ g4 ++ chars "{" ++ g5 ++ s ++ g6 ++ chars "}" ++ g7 ++ chars "}") ++ r.
Proof. rewrite <- !app_assoc. reflexivity. Qed.
Lemma seq_reads t gs r : reads seq_of_re t gs r -> exists n s x, gs = [n; s] /\ t = x ++ r /\ sequence_of n s x.
Proof.
  unfold seq_of_re, sp0, sp1. cbn [app]. intros R. do 36 (try next R). rewrite ?codes_chars.
  eexists _, _, _. split; [reflexivity|]. split; [|eapply sequence_of_intro].
  1: apply seq_app.
  all: first [now apply words_to_name | now apply alpha_letters | now apply to_white1 | assumption | (split; [assumption|now apply len1])].
Qed.
Lemma e_rab_reads t gs r : reads e_rab_re t gs r -> exists n s x, gs = [n; s] /\ t = x ++ r /\ container_list_of n s x.
Proof.
  unfold e_rab_re, sp0, sp1. cbn [app]. intros R. do 20 (try next R). rewrite ?codes_chars.
  eexists _, _, _. split; [reflexivity|]. split; [|eapply container_list_intro].
  1: apply e_rab_app.
  all: first [now apply words_to_name | now apply to_white1 | assumption].
Qed.

Lemma lit_end s t : matches (lit s) (codes s ++ t) = Some ([], t).
Proof. rewrite <- (app_nil_r (lit s)), lit_codes. reflexivity. Qed.
Ltac run := repeat (cbn [app]; rewrite lit_codes).
Ltac wstop := first [ reflexivity | now apply stop_name | now apply stop_number | now apply stop_letters
  | apply white_stop; [first [exact space_not_word|exact space_not_digit|exact space_not_alpha]|assumption|reflexivity]
  | apply white_stop; [first [exact space_not_word|exact space_not_digit|exact space_not_alpha]|apply (proj1 (A:=_)); eassumption|reflexivity] ].
Ltac step_white G := refine (rep_stop _ _ _ _ _ _ _ _ G (Nat.le_0_l _) _ _); [wstop|]; run.
Ltac step_white1 G := refine (rep_stop _ _ _ _ _ _ _ _ (proj1 (of_white1 _ G)) (proj2 (of_white1 _ G)) _ _); [wstop|]; run.
Lemma seq_matches n s x r : sequence_of n s x -> matches seq_of_re (x ++ r) = Some ([n; s], r).
Proof.
  intros H. destruct H as [n s lo hi ty g1 g2 g3 g4 g5 g6 g7 g8 g9 g10 g11 g12 g13 g14 g15 g16 g17 Hn Hs Hlo Hhi Hty G1 G2 G3 G4 G5 G6 G7 G8 G9 G10 G11 G12 G13 G14 G15 G16 G17].
  apply name_words in Hn as Kn. apply name_words in Hs as Ks. apply name_words in Hhi as Kh. apply number_digits in Hlo as Kl. apply letters_alpha in Hty as Kt.
  rewrite <- !codes_chars, <- !app_assoc. unfold seq_of_re, sp0, sp1. cbn [app].
  refine (rep_stop word 1 true _ _ _ _ _ (proj1 Kn) (proj2 Kn) _ _); [wstop|]. step_white G1. step_white1 G2. step_white1 G3. step_white G4. step_white G5. step_white G6.
  refine (rep_stop _ _ _ _ _ _ _ _ (proj1 Kl) (proj2 Kl) _ _); [wstop|]. step_white G7. step_white G8.
  refine (rep_stop _ _ _ _ _ _ _ _ (proj1 Kh) (proj2 Kh) _ _); [wstop|]. step_white G9. step_white G10. step_white G11. step_white1 G12.
  refine (rep_stop _ _ _ _ _ _ _ _ (proj1 Kt) (proj2 Kt) _ _); [wstop|]. step_white G13. step_white G14. step_white G15.
  refine (rep_stop word 1 true _ _ _ _ _ (proj1 Ks) (proj2 Ks) _ _); [wstop|]. step_white G16. step_white G17. apply lit_end.
Qed.
Lemma e_rab_matches n s x r : container_list_of n s x -> matches e_rab_re (x ++ r) = Some ([n; s], r).
Proof.
  intros H. destruct H as [n s g1 g2 g3 g4 g5 g6 g7 Hn Hs G1 G2 G3 G4 G5 G6 G7].
  apply name_words in Hn as Kn. apply name_words in Hs as Ks.
  rewrite <- !codes_chars, <- !app_assoc. unfold e_rab_re, sp0, sp1. cbn [app].
  refine (rep_stop word 1 true _ _ _ _ _ (proj1 Kn) (proj2 Kn) _ _); [wstop|]. step_white G1. step_white1 G2. step_white G3. step_white G4. step_white G5.
  refine (rep_stop word 1 true _ _ _ _ _ (proj1 Ks) (proj2 Ks) _ _); [wstop|]. step_white G6. step_white G7. apply lit_end.
Qed.

Lemma in_chars (x : N) str : existsb (N.eqb x) (chars str) = false -> ~ In x (chars str).
Proof. intros H I. assert (K : existsb (N.eqb x) (chars str) = true) by (apply existsb_exists; exists x; split; [exact I|apply N.eqb_refl]). congruence. Qed.
Lemma seq_shape n s x : sequence_of n s x -> exists g y, x = n ++ g ++ 58%N :: 58%N :: 61%N :: y ++ [125%N] /\ name n /\ forallb space g = true /\ ~ In 58%N y.
Proof.
  intros H. destruct H as [n s lo hi ty g1 g2 g3 g4 g5 g6 g7 g8 g9 g10 g11 g12 g13 g14 g15 g16 g17 Hn Hs Hlo Hhi Hty G1 G2 G3 G4 G5 G6 G7 G8 G9 G10 G11 G12 G13 G14 G15 G16 G17].
  exists g1, (g2 ++ chars "SEQUENCE" ++ g3 ++ chars "(" ++ g4 ++ chars "SIZE" ++ g5 ++ chars "(" ++ g6 ++ lo ++ g7 ++ chars ".." ++ g8 ++ hi ++ g9 ++ chars ")" ++ g10 ++ chars ")" ++
    g11 ++ chars "OF" ++ g12 ++ ty ++ g13 ++ chars "{" ++ g14 ++ chars "{" ++ g15 ++ s ++ g16 ++ chars "}" ++ g17).
  split; [rewrite <- !app_assoc; reflexivity|]. split; [exact Hn|]. split; [exact G1|].
  destruct G2 as [G2 _], G3 as [G3 _], G12 as [G12 _], Hlo as [Hlo _], Hty as [Hty _].
  pose proof (not_in_class _ 58%N _ eq_refl Hlo). pose proof (not_in_class _ 58%N _ eq_refl Hty). pose proof (name_no_colon _ Hs). pose proof (name_no_colon _ Hhi).
  apply white_no_colon in G2, G3, G4, G5, G6, G7, G8, G9, G10, G11, G12, G13, G14, G15, G16, G17.
  clear - G2 G3 G4 G5 G6 G7 G8 G9 G10 G11 G12 G13 G14 G15 G16 G17 H H0 H1 H2. rewrite !in_app_iff. cbn [chars In N_of_ascii N_of_digits]. intuition discriminate.
Qed.
Lemma e_rab_shape n s x : container_list_of n s x -> exists g y, x = n ++ g ++ 58%N :: 58%N :: 61%N :: y ++ [125%N] /\ name n /\ forallb space g = true /\ ~ In 58%N y.
Proof.
  intros H. destruct H as [n s g1 g2 g3 g4 g5 g6 g7 Hn Hs G1 G2 G3 G4 G5 G6 G7].
  exists g1, (g2 ++ chars "E-RAB-IE-ContainerList" ++ g3 ++ chars "{" ++ g4 ++ chars "{" ++ g5 ++ s ++ g6 ++ chars "}" ++ g7).
  split; [rewrite <- !app_assoc; reflexivity|]. split; [exact Hn|]. split; [exact G1|].
  destruct G2 as [G2 _]. pose proof (name_no_colon _ Hs).
  apply white_no_colon in G2, G3, G4, G5, G6, G7.
  clear - G2 G3 G4 G5 G6 G7 H. rewrite !in_app_iff. cbn [chars In N_of_ascii N_of_digits]. intuition discriminate.
Qed.
Lemma name_cons c n : is_name_char c = true -> name n -> name (c :: n).
Proof. intros H [F _]. split; [cbn [forallb]; now rewrite H|discriminate]. Qed.
Lemma seq_longer n s x c : sequence_of n s x -> is_name_char c = true -> sequence_of (c :: n) s (c :: x).
Proof. intros H C. destruct H. refine (sequence_of_intro (c :: n) _ _ _ _ _ _ _ _ _ _ _ _ _ _ _ _ _ _ _ _ _ (name_cons _ _ C H) _ _ _ _ _ _ _ _ _ _ _ _ _ _ _ _ _ _ _ _ _); assumption. Qed.
Lemma e_rab_longer n s x c : container_list_of n s x -> is_name_char c = true -> container_list_of (c :: n) s (c :: x).
Proof. intros H C. destruct H. refine (container_list_intro (c :: n) _ _ _ _ _ _ _ _ (name_cons _ _ C H) _ _ _ _ _ _ _ _); assumption. Qed.

(* ---------------- the table ---------------- *)
Lemma seq_found t gs : In gs (findall seq_of_re t) <-> exists n s, gs = [n; s] /\ has_definition sequence_of t n s.
Proof. exact (found_iff seq_of_re sequence_of seq_reads seq_matches seq_shape seq_longer t gs). Qed.
Lemma e_rab_found t gs : In gs (findall e_rab_re t) <-> exists n s, gs = [n; s] /\ has_definition container_list_of t n s.
Proof. exact (found_iff e_rab_re container_list_of e_rab_reads e_rab_matches e_rab_shape e_rab_longer t gs). Qed.
Definition pairs (gss : list (list text)) : list (text * text) := flat_map (fun gs => match gs with [n; s] => [(n, s)] | _ => [] end) gss.
Lemma pairs_in gss n s : In (n, s) (pairs gss) <-> In [n; s] gss.
Proof.
  unfold pairs. rewrite in_flat_map. split.
  - intros (gs&I&J). destruct gs as [|a [|b [|c gs]]]; [destruct J|destruct J| |destruct J]. destruct J as [J|[]]. injection J as -> ->. exact I.
  - intros I. exists [n; s]. split; [exact I|now left].
Qed.
Lemma add_lists_tab gss : forall s, t_lists (fold_left add_list gss s) = tab (pairs gss) (t_lists s).
Proof.
  induction gss as [|gs gss IH]; intros s; [reflexivity|]. cbn [fold_left]. rewrite IH. destruct gs as [|a [|b [|c gs]]]; reflexivity.
Qed.
Lemma add_sets_lists gss : forall s, t_lists (fold_left add_set gss s) = t_lists s.
Proof.
  induction gss as [|gs gss IH]; intros s; [reflexivity|]. cbn [fold_left]. rewrite IH. unfold add_set.
  destruct gs as [|a [|b [|c [|d gs]]]]; try reflexivity. destruct (find (codes "EXTENSION") b); [reflexivity|]. destruct (ies_of c); reflexivity.
Qed.
Lemma in_force_keys {A} (l r : list (list N * A)) : in_force l r -> NoDup (map fst r) /\ (forall k v, In (k, v) r -> In (k, v) l) /\ forall k v, In (k, v) l -> exists v', In (k, v') r.
Proof.
  intros [K V]. split; [rewrite K; apply firsts_nodup|]. split.
  - intros k v I. apply V in I as (a&b&->&_). apply in_app_iff. right. now left.
  - intros k v I. assert (J : In k (map fst r)) by (rewrite K; apply firsts_in; apply in_map_iff; exists (k, v); auto).
    apply in_map_iff in J as ([k' v']&E&J). cbn [fst] in E. subst k'. eauto.
Qed.
Lemma lists_read lines ts T : Forall2 uncommented lines ts -> generate_tables [lines] = Some T ->
  NoDup (map fst (t_lists T)) /\ (forall n s, In (n, s) (t_lists T) -> defines_list (List.concat ts) n s) /\
  (forall n s, defines_list (List.concat ts) n s -> exists s', In (n, s') (t_lists T)).
Proof.
  intros U. unfold generate_tables. cbn [fold_left add_file fst snd app]. rewrite (read_uncommented _ _ U). unfold add_text.
  set (t := List.concat ts). set (T' := fold_left add_set _ _). destruct (t_defs T') as [|x y]; [discriminate|]. intros E. injection E as <-.
  unfold T'. rewrite add_sets_lists, !add_lists_tab. cbn [t_lists].
  pose proof (in_force_tab (pairs (findall e_rab_re t)) _ _ (in_force_tab (pairs (findall seq_of_re t)) _ _ in_force_nil)) as F.
  apply in_force_keys in F as (K&S&C). split; [exact K|]. split.
  - intros n s I. apply S in I. cbn [app] in I. rewrite in_app_iff, !pairs_in, seq_found, e_rab_found in I.
    destruct I as [(n'&s'&E&I)|(n'&s'&E&I)]; injection E as <- <-; [now left|now right].
  - intros n s D. apply (C n s). cbn [app]. rewrite in_app_iff, !pairs_in, seq_found, e_rab_found. destruct D as [D|D]; [left|right]; eauto.
Qed.

Lemma pairs_app a b : pairs (a ++ b) = pairs a ++ pairs b.
Proof. apply flat_map_app. Qed.
Lemma last_force {A} (l1 l2 : list (list N * A)) r k v : in_force (l1 ++ (k, v) :: l2) r -> (forall w, ~ In (k, w) l2) -> In (k, v) r.
Proof.
  intros [_ V] N. apply V. exists l1, l2. split; [reflexivity|]. intros I. apply in_map_iff in I as ([k' w]&E&I). cbn [fst] in E. subst k'. exact (N w I).
Qed.
Lemma lists_force lines ts T : Forall2 uncommented lines ts -> generate_tables [lines] = Some T ->
  in_force (pairs (findall seq_of_re (List.concat ts)) ++ pairs (findall e_rab_re (List.concat ts))) (t_lists T).
Proof.
  intros U. unfold generate_tables. cbn [fold_left add_file fst snd app]. rewrite (read_uncommented _ _ U). unfold add_text.
  set (t := List.concat ts). set (T' := fold_left add_set _ _). destruct (t_defs T') as [|x y]; [discriminate|]. intros E. injection E as <-.
  unfold T'. rewrite add_sets_lists, !add_lists_tab. cbn [t_lists].
  exact (in_force_tab (pairs (findall e_rab_re t)) _ _ (in_force_tab (pairs (findall seq_of_re t)) _ _ in_force_nil)).
Qed.
Lemma container_last lines ts T a x b n s : Forall2 uncommented lines ts -> generate_tables [lines] = Some T ->
  List.concat ts = a ++ x ++ b -> container_list_of n s x -> (forall a' c, a = a' ++ [c] -> is_name_char c = false) ->
  (forall s', ~ has_definition container_list_of b n s') -> In (n, s) (t_lists T).
Proof.
  intros U G E H Ea N. apply (lists_force _ _ _ U) in G.
  destruct (found_all e_rab_re container_list_of e_rab_reads e_rab_matches e_rab_shape e_rab_longer _ _ (Nat.le_refl _) a x b n s E H Ea) as (l&El).
  rewrite El, pairs_app in G. change (pairs ([n; s] :: findall e_rab_re b)) with ((n, s) :: pairs (findall e_rab_re b)) in G. rewrite app_assoc in G.
  apply (last_force _ _ _ _ _ G). intros w I. apply pairs_in, e_rab_found in I as (n'&s'&I&D). injection I as <- <-. exact (N w D).
Qed.
Lemma sequence_last lines ts T a x b n s : Forall2 uncommented lines ts -> generate_tables [lines] = Some T ->
  List.concat ts = a ++ x ++ b -> sequence_of n s x -> (forall a' c, a = a' ++ [c] -> is_name_char c = false) ->
  (forall s', ~ has_definition sequence_of b n s') -> (forall s', ~ has_definition container_list_of (List.concat ts) n s') -> In (n, s) (t_lists T).
Proof.
  intros U G E H Ea N N'. apply (lists_force _ _ _ U) in G.
  destruct (found_all seq_of_re sequence_of seq_reads seq_matches seq_shape seq_longer _ _ (Nat.le_refl _) a x b n s E H Ea) as (l&El).
  rewrite El, pairs_app in G. change (pairs ([n; s] :: findall seq_of_re b)) with ((n, s) :: pairs (findall seq_of_re b)) in G. rewrite <- app_assoc in G. cbn [app] in G.
  apply (last_force _ _ _ _ _ G). intros w I. apply in_app_iff in I as [I|I].
  - apply pairs_in, seq_found in I as (n'&s'&I&D). injection I as <- <-. exact (N w D).
  - apply pairs_in, e_rab_found in I as (n'&s'&I&D). injection I as <- <-. exact (N' w D).
Qed.
