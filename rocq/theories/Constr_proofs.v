From Verif Require Import Base Aper Aper_spec Aper_proofs AllTypes Constr ConstrTab Constr_spec.
From Coq Require Import String List ZArith Lia.
Import ListNotations.
Local Open Scope string_scope.
Local Open Scope Z_scope.

(* --- the functions --- *)
Lemma u64_pos z : 0 <= z < 2 ^ 63 -> u64 z = z.
Proof. intros H. unfold u64. apply Z.mod_small. lia. Qed.
Lemma u64_neg z : - 2 ^ 63 <= z < 0 -> u64 z = z + 2 ^ 64.
Proof. intros H. unfold u64. symmetry. apply Z.mod_unique with (q := -1); lia. Qed.

Definition lit_ok (l : lit) (z : Z) : bool := (l_val l =? z) && negb (l_unsigned l).
Definition range_ok (lo hi : lit) (c : con) : bool :=
  lit_ok lo (c_lb c) && lit_ok hi (c_ub c)
  || (l_unsigned lo && l_unsigned hi && (l_val lo =? c_lb c) && (l_val hi =? c_ub c) && (- 2 ^ 63 <=? c_lb c) && (c_lb c <=? c_ub c) && (c_ub c <? 0)).
Definition size_match (c : scond) (k : con) : bool :=
  match c with
  | SEq n => (c_lb k =? n) && (c_ub k =? n)
  | SIn lo hi => (c_lb k =? lo) && (c_ub k =? hi)
  | SMax n => (c_lb k =? 0) && (c_ub k =? n)
  end.
Definition matches (f : cfun) (t : ty) : bool :=
  match f, t with
  | CRange lo hi, TInt (Some k) => range_ok lo hi k
  | COcts c, TOcts (Some k) => size_match c k
  | CBits c, TBits (Some k) => size_match c k
  | CElems c, TSeqOf (Some k) _ => size_match c k
  | (CDelegate _ | CAlways), (TOcts None | TBits None | TInt None | TNull | TBool | TSeq _ _ _ | TChoice _ _ _) => true
  | _, _ => false
  end.

Lemma range_sound lo hi k z :
  range_ok lo hi k = true -> - 2 ^ 63 <= z < 2 ^ 63 -> (c_ge z lo && c_le z hi = true <-> in_range k z).
Proof.
  unfold range_ok, lit_ok, c_ge, c_le, in_range.
  destruct lo as [ul zl], hi as [uh zh]. cbn [l_unsigned l_val].
  destruct ul, uh; cbn [negb andb]; rewrite ?andb_false_r, ?andb_true_r, ?orb_false_r; cbn [orb andb];
    intros H Z; try discriminate.
  - rewrite !andb_true_iff, !Z.eqb_eq, !Z.leb_le, Z.ltb_lt in H. destruct H as [[[[-> ->] A] B] C].
    rewrite andb_true_iff, !Z.leb_le.
    rewrite (u64_neg (c_lb k)), (u64_neg (c_ub k)) by lia.
    destruct (Z_lt_ge_dec z 0); [rewrite u64_neg by lia | rewrite u64_pos by lia]; lia.
  - rewrite !andb_true_iff, !Z.eqb_eq in H. destruct H as [-> ->]. rewrite andb_true_iff, !Z.leb_le. lia.
Qed.
Lemma size_sound c k n : 0 <= n -> size_match c k = true -> (size_ok c n = true <-> in_range k n).
Proof.
  intros P. destruct c; cbn [size_match size_ok]; rewrite !andb_true_iff, !Z.eqb_eq; intros [A B]; unfold in_range;
    rewrite ?andb_true_iff, ?Z.eqb_eq, ?Z.leb_le; lia.
Qed.
Lemma matches_sound f t v : matches f t = true -> storable t v -> (accepts f v = true <-> limits t v).
Proof.
  destruct f, t as [| |[k|]|? ? ?|[k|]|[k|]|? ? ?|[k|] ?|? ? ?]; cbn [matches]; try discriminate; intros M S;
    destruct v; cbn [storable] in S; try contradiction; cbn [accepts limits]; try tauto;
    try (apply range_sound; assumption); try (apply size_sound; [apply Zle_0_nat | assumption]).
Qed.

(* --- the table --- *)
Lemma own_of_in n o : own_of own_checks n = Some o -> In o own_checks /\ o_name o = n.
Proof. unfold own_of. intros H. apply find_some in H. rewrite String.eqb_eq in H. exact H. Qed.
Lemma names_distinct : forallb (fun o => match own_of own_checks (o_name o) with Some p => String.eqb (o_name o) (o_name p) && String.eqb (o_base o) (o_base p) &&
    match o_fun o, o_fun p with
    | CDelegate a, CDelegate b => String.eqb a b
    | CAlways, CAlways => true
    | CRange a b, CRange c d => Bool.eqb (l_unsigned a) (l_unsigned c) && Bool.eqb (l_unsigned b) (l_unsigned d) && (l_val a =? l_val c) && (l_val b =? l_val d)
    | COcts a, COcts b | CBits a, CBits b | CElems a, CElems b =>
        match a, b with SEq x, SEq y | SMax x, SMax y => x =? y | SIn x y, SIn x' y' => (x =? x') && (y =? y') | _, _ => false end
    | _, _ => false end
    | None => false end) own_checks = true.
Proof. vm_compute. reflexivity. Qed.
Lemma own_in_of o : In o own_checks -> own_of own_checks (o_name o) = Some o.
Proof.
  intros H. pose proof (proj1 (forallb_forall _ _) names_distinct o H) as E. cbv beta in E.
  destruct (own_of own_checks (o_name o)) as [p|] eqn:P; [|discriminate].
  rewrite !andb_true_iff, !String.eqb_eq in E. destruct E as [[E1 E2] E3].
  f_equal. destruct o as [n f b], p as [n' f' b']. cbn [o_name o_fun o_base] in *. subst n' b'. f_equal.
  destruct f as [[a1 a2] [a3 a4]|[]|[]|[]| |], f' as [[b1 b2] [b3 b4]|[]|[]|[]| |]; try discriminate; cbn [l_unsigned l_val] in E3;
    rewrite ?andb_true_iff, ?Bool.eqb_true_iff, ?Z.eqb_eq, ?String.eqb_eq in E3; try reflexivity;
    repeat match goal with H : _ /\ _ |- _ => destruct H end; subst; reflexivity.
Qed.
Lemma own_name n o : own_of own_checks n = Some o -> o_name o = n.
Proof. intros H. apply own_of_in in H. tauto. Qed.

(* delegation and inheritance reach libasn1c's descriptors after at most one more *)
Lemma chains : forallb (fun o =>
    match o_fun o with CDelegate b => String.eqb b (o_base o) && match own_of own_checks b with Some ob => match o_fun ob with CDelegate _ => false | _ => true end | None => true end | _ => true end &&
    match own_of own_checks (o_base o) with Some ob => match own_of own_checks (o_base ob) with Some _ => false | None => true end | None => true end) own_checks = true.
Proof. vm_compute. reflexivity. Qed.
Definition plain (f : cfun) : Prop := match f with CDelegate _ => False | _ => True end.
Lemma delegate_plain n o b ob :
  own_of own_checks n = Some o -> o_fun o = CDelegate b -> own_of own_checks b = Some ob -> plain (o_fun ob).
Proof.
  intros H F B. apply own_of_in in H. destruct H as [H _].
  pose proof (proj1 (forallb_forall _ _) chains o H) as E. cbv beta in E. rewrite F, B in E.
  rewrite !andb_true_iff in E. destruct E as [[_ E] _]. destruct (o_fun ob); cbn; try exact I. discriminate.
Qed.
Lemma base_base n o ob :
  own_of own_checks n = Some o -> own_of own_checks (o_base o) = Some ob -> own_of own_checks (o_base ob) = None.
Proof.
  intros H B. apply own_of_in in H. destruct H as [H _].
  pose proof (proj1 (forallb_forall _ _) chains o H) as E. cbv beta in E. rewrite B in E.
  rewrite !andb_true_iff in E. destruct E as [_ E]. destruct (own_of own_checks (o_base ob)); congruence.
Qed.

(* --- histories --- *)
Definition unused (s : cst) (l : list cop) (n : string) (o : own) : Prop :=
  match o_fun o with
  | CDelegate b =>
      s_chk s n = FBody (CDelegate b) \/
      match own_of own_checks b with
      | None => s_chk s n = FGeneric
      | Some ob => s_chk s n = FBody (o_fun ob) \/ (s_chk s n = FGeneric /\ In (Use b) l)
      end
  | f => s_chk s n = FBody f
  end.
Definition inv (l : list cop) (s : cst) : Prop := forall n,
  match own_of own_checks n with
  | None => s_chk s n = FGeneric /\ s_used s n = false
  | Some o => (s_used s n = true <-> In (Use n) l) /\ (s_used s n = true -> s_chk s n = FGeneric) /\
              (s_used s n = false -> unused s l n o)
  end.
Lemma inv_start : inv [] (start own_checks).
Proof.
  intros n. unfold unused. cbn [start s_chk s_used]. destruct (own_of own_checks n) as [o|] eqn:E; [|auto].
  repeat split; try discriminate; try contradiction.
  intros _. destruct (o_fun o); auto.
Qed.
Lemma upd_same {A} (f : string -> A) n x : upd f n x n = x.
Proof. unfold upd. rewrite String.eqb_refl. reflexivity. Qed.
Lemma upd_other {A} (f : string -> A) n x m : m <> n -> upd f n x m = f m.
Proof. intros H. unfold upd. apply String.eqb_neq in H. rewrite H. reflexivity. Qed.

(* the checks *)
Lemma inv_more l o s : inv l s -> (forall n, o <> Use n) -> inv (l ++ [o]) s.
Proof.
  intros I H n. specialize (I n). destruct (own_of own_checks n) as [p|]; [|exact I].
  destruct I as (A & B & C).
  assert (E : forall m, In (Use m) (l ++ [o]) <-> In (Use m) l).
  { intros m. rewrite in_app_iff. cbn. split; [intros [X|[X|[]]]; [exact X | exfalso; exact (H m X)] | auto]. }
  split; [rewrite E; exact A | split; [exact B|]]. intros U. specialize (C U). unfold unused in *.
  destruct (o_fun p); auto. destruct C as [C|C]; [auto|]. right.
  destruct (own_of own_checks other); [|exact C]. rewrite E. exact C.
Qed.
Lemma call_plain fuel s n f v : plain f -> call fuel s n (FBody f) v = Some (s, accepts f v).
Proof. destruct fuel, f; intros H; try contradiction H; reflexivity. Qed.
Lemma inv_set l s n o g :
  inv l s -> own_of own_checks n = Some o -> s_used s n = false ->
  unused (mkCst (upd (s_chk s) n g) (s_used s)) l n o ->
  inv l (mkCst (upd (s_chk s) n g) (s_used s)).
Proof.
  intros I H U G m. destruct (String.eqb_spec m n) as [->|N].
  - specialize (I n). rewrite H in *. destruct I as (A & B & C). cbn [s_used]. split; [exact A|].
    split; [congruence | intros _; exact G].
  - specialize (I m). unfold unused. cbn [s_chk s_used]. rewrite upd_other by exact N. exact I.
Qed.
(* what a check answers and leaves behind *)
Lemma check_gives l s n v : inv l s ->
  exists s' b, check s n v = Some (s', b) /\ inv l s' /\
    (own_of own_checks n = None -> b = true) /\
    (In (Use n) l -> b = true) /\
    (forall o, own_of own_checks n = Some o -> ~ In (Use n) l ->
       match o_fun o with
       | CDelegate m =>
           match own_of own_checks m with
           | None => b = true
           | Some om => b = accepts (o_fun om) v \/ (b = true /\ In (Use m) l)
           end
       | f => b = accepts f v
       end).
Proof.
  intros I. pose proof (I n) as J. unfold check.
  destruct (own_of own_checks n) as [o|] eqn:O.
  2:{ destruct J as [J _]. rewrite J. exists s, true. repeat split; try discriminate; auto. }
  destruct J as (A & B & C). destruct (s_used s n) eqn:U.
  { rewrite (B eq_refl). exists s, true. repeat split; try congruence; auto.
    intros p _ NI. exfalso. apply NI. apply A. reflexivity. }
  specialize (C eq_refl). unfold unused in C.
  assert (NU : ~ In (Use n) l) by (intros X; apply A in X; discriminate).
  destruct (o_fun o) as [| | | |m|] eqn:F;
    try (rewrite C, call_plain by exact Logic.I; exists s; eexists; split; [reflexivity|];
         split; [exact I|]; split; [discriminate|]; split; [contradiction|];
         intros p E _; injection E as <-; rewrite F; reflexivity).
  destruct C as [C|C].
  - rewrite C. change (call 3 s n (FBody (CDelegate m)) v)
      with (call 2 (mkCst (upd (s_chk s) n (s_chk s m)) (s_used s)) n (s_chk s m) v).
    pose proof (I m) as M.
    destruct (own_of own_checks m) as [om|] eqn:Om.
    + pose proof (delegate_plain n o m om O F Om) as P. destruct M as (MA & MB & MC).
      destruct (s_used s m) eqn:Um.
      * rewrite (MB eq_refl). do 2 eexists. split; [reflexivity|]. split.
        { apply inv_set with (o := o); auto. unfold unused. rewrite F, Om. cbn [s_chk]. rewrite upd_same.
          right. right. split; [reflexivity | apply MA; reflexivity]. }
        split; [discriminate|]. split; [contradiction|]. intros p E _. injection E as <-. rewrite F, Om.
        right. split; [reflexivity | apply MA; reflexivity].
      * specialize (MC eq_refl). unfold unused in MC.
        assert (MC' : s_chk s m = FBody (o_fun om)) by (destruct (o_fun om); auto; contradiction P).
        rewrite MC', call_plain by exact P. do 2 eexists. split; [reflexivity|]. split.
        { apply inv_set with (o := o); auto. unfold unused. rewrite F, Om. cbn [s_chk]. rewrite upd_same. auto. }
        split; [discriminate|]. split; [contradiction|]. intros p E _. injection E as <-. rewrite F, Om. auto.
    + destruct M as [M _]. rewrite M. do 2 eexists. split; [reflexivity|]. split.
      { apply inv_set with (o := o); auto. unfold unused. rewrite F, Om. cbn [s_chk]. rewrite upd_same. auto. }
      split; [discriminate|]. split; [contradiction|]. intros p E _. injection E as <-. rewrite F, Om. reflexivity.
  - destruct (own_of own_checks m) as [om|] eqn:Om.
    + pose proof (delegate_plain n o m om O F Om) as P.
      destruct C as [C|[C X]]; rewrite C.
      * rewrite call_plain by exact P. exists s. eexists. split; [reflexivity|]. split; [exact I|].
        split; [discriminate|]. split; [contradiction|]. intros p E _. injection E as <-. rewrite F, Om. auto.
      * exists s, true. split; [reflexivity|]. split; [exact I|].
        split; [discriminate|]. split; [contradiction|]. intros p E _. injection E as <-. rewrite F, Om. auto.
    + rewrite C. exists s, true. split; [reflexivity|]. split; [exact I|].
      split; [discriminate|]. split; [contradiction|]. intros p E _. injection E as <-. rewrite F, Om. reflexivity.
Qed.

Lemma use_gives l s n : inv l s -> exists s', use own_checks s n = Some s' /\ inv (l ++ [Use n]) s'.
Proof.
  intros I. pose proof (I n) as J.
  assert (W : forall m, In (Use m) (l ++ [Use n]) <-> In (Use m) l \/ m = n).
  { intros m. rewrite in_app_iff. cbn. split; [intros [X|[X|[]]]; [auto | injection X; auto] | intros [X|X]; [auto | subst; auto]]. }
  (* adding the use of n to the history keeps what is said of the others *)
  assert (K : forall s', (forall m, m <> n -> s_chk s' m = s_chk s m /\ s_used s' m = s_used s m) ->
      (forall o, own_of own_checks n = Some o -> s_used s' n = true /\ s_chk s' n = FGeneric) ->
      (own_of own_checks n = None -> s_chk s' n = FGeneric /\ s_used s' n = false) -> inv (l ++ [Use n]) s').
  { intros s' Ho Hn Hx m. destruct (String.eqb_spec m n) as [->|N].
    - destruct (own_of own_checks n) as [o|] eqn:O; [|auto]. destruct (Hn o eq_refl) as [X Y].
      rewrite W, X. split; [tauto|]. split; [auto|discriminate].
    - specialize (I m). destruct (Ho m N) as [X Y]. unfold unused. rewrite X, Y.
      destruct (own_of own_checks m) as [o|]; [|exact I]. destruct I as (A & B & C).
      split; [rewrite W; tauto|]. split; [exact B|]. intros U. specialize (C U). unfold unused in C.
      destruct (o_fun o); auto. destruct C as [C|C]; [auto|right].
      destruct (own_of own_checks other); [|exact C]. rewrite W. tauto. }
  unfold use. destruct (own_of own_checks n) as [o|] eqn:O.
  2:{ destruct J as [J1 J2]. rewrite J2. exists s. split; [reflexivity|]. apply K; auto. discriminate. }
  destruct J as (A & B & C). destruct (s_used s n) eqn:U.
  { exists s. split; [reflexivity|]. apply K; auto. discriminate. }
  cbn [inherit]. rewrite O. cbn [s_used s_chk].
  assert (Bn : o_base o <> n).
  { intros E. pose proof (base_base n o) as X. rewrite E in X. rewrite O in X. specialize (X o eq_refl eq_refl). rewrite E, O in X. discriminate. }
  pose proof (I (o_base o)) as Jb.
  destruct (own_of own_checks (o_base o)) as [ob|] eqn:Ob.
  - destruct Jb as (Ab & Bb & Cb). destruct (s_used s (o_base o)) eqn:Ub; cbn [option_map].
    + eexists. split; [reflexivity|]. apply K; [|intros p _|congruence]; cbn [s_chk s_used].
      * intros m N. rewrite !upd_other by exact N. auto.
      * rewrite !upd_same. auto.
    + pose proof (base_base n o ob O Ob) as Bo. pose proof (I (o_base ob)) as Jo. rewrite Bo in Jo. destruct Jo as [Jo1 Jo2].
      assert (Nb : o_base ob <> n) by (intros E; rewrite E, O in Bo; discriminate).
      rewrite (upd_other _ _ _ _ Nb), Jo2, Bo. cbn [option_map].
      eexists. split; [reflexivity|]. apply K; [|intros p _|congruence]; cbn [s_chk s_used].
      * intros m N. rewrite !upd_other by exact N. auto.
      * rewrite !upd_same. auto.
  - destruct Jb as [Jb1 Jb2]. rewrite Jb2. cbn [option_map].
    eexists. split; [reflexivity|]. apply K; [|intros p _|congruence]; cbn [s_chk s_used].
    + intros m N. rewrite !upd_other by exact N. auto.
    + rewrite !upd_same. auto.
Qed.

Lemma run_inv l : exists s, crun own_checks (start own_checks) l = Some s /\ inv l s.
Proof.
  assert (G : forall l d s, inv d s -> exists s', crun own_checks s l = Some s' /\ inv (d ++ l) s').
  { clear l. intros l. induction l as [|o l IH]; intros d s I.
    - exists s. rewrite app_nil_r. auto.
    - cbn [crun]. assert (X : exists s1, cstep own_checks s o = Some s1 /\ inv (d ++ [o]) s1).
      { destruct o as [n|n v]; cbn [cstep].
        - apply use_gives. exact I.
        - destruct (check_gives d s n v I) as (s1 & b & E & I1 & _). rewrite E. exists s1. split; [reflexivity|].
          apply inv_more; [exact I1 | discriminate]. }
      destruct X as (s1 & E & I1). rewrite E. destruct (IH (d ++ [o])%list s1 I1) as (s2 & E2 & I2).
      exists s2. split; [exact E2|]. rewrite <- app_assoc in I2. exact I2. }
  apply (G l [] _ inv_start).
Qed.
Lemma verdict_gives l n v : exists b, verdict l n v = Some b /\
    (own_of own_checks n = None -> b = true) /\
    (In (Use n) l -> b = true) /\
    (forall o, own_of own_checks n = Some o -> ~ In (Use n) l ->
       match o_fun o with
       | CDelegate m =>
           match own_of own_checks m with
           | None => b = true
           | Some om => b = accepts (o_fun om) v \/ (b = true /\ In (Use m) l)
           end
       | f => b = accepts f v
       end).
Proof.
  unfold verdict. destruct (run_inv l) as (s & -> & I).
  destruct (check_gives l s n v I) as (s' & b & -> & _ & H). exists b. split; [reflexivity | exact H].
Qed.

(* --- the types --- *)
Definition fun_of (o : own) : cfun :=
  match o_fun o with CDelegate m => match own_of own_checks m with Some om => o_fun om | None => CAlways end | f => f end.
Definition row_ok (o : own) : bool :=
  existsb (String.eqb (o_name o)) exceptional ||
  match type_of (o_name o) with
  | Some (TEnum _ _ _) => match fun_of o with CAlways => true | _ => false end
  | Some (TSeqOf _ _) => match fun_of o with CAlways => true | _ => false end
  | Some t => matches (fun_of o) t
  | None => false
  end.
Lemma rows_ok : forallb row_ok own_checks = true.
Proof. vm_compute. reflexivity. Qed.

Lemma named l n t v :
  has_check n -> type_of n = Some t -> storable t v ->
  ~ In n exceptional -> ~ enumeration t -> ~ list_type t ->
  ~ In (Use n) l -> (forall m, synonym_of n m -> ~ In (Use m) l) ->
  exists b, verdict l n v = Some b /\ (b = true <-> limits t v).
Proof.
  intros (o & Io & En) T St X Ne Nl U Us.
  destruct (verdict_gives l n v) as (b & V & _ & _ & H). exists b. split; [exact V|].
  pose proof (own_in_of o Io) as O. rewrite En in O. specialize (H o O U).
  pose proof (proj1 (forallb_forall _ _) rows_ok o Io) as R. unfold row_ok in R. rewrite En, T in R.
  apply orb_true_iff in R. destruct R as [R|R].
  { exfalso. apply X. apply existsb_exists in R. destruct R as (y & Iy & Ey). apply String.eqb_eq in Ey. subst y. exact Iy. }
  assert (M : matches (fun_of o) t = true) by (destruct t; try exact R; [exfalso; apply Ne | exfalso; apply Nl]; exact Logic.I).
  pose proof (matches_sound _ _ v M St) as Q. rewrite <- Q. unfold fun_of.
  assert (B : b = accepts (fun_of o) v).
  { unfold fun_of. destruct (o_fun o) as [| | | |m|] eqn:F; try exact H.
    destruct (own_of own_checks m) as [om|]; [|exact H]. destruct H as [H|[_ H]]; [exact H|].
    exfalso. apply (Us m); [exists o; auto | exact H]. }
  rewrite B. unfold fun_of. tauto.
Qed.
Lemma used l n v : In (Use n) l -> verdict l n v = Some true.
Proof. intros U. destruct (verdict_gives l n v) as (b & V & _ & H & _). rewrite V, (H U). reflexivity. Qed.
Lemma always l n t v : has_check n -> type_of n = Some t -> enumeration t \/ list_type t -> ~ In n exceptional -> verdict l n v = Some true.
Proof.
  intros (o & Io & En) T K X.
  destruct (verdict_gives l n v) as (b & V & _ & U & H). rewrite V. f_equal.
  pose proof (own_in_of o Io) as O. rewrite En in O. specialize (H o O).
  pose proof (proj1 (forallb_forall _ _) rows_ok o Io) as R. unfold row_ok in R. rewrite En, T in R.
  apply orb_true_iff in R. destruct R as [R|R].
  { exfalso. apply X. apply existsb_exists in R. destruct R as (y & Iy & Ey). apply String.eqb_eq in Ey. subst y. exact Iy. }
  assert (F : fun_of o = CAlways).
  { destruct t; try (destruct K as [K|K]; contradiction K); destruct (fun_of o); try discriminate; reflexivity. }
  assert (D : {In (Use n) l} + {~ In (Use n) l}).
  { clear. induction l as [|o l IH]; [right; intros [] |]. destruct IH as [IH|IH]; [left; right; exact IH|].
    destruct o as [m|m w]; [destruct (string_dec m n) as [->|N]|].
    - left. left. reflexivity.
    - right. intros [E|E]; [injection E; auto | auto].
    - right. intros [E|E]; [discriminate | auto]. }
  destruct D as [D|D]; [exact (U D)|]. specialize (H D).
  unfold fun_of in F. destruct (o_fun o) as [| | | |m|]; try discriminate F; [|rewrite H; reflexivity].
  destruct (own_of own_checks m) as [om|]; [|exact H]. rewrite F in H. destruct H as [H|[H _]]; rewrite H; reflexivity.
Qed.

(* --- the components --- *)
Definition is_exceptional (n : string) (i : nat) : bool :=
  existsb (fun p => String.eqb n (fst p) && Nat.eqb i (snd p)) exceptional_components.
Definition mrow_ok (r : string * nat * cfun) : bool :=
  match r with (n, i, f) =>
    match type_of n with
    | Some t => match component t i with Some c => is_exceptional n i || matches f c | None => false end
    | None => false
    end
  end.
Lemma mrows_ok : forallb mrow_ok member_checks = true.
Proof. vm_compute. reflexivity. Qed.
Lemma members n i f :
  component_check n i f -> ~ In (n, i) exceptional_components ->
  exists t c, type_of n = Some t /\ component t i = Some c /\
    forall v, storable c v -> (accepts f v = true <-> limits c v).
Proof.
  intros R X. pose proof (proj1 (forallb_forall _ _) mrows_ok _ R) as M. unfold mrow_ok in M.
  destruct (type_of n) as [t|]; [|discriminate]. destruct (component t i) as [c|] eqn:C; [|discriminate].
  exists t, c. split; [reflexivity|]. split; [exact C|].
  apply orb_true_iff in M. destruct M as [M|M].
  - exfalso. apply X. unfold is_exceptional in M. apply existsb_exists in M. destruct M as ([a b] & I & E).
    rewrite andb_true_iff, String.eqb_eq, Nat.eqb_eq in E. cbn [fst snd] in E. destruct E as [-> ->]. exact I.
  - intros v. apply matches_sound. exact M.
Qed.

(* a lower limit written as an unsigned literal *)
Lemma mixed lo hi z :
  - 2 ^ 63 <= lo < 0 -> 0 <= hi -> - 2 ^ 63 <= z < 2 ^ 63 ->
  (accepts (CRange (mkLit true lo) (mkLit false hi)) (VInt z) = true <-> lo <= z < 0).
Proof.
  intros L H Z. cbn [accepts]. unfold c_ge, c_le. cbn [l_unsigned l_val]. rewrite andb_true_iff, !Z.leb_le, (u64_neg lo) by lia.
  destruct (Z_lt_ge_dec z 0); [rewrite u64_neg by lia | rewrite u64_pos by lia]; lia.
Qed.

(* what passes can be encoded *)
Lemma limits_valid t v : storable t v -> limits t v ->
  match t with TInt _ | TOcts _ | TBits _ => True | _ => False end -> valid t v.
Proof.
  destruct t as [| |[k|]|? ? ?|[k|]|[k|]|? ? ?|? ?|? ? ?]; try contradiction; destruct v; cbn [storable limits]; try contradiction;
    intros S L _; constructor; cbn [allowed]; unfold in_range in *; auto.
Qed.

Definition sign_ok (r : string * nat * cfun) : bool :=
  match r with (n, i, f) =>
    negb (is_exceptional n i) ||
    match type_of n with
    | Some t =>
        match component t i, f with
        | Some (TInt (Some k)), CRange lo hi =>
            negb (c_ext k) && l_unsigned lo && negb (l_unsigned hi) && (l_val lo =? c_lb k) && (l_val hi =? c_ub k) &&
            (- 2 ^ 63 <=? c_lb k) && (c_lb k <? 0) && (0 <? c_ub k)
        | _, _ => false
        end
    | None => false
    end
  end.
Lemma signs_ok : forallb sign_ok member_checks = true.
Proof. vm_compute. reflexivity. Qed.
Lemma signs n i f : component_check n i f -> In (n, i) exceptional_components ->
  exists t lo hi, type_of n = Some t /\ component t i = Some (TInt (Some (mkCon false lo hi))) /\ lo < 0 < hi /\
    forall z, - 2 ^ 63 <= z < 2 ^ 63 -> (accepts f (VInt z) = true <-> lo <= z < 0).
Proof.
  intros R X. pose proof (proj1 (forallb_forall _ _) signs_ok _ R) as M. unfold sign_ok in M.
  apply orb_true_iff in M. destruct M as [M|M].
  { exfalso. apply negb_true_iff in M. unfold is_exceptional in M.
    assert (E : existsb (fun p => String.eqb n (fst p) && Nat.eqb i (snd p)) exceptional_components = true).
    { apply existsb_exists. exists (n, i). split; [exact X|]. cbn [fst snd]. rewrite String.eqb_refl, Nat.eqb_refl. reflexivity. }
    congruence. }
  destruct (type_of n) as [t|]; [|discriminate].
  destruct (component t i) as [[| |[k|]|? ? ?|?|?|? ? ?|? ?|? ? ?]|] eqn:C; try discriminate.
  destruct f as [lo hi|?|?|?|?|]; try discriminate. destruct lo as [ul zl], hi as [uh zh]. cbn [l_unsigned l_val] in M.
  rewrite !andb_true_iff, !negb_true_iff, !Z.eqb_eq, Z.leb_le, !Z.ltb_lt in M.
  destruct M as [[[[[[[A B] D] E] F] G] H] K]. subst. destruct k as [ke kl ku]. cbn [c_ext c_lb c_ub] in *. subst.
  exists t, kl, ku. split; [reflexivity|]. split; [exact C|]. split; [lia|]. intros z Z. apply mixed; lia.
Qed.

(* deciding whether a type has a function *)
Lemma has_it n o : own_of own_checks n = Some o -> has_check n.
Proof. intros H. apply own_of_in in H. exists o. exact H. Qed.
Lemma is_synonym n m o : own_of own_checks n = Some o -> o_fun o = CDelegate m -> synonym_of n m.
Proof. intros H F. apply own_of_in in H. exists o. tauto. Qed.
Lemma has_not n : own_of own_checks n = None -> ~ has_check n.
Proof. intros H (o & I & E). apply own_in_of in I. rewrite E in I. congruence. Qed.
Lemma is_component n i m l : find (fun p => String.eqb (fst p) n) member_types = Some (n, l) -> In (i, m) l -> component_type n i m.
Proof. intros H I. apply find_some in H. exists l. tauto. Qed.

(* --- no check is missing --- *)
Definition con_eqb (a b : con) : bool := Bool.eqb (c_ext a) (c_ext b) && (c_lb a =? c_lb b) && (c_ub a =? c_ub b).
Definition ocon_eqb (a b : option con) : bool :=
  match a, b with Some x, Some y => con_eqb x y | None, None => true | _, _ => false end.
Fixpoint zs_eqb (a b : list Z) : bool :=
  match a, b with [], [] => true | x :: a', y :: b' => (x =? y) && zs_eqb a' b' | _, _ => false end.
Fixpoint ty_eqb (t u : ty) : bool :=
  let members := fix members (l m : list (bool * ty)) : bool :=
    match l, m with
    | [], [] => true
    | (o, t) :: l', (p, u) :: m' => Bool.eqb o p && ty_eqb t u && members l' m'
    | _, _ => false
    end in
  let alts := fix alts (l m : list ty) : bool :=
    match l, m with [], [] => true | t :: l', u :: m' => ty_eqb t u && alts l' m' | _, _ => false end in
  match t, u with
  | TNull, TNull | TBool, TBool => true
  | TInt c, TInt d | TBits c, TBits d | TOcts c, TOcts d => ocon_eqb c d
  | TEnum e r m, TEnum f s n => Bool.eqb e f && zs_eqb r s && zs_eqb m n
  | TSeq e r a, TSeq f s b => Bool.eqb e f && members r s && members a b
  | TSeqOf c t, TSeqOf d u => ocon_eqb c d && ty_eqb t u
  | TChoice e r m, TChoice f s n => Bool.eqb e f && alts r s && alts m n
  | _, _ => false
  end.
Lemma ocon_eqb_eq a b : ocon_eqb a b = true -> a = b.
Proof.
  destruct a as [[e l h]|], b as [[f k g]|]; cbn; try discriminate; [|reflexivity].
  unfold con_eqb. cbn [c_ext c_lb c_ub]. rewrite !andb_true_iff, Bool.eqb_true_iff, !Z.eqb_eq. intros [[-> ->] ->]. reflexivity.
Qed.
Lemma zs_eqb_eq a : forall b, zs_eqb a b = true -> a = b.
Proof.
  induction a as [|x a IH]; intros [|y b]; cbn; try discriminate; [reflexivity|].
  rewrite andb_true_iff, Z.eqb_eq. intros [-> H]. f_equal. exact (IH b H).
Qed.
Lemma ty_eqb_eq : forall t u, ty_eqb t u = true -> t = u.
Proof.
  assert (M : forall l, Forall (fun m : bool * ty => forall u, ty_eqb (snd m) u = true -> snd m = u) l -> forall m,
    (fix members (l m : list (bool * ty)) : bool :=
      match l, m with
      | [], [] => true
      | (o, t) :: l', (p, u) :: m' => Bool.eqb o p && ty_eqb t u && members l' m'
      | _, _ => false
      end) l m = true -> l = m).
  { induction 1 as [|[o t] l H _ IH]; intros [|[p u] m]; try discriminate; [reflexivity|].
    rewrite !andb_true_iff, Bool.eqb_true_iff. intros [[-> A] B]. cbn [snd] in H. rewrite (H u A), (IH m B). reflexivity. }
  assert (A : forall l, Forall (fun t => forall u, ty_eqb t u = true -> t = u) l -> forall m,
    (fix alts (l m : list ty) : bool :=
      match l, m with [], [] => true | t :: l', u :: m' => ty_eqb t u && alts l' m' | _, _ => false end) l m = true -> l = m).
  { induction 1 as [|t l H _ IH]; intros [|u m]; try discriminate; [reflexivity|].
    rewrite !andb_true_iff. intros [X Y]. rewrite (H u X), (IH m Y). reflexivity. }
  apply (ty_ind2 (fun t => forall u, ty_eqb t u = true -> t = u)); intros; match goal with |- _ = ?x => destruct x end; try discriminate; try reflexivity;
    try (f_equal; apply ocon_eqb_eq; assumption).
  - match goal with H : ty_eqb _ _ = true |- _ => cbn [ty_eqb] in H; rewrite !andb_true_iff, Bool.eqb_true_iff in H; destruct H as [[-> X] Y] end.
    rewrite (zs_eqb_eq _ _ X), (zs_eqb_eq _ _ Y). reflexivity.
  - match goal with H : ty_eqb _ _ = true |- _ => cbn [ty_eqb] in H; rewrite !andb_true_iff, Bool.eqb_true_iff in H; destruct H as [[-> X] Y] end.
    f_equal; apply M; assumption.
  - match goal with H : ty_eqb _ _ = true |- _ => cbn [ty_eqb] in H; rewrite !andb_true_iff in H; destruct H as [X Y] end.
    f_equal; [apply ocon_eqb_eq; assumption | auto].
  - match goal with H : ty_eqb _ _ = true |- _ => cbn [ty_eqb] in H; rewrite !andb_true_iff, Bool.eqb_true_iff in H; destruct H as [[-> X] Y] end.
    f_equal; apply A; assumption.
Qed.

Definition is_constructed (t : ty) : bool := match t with TSeq _ _ _ | TChoice _ _ _ | TSeqOf _ _ => true | _ => false end.
Definition is_unlimited (t : ty) : bool :=
  match t with TNull | TBool | TInt None | TOcts None | TBits None => true | _ => false end.
Definition owned (n : string) : bool := match own_of own_checks n with Some _ => true | None => false end.
Definition types_of (t : ty) : list ty :=
  match t with TSeq _ r a => map snd (r ++ a) | TChoice _ r m => r ++ m | TSeqOf _ t => [t] | _ => [] end.
Definition mine (n : string) : list (nat * string) :=
  match find (fun p => String.eqb (fst p) n) member_types with Some p => snd p | None => [] end.
Definition my_checks (n : string) : list nat :=
  flat_map (fun r => match r with (a, i, _) => if String.eqb a n then [i] else [] end) member_checks.
Fixpoint numbered {A} (i : nat) (l : list A) : list (nat * A) :=
  match l with [] => [] | x :: r => (i, x) :: numbered (S i) r end.
Definition covered (refs : list (nat * string)) (checks : list nat) (p : nat * ty) : bool :=
  existsb (Nat.eqb (fst p)) checks ||
  existsb (fun q => Nat.eqb (fst q) (fst p) &&
    match type_of (snd q) with Some c => ty_eqb c (snd p) | None => is_unlimited (snd p) end) refs.
Definition complete_b (p : string * ty) : bool :=
  owned (fst p) ||
  (is_constructed (snd p) && forallb (covered (mine (fst p)) (my_checks (fst p))) (numbered 0 (types_of (snd p)))).
Lemma complete_all : forallb complete_b all_types = true.
Proof. vm_compute. reflexivity. Qed.

Lemma component_types t i : component t i = nth_error (types_of t) i.
Proof.
  destruct t; cbn [component types_of]; try (destruct i; reflexivity).
  - symmetry. apply nth_error_map.
  - destruct i as [|[|i]]; reflexivity.
Qed.
Lemma numbered_nth {A} (l : list A) : forall k i x, nth_error l i = Some x -> In ((k + i)%nat, x) (numbered k l).
Proof.
  induction l as [|y l IH]; intros k [|i] x; cbn [nth_error numbered]; try discriminate.
  - intros [= ->]. left. f_equal. lia.
  - intros H. right. replace (k + S i)%nat with (S k + i)%nat by lia. apply IH. exact H.
Qed.
Lemma complete n t : type_of n = Some t -> ~ has_check n ->
  constructed t /\
  forall i c, component t i = Some c ->
    (exists f, component_check n i f) \/
    (exists m, component_type n i m /\ (type_of m = Some c \/ (type_of m = None /\ unlimited c))).
Proof.
  intros T H. unfold type_of in T. destruct (find _ all_types) as [[n' t']|] eqn:F; [|discriminate].
  injection T as ->. apply find_some in F. cbn [fst] in F. rewrite String.eqb_eq in F. destruct F as [F ->].
  pose proof (proj1 (forallb_forall _ _) complete_all _ F) as K. unfold complete_b in K. cbn [fst snd] in K.
  apply orb_true_iff in K. destruct K as [K|K].
  { exfalso. apply H. unfold owned in K. destruct (own_of own_checks n) as [o|] eqn:O; [|discriminate].
    exists o. apply own_of_in. exact O. }
  apply andb_true_iff in K. destruct K as [K1 K2]. split; [destruct t; try discriminate; exact I|].
  intros i c C. rewrite component_types in C. apply (numbered_nth _ 0) in C. cbn [Nat.add] in C.
  pose proof (proj1 (forallb_forall _ _) K2 _ C) as R. unfold covered in R. cbn [fst snd] in R.
  apply orb_true_iff in R. destruct R as [R|R]; apply existsb_exists in R.
  - left. destruct R as (j & R & E). apply Nat.eqb_eq in E. subst j. unfold my_checks in R. apply in_flat_map in R.
    destruct R as ([[a j] f] & R & E). destruct (String.eqb a n) eqn:N; [|contradiction E].
    apply String.eqb_eq in N. destruct E as [->|[]]. subst a. exists f. exact R.
  - right. destruct R as ([j m] & R & E). cbn [fst snd] in E. apply andb_true_iff in E. destruct E as [E1 E2].
    apply Nat.eqb_eq in E1. subst j. exists m. split.
    + unfold mine in R. destruct (find _ member_types) as [[a l]|] eqn:M; [|contradiction R].
      apply find_some in M. cbn [fst snd] in *. rewrite String.eqb_eq in M. destruct M as [M ->]. exists l. auto.
    + destruct (type_of m) as [d|]; [left; f_equal; apply ty_eqb_eq; exact E2 | right; split; [reflexivity|]].
      destruct c as [| |[]| |[]|[]| | |]; try discriminate; exact I.
Qed.

Definition lists_b (p : string * ty) : bool :=
  match snd p with
  | TSeqOf _ _ =>
      match own_of own_checks (fst p) with
      | None => true
      | Some o => match o_fun o with
                  | CDelegate m => negb (owned m) && match type_of m with Some u => ty_eqb u (snd p) | None => false end
                  | _ => false
                  end
      end
  | _ => true
  end.
Lemma lists_all : forallb lists_b all_types = true.
Proof. vm_compute. reflexivity. Qed.
Lemma named_lists n t : type_of n = Some t -> list_type t ->
  ~ has_check n \/ exists m, synonym_of n m /\ type_of m = Some t /\ ~ has_check m.
Proof.
  intros T L. unfold type_of in T. destruct (find _ all_types) as [[n' t']|] eqn:F; [|discriminate].
  injection T as ->. apply find_some in F. cbn [fst] in F. rewrite String.eqb_eq in F. destruct F as [F ->].
  pose proof (proj1 (forallb_forall _ _) lists_all _ F) as K. unfold lists_b in K. cbn [fst snd] in K.
  destruct t; try contradiction L. destruct (own_of own_checks n) as [o|] eqn:O; [|left; apply has_not; exact O].
  right. destruct (o_fun o) as [| | | |m|] eqn:E; try discriminate K. apply andb_true_iff in K. destruct K as [K1 K2].
  exists m. split; [eapply is_synonym; eassumption|]. destruct (type_of m) as [u|] eqn:U; [|discriminate].
  split; [f_equal; apply ty_eqb_eq; exact K2|]. apply has_not. unfold owned in K1. destruct (own_of own_checks m); [discriminate | reflexivity].
Qed.
Lemma unlooked : exists n t i c m,
  type_of n = Some t /\ component t i = Some (TSeqOf (Some c) m) /\ ~ has_check n /\
  (forall f, ~ component_check n i f) /\
  exists l, component_type n i l /\ type_of l = Some (TSeqOf (Some c) m) /\ ~ has_check l.
Proof.
  exists "RANAP_Alt_RAB_Parameter_MaxBitrateInf".
  destruct (type_of "RANAP_Alt_RAB_Parameter_MaxBitrateInf") as [t|] eqn:T; [|vm_compute in T; discriminate].
  destruct (type_of "RANAP_Alt_RAB_Parameter_MaxBitrates") as [u|] eqn:U; [|vm_compute in U; discriminate].
  assert (C : component t 1 = Some u).
  { vm_compute in T, U. injection T as <-. injection U as <-. reflexivity. }
  assert (D : exists m, u = TSeqOf (Some (mkCon false 1 16)) m).
  { vm_compute in U. injection U as <-. eexists. reflexivity. }
  destruct D as [m ->]. exists t, 1%nat, (mkCon false 1 16), m.
  split; [reflexivity|]. split; [exact C|]. split; [apply has_not; vm_compute; reflexivity|]. split.
  - intros f F. unfold component_check in F.
    assert (X : In 1%nat (my_checks "RANAP_Alt_RAB_Parameter_MaxBitrateInf")).
    { unfold my_checks. apply in_flat_map. eexists. split; [exact F|]. cbv beta iota. rewrite String.eqb_refl. left. reflexivity. }
    vm_compute in X. contradiction X.
  - exists "RANAP_Alt_RAB_Parameter_MaxBitrates". split; [|split; [exact U | apply has_not; vm_compute; reflexivity]].
    apply (is_component _ _ _ [(0%nat, "RANAP_Alt_RAB_Parameter_MaxBitrateType"); (1%nat, "RANAP_Alt_RAB_Parameter_MaxBitrates")]).
    + vm_compute. reflexivity.
    + right. left. reflexivity.
Qed.
