(* Proofs that the descriptor tables are what the ASN.1 modules mean. *)
From Verif Require Import Base Aper Asn1_spec.
From Verif Require RanapTypes RuaTypes HnbapTypes SabpTypes.
From Verif Require Container RanapTab RuaTab HnbapTab SabpTab PerBits.
From Verif Require RanapAsn RuaAsn HnbapAsn SabpAsn.
From Coq Require Import String Ascii List Lia.
Import ListNotations.
Local Open Scope Z_scope.
Local Open Scope list_scope.

Fixpoint lookup {A} (x : string) (l : list (string * A)) : option A :=
  match l with
  | [] => None
  | (y, a) :: r => if String.eqb x y then Some a else lookup x r
  end.
Lemma lookup_in : forall A x (l : list (string * A)) a, lookup x l = Some a -> In (x, a) l.
Proof.
  intros A x l a. induction l as [|[y b] l IH]; [discriminate|]. cbn [lookup].
  destruct (String.eqb x y) eqn:E; intros H.
  - apply String.eqb_eq in E. subst y. inversion H; subst. left; reflexivity.
  - right. apply IH, H.
Qed.
Lemma lookup_iff : forall A x (l : list (string * A)) a, NoDup (map fst l) ->
  In (x, a) l -> lookup x l = Some a.
Proof.
  intros A x l a. induction l as [|[y b] l IH]; intros ND H; [destruct H|].
  cbn [lookup]. cbn [map fst] in ND. inversion ND as [|? ? Hn Hd]; subst.
  destruct H as [H|H].
  - inversion H; subst. rewrite String.eqb_refl. reflexivity.
  - destruct (String.eqb x y) eqn:E.
    + apply String.eqb_eq in E. subst y. exfalso. apply Hn.
      change x with (fst (x, a)). apply in_map. exact H.
    + apply IH; assumption.
Qed.

(* ---------------- the meaning is unique ---------------- *)
Scheme means_mut := Minimality for means Sort Prop
  with fields_mut := Minimality for fields Sort Prop
  with alts_mut := Minimality for alts Sort Prop.
Lemma bound_fun : forall G b z z', NoDup (map fst (g_consts G)) ->
  bound_is G b z -> bound_is G b z' -> z = z'.
Proof.
  intros G b z z' ND H. destruct H as [z|n z H]; intros H'; inversion H'; subst; [reflexivity|].
  apply lookup_iff in H; [|exact ND].
  match goal with K : In _ _ |- _ => apply lookup_iff in K; [|exact ND]; congruence end.
Qed.
Lemma range_fun : forall G r c c', NoDup (map fst (g_consts G)) ->
  range_is G r c -> range_is G r c' -> c = c'.
Proof.
  intros G r c c' ND H. destruct H as [|r lo hi Hl Hh]; intros H'; inversion H' as [|? lo' hi' Hl' Hh']; subst; [reflexivity|].
  rewrite (bound_fun G _ _ _ ND Hl Hl'), (bound_fun G _ _ _ ND Hh Hh'). reflexivity.
Qed.
Lemma means_fun : forall G, NoDup (map fst (g_types G)) -> NoDup (map fst (g_consts G)) ->
  forall a t, means G a t -> forall t', means G a t' -> t = t'.
Proof.
  intros G NT NC.
  apply (means_mut G
    (fun a t => forall t', means G a t' -> t = t')
    (fun l l' => forall l'', fields G l l'' -> l' = l'')
    (fun l l' => forall l'', alts G l l'' -> l' = l'')).
  - intros t' H. inversion H. reflexivity.
  - intros t' H. inversion H. reflexivity.
  - intros t' H. inversion H. reflexivity.
  - intros t' H. inversion H. reflexivity.
  - intros r c Hr t' H. inversion H as [ | | | |? c' Hr'| | | | | | | ]; subst.
    rewrite (range_fun G _ _ _ NC Hr Hr'). reflexivity.
  - intros ext root more t' H. inversion H. reflexivity.
  - intros r c Hr t' H. inversion H as [ | | | | | |? c' Hr'| | | | | ]; subst.
    rewrite (range_fun G _ _ _ NC Hr Hr'). reflexivity.
  - intros r c Hr t' H. inversion H as [ | | | | | | |? c' Hr'| | | | ]; subst.
    rewrite (range_fun G _ _ _ NC Hr Hr'). reflexivity.
  - intros ext root adds root' adds' _ IH1 _ IH2 t' H. inversion H; subst.
    f_equal; [apply IH1|apply IH2]; assumption.
  - intros r c a t Hr _ IH t' H. inversion H as [ | | | | | | | | |? c' ? t2 Hr' Ht2| | ]; subst.
    rewrite (range_fun G _ _ _ NC Hr Hr'), (IH _ Ht2). reflexivity.
  - intros ext root more root' more' _ IH1 _ IH2 t' H. inversion H; subst.
    f_equal; [apply IH1|apply IH2]; assumption.
  - intros n a t Hin _ IH t' H. inversion H as [ | | | | | | | | | | |? a' ? Hin' Ht']; subst.
    apply lookup_iff in Hin; [|exact NT]. apply lookup_iff in Hin'; [|exact NT].
    rewrite Hin in Hin'. inversion Hin'; subst. apply IH. exact Ht'.
  - intros l'' H. inversion H. reflexivity.
  - intros n o a t l l' _ IH1 _ IH2 l'' H. inversion H; subst.
    f_equal; [f_equal; apply IH1|apply IH2]; assumption.
  - intros l'' H. inversion H. reflexivity.
  - intros n a t l l' _ IH1 _ IH2 l'' H. inversion H; subst.
    f_equal; [apply IH1|apply IH2]; assumption.
Qed.

(* ---------------- a checker ---------------- *)
Section Check.
Context (G : grammar).
Definition bound_val (b : bound) : option Z :=
  match b with Num z => Some z | Cst n => lookup n (g_consts G) end.
Definition range_ok (r : option range) (c : option con) : bool :=
  match r, c with
  | None, None => true
  | Some r, Some c =>
      Bool.eqb (r_ext r) (c_ext c) &&
      match bound_val (r_lo r), bound_val (r_hi r) with
      | Some lo, Some hi => (lo =? c_lb c) && (hi =? c_ub c)
      | _, _ => false
      end
  | _, _ => false
  end.
Definition zs_eqb (a b : list Z) : bool := if list_eq_dec Z.eq_dec a b then true else false.
Fixpoint check (n : nat) (a : asn) (t : ty) {struct n} : bool :=
  match n with
  | O => false
  | S n =>
      match a, t with
      | ANull, TNull | ABool, TBool | AAny, TOcts None | AOid, TOcts None => true
      | AInt r, TInt c => range_ok r c
      | AEnum e root more, TEnum e' root' more' =>
          Bool.eqb e e' && zs_eqb (numbered 0 (List.length root)) root'
          && zs_eqb (numbered (List.length root) (List.length more)) more'
      | ABits r, TBits c => range_ok r c
      | AOcts r, TOcts c => range_ok r c
      | ASeq e root adds, TSeq e' root' adds' =>
          Bool.eqb e e' && check_fields n root root' && check_fields n adds adds'
      | ASeqOf r a, TSeqOf c t => range_ok r c && check n a t
      | AChoice e root more, TChoice e' root' more' =>
          Bool.eqb e e' && check_alts n root root' && check_alts n more more'
      | ARef x, t => match lookup x (g_types G) with Some a => check n a t | None => false end
      | _, _ => false
      end
  end
with check_fields (n : nat) (l : list (string * (bool * asn))) (l' : list (bool * ty)) {struct n} : bool :=
  match n with
  | O => false
  | S n =>
      match l, l' with
      | [], [] => true
      | (_, (o, a)) :: l, (o', t) :: l' => Bool.eqb o o' && check n a t && check_fields n l l'
      | _, _ => false
      end
  end
with check_alts (n : nat) (l : list (string * asn)) (l' : list ty) {struct n} : bool :=
  match n with
  | O => false
  | S n =>
      match l, l' with
      | [], [] => true
      | (_, a) :: l, t :: l' => check n a t && check_alts n l l'
      | _, _ => false
      end
  end.

Lemma bound_val_is : forall b z, bound_val b = Some z -> bound_is G b z.
Proof.
  intros [z|n] z' H; cbn [bound_val] in H; [inversion H; constructor|].
  constructor. apply lookup_in, H.
Qed.
Lemma range_ok_is : forall r c, range_ok r c = true -> range_is G r c.
Proof.
  intros [r|] [[e lo hi]|]; cbn [range_ok c_ext c_lb c_ub]; try discriminate; [|constructor].
  intros H. apply andb_prop in H as [He H].
  destruct (bound_val (r_lo r)) as [l|] eqn:El; [|discriminate].
  destruct (bound_val (r_hi r)) as [h|] eqn:Eh; [|discriminate].
  apply andb_prop in H as [H1 H2]. apply Z.eqb_eq in H1, H2. subst.
  apply Bool.eqb_prop in He. subst e. constructor; apply bound_val_is; assumption.
Qed.
Lemma zs_eqb_eq : forall a b, zs_eqb a b = true -> a = b.
Proof. intros a b. unfold zs_eqb. destruct (list_eq_dec Z.eq_dec a b); [auto|discriminate]. Qed.

Lemma check_sound : forall n,
  (forall a t, check n a t = true -> means G a t) /\
  (forall l l', check_fields n l l' = true -> fields G l l') /\
  (forall l l', check_alts n l l' = true -> alts G l l').
Proof.
  induction n as [|n (IH1 & IH2 & IH3)]; [repeat split; intros; discriminate|].
  repeat split.
  - intros a t.
    destruct a as [ | | | |r|e root more|r|r|e root adds|r a|e root more|x].
    1-11: destruct t as [ | |c|e' root' more'|c|c|e' root' adds'|c t|e' root' more'];
      cbn [check]; try discriminate.
    + constructor.
    + constructor.
    + destruct c; [discriminate|]. constructor.
    + destruct c; [discriminate|]. constructor.
    + intros H. constructor. apply range_ok_is, H.
    + intros H. apply andb_prop in H as [H H3]. apply andb_prop in H as [H1 H2].
      apply Bool.eqb_prop in H1. apply zs_eqb_eq in H2, H3. subst. constructor.
    + intros H. constructor. apply range_ok_is, H.
    + intros H. constructor. apply range_ok_is, H.
    + intros H. apply andb_prop in H as [H H3]. apply andb_prop in H as [H1 H2].
      apply Bool.eqb_prop in H1. subst. constructor; apply IH2; assumption.
    + intros H. apply andb_prop in H as [H1 H2].
      constructor; [apply range_ok_is; exact H1|apply IH1; exact H2].
    + intros H. apply andb_prop in H as [H H3]. apply andb_prop in H as [H1 H2].
      apply Bool.eqb_prop in H1. subst. constructor; apply IH3; assumption.
    + cbn [check]. destruct (lookup x (g_types G)) as [a|] eqn:E; [|discriminate].
      intros H. apply m_ref with a; [apply lookup_in, E|apply IH1, H].
  - intros [|[x [o a]] l] [|[o' t] l']; cbn [check_fields]; try discriminate; [constructor|].
    intros H. apply andb_prop in H as [H H3]. apply andb_prop in H as [H1 H2].
    apply Bool.eqb_prop in H1. subst. constructor; [apply IH1|apply IH2]; assumption.
  - intros [|[x a] l] [|t l']; cbn [check_alts]; try discriminate; [constructor|].
    intros H. apply andb_prop in H as [H1 H2]. constructor; [apply IH1|apply IH3]; assumption.
Qed.
End Check.

Fixpoint nodup_b (l : list string) : bool :=
  match l with [] => true | x :: r => negb (existsb (String.eqb x) r) && nodup_b r end.
Lemma nodup_b_ok : forall l, nodup_b l = true -> NoDup l.
Proof.
  induction l as [|x l IH]; intros H; [constructor|].
  cbn [nodup_b] in H. apply andb_prop in H as [H1 H2]. constructor; [|apply IH, H2].
  intros Hin. apply Bool.negb_true_iff in H1.
  assert (E : existsb (String.eqb x) l = true).
  { apply existsb_exists. exists x. split; [exact Hin|apply String.eqb_refl]. }
  congruence.
Qed.

Definition impl_b (prefix : string) (G : grammar) (tab : list (string * ty)) : bool :=
  nodup_b (map fst (g_types G)) && nodup_b (map fst (g_consts G)) && nodup_b (map fst tab) &&
  forallb (fun na => match lookup (append prefix (c_name (fst na))) tab with
                     | Some _ => true | None => false end) (g_types G) &&
  forallb (fun xt => inline_name (fst xt) ||
             existsb (fun na => String.eqb (fst xt) (append prefix (c_name (fst na)))
                                && check G 200 (snd na) (snd xt)) (g_types G)) tab.

Lemma impl_ok : forall prefix G tab, impl_b prefix G tab = true -> implements prefix G tab.
Proof.
  intros prefix G tab H. unfold impl_b in H.
  apply andb_prop in H as [H H5]. apply andb_prop in H as [H H4].
  apply andb_prop in H as [H H3]. apply andb_prop in H as [H1 H2].
  apply nodup_b_ok in H1, H2, H3.
  rewrite forallb_forall in H4, H5.
  split.
  - repeat split; assumption.
  - intros n a Hin. specialize (H4 _ Hin). cbn [fst] in H4.
    destruct (lookup (append prefix (c_name n)) tab) as [t|] eqn:E; [|discriminate].
    exists t. apply lookup_in, E.
  - intros x t Hin Hx. specialize (H5 _ Hin). cbn [fst snd] in H5. rewrite Hx in H5.
    cbn [orb] in H5. apply existsb_exists in H5 as ((n & a) & Hna & H5). cbn [fst snd] in H5.
    apply andb_prop in H5 as [Hn Hc]. apply String.eqb_eq in Hn.
    exists n, a. split; [exact Hn|]. split; [exact Hna|].
    apply (proj1 (check_sound G 200)) in Hc.
    intros t'. split.
    + intros Ht'. symmetry. exact (means_fun G H1 H2 _ _ Hc _ Ht').
    + intros ->. exact Hc.
Qed.

Lemma rua_impl : implements "RUA_" RuaAsn.rua_asn RuaTypes.rua_types.
Proof. apply impl_ok. vm_compute. reflexivity. Qed.
Lemma hnbap_impl : implements "HNBAP_" HnbapAsn.hnbap_asn HnbapTypes.hnbap_types.
Proof. apply impl_ok. vm_compute. reflexivity. Qed.
Lemma sabp_impl : implements "SABP_" SabpAsn.sabp_asn SabpTypes.sabp_types.
Proof. apply impl_ok. vm_compute. reflexivity. Qed.
Lemma ranap_impl : implements "RANAP_" RanapAsn.ranap_asn RanapTypes.ranap_types.
Proof. apply impl_ok. vm_compute. reflexivity. Qed.

(* ---------------- the message tables ---------------- *)
Definition sigs (ms : list Container.msgdef) : list (string * N * string * ty) :=
  flat_map (fun m => map (fun r => (Container.r_ie r, Container.r_id r, Container.r_tyname r, Container.r_ty r))
                         (Container.m_rows m)) ms.
Definition rows_from (G : grammar) (ies : list (string * N * string * ty)) : Prop :=
  forall x id n t, In (x, id, n, t) ies ->
    In (x, Z.of_N id) (g_consts G) /\ forall t', means G (ARef n) t' <-> t' = t.
Definition rows_b (G : grammar) (ies : list (string * N * string * ty)) : bool :=
  nodup_b (map fst (g_types G)) && nodup_b (map fst (g_consts G)) &&
  forallb (fun q => let '(x, id, n, t) := q in
    match lookup x (g_consts G) with Some z => z =? Z.of_N id | None => false end
    && check G 200 (ARef n) t) ies.
Lemma rows_ok : forall G ies, rows_b G ies = true -> rows_from G ies.
Proof.
  intros G ies H. unfold rows_b in H. apply andb_prop in H as [H H3]. apply andb_prop in H as [H1 H2].
  apply nodup_b_ok in H1, H2. rewrite forallb_forall in H3.
  intros x id n t Hin. specialize (H3 _ Hin). cbv beta iota in H3.
  apply andb_prop in H3 as [Hx Hc].
  destruct (lookup x (g_consts G)) as [z|] eqn:E; [|discriminate].
  apply Z.eqb_eq in Hx. subst z. split; [apply lookup_in, E|].
  apply (proj1 (check_sound G 200)) in Hc. intros t'. split.
  - intros Ht'. symmetry. exact (means_fun G H1 H2 _ _ Hc _ Ht').
  - intros ->. exact Hc.
Qed.
Lemma ranap_rows : rows_from RanapAsn.ranap_asn (sigs RanapTab.ranap_msgs).
Proof. apply rows_ok. vm_compute. reflexivity. Qed.
Lemma rua_rows : rows_from RuaAsn.rua_asn (sigs RuaTab.rua_msgs).
Proof. apply rows_ok. vm_compute. reflexivity. Qed.
Lemma hnbap_rows : rows_from HnbapAsn.hnbap_asn (sigs HnbapTab.hnbap_msgs).
Proof. apply rows_ok. vm_compute. reflexivity. Qed.
Lemma sabp_rows : rows_from SabpAsn.sabp_asn (sigs SabpTab.sabp_msgs).
Proof. apply rows_ok. vm_compute. reflexivity. Qed.

Lemma rows_msg : forall G ms, rows_from G (sigs ms) ->
  forall m r, In m ms -> In r (Container.m_rows m) ->
    In (Container.r_ie r, Z.of_N (Container.r_id r)) (g_consts G) /\
    forall t, means G (ARef (Container.r_tyname r)) t <-> t = Container.r_ty r.
Proof.
  intros G ms H m r Hm Hr. apply (H (Container.r_ie r) (Container.r_id r)).
  unfold sigs. apply in_flat_map. exists m. split; [exact Hm|].
  apply (in_map (fun r => (Container.r_ie r, Container.r_id r, Container.r_tyname r, Container.r_ty r)) _ _ Hr).
Qed.

(* ---------------- the derived numbers of the constraints ---------------- *)
Definition bits_b (p : PerBits.per) : bool :=
  let r := PerBits.p_upper p - PerBits.p_lower p + 1 in
  let b := PerBits.p_range_bits p in
  (0 <=? b) && (1 <=? r) && (r <=? 2 ^ b) && ((b =? 0) || (2 ^ (b - 1) <? r)) &&
  (PerBits.p_effective_bits p =? (if PerBits.p_upper p <? 65536 then b else -1)).
Lemma bits_all : forallb bits_b PerBits.per_constraints = true.
Proof. vm_compute. reflexivity. Qed.
Lemma bits_ok : forall p, In p PerBits.per_constraints ->
  let r := PerBits.p_upper p - PerBits.p_lower p + 1 in
  let b := PerBits.p_range_bits p in
  1 <= r /\ 0 <= b /\ r <= 2 ^ b /\ (forall k, 0 <= k -> r <= 2 ^ k -> b <= k) /\
  PerBits.p_effective_bits p = (if PerBits.p_upper p <? 65536 then b else -1).
Proof.
  intros p Hp r b. pose proof bits_all as H. rewrite forallb_forall in H. specialize (H p Hp).
  unfold bits_b in H. cbv zeta in H. fold r b in H.
  apply andb_prop in H as [H H5]. apply andb_prop in H as [H H4]. apply andb_prop in H as [H H3].
  apply andb_prop in H as [H1 H2]. apply Z.leb_le in H1, H2, H3. apply Z.eqb_eq in H5.
  repeat split; try assumption.
  intros k Hk Hr. apply Bool.orb_true_iff in H4 as [H4|H4].
  - apply Z.eqb_eq in H4. lia.
  - apply Z.ltb_lt in H4.
    assert (Hlt : 2 ^ (b - 1) < 2 ^ k) by lia.
    apply Z.pow_lt_mono_r_iff in Hlt; lia.
Qed.
