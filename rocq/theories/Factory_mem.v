(* What the factory functions leave allocated. *)
From Coq Require Import ZifyBool ZifyNat ZifyN String List Permutation.
From Verif Require Import Base Aper Container RanapTab Helpers Factory_spec Factory.
Local Open Scope list_scope.
Local Open Scope string_scope.
Local Open Scope list_scope.

Lemma lab_eqb_eq a b : lab_eqb a b = true <-> a = b.
Proof.
  unfold lab_eqb. destruct a as [s n], b as [s' n']. cbn [fst snd]. split.
  - intros H. apply andb_prop in H as [H1 H2]. apply String.eqb_eq in H1. apply Nat.eqb_eq in H2. congruence.
  - intros H. injection H as -> ->. rewrite String.eqb_refl, Nat.eqb_refl. reflexivity.
Qed.
Lemma inb_in l L : existsb (lab_eqb l) L = true <-> In l L.
Proof.
  split; intros H.
  - apply existsb_exists in H as (x&Hx&E). apply lab_eqb_eq in E. subst. exact Hx.
  - apply existsb_exists. exists l. split; [exact H|apply lab_eqb_eq; reflexivity].
Qed.
Lemma live_app a : forall b L, live_after (a ++ b) L = match live_after a L with Some L' => live_after b L' | None => None end.
Proof.
  induction a as [|[l|l] a IH]; intros b L; cbn [app live_after]; [reflexivity| |]; destruct (existsb (lab_eqb l) L); auto.
Qed.
Lemma live_al : forall ls L, NoDup ls -> (forall x, In x ls -> ~ In x L) -> live_after (map Al ls) L = Some (rev ls ++ L).
Proof.
  induction ls as [|l ls IH]; intros L Hn Hd; cbn [map live_after rev app]; [reflexivity|].
  destruct (existsb (lab_eqb l) L) eqn:E; [exfalso; apply inb_in in E; exact (Hd l (or_introl eq_refl) E)|].
  inversion Hn as [|? ? Hi Hn']; subst. rewrite IH; [rewrite <- app_assoc; reflexivity|exact Hn'|].
  intros x Hx [->|Hin]; [exact (Hi Hx)|exact (Hd x (or_intror Hx) Hin)].
Qed.
Definition without (M L : list lab) : list lab := filter (fun x => negb (existsb (lab_eqb x) M)) L.
Lemma without_in M L x : In x (without M L) <-> In x L /\ ~ In x M.
Proof.
  unfold without. rewrite filter_In. split; intros [H1 H2]; split; try exact H1.
  - intros Hi. apply inb_in in Hi. rewrite Hi in H2. discriminate.
  - destruct (existsb (lab_eqb x) M) eqn:E; [|reflexivity]. apply inb_in in E. contradiction.
Qed.
Lemma lab_eqb_sym a b : lab_eqb a b = lab_eqb b a.
Proof. unfold lab_eqb. rewrite String.eqb_sym, Nat.eqb_sym. reflexivity. Qed.
Lemma filter_filter {A} (f g : A -> bool) l : filter f (filter g l) = filter (fun x => g x && f x) l.
Proof. induction l as [|x l IH]; [reflexivity|]. cbn [filter]. destruct (g x); cbn [filter andb]; [destruct (f x); rewrite IH; reflexivity|exact IH]. Qed.
Lemma filter_all {A} (f : A -> bool) l : (forall x, In x l -> f x = true) -> filter f l = l.
Proof. induction l as [|x l IH]; intros H; [reflexivity|]. cbn [filter]. rewrite (H x) by (left; reflexivity). f_equal. apply IH. intros; apply H; right; assumption. Qed.
Lemma live_fr : forall M L, NoDup M -> (forall x, In x M -> In x L) -> live_after (map Fr M) L = Some (without M L).
Proof.
  induction M as [|m M IH]; intros L Hn Hi; cbn [map live_after].
  - f_equal. symmetry. apply filter_all. reflexivity.
  - rewrite (proj2 (inb_in m L)) by (apply Hi; left; reflexivity). inversion Hn as [|? ? Hm Hn']; subst. rewrite IH; [|exact Hn'|].
    + f_equal. unfold without. rewrite filter_filter. apply filter_ext. intros x. cbn [existsb]. rewrite negb_orb, lab_eqb_sym. reflexivity.
    + intros x Hx. apply filter_In. split; [apply Hi; right; exact Hx|]. destruct (lab_eqb m x) eqn:E; [|reflexivity]. apply lab_eqb_eq in E. subst. contradiction.
Qed.

Lemma add_rows_labs m s : forall rows fields k, exists ks, fst (add_rows m s rows fields k) = map Al (map (fun i => (m_key m, i)) ks) /\ NoDup ks /\ forall i, In i ks -> k <= i.
Proof.
  induction rows as [|r rows IH]; intros fields k; cbn [add_rows].
  - exists []. repeat split; [constructor|intros i []].
  - destruct fields as [|f fields]; [exists []; repeat split; [constructor|intros i []]|].
    destruct (IH fields (S k)) as (ks&Hk&Hn&Hg). destruct (wanted m s r).
    + destruct f as [v|]; [|exists []; repeat split; [constructor|intros i []]]. destruct (new_ie r v); [|exists []; repeat split; [constructor|intros i []]].
      destruct (add_rows m s rows fields (S k)) as [t l]. cbn [fst] in *. exists (k :: ks). split; [cbn [map]; rewrite Hk; reflexivity|].
      split; [constructor; [intros Hi; apply Hg in Hi; lia|exact Hn]|]. intros i [->|Hi]; [lia|apply Hg in Hi; lia].
    + exists ks. split; [exact Hk|]. split; [exact Hn|]. intros i Hi. apply Hg in Hi. lia.
Qed.
Lemma add_labs m s : exists ls, fst (add_ies m s) = map Al ls /\ rel (fst (add_ies m s)) = map Fr ls /\ NoDup ls /\ forall x, In x ls -> fst x = m_key m.
Proof.
  unfold add_ies. destruct (add_rows_labs m s (m_rows m) (i_fields s) 0) as (ks&Hk&Hn&_). exists (map (fun i => (m_key m, i)) ks). rewrite Hk.
  split; [reflexivity|]. split; [|split].
  - generalize (map (fun i => (m_key m, i)) ks). intros l. unfold rel. induction l as [|x l IH]; [reflexivity|]. cbn [map flat_map app]. rewrite IH. reflexivity.
  - clear Hk. induction Hn as [|x l Hx Hn IH]; [constructor|]. cbn [map]. constructor; [|exact IH]. intros H. apply in_map_iff in H as (y&E&Hy). injection E as ->. contradiction.
  - intros x H. apply in_map_iff in H as (y&<-&_). reflexivity.
Qed.
Lemma nil_if_none (L : list lab) : (forall x, ~ In x L) -> L = [].
Proof. destruct L as [|x L]; [reflexivity|]. intros H. destruct (H x). left. reflexivity. Qed.
Lemma without_rev_app ls L : without L (rev ls ++ L) = without L (rev ls).
Proof.
  unfold without. rewrite filter_app. replace (filter _ L) with (@nil lab); [apply app_nil_r|]. symmetry. apply nil_if_none. intros x Hx. apply filter_In in Hx as [Hi Hx].
  rewrite (proj2 (inb_in x L) Hi) in Hx. discriminate.
Qed.
Lemma without_none M L : (forall x, In x L -> ~ In x M) -> without M L = L.
Proof.
  intros H. apply filter_all. intros x Hx. destruct (existsb (lab_eqb x) M) eqn:E; [|reflexivity]. apply inb_in in E. destruct (H x Hx E).
Qed.

(* the common end: [L] is what the caller holds, and releases by [mid] *)
Lemma finish_mem P d p c m s L M ko :
  NoDup M -> (forall x, In x M <-> In x L) ->
  (forall x, In x L -> fst x <> m_key m) -> m_key m <> "pdu" -> m_key m <> "msgb" ->
  exists live, live_after (r_ev (finish P d p c m s (map Fr M) ko)) L = Some live /\
    (r_msg (finish P d p c m s (map Fr M) ko) <> None -> live = [msg_lab]) /\
    (ko = false -> r_msg (finish P d p c m s (map Fr M) ko) = None -> live = []).
Proof.
  intros HM HL Hk Hp Hm. destruct (add_labs m s) as (ls&Ht&Hr&Hn&Hf). unfold finish. destruct (add_ies m s) as [t r]. cbn [fst] in *.
  assert (Hd : forall x, In x ls -> ~ In x L) by (intros x Hx Hi; exact (Hk x Hi (Hf x Hx))).
  assert (Hpre : live_after (t ++ map Fr M) L = Some (rev ls)).
  { rewrite live_app, Ht, live_al by assumption. rewrite live_fr; [|exact HM|intros x Hx; apply in_or_app; right; apply HL, Hx].
    f_equal. assert (Hw : without M (rev ls ++ L) = without L (rev ls ++ L)).
    { unfold without. apply filter_ext. intros x. f_equal. destruct (existsb (lab_eqb x) M) eqn:E1, (existsb (lab_eqb x) L) eqn:E2; try reflexivity.
      - apply inb_in, HL, inb_in in E1. congruence.
      - apply inb_in, HL, inb_in in E2. congruence. }
    rewrite Hw, without_rev_app. apply without_none. intros x Hx. apply in_rev in Hx. exact (Hd x Hx). }
  assert (Hall : without ls (rev ls) = []).
  { apply nil_if_none. intros x Hx. apply without_in in Hx as [Hx Hx']. apply in_rev in Hx. contradiction. }
  assert (Hrel : live_after (map Fr ls) (rev ls) = Some []).
  { rewrite live_fr; [rewrite Hall; reflexivity|exact Hn|intros x; apply in_rev]. }
  destruct r as [l|]; [destruct (generate P d p c (m_cont m) (list_val l)) as [o|]|]; cbn [r_ev r_msg].
  - exists [msg_lab]. split; [|split; [reflexivity|discriminate]]. rewrite app_assoc, live_app, Hpre. cbn [app].
    assert (H1 : forall n i, n <> m_key m -> existsb (lab_eqb (n, i)) (rev ls) = false).
    { intros n i Hne. destruct (existsb _ _) eqn:E; [|reflexivity]. apply inb_in, in_rev, Hf in E. cbn [fst] in E. congruence. }
    cbn [live_after]. rewrite H1 by congruence. unfold msg_lab. cbn [existsb]. rewrite H1 by congruence. cbn [lab_eqb fst snd String.eqb Ascii.eqb Bool.eqb andb orb Nat.eqb filter negb existsb].
    assert (Hfl : filter (fun x => negb (lab_eqb ("pdu", 0) x)) (rev ls) = rev ls).
    { apply filter_all. intros x Hx. destruct (lab_eqb ("pdu", 0) x) eqn:E; [|reflexivity]. apply lab_eqb_eq in E. subst x. apply in_rev, Hf in Hx. cbn [fst] in Hx. congruence. }
    change (lab_eqb ("pdu", 0) ("msgb", 0)) with false. cbn [negb]. rewrite Hfl, Hr, live_fr; [|exact Hn|intros x Hx; right; apply in_rev in Hx; exact Hx].
    f_equal. unfold without. cbn [filter]. destruct (existsb (lab_eqb ("msgb", 0)) ls) eqn:E; [apply inb_in, Hf in E; cbn [fst] in E; congruence|].
    cbn [negb]. fold (without ls (rev ls)). rewrite Hall. reflexivity.
  - exists []. split; [|split; [congruence|reflexivity]]. rewrite app_assoc, live_app, Hpre, Hr. exact Hrel.
  - rewrite app_assoc, live_app, Hpre. destruct ko.
    + cbn [live_after]. eexists. split; [reflexivity|]. split; [congruence|discriminate].
    + rewrite Hr, Hrel. exists []. repeat split. congruence.
Qed.

Definition clean (m : made) : Prop := exists live, live_after (r_ev m) [] = Some live /\ (r_msg m <> None -> live = [msg_lab]).
Lemma finish_clean P d p c m s ko : m_key m <> "pdu" -> m_key m <> "msgb" -> clean (finish P d p c m s [] ko).
Proof.
  intros H1 H2. destruct (finish_mem P d p c m s [] [] ko) as (live&Hl&Hm&_); [constructor|tauto|intros x []|exact H1|exact H2|]. exists live. auto.
Qed.
(* behind a prefix of allocations that the middle part releases *)
Lemma after_clean P d p c m s pre L M ko : live_after pre [] = Some L -> NoDup M -> (forall x, In x M <-> In x L) ->
  (forall x, In x L -> fst x <> m_key m) -> m_key m <> "pdu" -> m_key m <> "msgb" ->
  clean (mkMade (r_msg (finish P d p c m s (map Fr M) ko)) (pre ++ r_ev (finish P d p c m s (map Fr M) ko))).
Proof.
  intros Hp HM HL Hk H1 H2. destruct (finish_mem P d p c m s L M ko HM HL Hk H1 H2) as (live&Hl&Hm&_).
  exists live. cbn [r_ev r_msg]. rewrite live_app, Hp. auto.
Qed.
Lemma alg_labs_in n l x : In x (alg_labs n l) -> fst x = n.
Proof. unfold alg_labs. intros H. apply in_map_iff in H as (i&<-&_). reflexivity. Qed.
Lemma alg_labs_nodup n l : NoDup (alg_labs n l).
Proof.
  unfold alg_labs. generalize (seq_NoDup (length l) 0). generalize (seq 0 (length l)). intros ks H. induction H as [|x ks Hx H IH]; [constructor|].
  cbn [map]. constructor; [|exact IH]. intros Hi. apply in_map_iff in Hi as (y&E&Hy). injection E as ->. contradiction.
Qed.
Lemma rel_al ls : rel (map Al ls) = map Fr ls.
Proof. unfold rel. induction ls as [|x ls IH]; [reflexivity|]. cbn [map flat_map app]. rewrite IH. reflexivity. Qed.
Lemma live_al_nil ls : NoDup ls -> live_after (map Al ls) [] = Some (rev ls).
Proof. intros H. rewrite live_al; [rewrite app_nil_r; reflexivity|exact H|intros x _ []]. Qed.
Lemma nodup_app (a b : list lab) : NoDup a -> NoDup b -> (forall x, In x a -> In x b -> False) -> NoDup (a ++ b).
Proof.
  induction a as [|x a IH]; intros Ha Hb Hd; [exact Hb|]. inversion Ha as [|? ? Hx Ha']; subst. cbn [app]. constructor.
  - intros Hi. apply in_app_or in Hi as [Hi|Hi]; [exact (Hx Hi)|exact (Hd x (or_introl eq_refl) Hi)].
  - apply IH; [exact Ha'|exact Hb|]. intros y Hy. apply Hd. right. exact Hy.
Qed.
Lemma none_clean evs live : live_after evs [] = Some live -> clean (mkMade None evs).
Proof. intros H. exists live. split; [exact H|]. cbn [r_msg]. congruence. Qed.
(* allocations ls, then the common end which releases them *)
Lemma alloc_clean P d p c m s ls ko : NoDup ls -> (forall x, In x ls -> fst x <> m_key m) -> m_key m <> "pdu" -> m_key m <> "msgb" ->
  clean (mkMade (r_msg (finish P d p c m s (map Fr ls) ko)) (map Al ls ++ r_ev (finish P d p c m s (map Fr ls) ko))).
Proof.
  intros Hn Hk H1 H2. eapply after_clean; [apply live_al_nil, Hn|exact Hn|intros x; apply in_rev|intros x Hx; apply Hk, in_rev, Hx|exact H1|exact H2].
Qed.
Lemma sec_clean ik ck st a b : clean (new_msg_sec_mod_cmd2 ik ck st a b).
Proof.
  unfold new_msg_sec_mod_cmd2. destruct (alg_loop uia a bits8) as [ia [|]]; cbn [negb].
  2:{ eapply none_clean. apply live_al_nil, alg_labs_nodup. }
  pose (l2 := alg_labs "uia" ia ++ [("ik", 0)] : list lab).
  assert (N2 : NoDup l2).
  { apply nodup_app; [apply alg_labs_nodup|constructor; [intros []|constructor]|]. intros x Hx [<-|[]]. apply alg_labs_in in Hx. discriminate. }
  assert (I2 : forall x, In x l2 -> fst x = "uia" \/ fst x = "ik").
  { intros x Hx. apply in_app_or in Hx as [Hx|[<-|[]]]; [left; exact (alg_labs_in _ _ _ Hx)|right; reflexivity]. }
  replace (map Al (alg_labs "uia" ia) ++ [Al ("ik", 0)]) with (map Al l2) by (unfold l2; rewrite map_app; reflexivity).
  destruct ck as [ck|].
  - destruct (alg_loop uea b bits8) as [ea ok]. pose (l3 := l2 ++ alg_labs "uea" ea).
    assert (N3 : NoDup l3).
    { apply nodup_app; [exact N2|apply alg_labs_nodup|]. intros x Hx Hy. apply I2 in Hx. apply alg_labs_in in Hy. destruct Hx; congruence. }
    assert (I3 : forall x, In x l3 -> fst x = "uia" \/ fst x = "ik" \/ fst x = "uea").
    { intros x Hx. apply in_app_or in Hx as [Hx|Hx]; [apply I2 in Hx; tauto|apply alg_labs_in in Hx; tauto]. }
    replace (map Al l2 ++ map Al (alg_labs "uea" ea)) with (map Al l3) by (unfold l3; rewrite map_app; reflexivity).
    destruct ok; cbn [negb]; [|eapply none_clean; apply live_al_nil, N3].
    replace (map Al l3 ++ [Al ("ck", 0)]) with (map Al (l3 ++ [("ck", 0)])) by (rewrite map_app; reflexivity). rewrite rel_al.
    apply alloc_clean; try discriminate.
    + apply nodup_app; [exact N3|constructor; [intros []|constructor]|]. intros x Hx [<-|[]]. apply I3 in Hx. cbn [fst] in Hx. intuition discriminate.
    + intros x Hx. apply in_app_or in Hx as [Hx|[<-|[]]]; [apply I3 in Hx|]; cbn [M_RANAP_SecurityModeCommandIEs m_key fst]; [intuition congruence|discriminate].
  - rewrite rel_al. apply alloc_clean; try discriminate; [exact N2|]. intros x Hx. apply I2 in Hx. cbn [M_RANAP_SecurityModeCommandIEs m_key]. intuition congruence.
Qed.
Lemma rab_assign_clean f s : clean (rab_assign f s).
Proof.
  unfold rab_assign. destruct (new_ie_pair _ _ _ _ _ _ _); cbv zeta.
  - change ([Fr ("pair", 0)] ++ [Fr ("container", 0)]) with (map Fr [("pair", 0); ("container", 0)]).
    eapply after_clean; [reflexivity| | | |discriminate|discriminate].
    + repeat constructor; cbn; intuition discriminate.
    + cbn. intuition.
    + cbn. intros x [<-|[<-|[]]]; discriminate.
  - change ([] ++ [Fr ("container", 0)]) with (map Fr [("container", 0)]).
    eapply after_clean; [reflexivity| | | |discriminate|discriminate].
    + repeat constructor; cbn; intuition discriminate.
    + cbn. intuition.
    + cbn. intros x [<-|[]]; discriminate.
Qed.
Lemma rab_rel_clean r c : clean (new_msg_rab_rel_req r c).
Proof.
  unfold new_msg_rab_rel_req.
  match goal with |- context[add_ies ?m ?s] => destruct (add_labs m s) as (ls&Ht&Hr&Hn&Hf); destruct (add_ies m s) as [t x] end.
  cbn [fst] in *.
  assert (Hpre : live_after (Al ("rab_id", 0) :: t) [] = Some (rev ls ++ [("rab_id", 0)])).
  { cbn [live_after existsb]. rewrite Ht. apply live_al; [exact Hn|]. intros y Hy [<-|[]]. apply Hf in Hy. discriminate. }
  destruct x as [l|]; [|eapply none_clean; exact Hpre].
  rewrite Hr. change (Al ("rab_id", 0) :: t ++ Fr ("rab_id", 0) :: ?e) with ((Al ("rab_id", 0) :: t) ++ [Fr ("rab_id", 0)] ++ e). cbv zeta.
  rewrite app_assoc.
  eapply after_clean with (L := rev ls); [|exact Hn|intros y; apply in_rev| |discriminate|discriminate].
  - rewrite live_app, Hpre. change [Fr ("rab_id", 0)] with (map Fr [("rab_id", 0)]). rewrite live_fr.
    + f_equal. rewrite without_rev_app. apply without_none. intros y Hy [<-|[]]. apply in_rev, Hf in Hy. discriminate.
    + repeat constructor. intros [].
    + intros y [<-|[]]. apply in_or_app. right. left. reflexivity.
  - intros y Hy. apply in_rev, Hf in Hy. rewrite Hy. discriminate.
Qed.
Lemma reset_resource_clean d c ids g : clean (new_msg_reset_resource d c ids g).
Proof.
  unfold new_msg_reset_resource. destruct ids as [|id [|? ?]]; try (eapply none_clean; reflexivity).
  match goal with |- context[add_ies ?m ?s] => destruct (add_labs m s) as (ls&Ht&Hr&Hn&Hf); destruct (add_ies m s) as [t x] end.
  cbn [fst] in *. destruct x as [l|]; [|eapply none_clean; rewrite Ht; apply live_al_nil, Hn]. rewrite Hr. cbv zeta. rewrite Ht.
  apply alloc_clean; try discriminate; [exact Hn|]. intros y Hy. apply Hf in Hy. rewrite Hy. discriminate.
Qed.
Lemma call_clean k m : do_call k = Ok m -> clean m.
Proof.
  destruct k; cbn [do_call]; intros H; try (match type of H with Ok ?a = Ok ?b => assert (a = b) as <- by congruence end); try (apply finish_clean; discriminate);
    try apply sec_clean; try apply rab_assign_clean; try apply rab_rel_clean; try apply reset_resource_clean.
  - unfold new_msg_common_id in H. destruct imsi as [s|]; [|injection H as <-; apply finish_clean; discriminate].
    destruct (imsi_encode 16 16 s) as [o|]; [|discriminate]. cbn [obind] in H. injection H as <-. change [Fr ("imsi", 0)] with (map Fr [("imsi", 0)]).
    match goal with |- clean (mkMade _ (Al ?l :: ?e)) => change (Al l :: e) with (map Al [l] ++ e) end. apply alloc_clean; try discriminate.
    + repeat constructor. intros [].
    + intros x [<-|[]]; discriminate.
  - unfold new_msg_paging_cmd in H. destruct (imsi_encode 16 16 imsi) as [o|]; [|discriminate]. cbn [obind] in H. cbv zeta in H. injection H as <-.
    destruct tmsi as [t|]; cbn [map app].
    + change [Fr ("imsi", 0); Fr ("tmsi", 0)] with (map Fr [("imsi", 0); ("tmsi", 0)]).
      match goal with |- clean (mkMade _ (Al ?a :: Al ?b :: ?e)) => change (Al a :: Al b :: e) with (map Al [a; b] ++ e) end. apply alloc_clean; try discriminate.
      * repeat constructor; cbn; intuition discriminate.
      * intros x [<-|[<-|[]]]; discriminate.
    + change [Fr ("imsi", 0)] with (map Fr [("imsi", 0)]).
      match goal with |- clean (mkMade _ (Al ?l :: ?e)) => change (Al l :: e) with (map Al [l] ++ e) end. apply alloc_clean; try discriminate.
      * repeat constructor. intros [].
      * intros x [<-|[]]; discriminate.
Qed.
Lemma rel_req_clean c : r_msg (new_msg_iu_rel_req c) = None -> live_after (r_ev (new_msg_iu_rel_req c)) [] = Some [].
Proof.
  intros H. unfold new_msg_iu_rel_req in *.
  match goal with H : r_msg (finish ?P ?d ?p ?c ?m ?s _ ?ko) = None |- _ => destruct (finish_mem P d p c m s [] [] ko) as (live&Hl&_&Hn) end;
    [constructor|tauto|intros x []|discriminate|discriminate|]. cbn [map] in *. etransitivity; [exact Hl|]. f_equal. apply Hn; [reflexivity|exact H].
Qed.
