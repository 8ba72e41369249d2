(* The RNC and area table *)
From Coq Require Import ZifyBool ZifyNat ZifyN.
From Verif Require Import Base Lai Lai_proofs IuClient IuClient_frame IuClient_spec.

(* ---------------- counting entries ---------------- *)
Definition cnt (n : rnc) (r : rai) : nat := length (filter (fun e => rai_eqb e r) (n_areas n)).
Definition total (l : list rnc) (r : rai) : nat :=
  length (filter (fun e => rai_eqb e r) (flat_map n_areas l)).
Lemma total_nil r : total [] r = 0.
Proof. reflexivity. Qed.
Lemma total_cons n l r : total (n :: l) r = cnt n r + total l r.
Proof. unfold total, cnt. cbn [flat_map]. rewrite filter_app, app_length. reflexivity. Qed.

Lemma cnt_eq n r r' : rai_eqb r r' = true -> cnt n r = cnt n r'.
Proof.
  intros H. unfold cnt. f_equal. apply filter_ext. intros e.
  destruct (rai_eqb e r) eqn:E1, (rai_eqb e r') eqn:E2; auto.
  - rewrite (rai_eqb_trans _ _ _ E1 H) in E2. discriminate.
  - rewrite rai_eqb_sym in H. rewrite (rai_eqb_trans _ _ _ E2 H) in E1. discriminate.
Qed.
Lemma cnt_pos n r : 0 < cnt n r <-> exists e, In e (n_areas n) /\ rai_eqb e r = true.
Proof.
  unfold cnt. split.
  - intros H. destruct (filter _ _) as [|e l] eqn:Ef; [cbn in H; lia|].
    exists e. apply (filter_In (fun e => rai_eqb e r)). rewrite Ef. left; reflexivity.
  - intros (e & Hi & He).
    assert (In e (filter (fun e => rai_eqb e r) (n_areas n))) as Hin by (apply filter_In; auto).
    destruct (filter _ _); [destruct Hin|cbn; lia].
Qed.
Lemma cnt_pos_b n r : existsb (fun e => rai_eqb e r) (n_areas n) = true <-> 0 < cnt n r.
Proof. rewrite cnt_pos, existsb_exists. reflexivity. Qed.
Lemma cnt_le_total l n r : In n l -> cnt n r <= total l r.
Proof.
  induction l as [|x l IH]; intros Hin; [destruct Hin|]. rewrite total_cons.
  destruct Hin as [->|Hin]; [lia|]. specialize (IH Hin). lia.
Qed.
Lemma total_one l n n' r : total l r <= 1 -> NoDup (map n_ptr l) -> In n l -> In n' l ->
  0 < cnt n r -> 0 < cnt n' r -> n = n'.
Proof.
  induction l as [|x l IH]; intros Ht Hd Hn Hn' Hc Hc'; [destruct Hn|].
  rewrite total_cons in Ht. cbn [map] in Hd. inversion Hd as [|? ? Hx Hd']; subst.
  destruct Hn as [->|Hn], Hn' as [->|Hn']; auto.
  - pose proof (cnt_le_total _ _ r Hn'). lia.
  - pose proof (cnt_le_total _ _ r Hn). lia.
  - apply IH; auto. lia.
Qed.
Lemma total_pos l r : 0 < total l r -> exists n, In n l /\ 0 < cnt n r.
Proof.
  induction l as [|x l IH]; intros H; [cbn in H; lia|]. rewrite total_cons in H.
  destruct (cnt x r) eqn:Ec.
  - destruct IH as [n [Hn Hc]]; [lia|]. exists n. split; [right|]; auto.
  - exists x. split; [left; auto|lia].
Qed.

Lemma nodup_ptr l n n' : NoDup (map n_ptr l) -> In n l -> In n' l -> n_ptr n = n_ptr n' -> n = n'.
Proof.
  induction l as [|x l IH]; intros Hd Hn Hn' Hp; [destruct Hn|].
  cbn [map] in Hd. inversion Hd as [|? ? Hx Hd']; subst.
  destruct Hn as [->|Hn], Hn' as [->|Hn']; auto.
  - exfalso. apply Hx. rewrite Hp. apply in_map; auto.
  - exfalso. apply Hx. rewrite <- Hp. apply in_map; auto.
Qed.

(* ---------------- the pure part of iu_rnc_register ---------------- *)
Section Reg.
Variable E : env.

Definition reg_l0 (s : st) (id : rnc_id) (a : sccp_addr) : list rnc :=
  match rnc_id_find s id with
  | Some n => if same_sccp_addr E (n_addr n) a then s_rncs s
              else upd_rnc (n_ptr n) (fun n => mkRnc (n_ptr n) (n_id n) a (n_areas n)) (s_rncs s)
  | None => mkRnc (s_next s) id a [] :: s_rncs s
  end.
Definition reg_ptr (s : st) (id : rnc_id) : ptr :=
  match rnc_id_find s id with Some n => n_ptr n | None => s_next s end.
Definition reg_next (s : st) (id : rnc_id) : N :=
  match rnc_id_find s id with Some n => s_next s | None => (s_next s + 1)%N end.
Definition find_area (l : list rnc) (r : rai) : option rnc :=
  find (fun n => existsb (fun e => rai_eqb e r) (n_areas n)) l.
Definition reg_l (s : st) (id : rnc_id) (r : rai) (a : sccp_addr) : list rnc :=
  let l0 := reg_l0 s id a in
  let p := reg_ptr s id in
  match find_area l0 r with
  | Some old =>
      if negb (n_ptr old =? p)%N then
        let e := match find (fun e => rai_eqb e r) (n_areas old) with Some e => e | None => r end in
        upd_rnc p (fun n => mkRnc (n_ptr n) (n_id n) (n_addr n) (e :: n_areas n))
          (upd_rnc (n_ptr old)
             (fun n => mkRnc (n_ptr n) (n_id n) (n_addr n) (area_del r (n_areas n))) l0)
      else l0
  | None => upd_rnc p (fun n => mkRnc (n_ptr n) (n_id n) (n_addr n) (r :: n_areas n)) l0
  end.
Definition reg_new (s : st) (id : rnc_id) (r : rai) (a : sccp_addr) : bool :=
  match find_area (reg_l0 s id a) r with
  | Some old => negb (n_ptr old =? reg_ptr s id)%N
  | None => true
  end.
Definition reg_st (s : st) (id : rnc_id) (r : rai) (a : sccp_addr) : st :=
  mkSt (s_ues s) (reg_l s id r a) (s_cache s) (reg_next s id).

Lemma rnc_register_eq id r a w :
  rnc_register E id r a w =
  (let! _ := put_st (reg_st (w_st w) id r a) in
   let! _ := (if reg_new (w_st w) id r a then event_new_area E id r else ret tt) in
   ret (reg_ptr (w_st w) id)) w.
Proof.
  destruct w as [s tr]. unfold rnc_register. rewrite bind_get. cbn [w_st].
  unfold reg_st, reg_l, reg_new, reg_ptr, reg_next, reg_l0, find_area, rnc_alloc, lac_rac_find.
  destruct (rnc_id_find s id) as [n|] eqn:Hf.
  - destruct (same_sccp_addr E (n_addr n) a) eqn:Hs.
    + rewrite bind_assoc. rewrite bind_ret. rewrite bind_ret. rewrite bind_get. cbn [w_st].
      destruct (find _ (s_rncs s)) as [old|] eqn:Ho.
      * destruct (n_ptr old =? n_ptr n)%N eqn:Hp; cbn [negb].
        -- rewrite bind_put, bind_ret. cbn [w_tr]. rewrite st_eta. reflexivity.
        -- reflexivity.
      * reflexivity.
    + rewrite bind_assoc. rewrite bind_put. rewrite bind_ret. rewrite bind_get.
      cbn [w_st w_tr set_rncs s_ues s_rncs s_cache s_next].
      destruct (find _ (upd_rnc _ _ _)) as [old|] eqn:Ho.
      * destruct (n_ptr old =? n_ptr n)%N eqn:Hp; cbn [negb]; reflexivity.
      * reflexivity.
  - rewrite bind_assoc. rewrite bind_get. cbn [w_st]. rewrite bind_assoc. rewrite bind_put. rewrite bind_ret. rewrite bind_get.
    cbn [w_st w_tr set_rncs s_ues s_rncs s_cache s_next].
    destruct (find _ (_ :: s_rncs s)) as [old|] eqn:Ho.
    + destruct (n_ptr old =? s_next s)%N eqn:Hp; cbn [negb]; reflexivity.
    + reflexivity.
Qed.

(* ---------------- table invariant ---------------- *)
Record table_ok (s : st) : Prop := {
  t_ptr : NoDup (map n_ptr (s_rncs s));
  t_next : forall n, In n (s_rncs s) -> (n_ptr n < s_next s)%N;
  t_id : forall n n', In n (s_rncs s) -> In n' (s_rncs s) ->
         rnc_id_eqb (n_id n) (n_id n') = true -> n = n';
  t_area : forall r, total (s_rncs s) r <= 1 }.

Lemma table_ok_init : table_ok init.
Proof.
  constructor; cbn; try tauto.
  - constructor.
  - intros r. unfold total. cbn. lia.
Qed.

Lemma map_upd_ptr p f l : (forall n, n_ptr (f n) = n_ptr n) -> map n_ptr (upd_rnc p f l) = map n_ptr l.
Proof.
  intros H. unfold upd_rnc. rewrite map_map. apply map_ext. intros n.
  destruct (n_ptr n =? p)%N; auto.
Qed.

(* First stage: the RNC record exists and has the address *)
Lemma rnc_id_find_some s id n : rnc_id_find s id = Some n ->
  In n (s_rncs s) /\ rnc_id_eqb (n_id n) id = true.
Proof. intros H. apply find_some in H. exact H. Qed.
Lemma rnc_id_find_none s id n : rnc_id_find s id = None -> In n (s_rncs s) ->
  rnc_id_eqb (n_id n) id = false.
Proof. intros H Hi. exact (find_none _ _ H _ Hi). Qed.

(* [keeps f]: f leaves pointer, identity and areas alone *)
Lemma total_map l f r : (forall n, In n l -> n_areas (f n) = n_areas n) -> total (map f l) r = total l r.
Proof.
  induction l as [|x l IH]; intros H; [reflexivity|]. cbn [map]. rewrite !total_cons.
  rewrite IH by (intros; apply H; right; auto). unfold cnt. rewrite (H x) by (left; auto). reflexivity.
Qed.

Lemma l0_in s id a n' : table_ok s -> In n' (reg_l0 s id a) <->
  (exists n, In n (s_rncs s) /\ n_ptr n' = n_ptr n /\ n_id n' = n_id n /\ n_areas n' = n_areas n /\
     (n_addr n' = if rnc_id_eqb (n_id n) id && negb (same_sccp_addr E (n_addr n) a) then a else n_addr n))
  \/ (rnc_id_find s id = None /\ n' = mkRnc (s_next s) id a []).
Proof.
  intros T. unfold reg_l0. destruct (rnc_id_find s id) as [m|] eqn:Hf.
  - destruct (rnc_id_find_some _ _ _ Hf) as [Hm Hid].
    assert (Hsame : forall n, In n (s_rncs s) -> rnc_id_eqb (n_id n) id = true -> n = m).
    { intros n Hn He. apply (t_id _ T); auto. rewrite rnc_id_eqb_sym in Hid.
      eapply rnc_id_eqb_trans; eauto. }
    destruct (same_sccp_addr E (n_addr m) a) eqn:Hs.
    + split.
      * intros Hn'. left. exists n'. repeat split; auto.
        destruct (rnc_id_eqb (n_id n') id) eqn:He; cbn [andb]; [|reflexivity].
        rewrite (Hsame n' Hn' He), Hs. reflexivity.
      * intros [(n & Hn & H1 & H2 & H3 & H4)|[H _]]; [|discriminate].
        assert (n' = n); [|subst; exact Hn].
        destruct (rnc_id_eqb (n_id n) id) eqn:He; cbn [andb] in H4.
        -- rewrite (Hsame n Hn He) in *. rewrite Hs in H4. cbn [negb] in H4.
           destruct n', m; cbn in *; subst; reflexivity.
        -- destruct n', n; cbn in *; subst; reflexivity.
    + unfold upd_rnc. rewrite in_map_iff. split.
      * intros (n & Hx & Hn). left. exists n. split; [exact Hn|].
        destruct (n_ptr n =? n_ptr m)%N eqn:Hp.
        -- apply N.eqb_eq in Hp. assert (n = m) by (eapply nodup_ptr; eauto using t_ptr).
           subst. cbn. rewrite Hid, Hs. cbn. auto.
        -- subst. repeat split; auto.
           destruct (rnc_id_eqb (n_id n') id) eqn:He; [|reflexivity].
           rewrite (Hsame n' Hn He), N.eqb_refl in Hp. discriminate.
      * intros [(n & Hn & H1 & H2 & H3 & H4)|[H _]]; [|discriminate].
        exists n. split; [|exact Hn].
        destruct (rnc_id_eqb (n_id n) id) eqn:He; cbn [andb] in H4.
        -- rewrite (Hsame n Hn He) in *. rewrite N.eqb_refl. rewrite Hs in H4. cbn [negb] in H4.
           destruct n', m; cbn in *; subst; reflexivity.
        -- destruct (n_ptr n =? n_ptr m)%N eqn:Hp.
           ++ apply N.eqb_eq in Hp. assert (n = m) by (eapply nodup_ptr; eauto using t_ptr).
              subst. rewrite Hid in He. discriminate.
           ++ destruct n', n; cbn in *; subst; reflexivity.
  - split.
    + intros [<-|Hn]; [right; auto|left]. exists n'. repeat split; auto.
      rewrite (rnc_id_find_none _ _ _ Hf Hn). reflexivity.
    + intros [(n & Hn & H1 & H2 & H3 & H4)|[_ ->]]; [right|left; reflexivity].
      rewrite (rnc_id_find_none _ _ _ Hf Hn) in H4. cbn [andb] in H4.
      destruct n', n; cbn in *; subst; exact Hn.
Qed.

Lemma l0_total s id a r : total (reg_l0 s id a) r = total (s_rncs s) r.
Proof.
  unfold reg_l0. destruct (rnc_id_find s id) as [m|].
  - destruct (same_sccp_addr _ _ _); [reflexivity|]. apply total_map.
    intros n _. destruct (n_ptr n =? n_ptr m)%N; reflexivity.
  - rewrite total_cons. reflexivity.
Qed.
Lemma l0_nodup s id a : table_ok s -> NoDup (map n_ptr (reg_l0 s id a)).
Proof.
  intros T. unfold reg_l0. destruct (rnc_id_find s id) as [m|].
  - destruct (same_sccp_addr _ _ _); [apply (t_ptr _ T)|].
    rewrite map_upd_ptr by reflexivity. apply (t_ptr _ T).
  - cbn [map n_ptr]. constructor; [|apply (t_ptr _ T)].
    rewrite in_map_iff. intros (n & Hp & Hn). pose proof (t_next _ T n Hn). lia.
Qed.
Lemma l0_lt s id a n : table_ok s -> In n (reg_l0 s id a) -> (n_ptr n < reg_next s id)%N.
Proof.
  intros T H. apply l0_in in H; auto. unfold reg_next. destruct H as [(m & Hm & Hp & _)|[Hf ->]].
  - rewrite Hp. pose proof (t_next _ T m Hm). destruct (rnc_id_find s id); lia.
  - rewrite Hf. cbn. lia.
Qed.
Lemma l0_id s id a n n' : table_ok s -> In n (reg_l0 s id a) -> In n' (reg_l0 s id a) ->
  rnc_id_eqb (n_id n) (n_id n') = true -> n = n'.
Proof.
  intros T H H' He.
  assert (Hp : n_ptr n = n_ptr n'); [|eapply nodup_ptr; eauto using l0_nodup].
  apply l0_in in H; auto. apply l0_in in H'; auto.
  destruct H as [(m & Hm & Hp & Hi & _)|[Hf ->]], H' as [(m' & Hm' & Hp' & Hi' & _)|[Hf' ->]].
  - rewrite Hp, Hp'. f_equal. apply (t_id _ T); auto. congruence.
  - cbn in He. rewrite Hi in He. rewrite (rnc_id_find_none _ _ _ Hf' Hm) in He. discriminate.
  - cbn in He. rewrite Hi', rnc_id_eqb_sym, (rnc_id_find_none _ _ _ Hf Hm') in He. discriminate.
  - reflexivity.
Qed.
(* the record of the registering RNC *)
Lemma l0_self s id a : table_ok s -> exists n, In n (reg_l0 s id a) /\ n_ptr n = reg_ptr s id /\
  rnc_id_eqb (n_id n) id = true.
Proof.
  intros T. unfold reg_ptr. destruct (rnc_id_find s id) as [m|] eqn:Hf.
  - destruct (rnc_id_find_some _ _ _ Hf) as [Hm Hid].
    exists (mkRnc (n_ptr m) (n_id m)
       (if rnc_id_eqb (n_id m) id && negb (same_sccp_addr E (n_addr m) a) then a else n_addr m) (n_areas m)).
    split; [|auto]. apply l0_in; auto. left. exists m. repeat split; auto.
  - exists (mkRnc (s_next s) id a []). split; [|split; [reflexivity|apply rnc_id_eqb_refl]].
    apply l0_in; auto.
Qed.

(* Second stage *)
Lemma cnt_del r areas p i a r' :
  0 < cnt (mkRnc p i a areas) r ->
  cnt (mkRnc p i a (area_del r areas)) r' =
  if rai_eqb r r' then cnt (mkRnc p i a areas) r - 1 else cnt (mkRnc p i a areas) r'.
Proof.
  unfold cnt. cbn [n_areas]. induction areas as [|e l IH]; intros H; [cbn in H; lia|].
  cbn [area_del filter] in *. destruct (rai_eqb e r) eqn:Ee.
  - destruct (rai_eqb r r') eqn:Er.
    + cbn [length]. rewrite Nat.sub_succ, Nat.sub_0_r.
      f_equal. apply filter_ext. intros x.
      destruct (rai_eqb x r) eqn:E1, (rai_eqb x r') eqn:E2; auto.
      * rewrite (rai_eqb_trans _ _ _ E1 Er) in E2. discriminate.
      * rewrite rai_eqb_sym in Er. rewrite (rai_eqb_trans _ _ _ E2 Er) in E1. discriminate.
    + destruct (rai_eqb e r') eqn:Ee'; [|reflexivity].
      rewrite rai_eqb_sym in Ee. rewrite (rai_eqb_trans _ _ _ Ee Ee') in Er. discriminate.
  - cbn [filter]. specialize (IH H). destruct (rai_eqb r r') eqn:Er.
    + destruct (rai_eqb e r') eqn:Ee'; [|exact IH].
      rewrite rai_eqb_sym in Er. rewrite (rai_eqb_trans _ _ _ Ee' Er) in Ee. discriminate.
    + destruct (rai_eqb e r'); cbn [length]; rewrite IH; reflexivity.
Qed.
Lemma cnt_cons e areas p i a r' :
  cnt (mkRnc p i a (e :: areas)) r' = (if rai_eqb e r' then 1 else 0) + cnt (mkRnc p i a areas) r'.
Proof. unfold cnt. cbn [n_areas filter]. destruct (rai_eqb e r'); reflexivity. Qed.
Lemma rnc_eta n : mkRnc (n_ptr n) (n_id n) (n_addr n) (n_areas n) = n.
Proof. destruct n; reflexivity. Qed.

Lemma find_area_some l r n : find_area l r = Some n -> In n l /\ 0 < cnt n r.
Proof. intros H. apply find_some in H. rewrite cnt_pos_b in H. exact H. Qed.
Lemma find_area_none l r n : find_area l r = None -> In n l -> cnt n r = 0.
Proof.
  intros H Hi. pose proof (find_none _ _ H _ Hi) as Hn. cbv beta in Hn.
  destruct (cnt n r) eqn:Ec; [reflexivity|].
  assert (0 < cnt n r) as Hp by lia. apply cnt_pos_b in Hp. congruence.
Qed.

Lemma reg_map s id r a : table_ok s -> exists g,
  reg_l s id r a = map g (reg_l0 s id a) /\
  forall n, In n (reg_l0 s id a) ->
    n_ptr (g n) = n_ptr n /\ n_id (g n) = n_id n /\ n_addr (g n) = n_addr n /\
    forall r', cnt (g n) r' =
      if rai_eqb r r' then (if (n_ptr n =? reg_ptr s id)%N then 1 else 0) else cnt n r'.
Proof.
  intros T. unfold reg_l.
  pose proof (l0_nodup s id a T) as Hd.
  assert (Ht : forall r', total (reg_l0 s id a) r' <= 1)
    by (intros; rewrite l0_total; apply (t_area _ T)).
  set (l0 := reg_l0 s id a) in *. set (p := reg_ptr s id).
  destruct (find_area l0 r) as [old|] eqn:Hf.
  - destruct (find_area_some _ _ _ Hf) as [Ho Hc].
    pose proof (cnt_le_total _ _ r Ho) as Hle. pose proof (Ht r) as Hle1.
    destruct (n_ptr old =? p)%N eqn:Hp; cbn [negb].
    + apply N.eqb_eq in Hp. exists (fun n => n). split; [rewrite map_id; reflexivity|].
      intros n Hn. repeat split; auto. intros r'.
      destruct (rai_eqb r r') eqn:Er; [|reflexivity].
      rewrite <- (cnt_eq n _ _ Er). destruct (n_ptr n =? p)%N eqn:Hpn.
      * apply N.eqb_eq in Hpn. assert (n = old) by (eapply nodup_ptr; eauto; congruence). subst n. lia.
      * destruct (cnt n r) eqn:Ecn; [reflexivity|].
        assert (n = old) by (eapply total_one; eauto; lia). subst n. rewrite Hp, N.eqb_refl in Hpn. discriminate.
    + set (e := match find _ _ with Some e => e | None => r end).
      assert (He : rai_eqb e r = true).
      { unfold e. destruct (find _ (n_areas old)) eqn:Hfe; [|apply rai_eqb_refl].
        apply find_some in Hfe. apply Hfe. }
      eexists. split; [unfold upd_rnc; rewrite map_map; reflexivity|].
      intros n Hn. cbv beta. destruct (n_ptr n =? n_ptr old)%N eqn:Hpo.
      * apply N.eqb_eq in Hpo. assert (n = old) by (eapply nodup_ptr; eauto). subst n.
        cbn [n_ptr]. rewrite Hp. cbn [n_ptr n_id n_addr]. repeat split; auto. intros r'.
        rewrite cnt_del; rewrite rnc_eta; [|exact Hc].
        destruct (rai_eqb r r'); lia.
      * destruct (n_ptr n =? p)%N eqn:Hpn; cbn [n_ptr n_id n_addr]; repeat split; auto; intros r'.
        -- rewrite cnt_cons, rnc_eta. destruct (rai_eqb r r') eqn:Er.
           ++ rewrite (rai_eqb_trans _ _ _ He Er). rewrite <- (cnt_eq n _ _ Er).
              destruct (cnt n r) eqn:Ecn; [reflexivity|].
              assert (n = old) by (eapply total_one; eauto; lia). subst n. rewrite N.eqb_refl in Hpo. discriminate.
           ++ destruct (rai_eqb e r') eqn:Ee; [|reflexivity].
              rewrite rai_eqb_sym in He. rewrite (rai_eqb_trans _ _ _ He Ee) in Er. discriminate.
        -- destruct (rai_eqb r r') eqn:Er; [|reflexivity].
           rewrite <- (cnt_eq n _ _ Er). destruct (cnt n r) eqn:Ecn; [reflexivity|].
           assert (n = old) by (eapply total_one; eauto; lia). subst n. rewrite N.eqb_refl in Hpo. discriminate.
  - exists (fun n => if (n_ptr n =? p)%N then mkRnc (n_ptr n) (n_id n) (n_addr n) (r :: n_areas n) else n).
    split; [reflexivity|]. intros n Hn. cbv beta. pose proof (find_area_none _ _ _ Hf Hn) as Hz.
    destruct (n_ptr n =? p)%N eqn:Hpn; cbn [n_ptr n_id n_addr]; repeat split; auto; intros r'.
    + rewrite cnt_cons, rnc_eta. destruct (rai_eqb r r') eqn:Er; [|reflexivity].
      rewrite <- (cnt_eq n _ _ Er), Hz. reflexivity.
    + destruct (rai_eqb r r') eqn:Er; [|reflexivity]. rewrite <- (cnt_eq n _ _ Er). exact Hz.
Qed.

Lemma total_map_cnt (l : list rnc) g f r :
  (forall n, In n l -> cnt (g n) r = f n) -> total (map g l) r = list_sum (map f l).
Proof.
  induction l as [|x l IH]; intros H; [reflexivity|]. cbn [map].
  rewrite total_cons, H by (left; auto). rewrite IH by (intros; apply H; right; auto). reflexivity.
Qed.
Lemma sum_ptr p l : NoDup (map n_ptr l) ->
  list_sum (map (fun n => if (n_ptr n =? p)%N then 1 else 0) l) <= 1.
Proof.
  induction l as [|x l IH]; intros Hd; [cbn; lia|].
  cbn [map] in Hd. inversion Hd as [|? ? Hx Hd']; subst. specialize (IH Hd').
  assert (Hz : n_ptr x = p -> list_sum (map (fun n => if (n_ptr n =? p)%N then 1 else 0) l) = 0).
  { intros Hp. clear IH Hd Hd'. induction l as [|y l IH]; [reflexivity|].
    cbn [map list_sum fold_right] in *. destruct (n_ptr y =? p)%N eqn:Ep.
    - exfalso. apply Hx. left. lia.
    - cbn. apply IH. intros H. apply Hx. right. exact H. }
  cbn [map list_sum fold_right]. fold (list_sum (map (fun n => if (n_ptr n =? p)%N then 1 else 0) l)).
  destruct (n_ptr x =? p)%N eqn:Ep; [|lia]. rewrite Hz; lia.
Qed.
Lemma total_sum l r : total l r = list_sum (map (fun n => cnt n r) l).
Proof. rewrite <- (total_map_cnt l (fun n => n) _ r), map_id; auto. Qed.

Lemma reg_table_ok s id r a : table_ok s -> table_ok (reg_st s id r a).
Proof.
  intros T. destruct (reg_map s id r a T) as (g & Hg & Hn).
  unfold reg_st. constructor; cbn [s_rncs s_next]; rewrite ?Hg.
  - rewrite map_map. erewrite map_ext_in; [apply (l0_nodup s id a T)|]. intros n Hi. apply Hn, Hi.
  - intros n Hi. apply in_map_iff in Hi as (m & <- & Hm).
    rewrite (proj1 (Hn m Hm)). eapply l0_lt; eauto.
  - intros n n' Hi Hi' He. apply in_map_iff in Hi as (m & <- & Hm). apply in_map_iff in Hi' as (m' & <- & Hm').
    f_equal. destruct (Hn m Hm) as (_ & H1 & _). destruct (Hn m' Hm') as (_ & H1' & _).
    rewrite H1, H1' in He. eapply l0_id; eauto.
  - intros r'. destruct (rai_eqb r r') eqn:Er.
    + rewrite (total_map_cnt _ _ (fun n => if (n_ptr n =? reg_ptr s id)%N then 1 else 0)).
      * apply sum_ptr. apply l0_nodup; auto.
      * intros n Hi. destruct (Hn n Hi) as (_ & _ & _ & Hc). rewrite Hc, Er. reflexivity.
    + rewrite (total_map_cnt _ _ (fun n => cnt n r')).
      * rewrite <- total_sum, l0_total. apply (t_area _ T).
      * intros n Hi. destruct (Hn n Hi) as (_ & _ & _ & Hc). rewrite Hc, Er. reflexivity.
Qed.

(* Every record of the new table, in terms of the old table *)
Lemma reg_in s id r a n' : table_ok s -> In n' (s_rncs (reg_st s id r a)) ->
  exists n, In n (reg_l0 s id a) /\ n_ptr n' = n_ptr n /\ n_id n' = n_id n /\ n_addr n' = n_addr n /\
    forall r', cnt n' r' = if rai_eqb r r' then (if (n_ptr n =? reg_ptr s id)%N then 1 else 0) else cnt n r'.
Proof.
  intros T H. destruct (reg_map s id r a T) as (g & Hg & Hn). cbn in H. rewrite Hg in H.
  apply in_map_iff in H as (m & <- & Hm). exists m. split; [exact Hm|]. apply Hn, Hm.
Qed.
Lemma reg_in' s id r a n : table_ok s -> In n (reg_l0 s id a) ->
  exists n', In n' (s_rncs (reg_st s id r a)) /\ n_ptr n' = n_ptr n /\ n_id n' = n_id n /\ n_addr n' = n_addr n /\
    forall r', cnt n' r' = if rai_eqb r r' then (if (n_ptr n =? reg_ptr s id)%N then 1 else 0) else cnt n r'.
Proof.
  intros T H. destruct (reg_map s id r a T) as (g & Hg & Hn). exists (g n).
  split; [cbn; rewrite Hg; apply in_map; exact H|]. apply Hn, H.
Qed.

(* When an area counts as new *)
Lemma reg_new_spec s id r a : table_ok s ->
  reg_new s id r a = true <->
  ~ exists n, serves s n r /\ rnc_id_eqb (n_id n) id = true.
Proof.
  intros T. unfold reg_new. set (l0 := reg_l0 s id a).
  destruct (find_area l0 r) as [old|] eqn:Hf.
  - destruct (find_area_some _ _ _ Hf) as [Ho Hc].
    destruct (l0_self s id a T) as (me & Hme & Hmp & Hmi). fold l0 in Hme.
    rewrite negb_true_iff, N.eqb_neq. split.
    + intros Hne (n & [Hn He] & Hi). apply Hne. rewrite <- Hmp. f_equal.
      apply (proj2 (cnt_pos n r)) in He.
      assert (Hn0 : exists n0, In n0 l0 /\ n_ptr n0 = n_ptr n /\ n_id n0 = n_id n /\ n_areas n0 = n_areas n).
      { eexists (mkRnc (n_ptr n) (n_id n) _ (n_areas n)). split; [|cbn; auto].
        apply l0_in; auto. left. exists n. cbn. repeat split; auto. }
      destruct Hn0 as (n0 & Hn0 & Hp0 & Hi0 & Ha0).
      assert (n0 = old).
      { apply (total_one l0 n0 old r); auto.
        - unfold l0. rewrite l0_total. apply (t_area _ T).
        - apply l0_nodup; auto.
        - unfold cnt in *. rewrite Ha0. exact He. }
      subst n0. eapply (l0_id s id a); eauto. rewrite Hi0. rewrite rnc_id_eqb_sym in Hmi.
      eapply rnc_id_eqb_trans; eauto.
    + intros Hne Hp. apply Hne.
      assert (old = me) by (eapply nodup_ptr; eauto using l0_nodup; try congruence; apply l0_nodup; auto).
      subst me. apply l0_in in Ho; auto. destruct Ho as [(n & Hn & H1 & H2 & H3 & _)|[_ Heq]].
      * exists n. split; [split; [exact Hn|]|congruence]. apply cnt_pos. unfold cnt in *. rewrite <- H3. exact Hc.
      * rewrite Heq in Hc. cbn in Hc. lia.
  - split; [|auto]. intros _ (n & [Hn He] & Hi). apply (proj2 (cnt_pos n r)) in He.
    assert (Hz : cnt (mkRnc (n_ptr n) (n_id n) (if rnc_id_eqb (n_id n) id && negb (same_sccp_addr E (n_addr n) a) then a else n_addr n) (n_areas n)) r = 0).
    { eapply find_area_none; [exact Hf|]. apply l0_in; auto. left. exists n. cbn. repeat split; auto. }
    unfold cnt in *. cbn [n_areas] in Hz. lia.
Qed.
End Reg.
