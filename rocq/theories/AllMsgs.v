(* All message types of the four protocols. *)
From Verif Require Import Base Aper Aper_spec Aper_proofs Aper_valid Container Container_proofs
  RanapTab RuaTab HnbapTab SabpTab RanapSpec RuaSpec HnbapSpec SabpSpec.
From Coq Require String.
Local Open Scope list_scope.

Definition all_msgs : list msgdef := ranap_msgs ++ rua_msgs ++ hnbap_msgs ++ sabp_msgs.
Definition all_specs := [ (ranap_spec, ranap_msgs); (rua_spec, rua_msgs); (hnbap_spec, hnbap_msgs); (sabp_spec, sabp_msgs) ].
Lemma all_ok_b : forallb tab_ok all_msgs = true.
Proof. vm_compute. reflexivity. Qed.
Lemma all_ok m : In m all_msgs -> tab_ok m = true.
Proof. intros H. exact (proj1 (forallb_forall _ _) all_ok_b _ H). Qed.
Lemma all_cont_f : Forall (fun m => m_cont m = std_cont) all_msgs.
Proof. unfold all_msgs. repeat (rewrite Forall_app; split); repeat (constructor; [reflexivity|]); constructor. Qed.
Lemma all_cont m : In m all_msgs -> m_cont m = std_cont.
Proof. intros H. exact (proj1 (Forall_forall _ _) all_cont_f _ H). Qed.

(* ---------------- tables against the ASN.1 object sets ---------------- *)
Definition sig := (String.string * N * Z * String.string * presence)%type.
Definition row_sig (r : row) : sig := (r_ie r, r_id r, r_crit r, r_tyname r, r_pres r).
Definition sig_eqb (a b : sig) : bool :=
  match a, b with
  | (n, i, c, t, p), (n', i', c', t', p') =>
      String.eqb n n' && (i =? i')%N && (c =? c')%Z && String.eqb t t' && pres_eqb p p'
  end.
Lemma sig_eqb_ok a b : sig_eqb a b = true -> a = b.
Proof.
  destruct a as [[[[n i] c] t] p], b as [[[[n' i'] c'] t'] p']. cbn [sig_eqb]. intros H.
  repeat (apply andb_prop in H; destruct H as [H ?]).
  apply String.eqb_eq in H. apply N.eqb_eq in H3. apply Z.eqb_eq in H2. apply String.eqb_eq in H1. subst.
  destruct p, p'; try discriminate; reflexivity.
Qed.
Fixpoint sigs_eqb (a b : list sig) : bool :=
  match a, b with
  | [], [] => true
  | x :: a', y :: b' => sig_eqb x y && sigs_eqb a' b'
  | _, _ => false
  end.
Lemma sigs_eqb_ok : forall a b, sigs_eqb a b = true -> a = b.
Proof.
  induction a as [|x a IH]; intros [|y b] H; cbn [sigs_eqb] in H; try discriminate; [reflexivity|].
  apply andb_prop in H as [H1 H2]. f_equal; [apply sig_eqb_ok|apply IH]; assumption.
Qed.
Import String.
Local Open Scope string_scope.
(* object sets of which the script misses at least one IE *)
Definition incomplete : list string :=
  [ "RelocationRequiredIEs"; "RelocationCommandIEs"; "RANAP-RelocationInformationIEs";
    "DirectTransferInformationItemIEs-RANAP-RelocInf"; "UplinkInformationExchangeRequestIEs";
    "MBMSRegistrationRequestIEs";
    "Write-Replace-IEs"; "Write-Replace-Complete-IEs"; "Write-Replace-Failure-IEs"; "Kill-Complete-IEs";
    "Kill-Failure-IEs"; "Load-Query-Complete-IEs"; "Load-Query-Failure-IEs"; "Message-Status-Query-Complete-IEs";
    "Message-Status-Query-Failure-IEs"; "Reset-Complete-IEs"; "Reset-Failure-IEs"; "Failure-IEs";
    "Error-Indication-IEs" ].
Definition mem (k : string) (l : list string) : bool := existsb (String.eqb k) l.
Definition complete_b (spec : list (string * list sig)) (msgs : list msgdef) : bool :=
  forallb (fun ke => mem (fst ke) incomplete ||
             existsb (fun m => String.eqb (m_key m) (fst ke) && sigs_eqb (map row_sig (m_rows m)) (snd ke)) msgs) spec.
Definition sound_b (spec : list (string * list sig)) (msgs : list msgdef) : bool :=
  forallb (fun m => existsb (fun ke => String.eqb (fst ke) (m_key m) &&
     forallb (fun r => existsb (sig_eqb (row_sig r)) (snd ke)) (m_rows m)) spec) msgs.
Lemma tables_b : forallb (fun sm => complete_b (fst sm) (snd sm) && sound_b (fst sm) (snd sm)) all_specs = true.
Proof. vm_compute. reflexivity. Qed.
Lemma mem_in k l : In k l -> mem k l = true.
Proof. intros H. apply existsb_exists. exists k. split; [exact H|apply String.eqb_refl]. Qed.
Lemma mem_out k l : ~ In k l -> mem k l = false.
Proof.
  intros H. destruct (mem k l) eqn:E; [|reflexivity]. apply existsb_exists in E as (x&Hx&He). apply String.eqb_eq in He. subst x. contradiction.
Qed.
Lemma tables_complete spec msgs key l : In (spec, msgs) all_specs -> In (key, l) spec -> ~ In key incomplete ->
  exists m, In m msgs /\ m_key m = key /\ map row_sig (m_rows m) = l.
Proof.
  intros H Hk Hn. pose proof (proj1 (forallb_forall _ _) tables_b _ H) as Hb. cbn [fst snd] in Hb. apply andb_prop in Hb as [Hb _].
  pose proof (proj1 (forallb_forall _ _) Hb _ Hk) as Hc. cbn [fst snd] in Hc. rewrite (mem_out _ _ Hn) in Hc. cbn [orb] in Hc.
  apply existsb_exists in Hc as (m&Hm&He). apply andb_prop in He as [H1 H2]. exists m. apply String.eqb_eq in H1. apply sigs_eqb_ok in H2. auto.
Qed.
Lemma tables_sound spec msgs m : In (spec, msgs) all_specs -> In m msgs ->
  exists l, In (m_key m, l) spec /\ forall r, In r (m_rows m) -> In (row_sig r) l.
Proof.
  intros H Hm. pose proof (proj1 (forallb_forall _ _) tables_b _ H) as Hb. cbn [fst snd] in Hb. apply andb_prop in Hb as [_ Hb].
  pose proof (proj1 (forallb_forall _ _) Hb _ Hm) as Hc. cbv beta in Hc. apply existsb_exists in Hc as ([k l]&Hk&He). cbn [fst snd] in He.
  apply andb_prop in He as [H1 H2]. apply String.eqb_eq in H1. subst k. exists l. split; [exact Hk|].
  intros r Hr. pose proof (proj1 (forallb_forall _ _) H2 _ Hr) as Hx. cbv beta in Hx. apply existsb_exists in Hx as (x&Hx&Hex).
  apply sig_eqb_ok in Hex. rewrite Hex. exact Hx.
Qed.

(* ---------------- flag macros ---------------- *)
Fixpoint nodupS (l : list string) : bool :=
  match l with [] => true | x :: r => negb (mem x r) && nodupS r end.
Lemma nodupS_ok l : nodupS l = true -> NoDup l.
Proof.
  induction l as [|x l IH]; intros H; constructor; cbn [nodupS] in H; apply andb_prop in H as [H1 H2].
  - intros Hin. rewrite (mem_in _ _ Hin) in H1. discriminate.
  - apply IH, H2.
Qed.
Definition all_defines (msgs : list msgdef) : list string :=
  flat_map (fun m => map (flag_define m) (opt_rows m)) msgs.
Lemma defines_b : forallb (fun sm => nodupS (all_defines (snd sm))) all_specs = true.
Proof. vm_compute. reflexivity. Qed.
Lemma defines_nodup spec msgs : In (spec, msgs) all_specs -> NoDup (all_defines msgs).
Proof. intros H. apply nodupS_ok. exact (proj1 (forallb_forall _ _) defines_b _ H). Qed.
Definition name_b (name : string) : bool :=
  (forallb (fun c => let n := Ascii.nat_of_ascii c in ((65 <=? n) && (n <=? 90)) || ((48 <=? n) && (n <=? 57)) || (n =? 95))%nat (list_ascii_of_string name) &&
   match name with String c _ => (65 <=? Ascii.nat_of_ascii c) && (Ascii.nat_of_ascii c <=? 90) | EmptyString => false end)%nat%bool.
Lemma defines_names_b : forallb (fun sm => forallb name_b (all_defines (snd sm))) all_specs = true.
Proof. vm_compute. reflexivity. Qed.
Lemma defines_names spec msgs name : In (spec, msgs) all_specs -> In name (all_defines msgs) ->
  forallb (fun c => let n := Ascii.nat_of_ascii c in ((65 <=? n) && (n <=? 90)) || ((48 <=? n) && (n <=? 57)) || (n =? 95))%nat (list_ascii_of_string name) = true /\
  exists c r, name = String c r /\ (65 <= Ascii.nat_of_ascii c <= 90)%nat.
Proof.
  intros H Hn. pose proof (proj1 (forallb_forall _ _) defines_names_b _ H) as Hb. cbn [snd] in Hb.
  pose proof (proj1 (forallb_forall _ _) Hb _ Hn) as Hc. unfold name_b in Hc. apply andb_prop in Hc as [H1 H2].
  split; [exact H1|]. destruct name as [|c r]; [discriminate|]. exists c, r. split; [reflexivity|]. apply andb_prop in H2 as [H2 H3].
  split; apply Nat.leb_le; assumption.
Qed.
Definition fields_b (m : msgdef) : bool := nodupS (map r_ie (m_rows m)).
Lemma all_fields_b : forallb fields_b all_msgs = true.
Proof. vm_compute. reflexivity. Qed.

(* ---------------- empty and unknown ---------------- *)
Lemma empty_ok m : In m all_msgs -> decode_msg m [0; 0; 0]%N = mkDres true (zero_ies m) [].
Proof. intros H. unfold decode_msg. rewrite (all_cont m H). replace (decode std_cont [0; 0; 0]%N) with (Some (VSeq [Some (VList [])] [])) by (vm_compute; reflexivity). reflexivity. Qed.
Lemma unknown_fatal m o l ie id v : In m all_msgs -> body m o = Some l -> In ie l -> ie_parts ie = Some (id, v) ->
  (forall r, In r (m_rows m) -> r_id r <> id) -> d_ok (decode_msg m o) = false.
Proof.
  intros Hm Hb Hin Hp Hno. destruct (d_ok (decode_msg m o)) eqn:E; [|reflexivity].
  apply (decode_msg_ok m o (all_ok m Hm)) in E as (l'&Hl&HF). rewrite Hb in Hl. injection Hl as <-.
  rewrite Forall_forall in HF. destruct (HF ie Hin) as (id'&o'&r&w&H1&H2&H3&_). rewrite Hp in H1. injection H1 as <- <-.
  destruct (Hno r H2 H3).
Qed.
