(* Writing and reading back the VTY settings. *)
From Coq Require Import String Ascii List ZArith Bool.
From Verif Require Import Vty_spec Vty.
Import ListNotations.
Local Open Scope list_scope.
Local Open Scope string_scope.
Local Open Scope list_scope.

Lemma app_nil (s : string) : (s ++ "" = s)%string.
Proof. induction s as [|c s IH]; [reflexivity|]. cbn [append]. f_equal. exact IH. Qed.
Lemma app_app (a b c : string) : ((a ++ b) ++ c = a ++ (b ++ c))%string.
Proof. induction a as [|x a IH]; [reflexivity|]. cbn [append]. f_equal. exact IH. Qed.
Fixpoint no_nl (s : string) : bool := match s with "" => true | String c r => negb (Ascii.eqb c nl) && no_nl r end.
Lemma lines_line : forall a cur r, no_nl a = true -> lines_from cur (a ++ String nl r) = (cur ++ a)%string :: lines_from "" r.
Proof.
  induction a as [|c a IH]; intros cur r H; cbn [append lines_from].
  - rewrite Ascii.eqb_refl, app_nil. reflexivity.
  - cbn [no_nl] in H. apply andb_prop in H as [H1 H2]. destruct (Ascii.eqb c nl); [discriminate|]. rewrite IH by exact H2. rewrite app_app. reflexivity.
Qed.
Lemma blank_no_nl s : blank s = true -> no_nl s = true.
Proof.
  induction s as [|c s IH]; [reflexivity|]. cbn [blank no_nl]. intros H. apply andb_prop in H as [H1 H2]. rewrite (IH H2), andb_true_r.
  unfold is_blank in H1. destruct (Ascii.eqb_spec c nl) as [->|]; [discriminate|reflexivity].
Qed.
Lemma no_nl_app a b : no_nl (a ++ b) = no_nl a && no_nl b.
Proof. induction a as [|c a IH]; [reflexivity|]. cbn [append no_nl]. rewrite IH, andb_assoc. reflexivity. Qed.
Lemma words_indent i s : blank i = true -> words (i ++ s) = words s.
Proof.
  unfold words. induction i as [|c i IH]; [reflexivity|]. cbn [blank append words_from]. intros H. apply andb_prop in H as [H1 H2]. rewrite H1. exact (IH H2).
Qed.
Lemma load_line i l s r : blank i = true -> no_nl l = true ->
  load s (line (i ++ l) ++ r) = match exec_words s (words l) with (CmdUnknown, _) => None | (_, s') => load s' r end.
Proof.
  intros Hi Hl. unfold load, lines, line. rewrite app_app. cbn [append]. rewrite lines_line; [|rewrite no_nl_app, (blank_no_nl i Hi); exact Hl].
  cbn [append read_lines]. unfold exec_line. rewrite (words_indent i l Hi). reflexivity.
Qed.
Lemma load_last i l s : blank i = true -> no_nl l = true ->
  load s (line (i ++ l)) = match exec_words s (words l) with (CmdUnknown, _) => None | (_, s') => Some s' end.
Proof. intros Hi Hl. rewrite <- (app_nil (line _)), load_line by assumption. reflexivity. Qed.

(* the settings commands can reach *)
Definition plain (s : settings) : Prop :=
  (s_enc s = Some ENC_X213 \/ s_enc s = Some ENC_V4RAW) /\ (s_debug s = 0 \/ s_debug s = 1)%Z /\ (s_xer s = 0 \/ s_xer s = 1)%Z.
Lemma atoi_bit c : (atoi c = 0 \/ atoi c = 1)%Z.
Proof. unfold atoi. destruct (String.eqb c "1"); auto. Qed.
Lemma exec_plain s l : plain s -> plain (snd (exec_line s l)).
Proof.
  unfold exec_line, exec_words. intros (H1&H2&H3). destruct (words l) as [|a [|b [|c [|? ?]]]]; try (repeat split; assumption).
  destruct (_ && _); [repeat split; try assumption; apply atoi_bit|]. destruct (_ && _); [repeat split; try assumption; apply atoi_bit|].
  destruct (_ && _); [|repeat split; assumption]. destruct H1 as [-> | ->]; destruct (String.eqb c "v4raw"); cbn [snd]; repeat split; auto.
Qed.
Lemma type_plain ls : forall s, plain s -> plain (type_in s ls).
Proof. unfold type_in. induction ls as [|l ls IH]; intros s H; [exact H|]. cbn [fold_left]. apply IH, exec_plain, H. Qed.
Lemma write_load s i : plain s -> blank i = true -> exists text, config_write s i = (CmdSuccess, text) /\ load fresh text = Some s.
Proof.
  intros (H1&H2&H3) Hi. destruct s as [e d x]. cbn [s_enc s_debug s_xer] in *. unfold config_write, ENC_V4RAW, ENC_X213 in *. cbn [s_enc s_debug s_xer] in *.
  destruct H1 as [-> | ->], H2 as [-> | ->], H3 as [-> | ->]; cbn [Z.eqb Pos.eqb orb]; eexists; (split; [reflexivity|]); cbn [append];
    rewrite ?app_nil; repeat (rewrite load_line by (exact Hi || reflexivity);
      match goal with |- context [exec_words ?s ?w] => let v := eval vm_compute in (exec_words s w) in change (exec_words s w) with v; cbv beta iota end);
    try (rewrite load_last by (exact Hi || reflexivity)); reflexivity.
Qed.
Lemma reload hist i : blank i = true ->
  exists text, config_write (type_in fresh hist) i = (CmdSuccess, text) /\ load fresh text = Some (type_in fresh hist).
Proof. intros Hi. apply write_load; [|exact Hi]. apply type_plain. repeat split; left; reflexivity. Qed.
(* settings made by the program itself *)
Lemma write_flags e d x i : config_write (mkSet e d x) i = config_write (mkSet e (flag d) (flag x)) i.
Proof. unfold config_write, flag. cbn [s_enc s_debug s_xer]. destruct (d =? 0)%Z, (x =? 0)%Z; reflexivity. Qed.
Lemma flag_bit z : (flag z = 0 \/ flag z = 1)%Z.
Proof. unfold flag. destruct (z =? 0)%Z; auto. Qed.
Lemma written s i : (s_enc s = Some ENC_X213 \/ s_enc s = Some ENC_V4RAW) -> blank i = true ->
  exists text, config_write s i = (CmdSuccess, text) /\ load fresh text = Some (mkSet (s_enc s) (flag (s_debug s)) (flag (s_xer s))).
Proof. intros He Hi. destruct s as [e d x]. rewrite write_flags. apply write_load; [|exact Hi]. split; [exact He|]. split; apply flag_bit. Qed.
Lemma not_written s i e : s_enc s = Some e -> e <> ENC_X213 -> e <> ENC_V4RAW -> config_write s i = (CmdWarning, ""%string).
Proof. intros E H1 H2. unfold config_write. rewrite E. apply Z.eqb_neq in H1, H2. rewrite H1, H2. reflexivity. Qed.
(* without the pointer *)
Lemma null_keeps hist : forall s, s_enc s = None -> s_enc (type_in s hist) = None.
Proof.
  unfold type_in. induction hist as [|l hist IH]; intros s H; [exact H|]. cbn [fold_left]. apply IH. unfold exec_line, exec_words.
  destruct (words l) as [|a [|b [|c [|? ?]]]]; try exact H. rewrite H.
  do 2 (destruct (_ && _); [first [exact H|reflexivity]|]). destruct (_ && _); [|first [exact H|reflexivity]]. first [exact H|reflexivity].
Qed.
(* each command *)
Lemma commands_done s l w f : words l = w -> In (w, f) commands -> exec_line s l = (CmdSuccess, f s).
Proof.
  intros Hw H. unfold exec_line. rewrite Hw. cbn [commands In] in H.
  repeat (destruct H as [H|H]; [injection H as <- <-; reflexivity|]). destruct H.
Qed.
Lemma enc_done s l w e : words l = w -> In (w, e) enc_commands ->
  exec_line s l = match s_enc s with Some _ => (CmdSuccess, mkSet (Some e) (s_debug s) (s_xer s)) | None => (CmdWarning, s) end.
Proof.
  intros Hw H. unfold exec_line. rewrite Hw. cbn [enc_commands In] in H.
  repeat (destruct H as [H|H]; [injection H as <- <-; cbn; destruct (s_enc s); reflexivity|]). destruct H.
Qed.
Lemma other_done s l : ~ In (words l) (map fst commands) -> ~ In (words l) (map fst enc_commands) ->
  exec_line s l = (if match words l with [] => true | _ => false end then CmdSuccess else CmdUnknown, s).
Proof.
  intros H1 H2. unfold exec_line, exec_words. destruct (words l) as [|a [|b [|c [|? ?]]]]; try reflexivity.
  cbn [commands enc_commands map fst In] in H1, H2.
  destruct (String.eqb a "asn1" && String.eqb b "debug" && _) eqn:E1; [exfalso|].
  - apply andb_prop in E1 as [E1 E3]. apply andb_prop in E1 as [E1 E2]. apply String.eqb_eq in E1, E2. subst.
    apply orb_prop in E3 as [E3|E3]; apply String.eqb_eq in E3; subst; tauto.
  - destruct (String.eqb a "asn1" && String.eqb b "xer-print" && _) eqn:E2; [exfalso|].
    + apply andb_prop in E2 as [E2 E4]. apply andb_prop in E2 as [E2 E3]. apply String.eqb_eq in E2, E3. subst.
      apply orb_prop in E4 as [E4|E4]; apply String.eqb_eq in E4; subst; tauto.
    + destruct (String.eqb a "iu" && String.eqb b "rab-assign-addr-enc" && _) eqn:E3; [exfalso|reflexivity].
      apply andb_prop in E3 as [E3 E5]. apply andb_prop in E3 as [E3 E4]. apply String.eqb_eq in E3, E4. subst.
      apply orb_prop in E5 as [E5|E5]; apply String.eqb_eq in E5; subst; tauto.
Qed.
