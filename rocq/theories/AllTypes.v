(* All type descriptors of src/{ranap,rua,hnbap,sabp}/*.c together. *)
From Verif Require Import Base Aper Aper_spec Aper_proofs Aper_valid Aper_decode RanapTypes RuaTypes HnbapTypes SabpTypes.
From Coq Require String.
Local Open Scope list_scope.
Definition all_types : list (String.string * ty) := ranap_types ++ rua_types ++ hnbap_types ++ sabp_types.
Lemma all_few : forallb (fun nt => few_adds (snd nt)) all_types = true.
Proof. vm_compute. reflexivity. Qed.
Lemma all_types_few n t : In (n, t) all_types -> few_adds t = true.
Proof. intros H. exact (proj1 (forallb_forall _ _) all_few _ H). Qed.

Lemma all_round_trip n t v p : In (n, t) all_types -> valid t v ->
  exists b, enc t v p = Some b /\ forall rest, dec t p (b ++ rest) = Some (v, p + length b, rest).
Proof.
  intros H Hv. destruct (valid_encodes t (all_types_few _ _ H) v Hv p) as (b&Hb). exists b. split; [exact Hb|].
  intros rest. apply (round_trip t v p b Hb).
Qed.
Lemma all_octets n t v : In (n, t) all_types -> valid t v ->
  exists o, encode t v = Some o /\ bytes_ok o = true /\ o <> [] /\ forall rest, decode t (o ++ rest) = Some v.
Proof.
  intros H Hv. destruct (encode_total t v (all_types_few _ _ H) Hv) as (o&Ho&H1&H2). exists o. repeat split; try assumption.
  intros rest. apply decode_encode_rest. exact Ho.
Qed.
Lemma encode_inj t v w o : encode t v = Some o -> encode t w = Some o -> v = w.
Proof. intros H1 H2. apply decode_encode in H1. apply decode_encode in H2. congruence. Qed.

Lemma all_sizes_b : forallb (fun nt => sizes_ok (snd nt)) all_types = true.
Proof. vm_compute. reflexivity. Qed.
Lemma all_sizes n t : In (n, t) all_types -> sizes_ok t = true.
Proof. intros H. exact (proj1 (forallb_forall _ _) all_sizes_b _ H). Qed.
Lemma all_reencode n t o v : In (n, t) all_types -> decode t o = Some v ->
  valid t v /\ exists o', encode t v = Some o' /\ forall rest, decode t (o' ++ rest) = Some v.
Proof.
  intros H Hd. assert (Hv := decode_valid t o v (all_sizes n t H) Hd). split; [exact Hv|].
  destruct (all_octets n t v H Hv) as (o'&H1&_&_&H2). exists o'. auto.
Qed.
