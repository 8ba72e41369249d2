(* Proofs about Items.v *)
From Verif Require Import Base Aper Aper_spec Aper_valid Aper_decode AllTypes RanapTypes X691 X691_proofs Asn1_spec Asn1_proofs RanapAsn Items Items_spec.
From Coq Require Import String List.
Import ListNotations.
Local Open Scope string_scope.
Local Open Scope list_scope.

Lemma item_gives t o v : decode t o = Some v -> gives (decode_from_list t true (AnyOctets o)) v.
Proof. intros H. unfold gives, decode_from_list. rewrite H. reflexivity. Qed.
Definition item_tys : list (string * N * string * ty) :=
  [("id-RAB-SetupOrModifiedItem", 51%N, "RAB-SetupOrModifiedItem", T_RANAP_RAB_SetupOrModifiedItem);
   ("id-RAB-FailedItem", 34%N, "RAB-FailedItem", T_RANAP_RAB_FailedItem); ("id-RAB-ReleaseItem", 40%N, "RAB-ReleaseItem", T_RANAP_RAB_ReleaseItem);
   ("id-RAB-ReleasedItem", 42%N, "RAB-ReleasedItem", T_RANAP_RAB_ReleasedItem);
   ("id-RAB-SetupOrModifyItem", 53%N, "RAB-SetupOrModifyItemFirst", T_RANAP_RAB_SetupOrModifyItemFirst)].
Lemma item_rows : rows_from ranap_asn item_tys.
Proof. apply rows_ok. vm_compute. reflexivity. Qed.
Lemma item_cases name f : In (name, f) item_decoders ->
  exists id n t x, f = decode_from_list t /\ In (id, n, name, t) item_tys /\ In (x, t) all_types.
Proof.
  intros H. repeat (destruct H as [H|H]; [injection H as <- <-|]); [| | | | |destruct H];
    do 4 eexists; (split; [reflexivity|]); (split; [unfold item_tys; cbn [In]; tauto|]);
    [apply (lookup_in _ "RANAP_RAB_SetupOrModifiedItem")|apply (lookup_in _ "RANAP_RAB_FailedItem")|apply (lookup_in _ "RANAP_RAB_ReleaseItem")
    |apply (lookup_in _ "RANAP_RAB_ReleasedItem")|apply (lookup_in _ "RANAP_RAB_SetupOrModifyItemFirst")]; vm_compute; reflexivity.
Qed.
Lemma item_ty name f t : In (name, f) item_decoders -> means ranap_asn (ARef name) t -> f = decode_from_list t /\ exists x, In (x, t) all_types.
Proof.
  intros H Hm. destruct (item_cases name f H) as (id&n&t'&x&->&Ht&Hx). apply (proj2 (item_rows id n name t' Ht)) in Hm. subst t'.
  split; [reflexivity|exists x; exact Hx].
Qed.
Lemma item_conformant name f t v o rest : In (name, f) item_decoders -> means ranap_asn (ARef name) t -> completed (x691 t v) o ->
  gives (f true (AnyOctets (o ++ rest))) v.
Proof. intros H Hm Ho. destruct (item_ty name f t H Hm) as (->&_). apply item_gives, x691_decode, Ho. Qed.
Lemma item_values name f t o : In (name, f) item_decoders -> means ranap_asn (ARef name) t ->
  (exists v o', gives (f true (AnyOctets o)) v /\ valid t v /\ completed (x691 t v) o') \/ refuses (f true (AnyOctets o)).
Proof.
  intros H Hm. destruct (item_ty name f t H Hm) as (->&x&Hx). destruct (decode t o) as [v|] eqn:E.
  - left. destruct (all_reencode x t o v Hx E) as (Hv&o'&Ho&_). exists v, o'. split; [apply item_gives, E|]. split; [exact Hv|apply encode_x691, Ho].
  - right. unfold refuses, decode_from_list. rewrite E. reflexivity.
Qed.
Lemma item_types name f : In (name, f) item_decoders -> exists t, forall t', means ranap_asn (ARef name) t' <-> t' = t.
Proof. intros H. destruct (item_cases name f H) as (id&n&t&x&_&Ht&_). exists t. exact (proj2 (item_rows id n name t Ht)). Qed.
Lemma item_empty name f : In (name, f) item_decoders -> f true AnyEmpty = Fault NullDeref.
Proof. intros H. destruct (item_cases name f H) as (id&n&t&x&->&_). reflexivity. Qed.
Lemma item_safe name f dst a : In (name, f) item_decoders -> ((exists k, f dst a = Fault k) <-> dst = false \/ a = AnyNull \/ a = AnyEmpty).
Proof.
  intros H. destruct (item_cases name f H) as (id&n&t&x&->&_). unfold decode_from_list. destruct a as [| |o], dst.
  - split; [auto|eexists; reflexivity].
  - split; [auto|eexists; reflexivity].
  - split; [auto|eexists; reflexivity].
  - split; [auto|eexists; reflexivity].
  - split; [|intros [E|[E|E]]; discriminate]. intros (k&E). destruct (decode t o); discriminate.
  - split; [auto|eexists; reflexivity].
Qed.
