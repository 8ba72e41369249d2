(* Every call with a type descriptor passes an object of its type. *)
From Verif Require Import Base Container Generator_spec Naming Naming_spec CDecl Header_spec Header_proofs UseTab Use_spec.
From Coq Require Import String List NArith Bool.
Import ListNotations.
Local Open Scope string_scope.

Definition text_eqb (a b : list N) : bool := if list_eq_dec N.eq_dec a b then true else false.
Lemma text_eqb_ok a b : text_eqb a b = true -> a = b.
Proof. unfold text_eqb. destruct (list_eq_dec N.eq_dec a b); [auto|discriminate]. Qed.

Definition has_typeb (o : object) (t : string) : bool :=
  match o with
  | OfType u => String.eqb u t
  | Member s m =>
      existsb (fun I => existsb (fun msg => text_eqb (chars s) (Naming_spec.struct_of I msg) &&
        existsb (fun r => text_eqb (chars m) (member_of r) &&
                          text_eqb (chars t) (type_name (chars (if_prefix I)) (chars (r_tyname r)))) (m_rows msg))
        (if_msgs I)) interfaces
  end.
Lemma has_typeb_ok o t : has_typeb o t = true -> has_type o t.
Proof.
  destruct o as [u|s m]; cbn [has_typeb]; intros H.
  - apply String.eqb_eq in H. subst. constructor.
  - apply existsb_exists in H. destruct H as (I & HI & H). apply existsb_exists in H. destruct H as (msg & Hm & H).
    apply andb_prop in H. destruct H as (Hs & H). apply existsb_exists in H. destruct H as (r & Hr & H).
    apply andb_prop in H. destruct H as (H1 & H2). apply text_eqb_ok in Hs, H1, H2.
    exact (ht_member I msg r s m t HI Hm Hr Hs H1 H2).
Qed.

Definition useb (u : use) : bool :=
  has_typeb (us_object u) (us_def u ++ "_t") && Nat.eqb (us_level u) (wanted_level (us_call u)) &&
  existsb (fun P => existsb (fun d => String.eqb (de_name d) (us_def u) && negb (has_colon (de_name d))) (pr_descs P)) header_protos.
Lemma useb_ok : forallb useb uses = true.
Proof. vm_compute. reflexivity. Qed.

Lemma uses_fit u : In u uses -> exists P d t, In P header_protos /\ In d (pr_descs P) /\ de_name d = us_def u /\
  has_type (us_object u) t /\ fits (pr_headers P) (pr_descs P) (us_def u) (CName t) /\ us_level u = wanted_level (us_call u).
Proof.
  intros Hu. pose proof (proj1 (forallb_forall useb uses) useb_ok u Hu) as H. unfold useb in H.
  apply andb_prop in H. destruct H as (H & Hd). apply andb_prop in H. destruct H as (Ht & Hl).
  apply existsb_exists in Hd. destruct Hd as (P & HP & Hd). apply existsb_exists in Hd. destruct Hd as (d & Hin & Hd).
  apply andb_prop in Hd. destruct Hd as (Hn & Hc). apply String.eqb_eq in Hn. apply negb_true_iff in Hc.
  exists P, d, (us_def u ++ "_t"). repeat split; auto.
  - exact (has_typeb_ok _ _ Ht).
  - rewrite <- Hn. exact (descs_fit P d HP Hin Hc).
  - now apply PeanoNat.Nat.eqb_eq.
Qed.
