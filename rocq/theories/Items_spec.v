(* The decoders for the elements of RAB lists and the ASN.1 types that TS 25.413
   9.3.3 gives these elements; what a peer finds in a list. *)
From Verif Require Import Base Aper Items.
From Coq Require Import String List.
Import ListNotations.
Local Open Scope string_scope.
Local Open Scope list_scope.

Definition item_decoders : list (string * (bool -> any_arg -> outcome item_res)) :=
  [("RAB-SetupOrModifiedItem", rab_setupormodifieditem); ("RAB-FailedItem", rab_faileditem); ("RAB-ReleaseItem", rab_releaseitem);
   ("RAB-ReleasedItem", rab_releaseditem); ("RAB-SetupOrModifyItemFirst", rab_setupormodifyitemfirst)].
(* the destination has this value; all that was allocated belongs to it *)
Definition gives (r : outcome item_res) (v : val) : Prop := r = Ok (mkItem 0 (Some v) [v] []).
(* refused; the destination is zero and nothing stays allocated *)
Definition refuses (r : outcome item_res) : Prop := r = Ok (mkItem (-1) None [] []).
