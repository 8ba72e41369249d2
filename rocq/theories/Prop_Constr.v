(* C89: a value is reported as out of its limits exactly if it is, whatever was done before. *)
From Verif Require Import Base Aper Aper_spec AllTypes Constr ConstrTab Constr_spec Constr_proofs.
From Coq Require Import String List Lia.
Import ListNotations.
Local Open Scope string_scope.
Local Open Scope Z_scope.

(* As long as no value of the type has been encoded, decoded, printed or freed, the
   check of a named type accepts exactly the values within the limits of the
   specification.  Missing: two types (C89_rsrq, C89_volume), enumerations and lists
   (C89_unchecked), values in the extension (C89_extension_refuted) and everything after
   the first use of the type (C89_used). *)
Theorem C89_named_partial : forall l n t v,
  has_check n -> type_of n = Some t -> storable t v ->
  ~ In n exceptional -> ~ enumeration t -> ~ list_type t ->
  ~ In (Use n) l -> (forall m, synonym_of n m -> ~ In (Use m) l) ->
  exists b, verdict l n v = Some b /\ (b = true <-> limits t v).
Proof. exact named. Qed.
Print Assumptions C89_named_partial.

(* such types, after a history with checks and uses of others *)
Example C89_named_ex :
  (forall n, In n ["RANAP_RAB_ID"; "RANAP_PLMNidentity"; "RUA_Context_ID"; "HNBAP_HNB_Identity_Info"; "SABP_Data_Coding_Scheme"; "RANAP_ChosenEncryptionAlgorithm"] ->
     has_check n) /\
  (let l := [Use "RANAP_LAC"; Check "RANAP_RAB_ID" (VBits [true]); Use "RANAP_PLMNidentity"] in
   type_of "RANAP_RAB_ID" = Some (TBits (Some (mkCon false 8 8))) /\
   verdict l "RANAP_RAB_ID" (VBits (repeat true 8)) = Some true /\
   verdict l "RANAP_RAB_ID" (VBits (repeat true 7)) = Some false /\
   type_of "RANAP_ChosenEncryptionAlgorithm" = Some (TInt (Some (mkCon false 0 15))) /\
   synonym_of "RANAP_ChosenEncryptionAlgorithm" "RANAP_EncryptionAlgorithm" /\
   verdict l "RANAP_ChosenEncryptionAlgorithm" (VInt 16) = Some false).
Proof.
  split.
  - intros n H. cbn [In] in H.
    repeat (destruct H as [<-|H]; [eapply has_it; vm_compute; reflexivity|]). contradiction.
  - cbv zeta. split; [vm_compute; reflexivity|]. split; [vm_compute; reflexivity|]. split; [vm_compute; reflexivity|].
    split; [vm_compute; reflexivity|]. split; [eapply is_synonym; vm_compute; reflexivity | vm_compute; reflexivity].
Qed.

(* What passes such a check can be encoded. *)
Theorem C89_encodable : forall l n t v,
  has_check n -> type_of n = Some t -> storable t v ->
  ~ In n exceptional -> match t with TInt _ | TOcts _ | TBits _ => True | _ => False end ->
  ~ In (Use n) l -> (forall m, synonym_of n m -> ~ In (Use m) l) ->
  verdict l n v = Some true -> valid t v.
Proof.
  intros l n t v H T S X K U Us V.
  destruct (named l n t v H T S X) as (b & B & L); try assumption;
    try (intros E; destruct t; solve [contradiction E | contradiction K]).
  apply limits_valid; [exact S | | exact K]. apply L. congruence.
Qed.
Print Assumptions C89_encodable.

(* Once a value of the type has been encoded, decoded, printed or freed, every
   value is accepted. *)
Theorem C89_used : forall l n v, In (Use n) l -> verdict l n v = Some true.
Proof. exact used. Qed.
Print Assumptions C89_used.
(* so the verdict depends on what was done before *)
Theorem C89_history_refuted : exists n t v l,
  has_check n /\ type_of n = Some t /\ storable t v /\ ~ limits t v /\
  verdict [] n v = Some false /\ verdict l n v = Some true.
Proof.
  exists "RANAP_RAB_ID", (TBits (Some (mkCon false 8 8))), (VBits [true; false; true]), [Use "RANAP_RAB_ID"].
  split; [eapply has_it; vm_compute; reflexivity|].
  split; [vm_compute; reflexivity|]. split; [exact I|]. split; [|split; vm_compute; reflexivity].
  cbn. unfold in_range. cbn. lia.
Qed.
Print Assumptions C89_history_refuted.

(* Enumerations, and the named lists that are synonyms of others, are never refused. *)
Theorem C89_unchecked : forall l n t v,
  has_check n -> type_of n = Some t -> enumeration t \/ list_type t -> verdict l n v = Some true.
Proof.
  intros l n t v H T K. apply (always l n t v H T K). intros X. cbn [In exceptional] in X.
  destruct X as [<-|[<-|[]]]; vm_compute in T; injection T as <-; destruct K as [K|K]; contradiction K.
Qed.
Print Assumptions C89_unchecked.
Theorem C89_enumeration_refuted : exists n t v,
  has_check n /\ type_of n = Some t /\ enumeration t /\ storable t v /\ ~ limits t v /\ verdict [] n v = Some true.
Proof.
  exists "RANAP_CN_DomainIndicator", (TEnum false [0; 1] []), (VEnum 2).
  split; [eapply has_it; vm_compute; reflexivity|].
  split; [vm_compute; reflexivity|]. split; [exact I|]. split; [cbn; lia|]. split; [cbn; lia | vm_compute; reflexivity].
Qed.
Print Assumptions C89_enumeration_refuted.

(* A value that the extension marker of the specification allows, and that can be
   encoded, is refused. *)
Theorem C89_extension_refuted : exists n t v,
  has_check n /\ type_of n = Some t /\ storable t v /\ valid t v /\ verdict [] n v = Some false.
Proof.
  exists "RANAP_TransportLayerAddress", (TBits (Some (mkCon true 1 160))), (VBits (repeat true 161)).
  split; [eapply has_it; vm_compute; reflexivity|].
  split; [vm_compute; reflexivity|]. split; [exact I|]. split; [constructor; left; reflexivity | vm_compute; reflexivity].
Qed.
Print Assumptions C89_extension_refuted.

(* RSRQ-Extension is specified as -30..46: 0..46 is refused. *)
Theorem C89_rsrq : forall l z, - 2 ^ 63 <= z < 2 ^ 63 -> ~ In (Use "RANAP_RSRQ_Extension") l ->
  exists b, verdict l "RANAP_RSRQ_Extension" (VInt z) = Some b /\ (b = true <-> -30 <= z < 0).
Proof.
  intros l z Z U. destruct (verdict_gives l "RANAP_RSRQ_Extension" (VInt z)) as (b & V & _ & _ & H).
  exists b. split; [exact V|].
  specialize (H (mkOwn "RANAP_RSRQ_Extension" (CRange (mkLit true (-30)) (mkLit false 46)) "NativeInteger") ltac:(vm_compute; reflexivity) U).
  cbn [o_fun] in H. rewrite H. apply mixed; lia.
Qed.
Print Assumptions C89_rsrq.
Theorem C89_rsrq_refuted :
  type_of "RANAP_RSRQ_Extension" = Some (TInt (Some (mkCon true (-30) 46))) /\
  limits (TInt (Some (mkCon true (-30) 46))) (VInt 0) /\ verdict [] "RANAP_RSRQ_Extension" (VInt 0) = Some false.
Proof. split; [vm_compute; reflexivity|]. split; [cbn; unfold in_range; cbn; lia | vm_compute; reflexivity]. Qed.
Print Assumptions C89_rsrq_refuted.

(* The volume of unsuccessfully transmitted data is specified as 0..4294967295: every number
   is accepted. *)
Theorem C89_volume : forall l v, verdict l "RANAP_UnsuccessfullyTransmittedDataVolume" v = Some true.
Proof.
  intros l v. destruct (verdict_gives l "RANAP_UnsuccessfullyTransmittedDataVolume" v) as (b & V & _ & U & H).
  rewrite V. f_equal.
  specialize (H (mkOwn "RANAP_UnsuccessfullyTransmittedDataVolume" CAlways "NativeInteger") ltac:(vm_compute; reflexivity)).
  cbn [o_fun accepts] in H. destruct b; [reflexivity|]. apply H. intros X. apply U in X. discriminate.
Qed.
Print Assumptions C89_volume.
Theorem C89_volume_refuted :
  type_of "RANAP_UnsuccessfullyTransmittedDataVolume" = Some (TInt (Some (mkCon false 0 4294967295))) /\
  ~ limits (TInt (Some (mkCon false 0 4294967295))) (VInt 4294967296) /\
  verdict [] "RANAP_UnsuccessfullyTransmittedDataVolume" (VInt 4294967296) = Some true.
Proof. split; [vm_compute; reflexivity|]. split; [cbn; unfold in_range; cbn; lia | vm_compute; reflexivity]. Qed.
Print Assumptions C89_volume_refuted.

(* The functions for components accept exactly the values within the limits of the
   specification.  Missing: three components (C89_sign). *)
Theorem C89_components_partial : forall n i f,
  component_check n i f -> ~ In (n, i) exceptional_components ->
  exists t c, type_of n = Some t /\ component t i = Some c /\
    forall v, storable c v -> (accepts f v = true <-> limits c v).
Proof. exact members. Qed.
Print Assumptions C89_components_partial.
Example C89_components_ex :
  component_check "RANAP_Event1I_Parameters" 0 (CRange (mkLit true (-120)) (mkLit true (-25))) /\
  component_check "RANAP_CommonID" 0 (CElems (SMax 65535)).
Proof. split; [apply nth_error_In with (n := 38%nat) | apply nth_error_In with (n := 21%nat)]; vm_compute; reflexivity. Qed.

(* Longitudes, in RANAP and in HNBAP, are specified as -8388608..8388607 and the
   threshold of Event 1F as -120..165: none of the numbers that are not negative is
   accepted. *)
Theorem C89_sign : forall n i f, component_check n i f -> In (n, i) exceptional_components ->
  exists t lo hi, type_of n = Some t /\ component t i = Some (TInt (Some (mkCon false lo hi))) /\ lo < 0 < hi /\
    forall z, - 2 ^ 63 <= z < 2 ^ 63 -> (accepts f (VInt z) = true <-> lo <= z < 0).
Proof. exact signs. Qed.
Print Assumptions C89_sign.
Example C89_sign_ex :
  component_check "RANAP_GeographicalCoordinates" 2 (CRange (mkLit true (-8388608)) (mkLit false 8388607)) /\
  accepts (CRange (mkLit true (-8388608)) (mkLit false 8388607)) (VInt 100) = false.
Proof. split; [apply nth_error_In with (n := 1%nat); vm_compute; reflexivity | vm_compute; reflexivity]. Qed.

(* No other check is missing.  A type without a function of its own is a SEQUENCE, a
   CHOICE or a SEQUENCE OF; and each of its components has a function, or is of a type to
   which the same applies, or is of a type of ASN.1 itself that has no limits. *)
Theorem C89_complete : forall n t, type_of n = Some t -> ~ has_check n ->
  constructed t /\
  forall i c, component t i = Some c ->
    (exists f, component_check n i f) \/
    (exists m, component_type n i m /\ (type_of m = Some c \/ (type_of m = None /\ unlimited c))).
Proof. exact complete. Qed.
Print Assumptions C89_complete.
Example C89_complete_ex :
  exists t, type_of "RANAP_LAI" = Some t /\ ~ has_check "RANAP_LAI" /\
    component t 1 = Some (TOcts (Some (mkCon false 2 2))) /\ component_type "RANAP_LAI" 1 "RANAP_LAC" /\
    type_of "RANAP_LAC" = Some (TOcts (Some (mkCon false 2 2))) /\ has_check "RANAP_LAC".
Proof.
  eexists. split; [vm_compute; reflexivity|]. split; [apply has_not; vm_compute; reflexivity|].
  split; [vm_compute; reflexivity|]. split; [|split; [vm_compute; reflexivity | eapply has_it; vm_compute; reflexivity]].
  apply (is_component _ _ _ [(0%nat, "RANAP_PLMNidentity"); (1%nat, "RANAP_LAC"); (2%nat, "RANAP_IE_Extensions")]).
  - vm_compute. reflexivity.
  - right. left. reflexivity.
Qed.

(* The number of elements of a list that has a name is looked at by none of these
   functions: such a type has none, or only that of another such type. *)
Theorem C89_lists : forall n t, type_of n = Some t -> list_type t ->
  ~ has_check n \/ exists m, synonym_of n m /\ type_of m = Some t /\ ~ has_check m.
Proof. exact named_lists. Qed.
Print Assumptions C89_lists.
(* so too many elements in a component are refused by no function *)
Theorem C89_lists_refuted : exists n t i c m,
  type_of n = Some t /\ component t i = Some (TSeqOf (Some c) m) /\ ~ has_check n /\
  (forall f, ~ component_check n i f) /\
  exists l, component_type n i l /\ type_of l = Some (TSeqOf (Some c) m) /\ ~ has_check l.
Proof. exact unlooked. Qed.
Print Assumptions C89_lists_refuted.
