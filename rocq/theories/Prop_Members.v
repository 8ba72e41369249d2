(* Property C106: the codec finds each part of a value where the headers declare it *)
From Verif Require Import Base Asn1_spec CDecl RanapAsn Header_spec Header_proofs UseTab Use_spec Use_proofs.
From Coq Require Import String List.
Import ListNotations.
Local Open Scope Z_scope.
Local Open Scope list_scope.

(* each descriptor fits the C type that has its name: its functions, those of its parts and the
   constraint functions look for every part at the offset, through the number of pointers and as
   the C type that the header has for it *)
Theorem C106_descriptors :
  forall P d, In P header_protos -> In d (pr_descs P) -> exported d ->
    fits (pr_headers P) (pr_descs P) (de_name d) (CName (de_name d ++ "_t")).
Proof. exact descs_fit. Qed.
Print Assumptions C106_descriptors.

(* for each ASN.1 type there is a typedef; an integer type of C has room for all values, also
   where long has 32 bits *)
Theorem C106_types :
  forall P n a, In P header_protos -> In (n, a) (g_types (pr_grammar P)) ->
    exists t, In ((pr_prefix P ++ c_name n ++ "_t")%string, t) (dl_typedefs (pr_headers P)) /\
      c_type_for (pr_prefix P) (pr_grammar P) (pr_prefix P ++ c_name n) a t.
Proof. exact typedefs. Qed.
Print Assumptions C106_types.

(* each component of an ASN.1 type is a member of the structure, under its own name and in order,
   and is a pointer exactly if it may be absent *)
Theorem C106_structures :
  forall P p a, In P header_protos -> occurs (pr_prefix P) (pr_grammar P) p a -> declared (pr_prefix P) (pr_grammar P) (pr_headers P) p a.
Proof. exact structures. Qed.
Print Assumptions C106_structures.

(* the one descriptor for the structure of a SEQUENCE lists exactly the components that may be
   absent *)
Theorem C106_optional :
  forall P p ext root adds, In P header_protos -> occurs (pr_prefix P) (pr_grammar P) p (ASeq ext root adds) ->
    exists d, In d (pr_descs P) /\ optional_right p root adds d /\
      forall e, In e (pr_descs P) -> for_structure p e -> e = d.
Proof.
  intros P p ext root adds HP Ho. destruct (optionals P p ext root adds HP Ho) as (d & Hd & Od). exists d. split; [exact Hd|]. split; [exact Od|].
  intros e He Fe. apply (one_desc P p e d HP He Hd Fe). destruct Od as [[c E] _]. unfold for_structure. rewrite E. reflexivity.
Qed.
Print Assumptions C106_optional.

(* each name is declared once, and the types of libasn1c and C are not declared again *)
Theorem C106_once :
  forall P, In P header_protos ->
    NoDup (map fst (dl_typedefs (pr_headers P))) /\ NoDup (map fst (dl_structs (pr_headers P))) /\
    NoDup (map fst (dl_unions (pr_headers P))) /\ NoDup (map de_name (pr_descs P)) /\
    (forall c, In c ("long" :: "unsigned long" :: "asn_struct_ctx_t" :: map snd library)%string -> ~ In c (map fst (dl_typedefs (pr_headers P)))).
Proof.
  intros P HP. destruct (tables_functions P HP) as (_ & H1 & H2 & H3 & H4). repeat (split; [assumption|]). intros c Hc. exact (library_types P c HP Hc).
Qed.
Print Assumptions C106_once.

(* a call in the code written by hand that names a descriptor passes an object of a C type the
   descriptor fits, through as many pointers as the function expects *)
Theorem C106_uses :
  forall u, In u uses -> exists P d t, In P header_protos /\ In d (pr_descs P) /\ de_name d = us_def u /\
    has_type (us_object u) t /\ fits (pr_headers P) (pr_descs P) (us_def u) (CName t) /\ us_level u = wanted_level (us_call u).
Proof. exact uses_fit. Qed.
Print Assumptions C106_uses.

(* the list of what a Reset Resource names is freed as the IE of the message that it is *)
Example C106_uses_ex :
  In (Use "ASN_STRUCT_FREE_CONTENTS_ONLY" "RANAP_ResetResourceList" (Member "RANAP_ResetResourceIEs_t" "iuSigConIdList") 1) uses /\
  has_type (Member "RANAP_ResetResourceIEs_t" "iuSigConIdList") "RANAP_ResetResourceList_t".
Proof. split; [vm_compute; tauto|]. apply has_typeb_ok. vm_compute. reflexivity. Qed.

(* a structure with an enumeration written inside it and an optional component; a descriptor does
   not fit another type *)
Example C106_ex :
  exists P, In P header_protos /\
    occurs (pr_prefix P) (pr_grammar P) "RANAP_InterfacesToTraceItem__interface" (AEnum true ["iu-cs"; "iu-ps"; "iur"; "iub"; "uu"]%string []) /\
    In ("RANAP_InterfacesToTraceItem"%string, [CM "interface" false (CName "long"); CM "iE_Extensions" true (CName "RANAP_IE_Extensions_t"); context]) (dl_structs (pr_headers P)) /\
    (exists d, In d (pr_descs P) /\ exported d /\ de_name d = "RANAP_InterfacesToTraceItem"%string /\
       map el_def (de_elems d) = ["RANAP_InterfacesToTraceItem:interface_2"; "RANAP_IE_Extensions"]%string /\
       map el_pointer (de_elems d) = [false; true]) /\
    ~ fits (pr_headers P) (pr_descs P) "NativeInteger" (CName "OCTET_STRING_t").
Proof.
  eexists. split; [left; reflexivity|]. split; [|split; [|split]].
  - apply (occurs_levels _ _ 4); [vm_compute; reflexivity|]. apply look_In. vm_compute. reflexivity.
  - apply look_In. vm_compute. reflexivity.
  - eexists. split; [|split; [|split; [|split]]]; [eapply (fun H => proj1 (desc_of_ok _ "RANAP_InterfacesToTraceItem" _ H)); vm_compute; reflexivity|..]; vm_compute; reflexivity.
  - intro F.
    assert (NT : forall u, is_type (pr_headers (hd (Proto "" ranap_asn [] (Decls [] [] [] []) []) header_protos)) (CName "OCTET_STRING_t") u -> u = CName "OCTET_STRING_t").
    { intros u T. inversion T as [|n t v Hin]; [reflexivity|]. exfalso. subst.
      refine (library_types _ "OCTET_STRING_t" (or_introl eq_refl) _ _); [vm_compute; tauto|]. apply in_map_iff. exists ("OCTET_STRING_t"%string, t). auto. }
    assert (ND : forall d, In d (pr_descs (hd (Proto "" ranap_asn [] (Decls [] [] [] []) []) header_protos)) -> de_name d <> "NativeInteger"%string).
    { intros d Hd E. assert (Q : mem "NativeInteger" (map de_name (pr_descs (hd (Proto "" ranap_asn [] (Decls [] [] [] []) []) header_protos))) = false) by (vm_compute; reflexivity).
      assert (In "NativeInteger"%string (map de_name (pr_descs (hd (Proto "" ranap_asn [] (Decls [] [] [] []) []) header_protos)))) as Hi by (rewrite <- E; apply in_map; exact Hd).
      apply mem_In in Hi. rewrite Hi in Q. discriminate. }
    inversion F as [f c t Hl T| | | | |]; subst; try (eapply ND; [eassumption|]; assumption).
    apply NT in T. injection T as ->. vm_compute in Hl. repeat destruct Hl as [Hl|Hl]; try discriminate Hl. exact Hl.
Qed.
