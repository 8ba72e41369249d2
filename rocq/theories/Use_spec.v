(* The calls with type descriptors in the code written by hand. *)
From Verif Require Import Base Container Generator_spec Naming Naming_spec UseTab.
From Coq Require Import String List.
Import ListNotations.
Local Open Scope string_scope.

(* decoders are given the address of a pointer, to which they assign; all others that of the object *)
Definition wanted_level (call : string) : nat :=
  if String.eqb call "aper_decode" || String.eqb call "ANY_to_type_aper" then 2 else 1.
(* the type of the object; that of an IE in the structure of a message is the IE's type *)
Inductive has_type : object -> string -> Prop :=
| ht_variable t : has_type (OfType t) t
| ht_member I msg r s m t : In I interfaces -> In msg (if_msgs I) -> In r (m_rows msg) ->
    chars s = struct_of I msg -> chars m = member_of r -> chars t = type_name (chars (if_prefix I)) (chars (r_tyname r)) ->
    has_type (Member s m) t.
