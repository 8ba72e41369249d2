(* Vocabulary for the properties of the RUA message factory: the IEs a receiver is
   to find.  Nothing here refers to the factory functions. *)
From Verif Require Import Base Aper Factory_spec.
From Coq Require Import String List.
Local Open Scope list_scope.
Local Open Scope string_scope.
Local Open Scope list_scope.

(* CN domain: cs 0, ps 1; the context identifier as 24 bits, most significant
   first; establishment cause normal call 1; cause radio network (alternative 0),
   normal 0 *)
Definition domain_ie (is_ps : bool) : string * val := ("id-CN-DomainIndicator", VEnum (if is_ps then 1 else 0)).
Definition context_ie (id : N) : string * val := ("id-Context-ID", VBits (to_bits 24 id)).
Definition message_ie (payload : list N) : string * val := ("id-RANAP-Message", VOcts payload).
Definition connect_ies (is_ps : bool) (id : N) (payload : list N) : list (string * val) :=
  [domain_ie is_ps; context_ie id; ("id-Establishment-Cause", VEnum 1); message_ie payload].
Definition transfer_ies (is_ps : bool) (id : N) (payload : list N) : list (string * val) :=
  [domain_ie is_ps; context_ie id; message_ie payload].
(* no RANAP message if the payload is absent or empty *)
Definition disconnect_ies (is_ps : bool) (id : N) (payload : option (list N)) : list (string * val) :=
  [domain_ie is_ps; context_ie id; ("id-Cause", VChoice 0 (VEnum 0))] ++
  match payload with None | Some [] => [] | Some d => [message_ie d] end.
(* octets, or none *)
Definition octets (o : option (list N)) : Prop := match o with Some d => bytes_ok d = true | None => True end.
Definition size (o : option (list N)) : N := match o with Some d => N.of_nat (Datatypes.length d) | None => 0 end.
