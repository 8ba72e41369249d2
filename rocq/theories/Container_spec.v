(* Vocabulary for the properties of the generated containers. *)
From Verif Require Import Base Aper Container.

(* the IEs of a message body, in the order they have in it; None if the octets are
   not a container of the message *)
Definition body (m : msgdef) (octets : list N) : option (list val) :=
  match decode (m_cont m) octets with Some (VSeq [Some (VList l)] _) => Some l | _ => None end.
(* their identifiers *)
Definition ids_of (l : list val) : list (option N) :=
  map (fun ie => match ie with VSeq [Some (VInt id); Some (VEnum _); Some (VOcts _)] [] => Some (Z.to_N id) | _ => None end) l.
