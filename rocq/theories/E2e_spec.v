(* What the receiver of a message is shown.  Nothing here refers to the factory
   functions or to the codec. *)
From Verif Require Import Base Aper Container Dispatch Factory_spec.
From Coq Require Import String List.
Local Open Scope list_scope.

(* The IEs an application finds that reads each optional IE exactly if its
   presence flag is set; [Some None] would be an IE that is flagged but empty. *)
Definition shown (m : msgdef) (s : ies) : list (string * option val) :=
  flat_map (fun rf : row * option val =>
    let (r, f) := rf in
    if is_opt r then (if has_flag m s r then [(r_ie r, f)] else [])
    else match f with Some _ => [(r_ie r, f)] | None => [] end)
    (combine (m_rows m) (i_fields s)).

(* The receive function returns 0, has called the callback once, with this
   header and exactly these IEs, and has then released all it had decoded. *)
Definition arrives (r : rx) (d p : N) (crit : Z) (m : msgdef) (l : list (string * val)) : Prop :=
  x_rc r = 0%Z /\ x_freed r = Some (x_alloc r) /\
  exists s, x_calls r = [mkRmsg d p crit (Some (m, s))] /\ x_alloc r = contents s /\
    forall n, assoc n (shown m s) = option_map Some (assoc n l).
