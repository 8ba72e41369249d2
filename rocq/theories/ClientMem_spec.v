(* Vocabulary for C94: the client when memory runs out. *)
From Verif Require Import Base Lai IuClient IuClient_spec.

(* The process has ended, by an access through NULL or a failed assertion, and until then
   everything observed (the trace has the newest observation first) was what [full] also
   begins with. *)
Definition ended_early (r : world * option unit) (full : list eff) : Prop :=
  snd r = None /\ exists f before rest, (f = NullDeref \/ f = Assertion) /\
    w_tr (fst r) = EFault f :: before /\ full = rest ++ before.
(* events that make the client ask for memory at most: a new connection, data and the
   data in a disconnection *)
Definition may_ask (o : op) : bool :=
  match o with OConnectInd _ _ _ | ODataInd _ _ | ODisconnectInd _ _ => true | _ => false end.
(* memory lasts, except for the k-th request *)
Definition all_but (k n : N) : bool := negb (n =? k)%N.
(* How many requests an event makes.  An Initial UE Message needs a buffer, and if it is
   accepted a context, a record of its RNC if there is none yet, and an entry for its area if
   no RNC has it. *)
Definition one_if (b : bool) : N := if b then 1%N else 0%N.
Definition initial_asks (s : st) (m : message) : N :=
  if (m_dir m =? PR_initiatingMessage)%N && (m_proc m =? id_InitialUE_Message)%N then
    1 + match acceptable m with
        | Some x =>
            1 + one_if (negb (existsb (fun n => rnc_id_eqb (n_id n) (acc_id x)) (s_rncs s)))
              + one_if (negb (existsb (fun n => existsb (fun e => rai_eqb e (area_of (acc_ra x))) (n_areas n)) (s_rncs s)))
        | None => 0
        end
  else 0.
(* A Direct Transfer needs a buffer, the other messages nothing. *)
Definition later_asks (m : message) : N :=
  one_if ((m_dir m =? PR_initiatingMessage)%N && (m_proc m =? id_DirectTransfer)%N).
Definition asks (E : env) (s : st) (o : op) : N :=
  match o with
  | OConnectInd _ _ [] => 2                 (* the answer and the address *)
  | OConnectInd _ _ d => 1 + match dec_co E d with Some m => initial_asks s m | None => 0 end
  | ODataInd c d =>
      match ue_on s c, pending s c, dec_co E d with
      | Some _, _, Some m => later_asks m
      | None, Some _, Some m => initial_asks s m
      | _, _, _ => 0
      end
  | ODisconnectInd c (x :: d) =>
      match ue_on s c, dec_co E (x :: d) with Some _, Some m => later_asks m | _, _ => 0 end
  | _ => 0
  end%N.
(* The number of the request for the record of an RNC among those of the event, counted
   from 1: only a context of an unknown RNC needs one, after the answer, if any, and the
   buffer. *)
Definition rnc_request (E : env) (s : st) (o : op) : option N :=
  match opens E s o with
  | Some p =>
      if existsb (fun n => rnc_id_eqb (n_id n) (acc_id (op_acc p))) (s_rncs s) then None
      else Some (match o with OConnectInd _ _ _ => 3 | _ => 2 end)%N
  | None => None
  end.
(* how the process ends if it does at the [d]-th request of the event *)
Definition ends_with (E : env) (s : st) (o : op) (d : N) : fault :=
  match rnc_request E s o with
  | Some k => if (d =? k)%N then Assertion else NullDeref
  | None => NullDeref
  end.
