(* Vocabulary for C102: what the client keeps, and when a connection is open. *)
From Verif Require Import Base Lai IuClient IuClient_spec IuClient_iso_spec.

(* after the history SCCP has the connection open as seen by the client: it was indicated and
   no disconnect indication followed *)
Definition connected (l : list op) (c : N) : Prop :=
  exists x a d y, l = x ++ OConnectInd c a d :: y /\ forall d', ~ In (ODisconnectInd c d') y.
(* SCCP indicates a connection under a number that is free: the connection that had it was
   closed by the peer, or the client has no use for it any more *)
Definition numbers_free (E : env) (l : list op) : Prop :=
  forall x c a d y, l = x ++ OConnectInd c a d :: y -> ~ connected x c \/ unused (w_st (reach E x)) c.
(* an application that frees a context when it is told that its link is gone *)
Definition frees_when_told (E : env) : Prop :=
  has_event_cb E = true /\
  forall p t, In (AFreeUe (Some p)) (app E (EEvent (Some p) EvLinkInvalidated :: t)).
(* the connections of what the client keeps: contexts, and addresses of connections whose first
   message is yet to come *)
Definition kept (s : st) : list N := map u_conn (s_ues s) ++ map fst (s_cache s).
(* the connections that are open, in the order of their last indication *)
Fixpoint open_conns (l : list op) (acc : list N) : list N :=
  match l with
  | [] => acc
  | OConnectInd c _ _ :: r => open_conns r (c :: filter (fun x => negb (x =? c)%N) acc)
  | ODisconnectInd c _ :: r => open_conns r (filter (fun x => negb (x =? c)%N) acc)
  | _ :: r => open_conns r acc
  end.
