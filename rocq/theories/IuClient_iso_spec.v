(* Vocabulary for C95: connections do not disturb each other. *)
From Verif Require Import Base Lai IuClient IuClient_spec.

(* the connection of a context *)
Definition conn_at (s : st) (p : ptr) : option N :=
  option_map u_conn (find (fun u => (u_ptr u =? p)%N) (s_ues s)).
(* The connection an event is about: SCCP's indications name it, the timer and the calls of
   the application are about a context; the other events are about none. *)
Definition concerns (s : st) (o : op) : option N :=
  match o with
  | OConnectInd c _ _ | ODataInd c _ | ODisconnectInd c _ => Some c
  | OTimer p => conn_at s p
  | OApi a => match api_target a with Some p => conn_at s p | None => None end
  | _ => None
  end.
(* the context a callback is about *)
Definition subject (e : eff) : option ptr :=
  match e with ERecv p _ _ _ => Some p | EEvent p _ => p | _ => None end.
(* In a callback the application uses no other context than the one the callback is about. *)
Definition minds_its_own (E : env) : Prop :=
  forall e t a p, In a (app E (e :: t)) -> api_target a = Some p -> subject e = Some p.
(* the connection a primitive is for; N-UNITDATA has none *)
Definition request_conn (r : sccp_req) : option N :=
  match r with
  | NConnectResp c | NDataReq c _ | NDisconnectReq c => Some c
  | NUnitdataReq _ _ => None
  end.
(* an application that frees a context when it is told of its release *)
Definition frees_released (t : list eff) : list api :=
  match t with EEvent (Some p) EvIuRelease :: _ => [AFreeUe (Some p)] | _ => [] end.
(* ---------------- C96 ---------------- *)
(* the client has no use for the connection: no context, no address kept for a message to come *)
Definition unused (s : st) (c : N) : Prop := ue_on s c = None /\ remembered s c = [].
(* no new connection indication for [c] *)
Definition not_reopened (c : N) (l : list op) : Prop := forall a d, ~ In (OConnectInd c a d) l.
(* the primitives about a connection *)
Definition on_conn (c : N) (t : list eff) : list sccp_req :=
  filter (fun r => match request_conn r with Some c' => (c' =? c)%N | None => false end) (sends t).
