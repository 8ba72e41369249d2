(* Conversations between the client and the home NodeB emulator, in terms of what
   the application of the client calls and is told.  Between the two is a gateway,
   which is not part of this project: it is assumed to put each RANAP message the
   client sends on a connection into a RUA Direct Transfer with the message factory
   of this project (for any domain and context), and to give the RANAP message of
   each RUA Direct Transfer of the emulator to the client as data on the
   connection. *)
From Verif Require Import Base RuaFactory Container Dispatch Factory_spec RuaFactory_spec E2e_spec IuClient IuClient_spec Stack Stack_spec Hnb Hnb_spec.
From Coq Require Import String List.
Local Open Scope list_scope.

(* [b] is what the gateway makes of the octets [ranap] *)
Definition to_phone (ps : bool) (id : N) (ranap b : list N) : Prop :=
  exists e, rua_new_dt ps id (Some ranap) = Ok (mkWrapped (Some (b, rua_ppid)) e).
(* These octets of the client reach the emulator, which reports [e] and sends one
   message, with the RANAP message [up] in it *)
Definition replied (E : henv) (h : hnb) (ps : bool) (id : N) (down : list N) (e : list heff) (up : list N) : Prop :=
  exists b o, to_phone ps id down b /\ rua_gives E h b (e ++ [HSend rua_ppid o]) /\ on_connection o up.
(* The application calls [a], one message is sent on the connection of its context
   [u], and that is replied to *)
Definition exchange (CN : env) (w : IuClient.world) (a : api) (u : ue) (E : henv) (h : hnb) (ps : bool) (id : N) (e : list heff) (up : list N) : Prop :=
  exists down, sent_down CN w a u down /\ replied E h ps id down e up.
(* when the client gets the octets [up] on connection [c], in any reachable state
   in which there is a context for it, this is what it does *)
Definition whenever (CN : env) (c : N) (up : list N) (P : ue -> list eff -> Prop) : Prop :=
  forall l u, let w := reach (stack CN) l in ue_on (w_st w) c = Some u ->
    exists t, added (w_tr w) (w_tr (fst (exec (stack CN) (ODataInd c up) w))) t /\ P u t.
(* the application is given this NAS message, without an area, for the context *)
Definition nas_given (nas : list N) (u : ue) (t : list eff) : Prop := recvs t = [(u_ptr u, nas, None, None)].
(* the application is told this, if it wants to be *)
Definition event_given (CN : env) (ev : event) (u : ue) (t : list eff) : Prop :=
  events t = if has_event_cb CN && u_notif u then [(Some (u_ptr u), ev)] else [].
(* the same without a connection: every RANAP message for an address goes into a
   RUA Connectionless Transfer, and has these effects *)
Definition unconnected_gives (E : henv) (h : hnb) (ranap : list N) (e : list heff) : Prop :=
  exists b f, rua_new_udt (Some ranap) = Ok (mkWrapped (Some (b, rua_ppid)) f) /\ rua_gives E h b e.
(* the nibbles of the octets 09 01 99, the emulator's network *)
Definition emu_plmn : nibbles := mkNib 9 0 1 0 9 9.
