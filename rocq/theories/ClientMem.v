(* The Iu client when memory runs out: iu_client.c once more, with the result of every
   request for memory that iu_client.c makes itself.  The functions that make no such
   request are those of IuClient.v.  Requests made by the decoder and by the message
   factory are not counted here: a decoder without memory refuses the message
   ([dec_co], [dec_cl] of IuClient.v) and a factory without memory is [enc_ok] of
   IuClient.v; Memory.v models the factory's requests. *)
From Verif Require Import Base Lai IuClient.

(* vocabulary: the number of requests made so far is part of the state *)
Definition MM (A : Type) := N -> world -> N * (world * option A).
(* vocabulary: code that makes no request *)
Definition up {A} (m : M A) : MM A := fun n w => (n, m w).
(* vocabulary: C statements one after the other *)
Definition mbind {A B} (m : MM A) (k : A -> MM B) : MM B :=
  fun n w => let '(n', (w', o)) := m n w in
             match o with Some a => k a n' w' | None => (n', (w', None)) end.
Notation "'let+' x := e 'in' k" := (mbind e (fun x => k))
  (at level 200, x pattern, e at level 100, k at level 200, right associativity).

Section ClientMem.
Variable E : env.
Variable G : N -> bool.      (* is the n-th request for memory granted? *)

(* talloc_zero, msgb_alloc: iu_client.c:156, 194, 226, 348, 459, 510, 987 *)
Definition request : MM bool := fun n w => ((n + 1)%N, (w, Some (G n))).
(* a request whose result is used at once; [f] is what happens if there is none *)
(* iu_client.c:156-158, 194-196, 226-227, 348-349, 987-990 *)
Definition need (f : fault) : MM unit :=
  let+ ok := request in if ok then up (ret tt) else up (fail f).

(* iu_client.c:154-168 ue_conn_ctx_alloc: writes to the context before any check *)
Definition m_ue_conn_ctx_alloc (r : ptr) (conn : N) : MM ptr :=
  let+ _ := need NullDeref in up (ue_conn_ctx_alloc r conn).
(* iu_client.c:192-200 ue_conn_sccp_addr_add *)
Definition m_sccp_addr_add (conn : N) (a : sccp_addr) : MM unit :=
  let+ _ := need NullDeref in up (sccp_addr_add conn a).
(* iu_client.c:224-238 iu_rnc_alloc: OSMO_ASSERT(rnc) *)
Definition m_rnc_alloc (id : rnc_id) (a : sccp_addr) : MM ptr :=
  let+ _ := need Assertion in up (rnc_alloc id a).

(* iu_client.c:311-356 iu_rnc_register *)
Definition m_rnc_register (id : rnc_id) (r : rai) (a : sccp_addr) : MM ptr :=
  let+ s := up get in
  let+ p :=
    match rnc_id_find s id with
    | Some n =>
        let+ _ := up (if same_sccp_addr E (n_addr n) a then ret tt
                   else put_st (set_rncs s (upd_rnc (n_ptr n)
                          (fun n => mkRnc (n_ptr n) (n_id n) a (n_areas n)) (s_rncs s)))) in
        up (ret (n_ptr n))
    | None => m_rnc_alloc id a
    end in
  let+ s := up get in
  match lac_rac_find s r with
  | Some old =>
      if negb (n_ptr old =? p)%N then
        let e := match find (fun e => rai_eqb e r) (n_areas old) with
                 | Some e => e | None => r end in
        let l1 := upd_rnc (n_ptr old)
                    (fun n => mkRnc (n_ptr n) (n_id n) (n_addr n) (area_del r (n_areas n))) (s_rncs s) in
        let l2 := upd_rnc p
                    (fun n => mkRnc (n_ptr n) (n_id n) (n_addr n) (e :: n_areas n)) l1 in
        let+ _ := up (put_st (set_rncs s l2)) in
        let+ _ := up (event_new_area E id r) in
        up (ret p)
      else up (ret p)
  | None =>
      let+ _ := need NullDeref in                                     (* :348-349 *)
      let+ _ := up (put_st (set_rncs s (upd_rnc p
                  (fun n => mkRnc (n_ptr n) (n_id n) (n_addr n) (r :: n_areas n)) (s_rncs s)))) in
      let+ _ := up (event_new_area E id r) in
      up (ret p)
  end.

(* iu_client.c:485, 527 msgb_put on the result of msgb_alloc of :459, :510 *)
Definition m_nas_put (buf : bool) (nas : list N) : MM unit :=
  if buf then up (nas_put nas) else up (fail NullDeref).

(* iu_client.c:451-504 ranap_handle_co_initial_ue.  EBufAlloc is the request for the
   buffer, granted or not. *)
Definition m_handle_co_initial_ue (conn : N) (a : sccp_addr) (i : initial_ue) : MM Z :=
  let+ buf := request in
  let+ _ := up (emit EBufAlloc) in
  let+ (rc, ra) := up (lift (parse_lai (iu_lai i))) in
  if negb (rc =? 0)%Z then up (ret (-1)%Z)
  else
    let+ rac := up (match iu_rac i with
                | Some o => lift (asn1str_to_u8 o)
                | None => ret OSMO_RESERVED_RAC
                end) in
    if (match iu_rac i with Some _ => true | None => false end) && (rac =? OSMO_RESERVED_RAC)%N
    then up (ret (-1)%Z)
    else
      let ra := mkRaId (ra_mcc ra) (ra_mnc ra) (ra_mnc3 ra) (ra_lac ra) rac in
      let+ g := up (lift (grnc_id_parse (iu_grnc i))) in
      match g with
      | None => up (ret (-1)%Z)
      | Some id =>
          let+ sai := up (lift (asn1str_to_u16 (iu_sac i))) in
          let+ _ := m_nas_put buf (iu_nas i) in
          let+ n := m_rnc_register id (gprs_rai_to_osmo ra) a in
          let+ p := m_ue_conn_ctx_alloc n conn in
          let+ s := up get in
          let+ _ := up (put_st (set_ues s (upd_ue p
             (fun u => mkUe (u_ptr u) (u_rnc u) (u_conn u) ra (u_notif u) (u_for u) (u_timer u))
             (s_ues s)))) in
          let+ _ := up (callback E (ERecv p (iu_nas i) (Some ra) (Some sai))) in
          let+ _ := up (emit EBufFree) in
          up (ret 0%Z)
      end.

(* iu_client.c:506-537 ranap_handle_co_dt; EBufAlloc as above *)
Definition m_handle_co_dt (p : ptr) (d : direct_transfer) : MM Z :=
  let+ buf := request in
  let+ _ := up (emit EBufAlloc) in
  let+ r := up (
    match dt_lai d with
    | None => ret (Some (None, None))
    | Some l =>
        let! (rc, ra) := lift (parse_lai l) in
        if negb (rc =? 0)%Z then ret None
        else
          let! rac := match dt_rac d with
                      | Some o => lift (asn1str_to_u8 o)
                      | None => ret (ra_rac ra) end in
          let! sai := match dt_sac d with
                      | Some o => let! v := lift (asn1str_to_u16 o) in ret (Some v)
                      | None => ret None end in
          ret (Some (Some (mkRaId (ra_mcc ra) (ra_mnc ra) (ra_mnc3 ra) (ra_lac ra) rac), sai))
    end) in
  match r with
  | None => up (ret (-1)%Z)
  | Some (ra, sai) =>
      let+ _ := m_nas_put buf (dt_nas d) in
      let+ _ := up (callback E (ERecv p (dt_nas d) ra sai)) in
      let+ _ := up (emit EBufFree) in
      up (ret 0%Z)
  end.

(* iu_client.c:647-667 cn_ranap_handle_co_initial *)
Definition m_handle_co_initial (conn : N) (a : sccp_addr) (m : message) : MM unit :=
  if negb (m_dir m =? PR_initiatingMessage)%N || negb (m_proc m =? id_InitialUE_Message)%N
  then up (ret tt)
  else match m_ies m with
       | I_InitialUE i => let+ _ := m_handle_co_initial_ue conn a i in up (ret tt)
       | _ => up (fail OobRead)
       end.

(* iu_client.c:670-746 cn_ranap_handle_co *)
Definition m_handle_co (p : ptr) (m : message) : MM unit :=
  if (m_dir m =? PR_initiatingMessage)%N && (m_proc m =? id_DirectTransfer)%N then
    match m_ies m with
    | I_DirectTransfer d => let+ _ := m_handle_co_dt p d in up (ret tt)
    | _ => up (fail OobRead)
    end
  else up (handle_co E p m).                  (* the other cases ask for no memory *)

(* ranap_cn_rx_co called at iu_client.c:1152-1260 *)
Definition m_rx_co (l2 : list N) (h : message -> MM unit) : MM unit :=
  match dec_co E l2 with Some m => h m | None => up (ret tt) end.

(* iu_client.c:1152-1260 sccp_sap_up *)
Definition m_sccp_sap_up (o : op) : MM unit :=
  let+ _ :=
    match o with
    | OConnectInd conn calling l2 =>
        let+ _ := need NullDeref in                                   (* :985-996 make_conn_resp *)
        let+ _ := up (sccp_send E (NConnectResp conn)) in
        match l2 with
        | [] => m_sccp_addr_add conn calling
        | _ => m_rx_co l2 (m_handle_co_initial conn calling)
        end
    | ODisconnectInd conn l2 =>
        let+ _ := up (sccp_addr_del conn) in
        let+ s := up get in
        match ue_conn_ctx_find s conn with
        | None => up (ret tt)
        | Some u =>
            let+ _ := (match l2 with [] => up (ret tt) | _ => m_rx_co l2 (m_handle_co (u_ptr u)) end) in
            let+ s := up get in
            match ue_conn_ctx_find s conn with
            | None => up (ret tt)
            | Some u => up (link_invalidated_free E (u_ptr u))
            end
        end
    | ODataInd conn l2 =>
        let+ s := up get in
        match ue_conn_ctx_find s conn with
        | None =>
            match sccp_addr_find s conn with
            | None => up (ret tt)
            | Some a =>
                let+ _ := up (sccp_addr_del conn) in
                m_rx_co l2 (m_handle_co_initial conn a)
            end
        | Some u => m_rx_co l2 (m_handle_co (u_ptr u))
        end
    | OUnitdataInd calling l2 => up (rx_cl E l2 (handle_cl E calling))
    | ONoticeInd calling c => up (handle_notice_ind E calling c)
    | OPcstateInd pc sp rem => up (handle_pcstate_ind E pc sp rem)
    | _ => up (ret tt)
    end in
  up (emit EPrimFree).

(* iu_client.c:148-152, 1152-1260, iu_client.h:73-103; the timer and the calls of the
   application make no request of their own *)
Definition m_exec (o : op) : MM unit :=
  match o with
  | OTimer p => up (timer_fires E p)
  | OApi a => up (run_api E a)
  | _ => m_sccp_sap_up o
  end.
(* a history of such steps from iu_client.c:1262-1276 on *)
Fixpoint m_run (l : list op) : MM unit :=
  match l with
  | [] => up (ret tt)
  | o :: r => let+ _ := m_exec o in m_run r
  end.
End ClientMem.
