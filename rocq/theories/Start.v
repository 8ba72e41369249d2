(* ranap_iu_init, and through what the client reaches SCCP from then on.  SCCP itself (libosmo-sigtran) is
   a pair of functions: [local_addr] is osmo_sccp_local_addr_by_instance with its result and the address it
   leaves behind, [user_bind] is osmo_sccp_user_bind, with None for NULL. *)
From Verif Require Import Base Lai IuClient.

Section Start.
Context {instance user : Type}.
Context (local_addr : instance -> N -> Z * sccp_addr) (user_bind : instance -> list N -> N -> option user).

(* g_sccp, g_local_sccp_addr, g_scu and global_iu_event_cb: iu_client.c:84-85, 98-100; the memory contexts, the
   log subsystem and the receive callback are left out *)
Record library := mkLib { lib_sccp : instance; lib_local : sccp_addr; lib_user : option user; lib_event_cb : bool }.

(* iu_client.c:1262-1276 ranap_iu_init; neither the result of :1272 nor that of :1273 is looked at *)
Definition iu_init (sccp : instance) (name : list N) (event_cb : bool) : Z * library :=
  let local := snd (local_addr sccp SSN_RANAP) in
  let scu := user_bind sccp name SSN_RANAP in
  (0%Z, mkLib sccp local scu event_cb).

(* a request as it reaches SCCP: the user it is made for, and its calling address if it has one *)
(* iu_client.c:187, 374, 399, 417, 572, 597, 767, 832 *)
Record handed := mkHanded { h_user : user; h_calling : option sccp_addr; h_req : sccp_req }.
(* the same calls: SCCP dereferences the user it is given; only connectionless requests have a calling
   address, iu_client.c:767, 832 *)
Definition hand_over (L : library) (r : sccp_req) : outcome handed :=
  match lib_user L with
  | None => Fault NullDeref
  | Some u => Ok (mkHanded u (match r with NUnitdataReq _ _ => Some (lib_local L) | _ => None end) r)
  end.
End Start.
