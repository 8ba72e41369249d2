(* Reading messages when memory runs out: the generated decoders, the decoders for elements of
   RAB lists and the three RANAP receive paths, as in Container.v, Items.v and Dispatch.v, with
   an oracle that may deny memory to any call of libasn1c's decoder.  The code in /repo asks for
   no memory itself while it reads.
   Of libasn1c (not in /repo) it is assumed that aper_decode and ANY_to_type_aper fail if they
   are denied memory, and that nothing they allocated is left then: ANY_to_type_aper frees it,
   aper_decode leaves it to the ASN_STRUCT_FREE of ranap_common_cn.c:399 and the like. *)
From Verif Require Import Base Aper Container Items RanapTypes DispatchTab Dispatch.
Local Open Scope list_scope.

Section Deny.
(* [deny n]: the n-th call of the decoder does not get the memory it needs *)
Context (deny : nat -> bool).
(* aper_decode and ANY_to_type_aper; ranap_common_cn.c:387, asn1tostruct.py:339, 365 *)
Definition decode_m (n : nat) (t : ty) (o : list N) : option val := if deny n then None else decode t o.

(* [n]: the calls so far; also returned *)
(* asn1tostruct.py:345-391 *)
Fixpoint decode_list_m (n : nat) (m : msgdef) (s : ies) (lost : list val) (l : list val) : dres * nat :=
  match l with
  | [] => (mkDres true s lost, n)
  | ie :: rest =>
      match ie_parts ie with
      | None => (mkDres false s lost, n)
      | Some (id, o) =>
          match find_row id (m_rows m) 0 with
          | None => (mkDres false s lost, n)
          | Some (k, r) =>
              let s := add_flag m r s in
              match decode_m n (r_ty r) o with
              | None => (mkDres false s lost, S n)
              | Some v =>
                  let lost := match nth_error (i_fields s) k with Some (Some w) => lost ++ [w] | _ => lost end in
                  decode_list_m (S n) m (mkIes (i_mask s) (set_nth k (Some v) (i_fields s))) lost rest
              end
          end
      end
  end.
(* asn1tostruct.py:322-391 *)
Definition decode_msg_m (n : nat) (m : msgdef) (octets : list N) : dres * nat :=
  match decode_m n (m_cont m) octets with
  | Some (VSeq [Some (VList l)] _) => decode_list_m (S n) m (zero_ies m) [] l
  | _ => (mkDres false (zero_ies m) [], S n)
  end.

(* ranap_common.c:560-583 and the four functions after it *)
Definition decode_from_list_m (n : nat) (t : ty) (dst : bool) (a : any_arg) : outcome item_res * nat :=
  match a with
  | AnyNull => (Fault Assertion, n)
  | AnyEmpty => (if dst then Fault NullDeref else Fault Assertion, n)
  | AnyOctets o =>
      if dst then
        match decode_m n t o with
        | None => (Ok (mkItem (-1) None [] []), S n)
        | Some v => (Ok (mkItem 0 (Some v) [v] []), S n)
        end
      else (Fault Assertion, n)
  end.

(* ranap_common_cn.c:387, 635, ranap_common_ran.c:300 *)
Definition pdu_parts_m (n : nat) (data : list N) : option (N * N * Z * list N) :=
  match decode_m n T_RANAP_RANAP_PDU data with
  | Some (VChoice i (VSeq [Some (VInt c); Some (VEnum cr); Some (VOcts b)] [])) =>
      Some ((N.of_nat i + 1)%N, Z.to_N c, cr, b)
  | _ => None
  end.
(* ranap_common_cn.c:379-402, 627-650, ranap_common_ran.c:292-315 *)
Definition decode2_m (P : path) (data : list N) : dec2 * nat :=
  match pdu_parts_m 0 data with
  | None => (mkDec2 (-1)%Z zero_msg [], 1)
  | Some (d, p, cr, b) =>
      match dec_tab P d with
      | None => (mkDec2 (rc_default P) (mkRmsg d 0%N 0%Z None) [], 1)
      | Some tab =>
          match case_of p tab with
          | None => (mkDec2 (rc_default P) (mkRmsg d p cr None) [], 1)
          | Some m =>
              let '(r, n) := decode_msg_m 1 m b in
              (mkDec2 (if d_ok r then 0 else -1)%Z (mkRmsg d p cr (Some (m, d_ies r))) (d_lost r), n)
          end
      end
  end.
(* ranap_cn_rx_co, ranap_common_cn.c:411-427 *)
Definition rx_cn_co_m (data : list N) : rx * nat :=
  let '(e, n) := decode2_m cn_co data in
  (if (e_rc e =? 0)%Z then mkRx 0 [e_msg e] (held (e_msg e) ++ e_lost e) (free_msg cn_co (e_msg e))
   else mkRx (e_rc e) [] (held (e_msg e) ++ e_lost e) (Some []), n).
(* ranap_common_cn.c:659-675, ranap_common_ran.c:324-340 *)
Definition rx_free_m (P : path) (data : list N) : rx * nat :=
  let '(e, n) := decode2_m P data in
  (mkRx (e_rc e) (if (e_rc e =? 0)%Z then [e_msg e] else []) (held (e_msg e) ++ e_lost e) (free_msg P (e_msg e)), n).
(* ranap_cn_rx_cl, ranap_common_cn.c:659-675 *)
Definition rx_cn_cl_m := rx_free_m cn_cl.
(* ranap_ran_rx_co, ranap_common_ran.c:324-340 *)
Definition rx_ran_co_m := rx_free_m ran_co.
End Deny.
