(* What asn1_xer_print changes in the functions that put messages together and take them apart.
   [on] is asn1_xer_print; [out k] says whether the k-th call of xer_fprint succeeds (it fails when
   stdout cannot be written). *)
From Verif Require Import Base Aper Container Factory.
From Coq Require Import String List ZArith NArith.
Import ListNotations.
Local Open Scope list_scope.

(* what was printed so far: an IE in new_ie, a value with its type in a decoder
   (ranap_common.c:449, asn1tostruct.py:372) *)
Inductive printed := PIe (ie : val) | PValue (type : string) (v : val).

Section Output.
Context (on : bool) (out : nat -> bool).
(* xer_fprint, if it is called: whether it succeeded (ranap_common.c:448-449, asn1tostruct.py:371-372) *)
Definition print (p : printed) (log : list printed) : bool * list printed :=
  if on then (out (List.length log), log ++ [p]) else (true, log).

(* xxx_new_ie ranap_common.c:426-455, rua_common.c:207-237, hnbap_common.c:219-249,
   sabp_common.c:181-210: the IE, what was printed, and the octets that nothing points to any more
   when only the outer structure is freed (FREEMEM(buff) ranap_common.c:450) *)
Definition new_ie_x (r : row) (v : val) (log : list printed) : option val * list printed * list (list N) :=
  match new_ie r v with
  | None => (None, log, [])
  | Some ie =>
      let '(ok, log) := print (PIe ie) log in
      if ok then (Some ie, log, [])
      else (None, log, match ie_parts ie with Some (_, o) => [o] | None => [] end)
  end.
(* asn1tostruct.py:497-535 *)
Fixpoint encode_rows_x (m : msgdef) (s : ies) (rows : list row) (fields : list (option val)) (log : list printed)
  : option (list val) * list printed * list (list N) :=
  match rows, fields with
  | [], _ => (Some [], log, [])
  | r :: rs, f :: fs =>
      if wanted m s r then
        match f with
        | Some v =>
            match new_ie_x r v log with
            | (None, log, lost) => (None, log, lost)
            | (Some ie, log, _) =>
                match encode_rows_x m s rs fs log with
                | (Some rest, log, lost) => (Some (ie :: rest), log, lost)
                | (None, log, lost) => (None, log, lost)
                end
            end
        | None => (None, log, [])
        end
      else encode_rows_x m s rs fs log
  | _ :: _, [] => (None, log, [])
  end.
(* the message body, what was printed and what was lost (asn1tostruct.py:491-538, ranap_common.c:332) *)
Definition encode_msg_x (m : msgdef) (s : ies) : option (list N) * list printed * list (list N) :=
  match encode_rows_x m s (m_rows m) (i_fields s) [] with
  | (Some l, log, lost) => (encode (m_cont m) (VSeq [Some (VList l)] []), log, lost)
  | (None, log, lost) => (None, log, lost)
  end.

(* asn1tostruct.py:345-391: the return value of xer_fprint is not looked at (371-372) *)
Fixpoint decode_list_x (m : msgdef) (s : ies) (lost : list val) (l : list val) (log : list printed) : dres * list printed :=
  match l with
  | [] => (mkDres true s lost, log)
  | ie :: rest =>
      match ie_parts ie with
      | None => (mkDres false s lost, log)
      | Some (id, o) =>
          match find_row id (m_rows m) 0 with
          | None => (mkDres false s lost, log)
          | Some (k, r) =>
              let s := add_flag m r s in
              match decode (r_ty r) o with
              | None => (mkDres false s lost, log)
              | Some v =>
                  let log := snd (print (PValue (r_tyname r) v) log) in
                  let lost := match nth_error (i_fields s) k with Some (Some w) => lost ++ [w] | _ => lost end in
                  decode_list_x m (mkIes (i_mask s) (set_nth k (Some v) (i_fields s))) lost rest log
              end
          end
      end
  end.
(* asn1tostruct.py:322-391 *)
Definition decode_msg_x (m : msgdef) (octets : list N) : dres * list printed :=
  match decode (m_cont m) octets with
  | Some (VSeq [Some (VList l)] _) => decode_list_x m (zero_ies m) [] l []
  | _ => (mkDres false (zero_ies m) [], [])
  end.
End Output.

(* ranap_new_ie_pair ranap_common.c:457-496: here all is freed when the output fails (491) *)
Definition new_ie_pair_x (on : bool) (out : nat -> bool) (id crit1 : Z) (t1 : ty) (v1 : val) (crit2 : Z) (t2 : ty) (v2 : val) (log : list printed)
  : option val * list printed :=
  match new_ie_pair id crit1 t1 v1 crit2 t2 v2 with
  | None => (None, log)
  | Some p => let '(ok, log) := print on out (PIe p) log in (if ok then Some p else None, log)
  end.
