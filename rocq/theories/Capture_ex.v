(* The model of the codec on the messages of the packet captures.  These are tests,
   on literals, of the model and not proofs of any property: they show that the
   format in which the model reads and writes is the one on the wire. *)
From Verif Require Import Base Aper Container Container_spec AllMsgs Factory_spec Factory RanapTab RuaTab HnbapTab Conform_spec Capture.
From Coq Require Import String List.
Import ListNotations.
Local Open Scope list_scope.

Definition same (a : list N) (b : option (list N)) : bool :=
  match b with Some b => if list_eq_dec N.eq_dec a b then true else false | None => false end.
(* the octets are one PDU and nothing else, its procedure exists, and each of its IEs
   belongs to the message and is a value of its type and nothing else *)
Definition reads (P : proto) (Q : protocol) (ms : list msgdef) (b : list N) : bool :=
  same b (match decode (p_pdu P) b with Some v => encode (p_pdu P) v | None => None end) &&
  match pdu_in (p_pdu P) b with
  | Some (d, p, _, o) =>
      match find (fun x => match x with (d', p', _, _) => (d =? d')%N && (p =? p')%N end) (pr_procedures Q) with
      | Some (_, _, _, key) =>
          match find (fun m => String.eqb (m_key m) key) ms with
          | Some m =>
              d_ok (decode_msg m o) &&
              match body m o with
              | Some l => forallb (fun ie =>
                  match ie_parts ie with
                  | Some (id, oct) =>
                      match find_row id (m_rows m) 0 with
                      | Some (_, r) => same oct (match decode (r_ty r) oct with Some v => encode (r_ty r) v | None => None end)
                      | None => false
                      end
                  | None => false
                  end) l
              | None => false
              end
          | None => false
          end
      | None => false
      end
  | None => false
  end.
Example captured_read :
  forallb (reads ranap ranap_protocol ranap_msgs) captured_ranap && forallb (reads rua rua_protocol rua_msgs) captured_rua &&
  forallb (reads hnbap hnbap_protocol hnbap_msgs) captured_hnbap = true /\
  List.length (captured_ranap ++ captured_rua ++ captured_hnbap) = 281.
Proof. vm_compute. split; reflexivity. Qed.
Example captured_malformed_refused : reads hnbap hnbap_protocol hnbap_msgs captured_malformed = false.
Proof. vm_compute. reflexivity. Qed.
