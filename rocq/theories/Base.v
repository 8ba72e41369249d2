(* Basic vocabulary of the model: octets, C outcomes, checked memory accesses. *)
From Coq Require Export List Bool Arith NArith ZArith Lia.
Export ListNotations.

(* An octet or a C [char] is an [N]; [is_byte] says that it fits 8 bits. *)
(* vocabulary, not in /repo: uint8_t and char, e.g. iu_helpers.c:46, 67 *)
Definition byte := N.
(* vocabulary: range of uint8_t, e.g. iu_helpers.c:46 *)
Definition is_byte (b : N) : bool := (b <? 256)%N.
(* vocabulary: a uint8_t array, e.g. iu_helpers.c:46 *)
Definition bytes_ok (l : list N) : bool := forallb is_byte l.

(* Undefined behaviour and deliberate termination are outcomes of their own. *)
(* vocabulary: what C leaves undefined, and aborts such as OSMO_ASSERT, e.g. ranap_msg_factory.c:1037-1038 *)
Inductive fault :=
| OobWrite       (* write outside an object *)
| OobRead        (* read outside an object *)
| NullDeref      (* NULL pointer dereference *)
| UseAfterFree   (* access to, or free of, a freed object *)
| Assertion.     (* OSMO_ASSERT / ASSERT / msgb panic: the process aborts *)

(* vocabulary: result of a C function that may crash, e.g. iu_helpers.c:94-114 *)
Inductive outcome (A : Type) :=
| Ok (a : A)
| Fault (f : fault).
Arguments Ok {A} _.
Arguments Fault {A} _.

(* vocabulary: sequential composition of C statements *)
Definition obind {A B} (x : outcome A) (k : A -> outcome B) : outcome B :=
  match x with Ok a => k a | Fault f => Fault f end.
Notation "'do' x <- e ;; k" := (obind e (fun x => k))
  (at level 60, x pattern, e at level 59, k at level 60, right associativity).

(* errno values of Linux; the code returns their negation *)
(* used at iu_helpers.c:99-135, 168-188, 217 *)
Definition EINVAL : Z := 22.
(* used at iu_client.c:558 *)
Definition ENOTCONN : Z := 107.

(* [*p++ = c] on a buffer of [cap] elements of which the first [length out]
   have been written so far *)
(* used for iu_helpers.c:52-63 and :79-89 *)
Definition put {A} (cap : nat) (out : list A) (c : A) : outcome (list A) :=
  if length out <? cap then Ok (out ++ [c]) else Fault OobWrite.

(* [memcpy(dst, buf + off, n)] where [buf] points to [length buf] octets *)
(* used for iu_helpers.c:128-130, 170-186 *)
Definition slice (buf : list N) (off n : nat) : outcome (list N) :=
  if off + n <=? length buf then Ok (firstn n (skipn off buf)) else Fault OobRead.

(* [buf[i]] *)
(* used for iu_helpers.c:127, 154, 161 *)
Definition rd (buf : list N) (i : nat) : outcome N :=
  match nth_error buf i with Some b => Ok b | None => Fault OobRead end.

(* osmo_load16be / ntohs on two octets, osmo_store16be; ntohl / htonl as
   big-endian load and store of four octets *)
(* used for iu_helpers.c:161 *)
Definition be16 (b0 b1 : N) : N := (b0 * 256 + b1)%N.
(* used for iu_helpers.c:101, ranap_common.c:544-558 *)
Definition be32 (b0 b1 b2 b3 : N) : N := (((b0 * 256 + b1) * 256 + b2) * 256 + b3)%N.
(* used for iu_helpers.c:229, 255-258 *)
Definition store16be (v : N) : list N := [(v / 256) mod 256; v mod 256]%N.
(* used for iu_helpers.c:278-296, ranap_msg_factory.c:520-581 *)
Definition store32be (v : N) : list N :=
  [(v / 16777216) mod 256; (v / 65536) mod 256; (v / 256) mod 256; v mod 256]%N.
(* the other byte order, for ranap_common.c:544-558 *)
Definition store32le (v : N) : list N :=
  [v mod 256; (v / 256) mod 256; (v / 65536) mod 256; (v / 16777216) mod 256]%N.
