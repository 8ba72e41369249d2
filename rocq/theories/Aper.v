(* Aligned PER (X.691) for the type descriptors of the repository.
   The descriptors are the C tables of src/{ranap,rua,hnbap,sabp}/*.c
   (asn_TYPE_descriptor_t, asn_TYPE_member_t, asn_per_constraints_t); the codec
   that interprets them is libasn1c, which is not in the repository: what is
   modelled here is the encoding the standard prescribes for such a descriptor
   and a decoder that inverts it, total on arbitrary input.
   Simplifications: ANY and OBJECT IDENTIFIER contents are octet strings; an
   extension bitmap of more than 64 bits is refused by the decoder. *)
From Verif Require Import Base.

(* ---------------- bits ---------------- *)
(* vocabulary of the codec, which is not in /repo; used behind ranap_common.c:306 and ranap_common_cn.c:387 *)
Definition bits := list bool.
(* vocabulary of the codec, which is not in /repo; used behind ranap_common.c:306 and ranap_common_cn.c:387 *)
Fixpoint to_bits (n : nat) (v : N) : bits :=
  match n with O => [] | S n' => N.testbit_nat v n' :: to_bits n' v end.
(* vocabulary of the codec, which is not in /repo; used behind ranap_common.c:306 and ranap_common_cn.c:387 *)
Fixpoint from_bits (acc : N) (b : bits) : N :=
  match b with [] => acc | x :: r => from_bits (2 * acc + N.b2n x) r end.
(* vocabulary of the codec, which is not in /repo; used behind ranap_common.c:306 and ranap_common_cn.c:387 *)
Definition octets_bits (l : list N) : bits := flat_map (to_bits 8) l.
(* groups of eight, the last one padded with zeros *)
(* vocabulary of the codec, which is not in /repo; used behind ranap_common.c:306 and ranap_common_cn.c:387 *)
Fixpoint bits_octets_f (fuel : nat) (b : bits) : list N :=
  match fuel, b with
  | S f, _ :: _ => from_bits 0 (firstn 8 (b ++ repeat false 7)) :: bits_octets_f f (skipn 8 b)
  | _, _ => []
  end.
(* vocabulary of the codec, which is not in /repo; used behind ranap_common.c:306 and ranap_common_cn.c:387 *)
Definition bits_octets (b : bits) : list N := bits_octets_f (length b) b.

(* bits missing to the next octet boundary *)
(* vocabulary of the codec, which is not in /repo; used behind ranap_common.c:306 and ranap_common_cn.c:387 *)
Definition pad_len (pos : nat) : nat := (8 - pos mod 8) mod 8.
(* vocabulary of the codec, which is not in /repo; used behind ranap_common.c:306 and ranap_common_cn.c:387 *)
Definition pad (pos : nat) : bits := repeat false (pad_len pos).

(* ---------------- decoder monad: position, remaining bits ---------------- *)
(* vocabulary of the codec, which is not in /repo; used behind ranap_common.c:306 and ranap_common_cn.c:387 *)
Definition D (A : Type) := nat -> bits -> option (A * nat * bits).
(* vocabulary of the codec, which is not in /repo; used behind ranap_common.c:306 and ranap_common_cn.c:387 *)
Definition dret {A} (a : A) : D A := fun p b => Some (a, p, b).
(* vocabulary of the codec, which is not in /repo; used behind ranap_common.c:306 and ranap_common_cn.c:387 *)
Definition dfail {A} : D A := fun _ _ => None.
(* vocabulary of the codec, which is not in /repo; used behind ranap_common.c:306 and ranap_common_cn.c:387 *)
Definition dbind {A B} (m : D A) (k : A -> D B) : D B :=
  fun p b => match m p b with Some (a, p', b') => k a p' b' | None => None end.
Notation "'get' x <- e ;; k" := (dbind e (fun x => k))
  (at level 60, x pattern, e at level 59, k at level 60, right associativity).
(* vocabulary of the codec, which is not in /repo; used behind ranap_common.c:306 and ranap_common_cn.c:387 *)
Fixpoint take (n : nat) (b : bits) : option (bits * bits) :=
  match n, b with
  | O, _ => Some ([], b)
  | S n', x :: r => match take n' r with Some (u, v) => Some (x :: u, v) | None => None end
  | S _, [] => None
  end.
(* decoder of libasn1c, not in /repo; used behind ranap_common_cn.c:387, asn1tostruct.py:339, 365 *)
Definition get_raw (n : nat) : D bits :=
  fun p b => match take n b with Some (u, v) => Some (u, p + n, v) | None => None end.
(* decoder of libasn1c, not in /repo; used behind ranap_common_cn.c:387, asn1tostruct.py:339, 365 *)
Definition get_bits (n : nat) : D N := get u <- get_raw n ;; dret (from_bits 0 u).
(* decoder of libasn1c, not in /repo; used behind ranap_common_cn.c:387, asn1tostruct.py:339, 365 *)
Definition get_bit : D bool := get u <- get_raw 1 ;; dret (match u with x :: _ => x | [] => false end).
(* decoder of libasn1c, not in /repo; used behind ranap_common_cn.c:387, asn1tostruct.py:339, 365 *)
Definition get_align : D unit := fun p b => (get _ <- get_raw (pad_len p) ;; dret tt) p b.

(* ---------------- encoder: position -> bits ---------------- *)
(* vocabulary of the codec, which is not in /repo; used behind ranap_common.c:306 and ranap_common_cn.c:387 *)
Definition obind2 {A B} (x : option A) (k : A -> option B) : option B :=
  match x with Some a => k a | None => None end.
Notation "'opt' x <- e ;; k" := (obind2 e (fun x => k))
  (at level 60, x pattern, e at level 59, k at level 60, right associativity).
(* run the encoder [k] after the bits [b] were put at position [p] *)
(* vocabulary of the codec, which is not in /repo; used behind ranap_common.c:306 and ranap_common_cn.c:387 *)
Definition after (p : nat) (b : bits) (k : nat -> option bits) : option bits :=
  match k (p + length b) with Some b' => Some (b ++ b') | None => None end.

(* ---------------- whole numbers ---------------- *)
(* X.691 10.5: constrained whole number of [range] values, 0 <= v < range *)
(* vocabulary of the codec, which is not in /repo; used behind ranap_common.c:306 and ranap_common_cn.c:387 *)
Definition octets_of (v : N) : nat := N.to_nat ((N.max 1 (N.size v) + 7) / 8).
(* encoder of libasn1c, not in /repo; used behind ranap_common.c:306, 332, 441 *)
Definition put_whole (range v : N) (p : nat) : option bits :=
  if (v <? range)%N then
    if (range <=? 255)%N then Some (to_bits (N.size_nat (range - 1)) v)
    else if (range =? 256)%N then Some (pad p ++ to_bits 8 v)
    else if (range <=? 65536)%N then Some (pad p ++ to_bits 16 v)
    else
      let maxb := octets_of (range - 1) in
      let lb := to_bits (N.size_nat (N.of_nat maxb - 1)) (N.of_nat (octets_of v) - 1) in
      Some (lb ++ pad (p + length lb) ++ to_bits (8 * octets_of v) v)
  else None.
(* decoder of libasn1c, not in /repo; used behind ranap_common_cn.c:387, asn1tostruct.py:339, 365 *)
Definition get_whole (range : N) : D N :=
  get v <- (if (range <=? 255)%N then get_bits (N.size_nat (range - 1))
            else if (range =? 256)%N then get _ <- get_align ;; get_bits 8
            else if (range <=? 65536)%N then get _ <- get_align ;; get_bits 16
            else get l <- get_bits (N.size_nat (N.of_nat (octets_of (range - 1)) - 1)) ;;
                 get _ <- get_align ;; get_bits (8 * (N.to_nat l + 1))) ;;
  if (v <? range)%N then dret v else dfail.

(* ---------------- items with an unconstrained count (10.9.3.5-8) ---------------- *)
Section Items.
Context {A : Type}.
Variable put : A -> nat -> option bits.
Variable getf : D A.
(* encoder of libasn1c, not in /repo; used behind ranap_common.c:306, 332, 441 *)
Fixpoint put_items (l : list A) (p : nat) : option bits :=
  match l with
  | [] => Some []
  | a :: r => opt b <- put a p ;; after p b (put_items r)
  end.
(* decoder of libasn1c, not in /repo; used behind ranap_common_cn.c:387, asn1tostruct.py:339, 365 *)
Fixpoint get_items (n : nat) : D (list A) :=
  match n with
  | O => dret []
  | S n' => get a <- getf ;; get r <- get_items n' ;; dret (a :: r)
  end.
(* vocabulary of the codec, which is not in /repo; used behind ranap_common.c:306 and ranap_common_cn.c:387 *)
Definition len_bits (n : N) : bits :=
  if (n <? 128)%N then to_bits 8 n else to_bits 16 (32768 + n).
(* encoder of libasn1c, not in /repo; used behind ranap_common.c:306, 332, 441 *)
Fixpoint put_frag (fuel : nat) (l : list A) (p : nat) : option bits :=
  let n := N.of_nat (length l) in
  if (n <? 16384)%N then after p (pad p ++ len_bits n) (put_items l)
  else
    match fuel with
    | O => None
    | S f =>
        let m := N.min 4 (n / 16384) in
        let k := N.to_nat (m * 16384) in
        opt b <- after p (pad p ++ to_bits 8 (192 + m)) (put_items (firstn k l)) ;;
        after p b (put_frag f (skipn k l))
    end.
(* encoder of libasn1c, not in /repo; used behind ranap_common.c:306, 332, 441 *)
Definition put_list (l : list A) (p : nat) : option bits := put_frag (length l) l p.
(* decoder of libasn1c, not in /repo; used behind ranap_common_cn.c:387, asn1tostruct.py:339, 365 *)
Fixpoint get_frag (fuel : nat) : D (list A) :=
  match fuel with
  | O => dfail
  | S f =>
      get _ <- get_align ;;
      get h <- get_bits 8 ;;
      if (h <? 128)%N then get_items (N.to_nat h)
      else if (h <? 192)%N then
        get l <- get_bits 8 ;; get_items (N.to_nat ((h - 128) * 256 + l))
      else if ((193 <=? h) && (h <=? 196))%N then
        get x <- get_items (N.to_nat ((h - 192) * 16384)) ;;
        get y <- get_frag f ;; dret (x ++ y)
      else dfail
  end.
(* decoder of libasn1c, not in /repo; used behind ranap_common_cn.c:387, asn1tostruct.py:339, 365 *)
Definition get_list : D (list A) := fun p b => get_frag (S (length b)) p b.
End Items.

(* encoder of libasn1c, not in /repo; used behind ranap_common.c:306, 332, 441 *)
Definition put_octet (o : N) (_ : nat) : option bits :=
  if is_byte o then Some (to_bits 8 o) else None.
(* decoder of libasn1c, not in /repo; used behind ranap_common_cn.c:387, asn1tostruct.py:339, 365 *)
Definition get_octet : D N := get_bits 8.
(* encoder of libasn1c, not in /repo; used behind ranap_common.c:306, 332, 441 *)
Definition put_bit (x : bool) (_ : nat) : option bits := Some [x].
(* an open type field: the octets of a complete encoding (10.2) *)
(* encoder of libasn1c, not in /repo; used behind ranap_common.c:306, 332, 441 *)
Definition put_open (l : list N) : nat -> option bits := put_list put_octet l.
(* decoder of libasn1c, not in /repo; used behind ranap_common_cn.c:387, asn1tostruct.py:339, 365 *)
Definition get_open : D (list N) := get_list get_octet.

(* normally small non-negative whole number (10.6) *)
(* vocabulary of the codec, which is not in /repo; used behind ranap_common.c:306 and ranap_common_cn.c:387 *)
Definition unsigned_octets (v : N) : list N := bits_octets (to_bits (8 * octets_of v) v).
(* encoder of libasn1c, not in /repo; used behind ranap_common.c:306, 332, 441 *)
Definition put_small (v : N) (p : nat) : option bits :=
  if (v <? 64)%N then Some (false :: to_bits 6 v)
  else after p [true] (put_list put_octet (unsigned_octets v)).
(* decoder of libasn1c, not in /repo; used behind ranap_common_cn.c:387, asn1tostruct.py:339, 365 *)
Definition get_small : D N :=
  get x <- get_bit ;;
  if x then get l <- get_list get_octet ;; dret (from_bits 0 (octets_bits l)) else get_bits 6.

(* unconstrained integer, two's complement (10.8) *)
(* vocabulary of the codec, which is not in /repo; used behind ranap_common.c:306 and ranap_common_cn.c:387 *)
Definition signed_len (z : Z) : nat :=
  let m := if (0 <=? z)%Z then Z.to_N z else Z.to_N (- z - 1) in
  N.to_nat ((N.size m + 8) / 8).
(* encoder of libasn1c, not in /repo; used behind ranap_common.c:306, 332, 441 *)
Definition put_signed (z : Z) : nat -> option bits :=
  let n := signed_len z in
  put_list put_octet (bits_octets (to_bits (8 * n) (Z.to_N (z mod 2 ^ Z.of_nat (8 * n))))).
(* decoder of libasn1c, not in /repo; used behind ranap_common_cn.c:387, asn1tostruct.py:339, 365 *)
Definition signed_of (l : list N) : Z :=
  let b := octets_bits l in
  let v := Z.of_N (from_bits 0 b) in
  match b with
  | true :: _ => v - 2 ^ Z.of_nat (length b)
  | _ => v
  end%Z.
(* decoder of libasn1c, not in /repo; used behind ranap_common_cn.c:387, asn1tostruct.py:339, 365 *)
Definition get_signed : D Z :=
  get l <- get_list get_octet ;;
  match l with [] => dfail | _ => dret (signed_of l) end.

(* ---------------- types and values ---------------- *)
(* asn_per_constraint_t with APC_CONSTRAINED; [c_ext] is APC_EXTENSIBLE *)
(* e.g. src/ranap/RANAP_SAC.c:134-138 *)
Record con := mkCon { c_ext : bool; c_lb : Z; c_ub : Z }.
(* asn_TYPE_descriptor_t, e.g. src/ranap/RANAP_Cause.c:99-122 *)
Inductive ty :=
| TNull
| TBool
| TInt (c : option con)
| TEnum (ext : bool) (root more : list Z)   (* value2enum, split at the extension *)
| TBits (c : option con)
| TOcts (c : option con)
| TSeq (ext : bool) (root adds : list (bool * ty))     (* true: OPTIONAL *)
| TSeqOf (c : option con) (t : ty)
| TChoice (ext : bool) (root more : list ty).
(* the C structures the descriptors describe, e.g. RANAP_Cause.h:29-59 *)
Inductive val :=
| VNull
| VBool (b : bool)
| VInt (z : Z)
| VEnum (z : Z)
| VBits (l : list bool)
| VOcts (l : list N)
| VSeq (root adds : list (option val))
| VList (l : list val)
| VChoice (i : nat) (v : val).

(* vocabulary of the codec, which is not in /repo; used behind ranap_common.c:306 and ranap_common_cn.c:387 *)
Definition in_con (c : con) (z : Z) : bool := ((c_lb c <=? z) && (z <=? c_ub c))%Z.
(* vocabulary of the codec, which is not in /repo; used behind ranap_common.c:306 and ranap_common_cn.c:387 *)
Definition con_range (c : con) : N := Z.to_N (c_ub c - c_lb c + 1).

(* ---------------- integers ---------------- *)
(* encoder of libasn1c, not in /repo; used behind ranap_common.c:306, 332, 441 *)
Definition put_con (c : con) (z : Z) (p : nat) : option bits :=
  if in_con c z then put_whole (con_range c) (Z.to_N (z - c_lb c)) p else None.
(* decoder of libasn1c, not in /repo; used behind ranap_common_cn.c:387, asn1tostruct.py:339, 365 *)
Definition get_con (c : con) : D Z := get v <- get_whole (con_range c) ;; dret (Z.of_N v + c_lb c)%Z.
(* optional extension bit *)
(* encoder of libasn1c, not in /repo; used behind ranap_common.c:306, 332, 441 *)
Definition put_int (c : option con) (z : Z) (p : nat) : option bits :=
  match c with
  | None => put_signed z p
  | Some c =>
      if c_ext c then
        if in_con c z then after p [false] (put_con c z) else after p [true] (put_signed z)
      else put_con c z p
  end.
(* decoder of libasn1c, not in /repo; used behind ranap_common_cn.c:387, asn1tostruct.py:339, 365 *)
Definition get_int (c : option con) : D Z :=
  match c with
  | None => get_signed
  | Some c =>
      if c_ext c then get x <- get_bit ;; if x then get_signed else get_con c else get_con c
  end.

(* ---------------- enumerations ---------------- *)
(* vocabulary of the codec, which is not in /repo; used behind ranap_common.c:306 and ranap_common_cn.c:387 *)
Fixpoint index_of (z : Z) (l : list Z) : option nat :=
  match l with
  | [] => None
  | x :: r => if (x =? z)%Z then Some 0 else match index_of z r with Some i => Some (S i) | None => None end
  end.
(* encoder of libasn1c, not in /repo; used behind ranap_common.c:306, 332, 441 *)
Definition put_enum (ext : bool) (root more : list Z) (z : Z) (p : nat) : option bits :=
  match index_of z root with
  | Some i =>
      let b := if ext then [false] else [] in
      after p b (put_whole (N.of_nat (length root)) (N.of_nat i))
  | None =>
      if ext then opt i <- index_of z more ;; after p [true] (put_small (N.of_nat i)) else None
  end.
(* vocabulary of the codec, which is not in /repo; used behind ranap_common.c:306 and ranap_common_cn.c:387 *)
Definition dopt {A} (o : option A) : D A := match o with Some a => dret a | None => dfail end.
(* decoder of libasn1c, not in /repo; used behind ranap_common_cn.c:387, asn1tostruct.py:339, 365 *)
Definition get_ext (ext : bool) : D bool := if ext then get_bit else dret false.
(* decoder of libasn1c, not in /repo; used behind ranap_common_cn.c:387, asn1tostruct.py:339, 365 *)
Definition get_enum (ext : bool) (root more : list Z) : D Z :=
  get x <- get_ext ext ;;
  if x then get i <- get_small ;; dopt (nth_error more (N.to_nat i))
  else get i <- get_whole (N.of_nat (length root)) ;; dopt (nth_error root (N.to_nat i)).

(* ---------------- sized things ---------------- *)
(* [small]: largest fixed number of items that is not octet aligned;
   [None] for SEQUENCE OF, which is never aligned *)
Section Sized.
Context {A : Type}.
Variable put : A -> nat -> option bits.
Variable getf : D A.
Variable small : option N.
(* part of both codecs of libasn1c, not in /repo; used behind ranap_common.c:306 and ranap_common_cn.c:387 *)
Definition aligns (c : con) (n : N) : bool :=
  match small with
  | None => false
  | Some s => if (c_lb c =? c_ub c)%Z then (s <? n)%N else (0 <? n)%N
  end.
(* encoder of libasn1c, not in /repo; used behind ranap_common.c:306, 332, 441 *)
Definition put_root (c : con) (l : list A) (p : nat) : option bits :=
  if in_con c (Z.of_nat (length l)) then
    if (c_ub c <? 65536)%Z then
      opt b <- put_whole (con_range c) (Z.to_N (Z.of_nat (length l) - c_lb c)) p ;;
      let b' := if aligns c (N.of_nat (length l)) then b ++ pad (p + length b) else b in
      after p b' (put_items put l)
    else put_list put l p
  else None.
(* decoder of libasn1c, not in /repo; used behind ranap_common_cn.c:387, asn1tostruct.py:339, 365 *)
Definition get_root (c : con) : D (list A) :=
  if (c_ub c <? 65536)%Z then
    get v <- get_whole (con_range c) ;;
    let n := Z.to_N (Z.of_N v + c_lb c) in
    get _ <- (if aligns c n then get_align else dret tt) ;;
    get_items getf (N.to_nat n)
  else
    get l <- get_list getf ;;
    if in_con c (Z.of_nat (length l)) then dret l else dfail.
(* encoder of libasn1c, not in /repo; used behind ranap_common.c:306, 332, 441 *)
Definition put_sized (c : option con) (l : list A) (p : nat) : option bits :=
  match c with
  | None => put_list put l p
  | Some c =>
      if c_ext c then
        if in_con c (Z.of_nat (length l)) then after p [false] (put_root c l)
        else after p [true] (put_list put l)
      else put_root c l p
  end.
(* decoder of libasn1c, not in /repo; used behind ranap_common_cn.c:387, asn1tostruct.py:339, 365 *)
Definition get_sized (c : option con) : D (list A) :=
  match c with
  | None => get_list getf
  | Some c =>
      if c_ext c then get x <- get_bit ;; if x then get_list getf else get_root c
      else get_root c
  end.
End Sized.

(* ---------------- complete encodings (10.1) ---------------- *)
(* whole octets, at least one *)
(* vocabulary of the codec, which is not in /repo; used behind ranap_common.c:306 and ranap_common_cn.c:387 *)
Definition to_octets (b : bits) : list N :=
  match b with [] => [0%N] | _ => bits_octets b end.
(* vocabulary of the codec, which is not in /repo; used behind ranap_common.c:306 and ranap_common_cn.c:387 *)
Definition complete (e : nat -> option bits) : option (list N) := opt b <- e 0 ;; Some (to_octets b).
(* trailing bits are not looked at (ANY_to_type_aper, aper_decode) *)
(* vocabulary of the codec, which is not in /repo; used behind ranap_common.c:306 and ranap_common_cn.c:387 *)
Definition of_octets {A} (d : D A) (l : list N) : option A :=
  match d 0 (octets_bits l) with Some (a, _, _) => Some a | None => None end.

(* ---------------- components of a SEQUENCE ---------------- *)
Section Members.
Variable put : ty -> val -> nat -> option bits.
Variable getf : ty -> D val.
(* bitmap of the OPTIONAL root components *)
(* encoder of libasn1c, not in /repo; used behind ranap_common.c:306, 332, 441 *)
Fixpoint put_bitmap (ms : list (bool * ty)) (vs : list (option val)) : bits :=
  match ms, vs with
  | (true, _) :: ms', v :: vs' => (match v with Some _ => true | None => false end) :: put_bitmap ms' vs'
  | (false, _) :: ms', _ :: vs' => put_bitmap ms' vs'
  | _, _ => []
  end.
(* encoder of libasn1c, not in /repo; used behind ranap_common.c:306, 332, 441 *)
Fixpoint put_members (ms : list (bool * ty)) (vs : list (option val)) (p : nat) : option bits :=
  match ms, vs with
  | [], [] => Some []
  | (_, t) :: ms', Some v :: vs' => opt b <- put t v p ;; after p b (put_members ms' vs')
  | (true, _) :: ms', None :: vs' => put_members ms' vs' p
  | _, _ => None
  end.
(* decoder of libasn1c, not in /repo; used behind ranap_common_cn.c:387, asn1tostruct.py:339, 365 *)
Fixpoint get_bitmap (ms : list (bool * ty)) : D (list bool) :=
  match ms with
  | [] => dret []
  | (true, _) :: ms' => get x <- get_bit ;; get r <- get_bitmap ms' ;; dret (x :: r)
  | (false, _) :: ms' => get r <- get_bitmap ms' ;; dret (true :: r)
  end.
(* decoder of libasn1c, not in /repo; used behind ranap_common_cn.c:387, asn1tostruct.py:339, 365 *)
Fixpoint get_members (ms : list (bool * ty)) (pres : list bool) : D (list (option val)) :=
  match ms, pres with
  | (_, t) :: ms', true :: ps =>
      get v <- getf t ;; get r <- get_members ms' ps ;; dret (Some v :: r)
  | _ :: ms', false :: ps => get r <- get_members ms' ps ;; dret (None :: r)
  | _, _ => dret []
  end.
(* extension additions: each present one is an open type field *)
(* encoder of libasn1c, not in /repo; used behind ranap_common.c:306, 332, 441 *)
Fixpoint put_adds (ms : list (bool * ty)) (vs : list (option val)) (p : nat) : option bits :=
  match ms, vs with
  | [], [] => Some []
  | (_, t) :: ms', Some v :: vs' =>
      opt o <- complete (put t v) ;; opt b <- put_open o p ;; after p b (put_adds ms' vs')
  | _ :: ms', None :: vs' => put_adds ms' vs' p
  | _, _ => None
  end.
(* additions beyond those known are skipped *)
(* decoder of libasn1c, not in /repo; used behind ranap_common_cn.c:387, asn1tostruct.py:339, 365 *)
Fixpoint skip_adds (pres : list bool) : D unit :=
  match pres with
  | [] => dret tt
  | true :: ps => get _ <- get_open ;; skip_adds ps
  | false :: ps => skip_adds ps
  end.
(* decoder of libasn1c, not in /repo; used behind ranap_common_cn.c:387, asn1tostruct.py:339, 365 *)
Fixpoint get_adds (ms : list (bool * ty)) (pres : list bool) : D (list (option val)) :=
  match ms, pres with
  | (_, t) :: ms', true :: ps =>
      get o <- get_open ;; get v <- dopt (of_octets (getf t) o) ;;
      get r <- get_adds ms' ps ;; dret (Some v :: r)
  | _ :: ms', false :: ps => get r <- get_adds ms' ps ;; dret (None :: r)
  | _ :: ms', [] => get r <- get_adds ms' [] ;; dret (None :: r)
  | [], ps => get _ <- skip_adds ps ;; dret []
  end.
(* encoder of libasn1c, not in /repo; used behind ranap_common.c:306, 332, 441 *)
Fixpoint nth_put (ts : list ty) (i : nat) (v : val) : nat -> option bits :=
  match ts, i with
  | t :: _, O => put t v
  | _ :: r, S i' => nth_put r i' v
  | [], _ => fun _ => None
  end.
(* decoder of libasn1c, not in /repo; used behind ranap_common_cn.c:387, asn1tostruct.py:339, 365 *)
Fixpoint nth_get (ts : list ty) (i : nat) : D val :=
  match ts, i with
  | t :: _, O => getf t
  | _ :: r, S i' => nth_get r i'
  | [], _ => dfail
  end.
(* decoder of libasn1c, not in /repo; used behind ranap_common_cn.c:387, asn1tostruct.py:339, 365 *)
Fixpoint nth_get_open (ts : list ty) (i : nat) (o : list N) : option val :=
  match ts, i with
  | t :: _, O => of_octets (getf t) o
  | _ :: r, S i' => nth_get_open r i' o
  | [], _ => None
  end.
End Members.
(* vocabulary of the codec, which is not in /repo; used behind ranap_common.c:306 and ranap_common_cn.c:387 *)
Definition present (vs : list (option val)) : list bool :=
  map (fun v => match v with Some _ => true | None => false end) vs.

(* ---------------- the codec ---------------- *)
(* encoder of libasn1c, not in /repo; used behind ranap_common.c:306, 332, 441 *)
Fixpoint enc (t : ty) (v : val) {struct t} : nat -> option bits :=
  match t, v with
  | TNull, VNull => fun _ => Some []
  | TBool, VBool x => fun _ => Some [x]
  | TInt c, VInt z => put_int c z
  | TEnum e r m, VEnum z => put_enum e r m z
  | TBits c, VBits l => put_sized put_bit (Some 16%N) c l
  | TOcts c, VOcts l => put_sized put_octet (Some 2%N) c l
  | TSeqOf c t, VList l => put_sized (fun v p => enc t v p) None c l
  | TSeq e root adds, VSeq vr va => fun p =>
      let x := existsb (fun b => b) (present va) in
      if x && negb e then None else
      if negb (length va =? length adds) then None else
      after p ((if e then [x] else []) ++ put_bitmap root vr) (fun p =>
      opt b <- put_members enc root vr p ;;
      after p b (fun p =>
      if x then
        if (N.of_nat (length adds) <=? 64)%N then
          after p (false :: to_bits 6 (N.of_nat (length adds) - 1) ++ present va) (put_adds enc adds va)
        else None
      else Some []))
  | TChoice e root more, VChoice i v => fun p =>
      if i <? length root then
        opt b <- after p (if e then [false] else []) (put_whole (N.of_nat (length root)) (N.of_nat i)) ;;
        after p b (nth_put enc root i v)
      else if e then
        opt b <- after p [true] (put_small (N.of_nat (i - length root))) ;;
        opt o <- complete (nth_put enc more (i - length root) v) ;;
        after p b (put_open o)
      else None
  | _, _ => fun _ => None
  end.

(* decoder of libasn1c, not in /repo; used behind ranap_common_cn.c:387, asn1tostruct.py:339, 365 *)
Fixpoint dec (t : ty) {struct t} : D val :=
  match t with
  | TNull => dret VNull
  | TBool => get x <- get_bit ;; dret (VBool x)
  | TInt c => get z <- get_int c ;; dret (VInt z)
  | TEnum e r m => get z <- get_enum e r m ;; dret (VEnum z)
  | TBits c => get l <- get_sized get_bit (Some 16%N) c ;; dret (VBits l)
  | TOcts c => get l <- get_sized get_octet (Some 2%N) c ;; dret (VOcts l)
  | TSeqOf c t => get l <- get_sized (dec t) None c ;; dret (VList l)
  | TSeq e root adds =>
      get x <- get_ext e ;;
      get bm <- get_bitmap root ;;
      get vr <- get_members dec root bm ;;
      if x then
        get big <- get_bit ;;
        if big then dfail else
        get n <- get_bits 6 ;;
        get pa <- get_raw (N.to_nat n + 1) ;;
        get va <- get_adds dec adds pa ;;
        dret (VSeq vr va)
      else dret (VSeq vr (map (fun _ => None) adds))
  | TChoice e root more =>
      get x <- get_ext e ;;
      if x then
        get i <- get_small ;;
        get o <- get_open ;;
        get v <- dopt (nth_get_open dec more (N.to_nat i) o) ;;
        dret (VChoice (length root + N.to_nat i) v)
      else
        get i <- get_whole (N.of_nat (length root)) ;;
        get v <- nth_get dec root (N.to_nat i) ;;
        dret (VChoice (N.to_nat i) v)
  end.

(* aper_encode / aper_decode of a whole value *)
(* encoder of libasn1c, not in /repo; used behind ranap_common.c:306, 332, 441 *)
Definition encode (t : ty) (v : val) : option (list N) := complete (enc t v).
(* decoder of libasn1c, not in /repo; used behind ranap_common_cn.c:387, asn1tostruct.py:339, 365 *)
Definition decode (t : ty) (l : list N) : option val := of_octets (dec t) l.
