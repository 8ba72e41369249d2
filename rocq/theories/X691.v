(* Aligned PER as the standard words it (ITU-T X.691, aligned variant), as a
   relation between a value, the bit position it starts at and its bits.
   Independent of the functions of Aper.v: numbers are positional sums, widths
   are least solutions of an inequality, padding is whatever reaches the next
   octet boundary.  Only the syntax of types and values is shared. *)
From Verif Require Import Base Aper.

(* what a value may look like at a position *)
Definition encoding := nat -> bits -> Prop.
Definition nothing : encoding := fun _ b => b = [].
Definition bit (x : bool) : encoding := fun _ b => b = [x].
(* one after the other *)
Definition seq (E F : encoding) : encoding :=
  fun p b => exists b1 b2, b = b1 ++ b2 /\ E p b1 /\ F (p + length b1) b2.
Infix "+++" := seq (right associativity, at level 60).
Definition when (P : Prop) (E : encoding) : encoding := fun p b => P /\ E p b.

(* ---------------- numbers ---------------- *)
(* the number a bit string denotes, most significant bit first *)
Fixpoint number (b : bits) : N :=
  match b with [] => 0 | x :: r => (if x then 2 ^ N.of_nat (length r) else 0) + number r end%N.
Definition field (n : nat) (v : N) : encoding := fun _ b => length b = n /\ number b = v.
(* zero bits up to the octet boundary *)
Definition filler : encoding := fun p b =>
  length b < 8 /\ (p + length b) mod 8 = 0 /\ forall x, In x b -> x = false.
Definition least (P : nat -> Prop) (n : nat) : Prop := P n /\ forall m, P m -> n <= m.
(* bits that tell [range] values apart; octets that hold a number *)
Definition bits_for (range : N) : nat -> Prop := least (fun n => (range <= 2 ^ N.of_nat n)%N).
Definition octets_for (v : N) : nat -> Prop := least (fun n => 1 <= n /\ (v < 256 ^ N.of_nat n)%N).
Definition signed_octets_for (z : Z) : nat -> Prop :=
  least (fun n => 1 <= n /\ (- 2 ^ (8 * Z.of_nat n - 1) <= z < 2 ^ (8 * Z.of_nat n - 1))%Z).

(* 10.5: a number known to be below [range] *)
Definition whole (range v : N) : encoding := fun p b =>
  (v < range)%N /\
  ( (* 10.5.7.1 bit-field *)
    ((range <= 255)%N /\ exists n, bits_for range n /\ field n v p b) \/
    (* 10.5.7.2 one octet *)
    (range = 256%N /\ (filler +++ field 8 v) p b) \/
    (* 10.5.7.3 two octets *)
    ((257 <= range <= 65536)%N /\ (filler +++ field 16 v) p b) \/
    (* 10.5.7.4 least number of octets, preceded by how many *)
    ((65536 < range)%N /\ exists most n k,
       octets_for (range - 1) most /\ bits_for (N.of_nat most) n /\ octets_for v k /\
       (field n (N.of_nat k - 1) +++ filler +++ field (8 * k) v) p b)).

(* ---------------- lists ---------------- *)
Fixpoint items {A} (item : A -> encoding) (l : list A) : encoding :=
  match l with [] => nothing | a :: r => item a +++ items item r end.
(* 10.9.3.5-8: octet-aligned count, then that many items; 16K fragments *)
Inductive counted {A} (item : A -> encoding) : list A -> encoding :=
| short l p b :
    (N.of_nat (length l) < 128)%N ->
    (filler +++ bit false +++ field 7 (N.of_nat (length l)) +++ items item l) p b -> counted item l p b
| long l p b :
    (128 <= N.of_nat (length l) < 16384)%N ->
    (filler +++ bit true +++ bit false +++ field 14 (N.of_nat (length l)) +++ items item l) p b -> counted item l p b
| fragment m l1 l2 p b1 b2 :
    (1 <= m <= 4)%N ->
    N.of_nat (length l1) = (m * 16384)%N ->
    (m = 4 \/ N.of_nat (length l2) < 16384)%N ->
    (filler +++ bit true +++ bit true +++ field 6 m +++ items item l1) p b1 ->
    counted item l2 (p + length b1) b2 ->
    counted item (l1 ++ l2) p (b1 ++ b2).
Definition octet (o : N) : encoding := field 8 o.

(* 10.6: normally small non-negative whole number *)
Definition small (v : N) : encoding := fun p b =>
  ((v < 64)%N /\ (bit false +++ field 6 v) p b) \/
  ((64 <= v)%N /\ exists k o d, octets_for v k /\ length o = k /\ items octet o 0 d /\ number d = v /\
     (bit true +++ counted octet o) p b).
(* 10.8: two's complement in the least number of octets *)
Definition signed (z : Z) : encoding := fun p b =>
  exists k o d, signed_octets_for z k /\ length o = k /\ items octet o 0 d /\
    Z.of_N (number d) = (z mod 2 ^ (8 * Z.of_nat k))%Z /\ counted octet o p b.

(* ---------------- constraints ---------------- *)
Definition within (c : con) (z : Z) : Prop := (c_lb c <= z <= c_ub c)%Z.
(* 12.2.1/12.2.2: offset from the lower bound *)
Definition offset (c : con) (z : Z) : encoding :=
  when (within c z) (whole (Z.to_N (c_ub c - c_lb c + 1)) (Z.to_N (z - c_lb c))).
(* 12.1: an extensible constraint costs a bit, set if the value is outside *)
Definition extensible (c : con) (z : Z) (root other : encoding) : encoding := fun p b =>
  (c_ext c = false /\ within c z /\ root p b) \/
  (c_ext c = true /\ within c z /\ (bit false +++ root) p b) \/
  (c_ext c = true /\ ~ within c z /\ (bit true +++ other) p b).
Definition integer (c : option con) (z : Z) : encoding :=
  match c with None => signed z | Some c => extensible c z (offset c z) (signed z) end.

(* ---------------- enumerations ---------------- *)
(* the place of an element: its first occurrence *)
Definition at_place {A} (l : list A) (a : A) (i : nat) : Prop :=
  nth_error l i = Some a /\ forall j, j < i -> nth_error l j <> Some a.
Definition ext_bit (e x : bool) : encoding := if e then bit x else when (x = false) nothing.
Definition enumerated (e : bool) (root more : list Z) (z : Z) : encoding := fun p b =>
  (exists i, at_place root z i /\ (ext_bit e false +++ whole (N.of_nat (length root)) (N.of_nat i)) p b) \/
  (~ In z root /\ exists i, at_place more z i /\ e = true /\ (bit true +++ small (N.of_nat i)) p b).

(* ---------------- BIT STRING, OCTET STRING, SEQUENCE OF ---------------- *)
(* contents are octet-aligned: never for SEQUENCE OF; for the strings if the
   size varies and there is something, or if the fixed size exceeds 16 bits *)
Inductive kind := Plain | Text (free : N).
Definition contents_aligned (k : kind) (c : con) (n : N) : Prop :=
  match k with
  | Plain => False
  | Text free => (c_lb c = c_ub c /\ (free < n)%N) \/ (c_lb c <> c_ub c /\ (0 < n)%N)
  end.
Definition fill_if (P : Prop) : encoding := fun p b => (P /\ filler p b) \/ (~ P /\ b = []).
Definition sized {A} (k : kind) (item : A -> encoding) (c : option con) (l : list A) : encoding :=
  let n := Z.of_nat (length l) in
  match c with
  | None => counted item l
  | Some c => extensible c n
      (fun p b =>
         ((c_ub c < 65536)%Z /\
            (offset c n +++ fill_if (contents_aligned k c (N.of_nat (length l))) +++ items item l) p b) \/
         ((65536 <= c_ub c)%Z /\ counted item l p b))
      (counted item l)
  end.

(* ---------------- open types ---------------- *)
(* 10.1: a complete encoding is whole octets, at least one *)
Definition completed (E : encoding) (o : list N) : Prop :=
  exists c, E 0 c /\
  ((c = [] /\ o = [0%N]) \/ (c <> [] /\ items octet o 0 (c ++ repeat false (8 * length o - length c)) /\
     length c <= 8 * length o < length c + 8)).
(* 10.2 *)
Definition open_type (E : encoding) : encoding := fun p b => exists o, completed E o /\ counted octet o p b.

(* ---------------- SEQUENCE ---------------- *)
Definition given {A} (v : option A) : bool := match v with Some _ => true | None => false end.
(* 18.2: one bit for each OPTIONAL component of the root, in order *)
Definition presence (ms : list (bool * ty)) (vs : list (option val)) : bits :=
  map (fun mv => given (snd mv)) (filter (fun mv => fst (fst mv)) (combine ms vs)).
Definition the_bits (x : bits) : encoding := fun _ b => b = x.
Section Components.
Variable rule : ty -> val -> encoding.
Fixpoint components (ms : list (bool * ty)) (vs : list (option val)) : encoding :=
  match ms, vs with
  | (_, t) :: ms', Some v :: vs' => rule t v +++ components ms' vs'
  | _ :: ms', None :: vs' => components ms' vs'
  | _, _ => nothing
  end.
(* 18.8, 18.9 *)
Fixpoint additions (ms : list (bool * ty)) (vs : list (option val)) : encoding :=
  match ms, vs with
  | (_, t) :: ms', Some v :: vs' => open_type (rule t v) +++ additions ms' vs'
  | _ :: ms', None :: vs' => additions ms' vs'
  | _, _ => nothing
  end.
Fixpoint alternative (ts : list ty) (i : nat) (v : val) : encoding :=
  match ts, i with
  | t :: _, O => rule t v
  | _ :: r, S i' => alternative r i' v
  | [], _ => fun _ _ => False
  end.
End Components.
Definition mandatory_given (ms : list (bool * ty)) (vs : list (option val)) : Prop :=
  length vs = length ms /\ forall i t, nth_error ms i = Some (false, t) -> nth_error vs i <> Some None.

(* ---------------- all together ---------------- *)
Fixpoint x691 (t : ty) (v : val) {struct t} : encoding :=
  match t, v with
  | TNull, VNull => nothing
  | TBool, VBool x => bit x
  | TInt c, VInt z => integer c z
  | TEnum e root more, VEnum z => enumerated e root more z
  | TBits c, VBits l => sized (Text 16) bit c l
  | TOcts c, VOcts l => sized (Text 2) octet c l
  | TSeqOf c t, VList l => sized Plain (x691 t) c l
  | TSeq e root adds, VSeq vr va =>
      let some := existsb given va in
      when (mandatory_given root vr /\ length va = length adds)
        (ext_bit e some +++ the_bits (presence root vr) +++ components x691 root vr +++
         (if some then
            (* 18.7 with 10.9.3.4: the number of additions, up to 64 *)
            when (N.of_nat (length adds) <= 64)%N
              (bit false +++ field 6 (N.of_nat (length adds) - 1) +++ the_bits (map given va) +++ additions x691 adds va)
          else nothing))
  | TChoice e root more, VChoice i v => fun p b =>
      (i < length root /\
         (ext_bit e false +++ whole (N.of_nat (length root)) (N.of_nat i) +++ alternative x691 root i v) p b) \/
      (length root <= i /\ e = true /\
         (bit true +++ small (N.of_nat (i - length root)) +++ open_type (alternative x691 more (i - length root) v)) p b)
  | _, _ => fun _ _ => False
  end.
