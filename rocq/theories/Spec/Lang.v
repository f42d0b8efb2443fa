(** Specification, part 1: notation of the WebAssembly 3.0 binary grammar
    (chapter 5.1-5.2 of the specification).  Nothing here refers to the model of
    the decoder; only the abstract syntax (Model/Ast.v) is shared. *)
From Coq Require Export List NArith ZArith.
From Coq Require Export Init.Byte.
From Coq Require Import Strings.Byte.
Export ListNotations.

(** A grammar production: which byte strings denote which value. *)
Definition lang (A : Type) : Type := A -> list byte -> Prop.

(** the number a byte stands for *)
Definition val (b : byte) : N := Byte.to_N b.

(** 5.2.2 unsigned LEB128:
    uN ::= n:byte            => n                   (if n < 2^7 and n < 2^N)
        |  n:byte m:u(N-7)   => 2^7*m + (n - 2^7)   (if n >= 2^7 and N > 7) *)
Inductive Bu : N -> lang N :=
| Bu_last w b : (val b < 2 ^ 7)%N -> (val b < 2 ^ w)%N -> Bu w (val b) [b]
| Bu_more w b m bs : (2 ^ 7 <= val b)%N -> (7 < w)%N -> Bu (w - 7) m bs ->
    Bu w (2 ^ 7 * m + (val b - 2 ^ 7))%N (b :: bs).

(** 5.2.2 signed LEB128:
    sN ::= n:byte            => n                   (if n < 2^6 and n < 2^(N-1))
        |  n:byte            => n - 2^7             (if 2^6 <= n < 2^7 and n >= 2^7 - 2^(N-1))
        |  n:byte m:s(N-7)   => 2^7*m + (n - 2^7)   (if n >= 2^7 and N > 7) *)
Inductive Bs : Z -> lang Z :=
| Bs_pos w b : let n := Z.of_N (val b) in
    (n < 2 ^ 6)%Z -> (n < 2 ^ (w - 1))%Z -> Bs w n [b]
| Bs_neg w b : let n := Z.of_N (val b) in
    (2 ^ 6 <= n < 2 ^ 7)%Z -> (n >= 2 ^ 7 - 2 ^ (w - 1))%Z -> Bs w (n - 2 ^ 7)%Z [b]
| Bs_more w b m bs : let n := Z.of_N (val b) in
    (n >= 2 ^ 7)%Z -> (w > 7)%Z -> Bs (w - 7) m bs ->
    Bs w (2 ^ 7 * m + (n - 2 ^ 7))%Z (b :: bs).

Definition Bu32 : lang N := Bu 32.
Definition Bu64 : lang N := Bu 64.
Definition Bs33 : lang Z := Bs 33.
(** 5.2.2: uninterpreted integers iN are encoded as sN; the crate presents
    constants as signed *)
Definition Bi32 : lang Z := Bs 32.
Definition Bi64 : lang Z := Bs 64.

(** 5.2.3 floats: little-endian bytes of the IEEE bit pattern *)
Fixpoint le_value (bs : list byte) : N :=
  match bs with [] => 0%N | b :: bs' => (val b + 2 ^ 8 * le_value bs')%N end.
Definition Bf32 : lang N := fun n bs => length bs = 4 /\ n = le_value bs.
Definition Bf64 : lang N := fun n bs => length bs = 8 /\ n = le_value bs.

(** a single byte, taken literally *)
Definition Bbyte : lang byte := fun b bs => bs = [b].
(** exactly [n] bytes, taken literally *)
Definition Bbytes (n : nat) : lang (list byte) := fun l bs => bs = l /\ length l = n.

(** juxtaposition X* *)
Inductive Bseq {A} (X : lang A) : lang (list A) :=
| Bseq_nil : Bseq X [] []
| Bseq_cons x xs bs1 bs2 : X x bs1 -> Bseq X xs bs2 -> Bseq X (x :: xs) (bs1 ++ bs2).

(** 5.1.3 list(X) ::= n:u32 (el:X)^n *)
Inductive Blist {A} (X : lang A) : lang (list A) :=
| Blist_intro xs bs1 bs2 :
    Bu32 (N.of_nat (length xs)) bs1 -> Bseq X xs bs2 -> Blist X xs (bs1 ++ bs2).

(** 5.2.4 names: list(byte) holding the UTF-8 encoding of Unicode scalar values *)
Definition scalar_value (c : N) : Prop := (c < 0xD800 \/ 0xE000 <= c < 0x110000)%N.
Definition byte_of (n : N) : byte := match Byte.of_N n with Some b => b | None => x00 end.
Definition utf8_char (c : N) : list byte :=
  (if c <? 0x80 then [byte_of c]
   else if c <? 0x800 then [byte_of (0xC0 + c / 2 ^ 6); byte_of (0x80 + c mod 2 ^ 6)]
   else if c <? 0x10000 then
     [byte_of (0xE0 + c / 2 ^ 12); byte_of (0x80 + (c / 2 ^ 6) mod 2 ^ 6); byte_of (0x80 + c mod 2 ^ 6)]
   else
     [byte_of (0xF0 + c / 2 ^ 18); byte_of (0x80 + (c / 2 ^ 12) mod 2 ^ 6);
      byte_of (0x80 + (c / 2 ^ 6) mod 2 ^ 6); byte_of (0x80 + c mod 2 ^ 6)])%N.
(** the byte string is UTF-8 *)
Definition utf8 (bs : list byte) : Prop :=
  exists cs : list N, Forall scalar_value cs /\ bs = concat (map utf8_char cs).
Definition Bname : lang (list byte) := fun s bs => Blist Bbyte s bs /\ utf8 s.
