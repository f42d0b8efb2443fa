(** Specification, part 6: LEB128 arithmetically, for the outcomes of the
    integer decoders on inputs that are not encodings. *)
From Verif Require Import Model.Prelude Model.Io Spec.Lang.

(** a byte that announces another one *)
Definition continues (b : byte) : Prop := (2 ^ 7 <= val b)%N.
(** the unsigned number written by the 7-bit groups of [bs], least significant first *)
Fixpoint leb_unsigned (bs : list byte) : N :=
  match bs with [] => 0 | b :: bs' => (val b mod 2 ^ 7 + 2 ^ 7 * leb_unsigned bs')%N end.
(** the same read in two's complement of 7*|bs| bits *)
Definition leb_signed (bs : list byte) : Z :=
  let n := (7 * Z.of_nat (length bs))%Z in
  let u := Z.of_N (leb_unsigned bs) in
  if (u <? 2 ^ (n - 1))%Z then u else (u - 2 ^ n)%Z.

(** Every byte string starts with fewer than [k] continuing bytes and a final
    one, or with [k] continuing bytes, or is too short.  A decoder [p] with at
    most [k] bytes: *)
Record leb_outcomes {E A} (k : nat) (p : list byte -> res E A * list byte)
    (result : list byte -> res E A) (too_long : E) (io : io_error -> E) : Prop := {
  (* complete: the result is that of the encoding, the rest is left *)
  leb_whole : forall cs b rest, Forall continues cs -> length cs < k -> ~ continues b ->
    p (cs ++ b :: rest) = (result (cs ++ [b]), rest);
  (* [k] continuation bytes *)
  leb_too_long : forall cs rest, Forall continues cs -> length cs = k -> p (cs ++ rest) = (Err too_long, rest);
  (* the input ends early *)
  leb_truncated : forall cs, Forall continues cs -> length cs < k -> p cs = (Err (io UnexpectedEof), [])
}.
(** [v] if it fits *)
Definition fits {E A} (b : bool) (v : A) (e : E) : res E A := if b then Ok v else Err e.
Definition unsigned_fits (w : N) (v : N) : bool := (v <? 2 ^ w)%N.
Definition signed_fits (w : Z) (v : Z) : bool := ((- 2 ^ (w - 1) <=? v) && (v <? 2 ^ (w - 1)))%Z.
