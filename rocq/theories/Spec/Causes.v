(** Specification, part 10: the root cause of an error, and how an error is
    printed.  An error value is looked at as a [node] (Model/Display.v): its
    text and its payload, level by level. *)
From Verif Require Import Model.Prelude Model.Io Model.Ast Model.Errors Model.Display Spec.Leb.
From Coq Require Import String.

(** the innermost payload *)
Fixpoint innermost (n : node) : node :=
  match n with
  | Transparent n | Message _ n | Detached _ n => innermost n
  | _ => n
  end.
(** the error is, at the bottom, an I/O error of kind [k] *)
Definition io_cause (n : node) (k : io_error) : Prop := innermost n = Io k.
(** the error is, at the bottom, a block type that is a negative index whose
    first byte could have started a reference type: 0x63 is -29, 0x64 is -28 *)
Definition negative_blocktype (n : node) : Prop :=
  innermost n = n_blocktype (BT_NegativeTypeIndex (-29)%Z) \/ innermost n = n_blocktype (BT_NegativeTypeIndex (-28)%Z).
(** the bytes end with the beginning of a block type [(ref null? ht)] *)
Definition cut_blocktype (bs : list byte) : Prop :=
  exists pre b t, bs = pre ++ b :: t /\ (b = x63 \/ b = x64) /\ Forall continues t /\ List.length t < 5.
(** no level hides its payload from [source()] *)
Fixpoint linked (n : node) : Prop :=
  match n with
  | Transparent n | Message _ n => linked n
  | Detached _ _ => False
  | _ => True
  end.
