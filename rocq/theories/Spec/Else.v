(** Specification, part 9: an [else] byte (0x05) in a wrong place.  The words
    below are the bytes *before* the offending 0x05. *)
From Verif Require Import Model.Ast Spec.Lang Spec.Types Spec.Instr.

(** [unfinished w]: [w] begins a structured instruction whose innermost open
    body must not be followed by [else].
    [open_body ae w]: [w] begins a body (a sequence of instructions); [ae]
    tells whether the body itself may be ended by an [else]. *)
Inductive unfinished : list byte -> Prop :=
| unf_block bt b w : Bblocktype bt b -> open_body false w -> unfinished (x02 :: b ++ w)
| unf_loop bt b w : Bblocktype bt b -> open_body false w -> unfinished (x03 :: b ++ w)
| unf_then bt b w : Bblocktype bt b -> open_body true w -> unfinished (x04 :: b ++ w)
| unf_else bt b is b1 w : Bblocktype bt b -> Binstrs is b1 -> open_body false w -> unfinished (x04 :: b ++ b1 ++ x05 :: w)
| unf_try bt b cs b1 w : Bblocktype bt b -> Blist Bcatch cs b1 -> open_body false w -> unfinished (x1f :: b ++ b1 ++ w)
with open_body : bool -> list byte -> Prop :=
| open_here is w : Binstrs is w -> open_body false w
| open_inside ae is b w : Binstrs is b -> unfinished w -> open_body ae (b ++ w).
Scheme unfinished_mut := Minimality for unfinished Sort Prop
  with open_body_mut := Minimality for open_body Sort Prop.
Combined Scheme unfinished_open_ind from unfinished_mut, open_body_mut.
