(** Specification: how deep what is printed is nested. *)
From Verif Require Import Model.Prelude Model.Debug.

(** the longest chain of a value, a field of it, a field of that... *)
Fixpoint height (t : dtree) : nat :=
  match t with
  | DAtom _ => 1
  | DTuple _ fs => S (fold_right (fun f n => Nat.max (height f) n) 0 fs)
  | DStruct _ fs => S (fold_right (fun nf n => Nat.max (height (snd nf)) n) 0 fs)
  | DList es => S (fold_right (fun e n => Nat.max (height e) n) 0 es)
  | DPath _ t => S (height t)
  end.
(** what std prints for an io::Error and for a Utf8Error is at most [h] deep *)
Record depth_of_std (T : Texts) (h : nat) : Prop := {
  std_io : forall e, height (debug_io e) <= h;
  std_utf8 : forall bs, height (debug_utf8_error bs) <= h
}.
