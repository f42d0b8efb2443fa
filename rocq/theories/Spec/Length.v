(** Specification: how much is printed. *)
From Verif Require Import Model.Prelude Model.Ast Model.Display Model.Debug.
From Coq Require Import String Ascii.

(** the lines of a text that does not end with a line feed *)
Fixpoint text_rows (s : string) : nat :=
  match s with
  | EmptyString => 1
  | String c s => if Ascii.eqb c (ascii_of_nat 10) then S (text_rows s) else text_rows s
  end.
(** locals of all functions *)
Definition locals_of (m : Module_) : nat := fold_right (fun f n => List.length (f_locals f) + n) 0 (funcs m).
(** what std prints for an io::Error and for a Utf8Error takes at most [h] lines *)
Record rows_of_std (T : Texts) (h : nat) : Prop := {
  rows_io : forall e, text_rows (pretty (debug_io e)) <= h;
  rows_utf8 : forall bs, text_rows (pretty (debug_utf8_error bs)) <= h
}.
