(** Specification: what a report may look like on a terminal.  [printable]
    (Spec/Debug.v): not a control character. *)
From Verif Require Import Model.Prelude Model.Debug Spec.Debug Spec.Cli.
From Coq Require Import List String Ascii.
Import ListNotations.
Local Open Scope string_scope.

(** one line of printable characters *)
Definition plain_line (s : string) : Prop := Forall printable (list_ascii_of_string s).
(** lines of printable characters: no escape sequence, bell, tab, carriage return *)
Definition plain_lines (s : string) : Prop := Forall (fun c => printable c \/ c = newline) (list_ascii_of_string s).
(** the number of rows the terminal advances, for texts printed one after the
    other, each followed by a newline *)
Definition rows (l : list string) : nat := count_occ ascii_dec (list_ascii_of_string (printed l)) newline.

(** What is required of the texts of std: an I/O error and its causes, at most
    [depth] of them, and a UTF-8 error are described in a line each. *)
Record one_liners (T : Texts) (depth : nat) : Prop := {
  io_line : forall e cs, causes (io_view e) cs -> List.length cs <= depth /\ Forall (fun c => plain_line (e_display c)) (io_view e :: cs);
  utf8_line : forall bytes, plain_line (utf8_message bytes) }.
