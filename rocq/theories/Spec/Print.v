(** Specification: streams that the tool prints to. *)
From Verif Require Import Model.Prelude Model.Debug Model.Display Model.Cli Model.Print Spec.Debug.
From Coq Require Import String.
Local Open Scope string_scope.

(** A stream is known by the text it has received.  A write that succeeds adds
    the whole text; one that fails adds a part of it, the last character at
    least being missing. *)
Class Stream (W : Type) `{Sink W} := {
  received : W -> string;
  put_all : forall w s w', put w s = (true, w') -> received w' = received w ++ s;
  put_part : forall w s w', put w s = (false, w') -> exists p c q, s = p ++ String c q /\ received w' = received w ++ p }.
(** streams that take everything *)
Definition willing (W : Type) `{Sink W} : Prop := forall (w : W) s, fst (put w s) = true.

(** [a] is what is left of the text [s] when it is cut off somewhere *)
Definition cut (a s : string) : Prop := exists c b, s = a ++ String c b.
(** [a] is [s], or [s] cut off *)
Definition at_most (a s : string) : Prop := exists b, s = a ++ b.

Section Process.
  Context {W V : Type} `{Stream W} `{Stream V}.
  (** From [w] and [v], the process [p] does what [o] says: its exit status, and
      everything that is to be printed (each string on a line). *)
  Definition complete (w : W) (v : V) (o : outcome) (p : process W V) : Prop :=
    status p = exit_code o /\ received (stdout p) = received w ++ printed (out o) /\ received (stderr p) = received v ++ printed (err o).
  (** It dies with status 101 while it prints, after part of the text, and
      complains on stderr as far as that is possible. *)
  Definition died (panic_text : string) (w : W) (v : V) (o : outcome) (p : process W V) : Prop :=
    status p = 101%N /\ exists a noise, at_most noise (panic_text ++ nl) /\
      (cut a (printed (out o)) /\ received (stdout p) = received w ++ a /\ received (stderr p) = received v ++ noise \/
       received (stdout p) = received w /\ cut a (printed (err o)) /\ received (stderr p) = received v ++ a ++ noise).
End Process.

(** for example: a device with room for so many characters, and a terminal *)
Record device := mkDevice { room : nat; stored : string }.
Fixpoint take_chars (n : nat) (s : string) : string :=
  match n, s with S n, String c s => String c (take_chars n s) | _, _ => "" end.
#[export] Instance device_sink : Sink device := fun d s =>
  if Nat.leb (String.length s) (room d) then (true, mkDevice (room d - String.length s) (stored d ++ s))
  else (false, mkDevice 0 (stored d ++ take_chars (room d) s)).
#[export] Instance terminal_sink : Sink string := fun d s => (true, d ++ s).
