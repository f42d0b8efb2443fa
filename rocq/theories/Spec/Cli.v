(** Specification, part 11: what the command-line tool prints.  [dyn_error] is
    an error with its text and its source() (Model/Cli.v). *)
From Verif Require Import Model.Prelude Model.Io Model.Errors Model.Display Model.Cli.
From Coq Require Import String Ascii.
Local Open Scope string_scope.

(** the causes of an error: its source, the source of that, and so on *)
Inductive causes : dyn_error -> list dyn_error -> Prop :=
| causes_none e : e_source e = None -> causes e []
| causes_some e c l : e_source e = Some c -> causes c l -> causes e (c :: l).

(** a decimal numeral: the digits of [n], without leading zeros *)
Definition is_digit (c : ascii) (d : N) : Prop := (d < 10)%N /\ N_of_ascii c = (48 + d)%N.
Inductive decimal : string -> N -> Prop :=
| decimal_digit c d : is_digit c d -> decimal (String c "") d
| decimal_more s n c d : decimal s n -> n <> 0%N -> is_digit c d -> decimal (s ++ String c "") (10 * n + d).

(** The lines on stderr for the error [e] with Debug text [dbg]. *)
Definition reported (verbose : bool) (e : dyn_error) (dbg : string) (lines : list string) : Prop :=
  exists cs numbered,
    causes e cs /\
    List.length numbered = List.length cs /\
    (forall i c, nth_error cs i = Some c ->
       exists num, decimal num (N.of_nat i) /\ nth_error numbered i = Some ("    " ++ num ++ ": " ++ e_display c)) /\
    lines = app (("ERROR: " ++ e_display e) :: match cs with [] => [] | _ => (nl ++ "Caused by:") :: numbered end)
                (if verbose then [nl ++ "DEBUG OUTPUT:" ++ nl ++ dbg] else []).

(** The texts an error shows, outermost first: those of its levels up to the
    first level that has no source.  A transparent level shows nothing of its
    own. *)
Fixpoint shown {T : Texts} (n : node) : list string :=
  match n with
  | Leaf s => [s]
  | Io e => e_display (io_view e) :: map e_display (sources (io_view e))
  | FromUtf8 bytes => [utf8_message bytes]
  | Transparent n => shown n
  | Message s n => s :: shown n
  | Detached s _ => [s]
  end.
