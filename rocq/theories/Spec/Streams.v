(** Specification, part 5: what a user observes of a reader and of a decoder.
    [event], [res], [Env] are the model's interface (Model/Io.v,
    Model/Prelude.v). *)
From Verif Require Import Model.Prelude Model.Io Spec.Lang.

(** ** Readers *)

(** How a stream of bytes stops: the reader reports end of file, or fails. *)
Inductive ending : Type := Ends | Fails (k : io_kind).

(** What a reader delivers: its bytes up to the first end-of-file report or
    failure, and which of the two it is.  Interruptions are not failures (the
    std::io::Read contract: retry); chunking is irrelevant; what comes after
    the first stop does not count. *)
Fixpoint content (evs : list event) : list byte * ending :=
  match evs with
  | [] => ([], Ends)
  | EvData b bs :: evs' => let '(l, e) := content evs' in ((b :: bs) ++ l, e)
  | EvEof :: _ => ([], Ends)
  | EvErr Interrupted :: evs' => content evs'
  | EvErr k :: _ => ([], Fails k)
  end.

(** What the reader would still deliver after that first stop. *)
Fixpoint after_stop (evs : list event) : list event :=
  match evs with
  | [] => []
  | EvData _ _ :: evs' | EvErr Interrupted :: evs' => after_stop evs'
  | EvEof :: evs' | EvErr _ :: evs' => evs'
  end.

(** ** Resources *)

(** Enough heap and stack for any input of [n] bytes: room for the longest
    vector that can be announced (2^32-1 elements), for one element per byte in
    the vectors that grow, and for one activation of the instruction decoder per
    byte. *)
Definition sufficient (env : Env) (n : nat) : Prop :=
  ((2 ^ 32 - 1 <= @alloc_limit env)%N /\ (N.of_nat n < @alloc_limit env)%N) /\ S n < @stack_limit env.

(** ** Decoders *)

(** The decoder [p] decodes exactly the language [G]: it succeeds with [a]
    precisely when a prefix of the input is a word of [G] for [a], leaving the
    rest unread; otherwise it returns an error. *)
Record decodes {E A} (p : Env -> list byte -> res E A * list byte) (G : lang A) : Prop := {
  (* whatever the resources, a success is right *)
  decodes_sound : forall env bs a rest, p env bs = (Ok a, rest) -> exists pre, bs = pre ++ rest /\ G a pre;
  (* given the resources, every word is decoded *)
  decodes_complete : forall env a pre rest, sufficient env (length (pre ++ rest)) -> G a pre -> p env (pre ++ rest) = (Ok a, rest);
  (* given the resources, anything else is an error: no crash, no divergence *)
  decodes_total : forall env bs, sufficient env (length bs) ->
    (forall a pre rest, bs = pre ++ rest -> ~ G a pre) -> exists e rest, p env bs = (Err e, rest)
}.
