(** std::io::Read and the adaptors the decoder uses.  This is the standard
    library, not /repo; the model follows its documented contract and
    implementation (library/std/src/io/mod.rs). *)
From Verif Require Import Model.Prelude.

(** io::ErrorKind, as far as the decoder can tell kinds apart *)
Inductive io_kind : Type := UnexpectedEof | Interrupted | OtherKind (code : N).
(** io::Error, identified with its kind (payload/message not modelled) *)
Definition io_error := io_kind.

(** Result of one call [read(buf)]: the bytes put in [buf] ([RdOk []] is
    [Ok(0)]), an error, or a panic.  Nothing prevents an implementation from
    claiming more bytes than the buffer has ([RdOk d] with a longer [d]; the
    bytes beyond the buffer do not exist, and are never looked at). *)
(** std::io::Read::read *)
Inductive read_res : Type := RdOk (d : list byte) | RdErr (k : io_kind) | RdPanic.

(** [trait Read].  [read r n] is one call with a buffer of [n] bytes.
    [budget r] has no counterpart in Rust: it bounds how many more calls can
    deliver data or be interrupted, and only serves as loop fuel. *)
(** std::io::Read *)
Class Reader (R : Type) : Type := {
  read : R -> N -> read_res * R;
  budget : R -> nat
}.

(** ** Sources *)

(** [&[u8]] / [Cursor<Vec<u8>>]: all bytes at hand *)
(** std: impl Read for &[u8], Cursor *)
#[export] Instance list_reader : Reader (list byte) := {
  read l n := (RdOk (takeN n l), dropN n l);
  budget l := length l
}.

(** An arbitrary reader, given by what its successive [read] calls do:
    deliver a (non-empty) chunk - split if the buffer is smaller -, report
    [Ok(0)], or fail.  After the last event it reports [Ok(0)] forever. *)
(** no counterpart in /repo: the callers' readers *)
Inductive event : Type :=
| EvData (b : byte) (bs : list byte)
| EvEof
| EvErr (k : io_kind).

(** no counterpart in /repo: the callers' readers *)
Definition read_events (evs : list event) (n : N) : read_res * list event :=
  match evs with
  | [] => (RdOk [], [])
  | EvData b bs :: evs' =>
      (RdOk (takeN n (b :: bs)),
       match dropN n (b :: bs) with [] => evs' | c :: cs => EvData c cs :: evs' end)
  | EvEof :: evs' => (RdOk [], evs')
  | EvErr k :: evs' => (RdErr k, evs')
  end.

(** no counterpart: loop fuel *)
Fixpoint events_budget (evs : list event) : nat :=
  match evs with
  | [] => 0
  | EvData _ bs :: evs' => S (length bs) + events_budget evs'
  | EvEof :: evs' => events_budget evs'
  | EvErr _ :: evs' => S (events_budget evs')
  end.

(** no counterpart in /repo: the callers' readers *)
#[export] Instance event_reader : Reader (list event) := {
  read := read_events;
  budget := events_budget
}.

(** ** Adaptors *)

(** [io::Take<R>] (std: impl Read for Take), with its
    [assert!(n <= limit)] against readers that claim more than was asked for. *)
Record Take (R : Type) : Type := mkTake { t_limit : N; t_inner : R }.
Arguments mkTake {R}.
Arguments t_limit {R}.
Arguments t_inner {R}.

(** std: impl Read for Take *)
#[export] Instance take_reader {R} `{Reader R} : Reader (Take R) := {
  read t n :=
    if (t_limit t =? 0)%N then (RdOk [], t)
    else match read (t_inner t) (N.min n (t_limit t)) with
         | (RdOk d, r') => if (lenN d <=? t_limit t)%N then (RdOk d, mkTake (t_limit t - lenN d)%N r') else (RdPanic, mkTake (t_limit t) r')
         | (RdErr k, r') => (RdErr k, mkTake (t_limit t) r')
         | (RdPanic, r') => (RdPanic, mkTake (t_limit t) r')
         end;
  budget t := budget (t_inner t)
}.

(** [io::Chain<Cursor<[u8; 1]>, R>] (std: impl Read for Chain / Cursor):
    [c_first] is what is left in the cursor. *)
Record Chain (R : Type) : Type := mkChain { c_first : list byte; c_done : bool; c_second : R }.
Arguments mkChain {R}.
Arguments c_first {R}.
Arguments c_done {R}.
Arguments c_second {R}.

(** std: impl Read for Chain *)
#[export] Instance chain_reader {R} `{Reader R} : Reader (Chain R) := {
  read c n :=
    if c_done c then
      let '(x, r') := read (c_second c) n in (x, mkChain (c_first c) true r')
    else
      match takeN n (c_first c) with
      | [] => if (n =? 0)%N then (RdOk [], c)
              else let '(x, r') := read (c_second c) n in (x, mkChain (c_first c) true r')
      | d => (RdOk d, mkChain (dropN n (c_first c)) false (c_second c))
      end;
  budget c := (if c_done c then 0 else length (c_first c)) + budget (c_second c)
}.

(** ** Read::read_exact and Read::read_to_end *)
Section ReadOps.
  Context {R : Type} `{Reader R}.

  (** std::io::default_read_exact: [need] bytes of the buffer still to fill;
      [&mut buf[n..]] panics if [read] claims more *)
  Fixpoint read_exact_loop (fuel : nat) (need : N) (acc : list byte)
    : M R io_error (list byte) :=
    fun r =>
    if (need =? 0)%N then (Ok acc, r) else
    match fuel with
    | O => (Stuck, r)
    | S fuel' =>
        match read r need with
        | (RdOk [], r') => (Err UnexpectedEof, r')
        | (RdOk d, r') =>
            if (lenN d <=? need)%N
            then read_exact_loop fuel' (need - lenN d)%N (acc ++ d) r'
            else (Panic ReaderFault, r')
        | (RdErr Interrupted, r') => read_exact_loop fuel' need acc r'
        | (RdErr k, r') => (Err k, r')
        | (RdPanic, r') => (Panic ReaderFault, r')
        end
    end.
  (** std::io::Read::read_exact *)
  Definition read_exact (n : N) : M R io_error (list byte) :=
    fun r => read_exact_loop (S (budget r)) n [] r.

  (** std::io::default_read_to_end; [i] counts the calls.  Growing the vector
      can fail; std says so by an error of kind OutOfMemory, which is modelled
      like any other failure to allocate.  A claim of more
      bytes than there is room for makes [BorrowedCursor::advance], or the slice
      [&probe[..n]], panic. *)
  Fixpoint read_to_end_loop {env : Env} (fuel : nat) (i : nat) (acc : list byte)
    : M R io_error (list byte) :=
    fun r =>
    match fuel with
    | O => (Stuck, r)
    | S fuel' =>
        match read r (N.succ (probe i)) with
        | (RdOk [], r') => (Ok acc, r')
        | (RdOk d, r') =>
            if (lenN d <=? N.succ (probe i))%N
            then if (lenN (acc ++ d) <=? alloc_limit)%N
                 then read_to_end_loop fuel' (S i) (acc ++ d) r'
                 else (Panic AllocFailure, r')
            else (Panic ReaderFault, r')
        | (RdErr Interrupted, r') => read_to_end_loop fuel' (S i) acc r'
        | (RdErr k, r') => (Err k, r')
        | (RdPanic, r') => (Panic ReaderFault, r')
        end
    end.
  (** std::io::Read::read_to_end, used in src/decode/sections/custom.rs:20 *)
  Definition read_to_end {env : Env} : M R io_error (list byte) :=
    fun r => read_to_end_loop (S (budget r)) 0 [] r.

  (** src/decode/helpers.rs:8-12 [read_byte] *)
  Definition read_byte : M R io_error byte :=
    buf <- read_exact 1 ;;
    match buf with
    | b :: _ => ret b
    | [] => panic_with IndexOutOfBounds
    end.

  (** [let mut reader = reader.take(n); .. body ..; reader.limit()]: runs
      [body] on the limited reader and also returns the final [limit()].
      [reader] is borrowed, so afterwards the inner reader is where [body]
      left it. *)
  (** src/decode/sections/code.rs:53-76, src/decode/module.rs:225-310 *)
  Definition with_take {E A} (n : N) (body : M (Take R) E A) : M R E (A * N) :=
    fun r =>
    let '(x, t) := body (mkTake n r) in
    (match x with
     | Ok a => Ok (a, t_limit t)
     | Err e => Err e
     | Panic p => Panic p
     | Stuck => Stuck
     end, t_inner t).

  (** [let mut reader = io::Cursor::new([b]).chain(reader); .. body ..] *)
  (** src/decode/types/valtype.rs:28, reftype.rs:36, comptype.rs:114, rectype.rs:31 and 72, heaptype.rs:30, src/decode/sections/table.rs:54 *)
  Definition with_chain {E A} (b : byte) (body : M (Chain R) E A) : M R E A :=
    fun r =>
    let '(x, c) := body (mkChain [b] false r) in (x, c_second c).
End ReadOps.
