(** Outcome and decoder monad shared by the whole model.

    A Rust function [fn f(reader: &mut R) -> Result<A, E>] is modelled by
    [f : M R E A := R -> res E A * R]: the reader is threaded explicitly
    ([&mut R] becomes an argument and a result), [Ok]/[Err] stay data, and a
    panic/abort is the explicit outcome [Panic]. *)
From Coq Require Export List NArith ZArith Bool.
From Coq Require Export Init.Byte.
From Coq Require Import Strings.Byte.
Export ListNotations.

(** The ways the real program can die instead of returning a [Result].
    None of these is a variant of a Rust error type. *)
(** src/decode: the unwrap, unreachable!, index and arithmetic expressions there; src/decode/helpers.rs:111, 160 (memory) *)
Inductive panic : Type :=
| AllocFailure        (* Vec::with_capacity / vec![0;n] / Vec growth cannot be satisfied *)
| StackOverflow       (* recursion of Instruction::parse deeper than the stack allows *)
| UnwrapFailed        (* Option/Result::unwrap on None/Err *)
| UnreachableReached  (* unreachable!() *)
| IndexOutOfBounds    (* slice / Vec indexing *)
| ArithOverflow       (* debug-profile overflow check of + - << *)
| ReaderFault.        (* the caller's reader panicked, or claimed more bytes than the buffer has and std noticed *)

(** [Stuck] is an artefact of the model: loop fuel ran out.  It is proved
    unreachable for every finite reader (C35_terminates, Properties/Modules.v). *)
Inductive res (E A : Type) : Type :=
| Ok (a : A)
| Err (e : E)
| Panic (p : panic)
| Stuck.
Arguments Ok {E A} a.
Arguments Err {E A} e.
Arguments Panic {E A} p.
Arguments Stuck {E A}.

(** the signature fn(&mut R) -> Result<A, E> of the functions of src/decode *)
Definition M (R E A : Type) : Type := R -> res E A * R.

(** Ok(a), throughout src/decode *)
Definition ret {R E A} (a : A) : M R E A := fun r => (Ok a, r).
(** [return Err(e)] / [Err(e)?] *)
Definition throw {R E A} (e : E) : M R E A := fun r => (Err e, r).
(** panics, see [panic] *)
Definition panic_with {R E A} (p : panic) : M R E A := fun r => (Panic p, r).
(** no counterpart: out of loop fuel *)
Definition stuck {R E A} : M R E A := fun r => (Stuck, r).

(** the [?] operator / sequencing *)
(** throughout src/decode *)
Definition bind {R E A B} (p : M R E A) (q : A -> M R E B) : M R E B :=
  fun r => match p r with
           | (Ok a, r') => q a r'
           | (Err e, r') => (Err e, r')
           | (Panic x, r') => (Panic x, r')
           | (Stuck, r') => (Stuck, r')
           end.

(** [.map_err(f)?], and the [From] conversion implied by [?] *)
(** throughout src/decode *)
Definition map_err {R E E' A} (f : E -> E') (p : M R E A) : M R E' A :=
  fun r => match p r with
           | (Ok a, r') => (Ok a, r')
           | (Err e, r') => (Err (f e), r')
           | (Panic x, r') => (Panic x, r')
           | (Stuck, r') => (Stuck, r')
           end.

(** [if let Ok(t) = p { .. }]: the error is dropped, the reader stays advanced *)
(** src/decode/instructions.rs:1092 *)
Definition try_ok {R E E' A} (p : M R E A) : M R E' (option A) :=
  fun r => match p r with
           | (Ok a, r') => (Ok (Some a), r')
           | (Err _, r') => (Ok None, r')
           | (Panic x, r') => (Panic x, r')
           | (Stuck, r') => (Stuck, r')
           end.

Declare Scope m_scope.
Notation "x <- p ;; q" := (bind p (fun x => q))
  (at level 61, p at next level, right associativity) : m_scope.
Notation "' pat <- p ;; q" := (bind p (fun x => match x with pat => q end))
  (at level 61, pat pattern, p at next level, right associativity) : m_scope.
Delimit Scope m_scope with m.
Open Scope m_scope.

(** Resources of the process running the decoder.  [stack_limit]: how many
    nested activations of [Instruction::parse] fit on the stack;
    [alloc_limit]: how many elements a single vector can have before the
    allocator gives up; [probe i] (+1): size of the i-th buffer that
    [Read::read_to_end] passes to [read] (std chooses it adaptively). *)
Class Env : Type := {
  stack_limit : nat;
  alloc_limit : N;
  probe : nat -> N
}.

(** Reserving room for [n] elements (Vec::with_capacity(n), vec![0;n], or a
    Vec grown by pushes to [n] elements).  Counted in elements, whatever their
    size. *)
(** src/decode/helpers.rs:111, 160; pushes in src/decode/helpers.rs, src/decode/instructions.rs and src/decode/module.rs *)
Definition alloc {env : Env} {R E} (n : N) : M R E unit :=
  if (n <=? alloc_limit)%N then ret tt else panic_with AllocFailure.

(** Checked machine arithmetic.  Rust's debug profile panics, the release
    profile wraps; the panic is proved unreachable, so both agree. *)
(** [shift += 7]: src/decode/integer.rs:46, 90, 120, 160, 211 *)
Definition add_u8 {R E} (a b : N) : M R E N :=
  if (a + b <? 256)%N then ret (a + b)%N else panic_with ArithOverflow.
(** src/decode/sections/code.rs:104 *)
Definition add_u64 {R E} (a b : N) : M R E N :=
  if (a + b <? 2 ^ 64)%N then ret (a + b)%N else panic_with ArithOverflow.
(** src/decode/instructions.rs:1037-1055 *)
Definition sub_u32 {R E} (a b : N) : M R E N :=
  if (b <=? a)%N then ret (a - b)%N else panic_with ArithOverflow.
(** src/decode/sections/code.rs:67, src/decode/module.rs:308 *)
Definition sub_u64 {R E} (a b : N) : M R E N :=
  if (b <=? a)%N then ret (a - b)%N else panic_with ArithOverflow.
(** [x << s] on u32/u64: panics when [s] >= width, drops high bits otherwise *)
(** src/decode/integer.rs:28 *)
Definition shl_u32 {R E} (x s : N) : M R E N :=
  if (s <? 32)%N then ret (N.shiftl x s mod 2 ^ 32)%N else panic_with ArithOverflow.
(** src/decode/integer.rs:72 *)
Definition shl_u64 {R E} (x s : N) : M R E N :=
  if (s <? 64)%N then ret (N.shiftl x s mod 2 ^ 64)%N else panic_with ArithOverflow.
(** two's complement wrap-around to i64 *)
(** src/decode/integer.rs:119-125, 159-180, 210-233 *)
Definition wrap_i64 (z : Z) : Z := ((z + 2 ^ 63) mod 2 ^ 64 - 2 ^ 63)%Z.
(** src/decode/integer.rs:119, 159, 210 *)
Definition shl_i64 {R E} (x : Z) (s : N) : M R E Z :=
  if (s <? 64)%N then ret (wrap_i64 (Z.shiftl x (Z.of_N s))) else panic_with ArithOverflow.

(** a byte's value *)
(** u32::from(byte) etc., src/decode/integer.rs *)
Definition b2n (b : byte) : N := Byte.to_N b.

(** first [n] / all but the first [n] elements, counting in binary *)
(** no counterpart in /repo: slices in std readers (Model/Io.v) *)
Fixpoint takeN {A} (n : N) (l : list A) : list A :=
  match l with
  | [] => []
  | x :: l' => if (n =? 0)%N then [] else x :: takeN (N.pred n) l'
  end.
(** no counterpart in /repo: slices in std readers (Model/Io.v) *)
Fixpoint dropN {A} (n : N) (l : list A) : list A :=
  match l with
  | [] => []
  | x :: l' => if (n =? 0)%N then l else dropN (N.pred n) l'
  end.
(** [.len()], throughout src/decode *)
Definition lenN {A} (l : list A) : N := N.of_nat (length l).

(** [for _ in 0..n { s = step(s)? }], with early exit; recursion on the binary
    representation so that huge counts cost nothing once an error occurs. *)
Section Loop.
  Context {R E S : Type}.
  Variable step : S -> M R E S.
  (** src/decode/helpers.rs:112-118 *)
  Fixpoint loop_pos (p : positive) : S -> M R E S :=
    match p with
    | xH => step
    | xO p' => fun s => bind (loop_pos p' s) (loop_pos p')
    | xI p' => fun s => bind (step s) (fun s' => bind (loop_pos p' s') (loop_pos p'))
    end.
  (** src/decode/helpers.rs:112-118 *)
  Definition loopN (n : N) : S -> M R E S :=
    match n with N0 => ret | Npos p => loop_pos p end.
End Loop.

(** Rust [match n { pat => arm, .. , _ => default }] on an integer: arms are
    tried in order. *)
(** match arms of src/decode/instructions.rs:203-1018 *)
Inductive pat : Type :=
| P1 (n : N)            (* literal *)
| PR (lo hi : N)        (* lo..=hi *)
| POr (p q : pat).      (* p | q *)
(** match arms of src/decode/instructions.rs:203-1018 *)
Fixpoint pmatch (p : pat) (n : N) : bool :=
  match p with
  | P1 k => (n =? k)%N
  | PR lo hi => (lo <=? n)%N && (n <=? hi)%N
  | POr p q => pmatch p n || pmatch q n
  end.
(** match arms of src/decode/instructions.rs:203-1018 *)
Fixpoint switch {A} (n : N) (arms : list (pat * A)) (default : A) : A :=
  match arms with
  | [] => default
  | (p, a) :: arms' => if pmatch p n then a else switch n arms' default
  end.
(** a run of [literal => value] arms *)
(** match arms of src/decode/instructions.rs:203-1018 *)
Fixpoint assocN {A} (n : N) (tbl : list (N * A)) : option A :=
  match tbl with
  | [] => None
  | (k, a) :: tbl' => if (n =? k)%N then Some a else assocN n tbl'
  end.
