(** Specification: where and how a byte string fails to be UTF-8.  [utf8],
    [utf8_char] (the bytes of a scalar value): Spec/Lang.v. *)
From Verif Require Import Model.Prelude Spec.Lang.
From Coq Require Import List.
Import ListNotations.
Local Open Scope N_scope.

(** the bytes begin the encoding of some character; are the encoding of one *)
Definition starts_char (p : list byte) : Prop := exists c w, scalar_value c /\ utf8_char c = p ++ w.
Definition whole_char (p : list byte) : Prop := exists c, scalar_value c /\ utf8_char c = p.
Definition len (l : list byte) : N := N.of_nat (length l).

(** [located bs v k]: after [v] bytes of whole characters comes something else:
    - [k = None]: the beginning of a character that the end of [bs] cuts off;
    - [k = Some n]: [n] bytes that no character begins with what follows.  They
      are as many as still begin a character (the "maximal subpart" of the
      Unicode standard), or a single byte if none begins with it. *)
Inductive located : list byte -> N -> option N -> Prop :=
| cut_off v p : utf8 v -> p <> [] -> starts_char p -> ~ whole_char p -> located (v ++ p) (len v) None
| no_start v b rest : utf8 v -> ~ starts_char [b] -> located (v ++ b :: rest) (len v) (Some 1)
| broken v p b rest : utf8 v -> p <> [] -> starts_char p -> ~ whole_char p -> ~ starts_char (p ++ [b]) ->
    located (v ++ p ++ b :: rest) (len v) (Some (len p)).

(** ** in errors *)
From Verif Require Import Model.Errors Model.Display Spec.Cli.
From Coq Require Import String.
Local Open Scope string_scope.

(** the error contains that the bytes are not UTF-8 *)
Fixpoint carries (n : node) (bytes : list byte) : Prop :=
  match n with
  | Leaf _ | Io _ => False
  | FromUtf8 b => b = bytes
  | Transparent n | Message _ n | Detached _ n => carries n bytes
  end.
(** and reaches it through the sources *)
Fixpoint reveals (n : node) (bytes : list byte) : Prop :=
  match n with
  | Leaf _ | Io _ | Detached _ _ => False
  | FromUtf8 b => b = bytes
  | Transparent n | Message _ n => reveals n bytes
  end.
(** what std says of the place *)
Inductive sentence : string -> N -> option N -> Prop :=
| says_cut_off v s : decimal s v -> sentence ("incomplete utf-8 byte sequence from index " ++ s) v None
| says_invalid v n s t : decimal s v -> decimal t n -> sentence ("invalid utf-8 sequence of " ++ t ++ " bytes from index " ++ s) v (Some n).
