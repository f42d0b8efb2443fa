(** wadec-cli/src/main.rs.  Argument parsing (clap) and opening the input
    (patharg) are outside the model: their outcome is an argument.  Output is
    the list of strings printed; [println!]/[eprintln!] append a newline, which
    is left implicit. *)
From Verif Require Import Model.Prelude Model.Io Model.Ast Model.Errors Model.Module Model.Display.
From Verif Require Export Model.Debug Model.DebugError.
From Coq Require Import String.
Local Open Scope string_scope.

(** the thiserror-generated [Error] implementation of an error (Display.v) *)
(** derive(Error) on the error types of src/decode; used by wadec-cli/src/main.rs *)
Fixpoint view {T : Texts} (n : node) : dyn_error :=
  match n with
  | Leaf s => DynError s None
  | Io e => io_view e
  | FromUtf8 bytes => DynError (utf8_message bytes) None
  | Transparent n => view n
  | Message s n => DynError s (Some (view n))
  | Detached s _ => DynError s None
  end.

(** lines 33-38: [while let Some(cause) = current] *)
Fixpoint sources (e : dyn_error) : list dyn_error :=
  match e with
  | DynError _ None => []
  | DynError _ (Some c) => c :: sources c
  end.

(** lines 41-43: [for (i, cause) in sources.iter().enumerate()] *)
Fixpoint cause_lines (i : N) (l : list dyn_error) : list string :=
  match l with
  | [] => []
  | c :: l' => ("    " ++ dec i ++ ": " ++ e_display c) :: cause_lines (i + 1) l'
  end.

(** what the process leaves behind *)
Record outcome := mkOutcome { exit_code : N; out : list string; err : list string }.

(** lines 30-51; [dbg]: [{err:#?}] *)
Definition abort (verbose : bool) (e : dyn_error) (dbg : string) : outcome :=
  let srcs := sources e in
  mkOutcome 1 []
    (["ERROR: " ++ e_display e]
     ++ (match srcs with [] => [] | _ => (nl ++ "Caused by:") :: cause_lines 0 srcs end)
     ++ (if verbose then [nl ++ "DEBUG OUTPUT:" ++ nl ++ dbg] else [])).

(** lines 20-28.  [opened]: result of [cli.input.open()], an error and its
    Debug output or a reader.  [None] is a crash of the decoder (panic). *)
Definition cli_main {T : Texts} {env : Env} {R} `{Reader R}
    (verbose : bool) (opened : (dyn_error * string) + R) : option outcome :=
  match opened with
  | inl (e, dbg) => Some (abort verbose e dbg)                                            (* 22 *)
  | inr r =>
      match fst (decode_module r) with                                                    (* 23 *)
      | Ok m => Some (mkOutcome 0 (if verbose then [debug_module m] else []) [])          (* 25-28 *)
      | Err e => Some (abort verbose (view (n_module e)) (debug_error e))
      | Panic _ | Stuck => None
      end
  end.
