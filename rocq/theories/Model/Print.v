(** wadec-cli/src/main.rs once more, with the streams it prints to.  [println!]
    and [eprintln!] panic if the text cannot be written; a panic of main prints
    a message to stderr (whether or not that succeeds) and ends the process with
    status 101.

    Simplified: what std does between [println!] and the file descriptor
    (formatting in pieces, line buffering, retrying) is one call [put] of the
    stream, which says whether everything up to the final newline went through. *)
From Verif Require Import Model.Prelude Model.Io Model.Ast Model.Errors Model.Module Model.Display Model.Cli Model.Override.
From Coq Require Import String.
Local Open Scope string_scope.

(** a stream: writes a text or a part of it; true if all of it *)
(** std: the streams behind println! and eprintln! *)
Class Sink (W : Type) := put : W -> string -> bool * W.

(** what the process leaves behind: its exit status and the two streams *)
Record process (W V : Type) := mkProcess { status : N; stdout : W; stderr : V }.
Arguments mkProcess {W V}. Arguments status {W V}. Arguments stdout {W V}. Arguments stderr {W V}.

Section Print.
  Context {W V : Type} `{Sink W} `{Sink V}.
  (** what the panic hook prints *)
  Variable panic_text : string.

  (** std: a panic in main *)
  Definition panicked (w : W) (v : V) : process W V := mkProcess 101 w (snd (put v (panic_text ++ nl))).
  (** std: [println!] and [eprintln!], and what comes after them *)
  Definition println (s : string) (w : W) (v : V) (k : W -> V -> process W V) : process W V :=
    match put w (s ++ nl) with (true, w') => k w' v | (false, w') => panicked w' v end.
  Definition eprintln (s : string) (w : W) (v : V) (k : W -> V -> process W V) : process W V :=
    match put v (s ++ nl) with (true, v') => k w v' | (false, v') => panicked w v' end.

  (** lines 41-43 *)
  Fixpoint print_causes (i : N) (l : list dyn_error) (w : W) (v : V) (k : W -> V -> process W V) : process W V :=
    match l with
    | [] => k w v
    | c :: l' => eprintln ("    " ++ dec i ++ ": " ++ e_display c) w v (fun w v => print_causes (i + 1) l' w v k)
    end.
  (** lines 30-51 *)
  Definition print_abort (verbose : bool) (e : dyn_error) (dbg : string) (w : W) (v : V) : process W V :=
    eprintln ("ERROR: " ++ e_display e) w v (fun w v =>                                   (* 31 *)
      let srcs := sources e in                                                            (* 33-38 *)
      let rest w v :=
        if verbose then eprintln (nl ++ "DEBUG OUTPUT:" ++ nl ++ dbg) w v (fun w v => mkProcess 1 w v)   (* 46-50 *)
        else mkProcess 1 w v in
      match srcs with                                                                     (* 39 *)
      | [] => rest w v
      | _ => eprintln (nl ++ "Caused by:") w v (fun w v => print_causes 0 srcs w v rest)  (* 40-43 *)
      end).
  (** lines 20-28; [None] is a crash of the decoder.  [opened]: the error of
      [cli.input.open()], or what [decode_module] returned for the input. *)
  Definition print_run {T : Texts} (verbose : bool) (opened : (dyn_error * string) + res DecodeModuleError Module_) (w : W) (v : V) : option (process W V) :=
    match opened with
    | inl (e, dbg) => Some (print_abort verbose e dbg w v)                                (* 22 *)
    | inr (Ok m) => Some (if verbose then println (debug_module m) w v (fun w v => mkProcess 0 w v) else mkProcess 0 w v)   (* 25-28 *)
    | inr (Err e) => Some (print_abort verbose (view (n_module e)) (debug_error e) w v)   (* 23 *)
    | inr (Panic _) | inr Stuck => None
    end.
  (** wadec-cli/src/main.rs:20-28 *)
  Definition print_main {T : Texts} {env : Env} {R} `{Reader R}
      (verbose : bool) (opened : (dyn_error * string) + R) : W -> V -> option (process W V) :=
    print_run verbose (match opened with inl e => inl e | inr r => inr (fst (decode_module r)) end).
  (** for an input with its own [read_exact], such as a [BufReader] *)
  (** wadec-cli/src/main.rs:20-28 *)
  Definition print_main_own {T : Texts} {env : Env} {R} `{OwnReader R}
      (verbose : bool) (opened : (dyn_error * string) + R) : W -> V -> option (process W V) :=
    print_run verbose (match opened with inl e => inl e | inr r => inr (fst (decode_module_own r)) end).
End Print.
