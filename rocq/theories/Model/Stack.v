(** Printing on a stack of limited height.  [{:#?}] (wadec-cli/src/main.rs:26,
    47) is recursive: the [Debug] implementation of a value calls those of its
    fields, through core::fmt's builders.

    Simplified: the stack is counted in nested [Debug] calls, each of which is
    a bounded number of Rust frames (fmt, DebugTuple::field or
    DebugStruct::field or DebugList::entry, PadAdapter). *)
From Verif Require Import Model.Prelude Model.Io Model.Ast Model.Errors Model.Module Model.Display Model.Debug Model.DebugError Model.Cli.
From Coq Require Import String.
Local Open Scope string_scope.

(** all the results, if there are all of them *)
(** core::fmt::builders, [DebugInner]: the first failure is kept *)
Fixpoint all {A} (l : list (option A)) : option (list A) :=
  match l with
  | [] => Some []
  | None :: _ => None
  | Some a :: l' => match all l' with Some r => Some (a :: r) | None => None end
  end.
(** core::fmt with [{:#?}], as [pretty] (Debug.v), with at most [n] nested
    calls; [None]: the stack overflows, which aborts the process *)
Fixpoint pretty_in (n : nat) (t : dtree) : option string :=
  match n with
  | 0 => None
  | S n' =>
      match t with
      | DAtom s => Some s
      | DTuple name [] => Some name
      | DTuple name fs =>
          match all (map (pretty_in n') fs) with
          | Some l => Some (name ++ "(" ++ nl ++ strings (map (fun s => pad true (s ++ "," ++ nl)) l) ++ ")")
          | None => None
          end
      | DStruct name [] => Some name
      | DStruct name fs =>
          match all (map (fun nf => match pretty_in n' (snd nf) with Some s => Some (fst nf, s) | None => None end) fs) with
          | Some l => Some (name ++ " {" ++ nl ++ strings (map (fun ns => pad true (fst ns ++ ": " ++ snd ns ++ "," ++ nl)) l) ++ "}")
          | None => None
          end
      | DList [] => Some "[]"
      | DList es =>
          match all (map (pretty_in n') es) with
          | Some l => Some ("[" ++ nl ++ strings (map (fun s => pad true (s ++ "," ++ nl)) l) ++ "]")
          | None => None
          end
      | DPath prefix t => match pretty_in n' t with Some s => Some (prefix ++ "::" ++ s) | None => None end
      end
  end.

(** wadec-cli/src/main.rs:20-51, with at most [k] nested [Debug] calls;
    [None]: the process is aborted *)
Definition cli_main_in {T : Texts} {env : Env} {R} `{Reader R}
    (k : nat) (verbose : bool) (opened : (dyn_error * string) + R) : option outcome :=
  match opened with
  | inl (e, dbg) => Some (abort verbose e dbg)                                            (* 22 *)
  | inr r =>
      match fst (decode_module r) with                                                    (* 23 *)
      | Ok m =>
          if verbose then
            match pretty_in k (d_module m) with Some s => Some (mkOutcome 0 [s] []) | None => None end   (* 25-27 *)
          else Some (mkOutcome 0 [] [])
      | Err e =>
          if verbose then
            match pretty_in k (d_DecodeModuleError e) with Some s => Some (abort true (view (n_module e)) s) | None => None end   (* 47 *)
          else Some (abort false (view (n_module e)) "")
      | Panic _ | Stuck => None
      end
  end.
