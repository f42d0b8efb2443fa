(** Specification: the layout of [{:#?}] and of [{:?}].  A tree of names and
    fields is printed as lines, each with a level of nesting; a line is indented
    by four spaces per level. *)
From Verif Require Import Model.Debug.
From Coq Require Import List String Ascii.
Import ListNotations.
Local Open Scope string_scope.

(** [before]: what precedes the value on its first line (the name of a field);
    [after]: what follows it on its last line (a comma) *)
Fixpoint lines (level : nat) (before : string) (t : dtree) (after : string) : list (nat * string) :=
  match t with
  | DAtom text => [(level, before ++ text ++ after)]
  | DTuple name [] | DStruct name [] => [(level, before ++ name ++ after)]
  | DList [] => [(level, before ++ "[]" ++ after)]
  | DTuple name fs => (level, before ++ name ++ "(") :: flat_map (fun f => lines (S level) "" f ",") fs ++ [(level, ")" ++ after)]
  | DStruct name fs => (level, before ++ name ++ " {") :: flat_map (fun nf => lines (S level) (fst nf ++ ": ") (snd nf) ",") fs ++ [(level, "}" ++ after)]
  | DList es => (level, before ++ "[") :: flat_map (fun e => lines (S level) "" e ",") es ++ [(level, "]" ++ after)]
  | DPath prefix t => lines level (before ++ prefix ++ "::") t after
  end.
Definition line_feed : string := String (ascii_of_nat 10) "".
Fixpoint spaces (n : nat) : string := match n with O => "" | S n => String " " (spaces n) end.
Definition page (ls : list (nat * string)) : string := String.concat line_feed (map (fun l => spaces (4 * fst l) ++ snd l) ls).

(** on one line *)
Fixpoint phrase (t : dtree) : string :=
  match t with
  | DAtom text => text
  | DTuple name [] | DStruct name [] => name
  | DTuple name fs => name ++ "(" ++ String.concat ", " (map phrase fs) ++ ")"
  | DStruct name fs => name ++ " { " ++ String.concat ", " (map (fun nf => fst nf ++ ": " ++ phrase (snd nf)) fs) ++ " }"
  | DList es => "[" ++ String.concat ", " (map phrase es) ++ "]"
  | DPath prefix t => prefix ++ "::" ++ page (lines 0 "" t "")
  end.
