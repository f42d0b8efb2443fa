(** Specification: what the text printed by [--verbose] tells about a module.

    Everything, except which NaN a floating-point constant is. *)
From Verif Require Import Model.Ast Model.Display Model.Debug Spec.Equal.
From Coq Require Import List NArith Bool String Ascii.
Import ListNotations.
Local Open Scope string_scope.

(** a floating-point constant, with all NaNs made the same *)
Definition plain32 (b : f32) : f32 := match value 23 8 b with NaN => 0x7FC00000%N | _ => b end.
Definition plain64 (b : f64) : f64 := match value 52 11 b with NaN => 0x7FF8000000000000%N | _ => b end.

(** a module, with all NaNs made the same *)
Fixpoint instr_plain (i : instr) : instr :=
  match i with
  | I_F32Const b => I_F32Const (plain32 b)
  | I_F64Const b => I_F64Const (plain64 b)
  | I_Block t l => I_Block t (map instr_plain l)
  | I_Loop t l => I_Loop t (map instr_plain l)
  | I_TryTable t c l => I_TryTable t c (map instr_plain l)
  | I_If t l e => I_If t (map instr_plain l) (option_map (map instr_plain) e)
  | i => i
  end.
Definition expr_plain (e : Expr) : Expr := map instr_plain e.
Definition func_plain (f : Func) : Func := mkFunc (f_type f) (f_locals f) (expr_plain (f_body f)).
Definition table_plain (t : Table) : Table := mkTable (t_type t) (expr_plain (t_init t)).
Definition global_plain (g : Global) : Global := mkGlobal (g_type g) (expr_plain (g_init g)).
Definition elemmode_plain (k : ElemMode) : ElemMode := match k with EM_Active x o => EM_Active x (expr_plain o) | k => k end.
Definition elem_plain (e : Elem) : Elem := mkElem (e_type e) (map expr_plain (e_init e)) (elemmode_plain (e_mode e)).
Definition datamode_plain (k : DataMode) : DataMode := match k with DM_Active x o => DM_Active x (expr_plain o) | k => k end.
Definition data_plain (d : Data) : Data := mkData (d_init d) (datamode_plain (d_mode d)).
Definition module_plain (m : Module_) : Module_ :=
  mkModule (version m) (parsed_section_kinds m) (section_headers m) (custom_sections m) (types m)
    (map func_plain (funcs m)) (map table_plain (tables m)) (mems m) (map global_plain (globals m)) (map elem_plain (elems m))
    (data_count m) (map data_plain (datas m)) (start m) (imports m) (exports m) (tags m).
(** two modules that are the same, except for which NaNs they contain *)
Definition same_but_nans (m m' : Module_) : Prop := module_plain m = module_plain m'.
Definition no_nans (m : Module_) : Prop := Forall (fun c => float_value c <> NaN) (module_floats m).

(** ** What is required of the texts of std
    Floats: shortest decimal numerals that read back, so that two texts are the
    same only for the same bits, or for two NaNs; [1.5], [-0.0], [1e-7], [inf].
    Strings: quoted, with escapes, so that different strings have different texts
    and control characters do not occur.
    (A number that is not the bit pattern of an f32 or f64, or a byte sequence
    that is not UTF-8, has no text in Rust; such values do not occur in decoded
    modules.)  I/O errors: written with the builders of core::fmt, and showing
    the kind. *)
Definition single_line (s : string) : Prop := forall a b, s <> a ++ nl ++ b.
(** a name or a numeral *)
Definition token_char (c : ascii) : bool :=
  let n := N_of_ascii c in
  ((48 <=? n) && (n <=? 57) || (65 <=? n) && (n <=? 90) || (97 <=? n) && (n <=? 122))%N || existsb (Ascii.eqb c) ["_"; "."; "-"; "+"]%char.
Definition token (s : string) : Prop := s <> "" /\ Forall (fun c => token_char c = true) (list_ascii_of_string s).
(** a character that is not a control character *)
Definition printable (c : ascii) : Prop := (32 <= N_of_ascii c)%N /\ N_of_ascii c <> 127%N.
(** a quoted string: a quote, characters and escapes, a quote *)
Inductive literal_end : string -> Prop :=
| lit_quote : literal_end """"
| lit_char c s : c <> """"%char -> c <> "\"%char -> printable c -> literal_end s -> literal_end (String c s)
| lit_escape c s : printable c -> literal_end s -> literal_end (String "\" (String c s)).
Inductive literal : string -> Prop := lit_open s : literal_end s -> literal (String """" s).
(** what the builders print for such texts and names *)
Inductive well_formed : dtree -> Prop :=
| wf_token s : token s -> well_formed (DAtom s)
| wf_literal s : literal s -> well_formed (DAtom s)
| wf_unit : well_formed (DAtom "()")
| wf_DTuple n fs : token n -> fs <> [] -> Forall well_formed fs -> well_formed (DTuple n fs)
| wf_DStruct n fs : token n -> fs <> [] -> Forall (fun nf => token (fst nf) /\ well_formed (snd nf)) fs -> well_formed (DStruct n fs)
| wf_DList es : Forall well_formed es -> well_formed (DList es)
| wf_DPath n t : token n -> well_formed t -> well_formed (DPath n t).
Record readable (T : Texts) : Prop := {
  f32_text : forall b b', debug_f32 b = debug_f32 b' <-> plain32 b = plain32 b';
  f64_text : forall b b', debug_f64 b = debug_f64 b' <-> plain64 b = plain64 b';
  str_text : forall s s', debug_str s = debug_str s' -> s = s';
  io_text : forall e e', debug_io e = debug_io e' -> e = e';
  f32_shape : forall b, token (debug_f32 b);
  f64_shape : forall b, token (debug_f64 b);
  str_shape : forall s, literal (debug_str s);
  io_shape : forall e, well_formed (debug_io e);
  utf8_shape : forall bs, well_formed (debug_utf8_error bs) }.

(** what is printed line by line, as one text *)
Definition printed (l : list string) : string := fold_right (fun s text => s ++ nl ++ text) "" l.
