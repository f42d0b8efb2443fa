(** Specification: when two modules compare equal with [==].

    Floating-point constants denote numbers; everything else is data.  Two
    modules are equal when they are the same up to their floating-point
    constants and these denote the same numbers. *)
From Verif Require Import Model.Ast.
From Coq Require Import List NArith ZArith.
Import ListNotations.

(** ** IEEE 754: the value of a bit pattern with [m] bits of fraction and [e]
    bits of exponent.  A finite number is given as a multiple of the smallest
    positive number of the format (2^-149 for f32, 2^-1074 for f64). *)
Inductive number := Finite (units : Z) | Infinite (negative : bool) | NaN.
Definition value (m e : N) (bits : N) : number :=
  let fraction := N.land bits (N.ones m) in
  let exponent := N.land (N.shiftr bits m) (N.ones e) in
  let negative := N.testbit bits (m + e) in
  let signed (n : N) := if negative then (- Z.of_N n)%Z else Z.of_N n in
  if (exponent =? N.ones e)%N then if (fraction =? 0)%N then Infinite negative else NaN
  else if (exponent =? 0)%N then Finite (signed fraction)
  else Finite (signed ((2 ^ m + fraction) * 2 ^ (exponent - 1)))%N.
(** a floating-point constant *)
Inductive float := Single (bits : f32) | Double (bits : f64).
Definition float_value (c : float) : number :=
  match c with Single b => value 23 8 b | Double b => value 52 11 b end.
Definition is_single (c : float) : bool := match c with Single _ => true | Double _ => false end.
(** the comparison of IEEE 754: NaN is not equal to anything *)
Definition same_number (c c' : float) : Prop :=
  is_single c = is_single c' /\ float_value c = float_value c' /\ float_value c <> NaN.

(** ** The floating-point constants of a module, in order *)
Fixpoint instr_floats (i : instr) : list float :=
  match i with
  | I_F32Const b => [Single b]
  | I_F64Const b => [Double b]
  | I_Block _ l | I_Loop _ l | I_TryTable _ _ l => flat_map instr_floats l
  | I_If _ l None => flat_map instr_floats l
  | I_If _ l (Some l') => flat_map instr_floats l ++ flat_map instr_floats l'
  | _ => []
  end.
Definition expr_floats (e : Expr) : list float := flat_map instr_floats e.
Definition module_floats (m : Module_) : list float :=
  flat_map (fun f => expr_floats (f_body f)) (funcs m)
  ++ flat_map (fun t => expr_floats (t_init t)) (tables m)
  ++ flat_map (fun g => expr_floats (g_init g)) (globals m)
  ++ flat_map (fun e => flat_map expr_floats (e_init e)
                        ++ match e_mode e with EM_Active _ o => expr_floats o | _ => [] end) (elems m)
  ++ flat_map (fun d => match d_mode d with DM_Active _ o => expr_floats o | _ => [] end) (datas m).

(** ** The rest of a module: all floating-point constants set to zero *)
Fixpoint instr_rest (i : instr) : instr :=
  match i with
  | I_F32Const _ => I_F32Const 0%N
  | I_F64Const _ => I_F64Const 0%N
  | I_Block t l => I_Block t (map instr_rest l)
  | I_Loop t l => I_Loop t (map instr_rest l)
  | I_TryTable t c l => I_TryTable t c (map instr_rest l)
  | I_If t l e => I_If t (map instr_rest l) (option_map (map instr_rest) e)
  | i => i
  end.
Definition expr_rest (e : Expr) : Expr := map instr_rest e.
Definition func_rest (f : Func) : Func := mkFunc (f_type f) (f_locals f) (expr_rest (f_body f)).
Definition table_rest (t : Table) : Table := mkTable (t_type t) (expr_rest (t_init t)).
Definition global_rest (g : Global) : Global := mkGlobal (g_type g) (expr_rest (g_init g)).
Definition elem_rest (e : Elem) : Elem :=
  mkElem (e_type e) (map expr_rest (e_init e)) match e_mode e with EM_Active x o => EM_Active x (expr_rest o) | k => k end.
Definition data_rest (d : Data) : Data :=
  mkData (d_init d) match d_mode d with DM_Active x o => DM_Active x (expr_rest o) | k => k end.
Definition module_rest (m : Module_) : Module_ :=
  mkModule (version m) (parsed_section_kinds m) (section_headers m) (custom_sections m) (types m)
    (map func_rest (funcs m)) (map table_rest (tables m)) (mems m) (map global_rest (globals m)) (map elem_rest (elems m))
    (data_count m) (map data_rest (datas m)) (start m) (imports m) (exports m) (tags m).

Definition equal (m m' : Module_) : Prop :=
  module_rest m = module_rest m' /\ Forall2 same_number (module_floats m) (module_floats m').
