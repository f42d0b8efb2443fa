(** Specification: nesting of instructions, the expressions of a module, and
    sizes of modules - what the resource properties are stated with. *)
From Verif Require Import Model.Prelude Model.Ast Spec.Lang Spec.Types Spec.Instr Spec.Module Spec.Layout.

(** depth of nested blocks: 0 for an instruction without a body *)
Fixpoint nesting (i : instr) : nat :=
  match i with
  | I_Block _ b | I_Loop _ b | I_TryTable _ _ b => S (fold_right (fun j n => Nat.max (nesting j) n) 0 b)
  | I_If _ b1 b2 =>
      S (Nat.max (fold_right (fun j n => Nat.max (nesting j) n) 0 b1)
                 (match b2 with Some b => fold_right (fun j n => Nat.max (nesting j) n) 0 b | None => 0 end))
  | _ => 0
  end.

Definition elem_exprs (e : Elem) : list Expr :=
  e_init e ++ match e_mode e with EM_Active _ o => [o] | _ => [] end.
Definition data_exprs (d : Data) : list Expr :=
  match d_mode d with DM_Active _ o => [o] | DM_Passive => [] end.
(** every expression of a module: function bodies, initialisers, offsets *)
Definition exprs (m : Module_) : list Expr :=
  map f_body (funcs m) ++ map t_init (tables m) ++ map g_init (globals m)
  ++ flat_map elem_exprs (elems m) ++ flat_map data_exprs (datas m).

(** all instructions of the module are nested less than [d] deep *)
Definition shallow (d : nat) (m : Module_) : Prop :=
  forall e i, In e (exprs m) -> In i e -> nesting i < d.

(** ** Size of a module
    One unit per element of a vector (list) and per byte of a name, of custom
    contents or of data; everything else in the abstract syntax has a fixed
    number of fields.  The locals of functions are left out. *)
Definition sum {A} (w : A -> nat) (l : list A) : nat := fold_right (fun x n => w x + n) 0 l.
Fixpoint instr_size (i : instr) : nat :=
  match i with
  | I_Block _ b | I_Loop _ b => 1 + fold_right (fun j n => instr_size j + n) 0 b
  | I_TryTable _ cs b => 1 + length cs + fold_right (fun j n => instr_size j + n) 0 b
  | I_If _ b1 b2 =>
      1 + fold_right (fun j n => instr_size j + n) 0 b1
        + match b2 with Some b => fold_right (fun j n => instr_size j + n) 0 b | None => 0 end
  | I_BrTable ls _ => 1 + length ls
  | I_Select (Some ts) => 1 + length ts
  | _ => 1
  end.
Definition expr_size (e : Expr) : nat := 1 + sum instr_size e.
Definition comptype_size (t : CompType) : nat :=
  match t with CT_Struct fs => length fs | CT_Array _ => 1 | CT_Func ps rs => length ps + length rs end.
Definition rectype_size (t : RecType) : nat :=
  1 + sum (fun st => 1 + length (supertypes st) + comptype_size (comptype st)) t.
Definition import_size (i : Import) : nat := 1 + length (im_module i) + length (im_item i).
Definition func_size (f : Func) : nat := 1 + expr_size (f_body f).
Definition table_size (t : Table) : nat := 1 + expr_size (t_init t).
Definition global_size (g : Global) : nat := 1 + expr_size (g_init g).
Definition export_size (e : Export) : nat := 1 + length (ex_name e).
Definition elem_size (e : Elem) : nat :=
  1 + sum expr_size (e_init e) + match e_mode e with EM_Active _ o => expr_size o | _ => 0 end.
Definition data_size (d : Data) : nat :=
  1 + length (d_init d) + match d_mode d with DM_Active _ o => expr_size o | _ => 0 end.
Definition custom_size (c : CustomSection) : nat := 1 + length (cs_name c) + length (cs_contents c).
Definition size (m : Module_) : nat :=
  length (version m) + length (parsed_section_kinds m) + length (section_headers m)
  + sum custom_size (custom_sections m) + sum rectype_size (types m) + sum import_size (imports m)
  + sum func_size (funcs m) + sum table_size (tables m) + length (mems m) + length (tags m)
  + sum global_size (globals m) + sum export_size (exports m) + sum elem_size (elems m) + sum data_size (datas m).

(** ** Vectors of a module
    The length of each vector (Vec or String) of a module, those of functions'
    locals included.  [version] is an array of four bytes, not a vector. *)
Fixpoint instr_vectors (i : instr) : list nat :=
  match i with
  | I_Block _ b | I_Loop _ b => length b :: flat_map instr_vectors b
  | I_TryTable _ cs b => length cs :: length b :: flat_map instr_vectors b
  | I_If _ b1 b2 =>
      length b1 :: flat_map instr_vectors b1
      ++ match b2 with Some b => length b :: flat_map instr_vectors b | None => [] end
  | I_BrTable ls _ => [length ls]
  | I_Select (Some ts) => [length ts]
  | _ => []
  end.
Definition expr_vectors (e : Expr) : list nat := length e :: flat_map instr_vectors e.
Definition comptype_vectors (t : CompType) : list nat :=
  match t with CT_Struct fs => [length fs] | CT_Array _ => [] | CT_Func ps rs => [length ps; length rs] end.
Definition rectype_vectors (t : RecType) : list nat :=
  length t :: flat_map (fun st => length (supertypes st) :: comptype_vectors (comptype st)) t.
Definition import_vectors (i : Import) : list nat := [length (im_module i); length (im_item i)].
Definition func_vectors (f : Func) : list nat := length (f_locals f) :: expr_vectors (f_body f).
Definition elem_vectors (e : Elem) : list nat :=
  length (e_init e) :: flat_map expr_vectors (e_init e) ++ match e_mode e with EM_Active _ o => expr_vectors o | _ => [] end.
Definition data_vectors (d : Data) : list nat :=
  length (d_init d) :: match d_mode d with DM_Active _ o => expr_vectors o | DM_Passive => [] end.
Definition custom_vectors (c : CustomSection) : list nat := [length (cs_name c); length (cs_contents c)].
Definition vectors (m : Module_) : list nat :=
  [length (parsed_section_kinds m); length (section_headers m); length (custom_sections m);
   length (types m); length (funcs m); length (tables m); length (mems m); length (globals m);
   length (elems m); length (datas m); length (imports m); length (exports m); length (tags m)]
  ++ flat_map custom_vectors (custom_sections m) ++ flat_map rectype_vectors (types m)
  ++ flat_map func_vectors (funcs m) ++ flat_map (fun t => expr_vectors (t_init t)) (tables m)
  ++ flat_map (fun g => expr_vectors (g_init g)) (globals m) ++ flat_map elem_vectors (elems m)
  ++ flat_map data_vectors (datas m) ++ flat_map import_vectors (imports m)
  ++ map (fun e => length (ex_name e)) (exports m).

(** ** Groups of locals
    A code entry lists a function's locals in groups of one type, each with a
    count, so the number of groups is not part of the module: it is read off
    the file. *)
(** a code entry with [n] groups of locals *)
Inductive Bgrouped : lang nat :=
| Bgrouped_intro locs e size w1 w2 : Blist Blocals locs w1 -> Bexpr e w2 ->
    (N.of_nat (length (concat locs)) < 2 ^ 32)%N -> Bu32 (N.of_nat (length (w1 ++ w2))) size ->
    Bgrouped (length locs) (size ++ w1 ++ w2).
(** an entry of the code section of file [bs] has [n] groups of locals *)
Definition local_groups (bs : list byte) (n : nat) : Prop :=
  exists ps rest payload gs, bs = preamble ++ rest /\ parts ps rest /\ In (SK_Code, payload) ps /\
    Blist Bgrouped gs payload /\ In n gs.
