(** Specification: which part of a module belongs to which kind of section, and
    which requirements relate sections of different kinds. *)
From Verif Require Import Model.Ast Spec.Lang Spec.Types Spec.Instr Spec.Module Spec.Layout.

Definition kind_dec (k k' : SectionKind) : {k = k'} + {k <> k'}.
Proof. decide equality. Defined.

(** the contents, as bytes, of the sections of kind [k] in a file, in order *)
Definition payloads (k : SectionKind) (ps : list (SectionKind * list byte)) : list (list byte) :=
  map snd (filter (fun p => if kind_dec (fst p) k then true else false) ps).

(** two modules agree in what belongs to sections of kind [k] *)
Definition agree (k : SectionKind) (m m' : Module_) : Prop :=
  match k with
  | SK_Custom => custom_sections m = custom_sections m'
  | SK_Type => types m = types m'
  | SK_Import => imports m = imports m'
  | SK_Function => map f_type (funcs m) = map f_type (funcs m')
  | SK_Table => tables m = tables m'
  | SK_Memory => mems m = mems m'
  | SK_Tag => tags m = tags m'
  | SK_Global => globals m = globals m'
  | SK_Export => exports m = exports m'
  | SK_Start => start m = start m'
  | SK_Element => elems m = elems m'
  | SK_DataCount => data_count m = data_count m'
  | SK_Code => map (fun f => (f_locals f, f_body f)) (funcs m) = map (fun f => (f_locals f, f_body f)) (funcs m')
  | SK_Data => datas m = datas m'
  end.

(** the section of kind [k] of [donor] can replace that of [host]: only function
    and code section, data count and data section, data count section and uses
    of data indices depend on each other *)
Definition compatible (k : SectionKind) (host donor : Module_) : Prop :=
  match k with
  | SK_Function => length (funcs donor) = length (funcs host)
  | SK_Code => length (funcs donor) = length (funcs host) /\
               (data_count host = None -> forall f i, In f (funcs donor) -> In i (f_body f) -> ~ mentions_data i)
  | SK_DataCount => length (datas donor) = length (datas host)
  | SK_Data => data_count host = None \/ length (datas donor) = length (datas host)
  | _ => True
  end.
(** the same for leaving the section out *)
Definition dispensable (k : SectionKind) (host : Module_) : Prop :=
  match k with
  | SK_Function | SK_Code => funcs host = []
  | SK_DataCount => forall f i, In f (funcs host) -> In i (f_body f) -> ~ mentions_data i
  | SK_Data => data_count host = None \/ datas host = []
  | _ => True
  end.
(** nothing of kind [k] *)
Definition lacks (k : SectionKind) (m : Module_) : Prop :=
  match k with
  | SK_Custom => custom_sections m = []
  | SK_Type => types m = []
  | SK_Import => imports m = []
  | SK_Function | SK_Code => funcs m = []
  | SK_Table => tables m = []
  | SK_Memory => mems m = []
  | SK_Tag => tags m = []
  | SK_Global => globals m = []
  | SK_Export => exports m = []
  | SK_Start => start m = None
  | SK_Element => elems m = []
  | SK_DataCount => data_count m = None
  | SK_Data => datas m = []
  end.
