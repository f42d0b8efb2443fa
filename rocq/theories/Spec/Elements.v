(** Specification: the entries of a section.  Eleven kinds of sections hold a
    list: a count, then the encodings of the entries, one after the other. *)
From Verif Require Import Model.Ast Spec.Lang Spec.Types Spec.Instr Spec.Module Spec.Layout.

Definition listed (k : SectionKind) : Prop := match k with SK_Custom | SK_Start | SK_DataCount => False | _ => True end.

Inductive entry : Type :=
| En_Type (t : RecType)
| En_Import (i : Import)
| En_Function (x : TypeIdx)
| En_Table (t : Table)
| En_Memory (t : MemType)
| En_Tag (t : TagType)
| En_Global (g : Global)
| En_Export (x : Export)
| En_Element (e : Elem)
| En_Code (locals : list ValType) (body : Expr)
| En_Data (d : Data).

(** [bs] encodes the entry [e] of a section of kind [k] *)
Inductive Bentry : SectionKind -> entry -> list byte -> Prop :=
| Be_type t bs : Brectype t bs -> Bentry SK_Type (En_Type t) bs
| Be_import i bs : Bimport i bs -> Bentry SK_Import (En_Import i) bs
| Be_function x bs : Bidx x bs -> Bentry SK_Function (En_Function x) bs
| Be_table t bs : Btable t bs -> Bentry SK_Table (En_Table t) bs
| Be_memory t bs : Bmemtype t bs -> Bentry SK_Memory (En_Memory t) bs
| Be_tag t bs : Btagtype t bs -> Bentry SK_Tag (En_Tag t) bs
| Be_global g bs : Bglobal g bs -> Bentry SK_Global (En_Global g) bs
| Be_export x bs : Bexport x bs -> Bentry SK_Export (En_Export x) bs
| Be_element e bs : Belem e bs -> Bentry SK_Element (En_Element e) bs
| Be_code ls e bs : Bcode (ls, e) bs -> Bentry SK_Code (En_Code ls e) bs
| Be_data d bs : Bdata d bs -> Bentry SK_Data (En_Data d) bs.

(** what a module holds for a section of kind [k]; a function's type index and
    its code are in different sections *)
Definition entries (k : SectionKind) (m : Module_) : list entry :=
  match k with
  | SK_Type => map En_Type (types m)
  | SK_Import => map En_Import (imports m)
  | SK_Function => map (fun f => En_Function (f_type f)) (funcs m)
  | SK_Table => map En_Table (tables m)
  | SK_Memory => map En_Memory (mems m)
  | SK_Tag => map En_Tag (tags m)
  | SK_Global => map En_Global (globals m)
  | SK_Export => map En_Export (exports m)
  | SK_Element => map En_Element (elems m)
  | SK_Code => map (fun f => En_Code (f_locals f) (f_body f)) (funcs m)
  | SK_Data => map En_Data (datas m)
  | SK_Custom | SK_Start | SK_DataCount => []
  end.

(** the contents [p] are a count followed by these items *)
Definition consists (p : list byte) (items : list (list byte)) : Prop :=
  exists count, Bu32 (N.of_nat (length items)) count /\ p = count ++ concat items.

(** the entries [es] can take the place of those of [host]: the function and the
    code section stay as long as each other, the data count stays right, and
    there are no data indices without it *)
Definition fits (k : SectionKind) (host : Module_) (es : list entry) : Prop :=
  match k with
  | SK_Function => length es = length (funcs host)
  | SK_Code => length es = length (funcs host) /\
               (data_count host = None -> forall ls body i, In (En_Code ls body) es -> In i body -> ~ mentions_data i)
  | SK_Data => data_count host = None \/ length es = length (datas host)
  | _ => True
  end.
