(** Specification, part 4: modules (5.5) *)
From Verif Require Import Model.Ast Spec.Lang Spec.Types Spec.Instr.
Local Open Scope N_scope.

(** 5.5.4-5.5.15: section contents, entry by entry *)
Inductive Bcustom : lang CustomSection :=
| Bcustom_intro name contents bs : Bname name bs -> Bcustom (mkCustom name contents) (bs ++ contents).

Inductive Bimport : lang Import :=
| Bimport_intro nm1 nm2 d bs1 bs2 bs3 : Bname nm1 bs1 -> Bname nm2 bs2 -> Bexterntype d bs3 ->
    Bimport (mkImport nm1 nm2 d) (bs1 ++ bs2 ++ bs3).

Inductive Btable : lang Table :=
| Btable_plain t bs : Btabletype t bs -> Btable (mkTable t [I_RefNull (ht (tt_reftype t))]) bs
| Btable_init t e bs1 bs2 : Btabletype t bs1 -> Bexpr e bs2 -> Btable (mkTable t e) (x40 :: x00 :: bs1 ++ bs2).

Inductive Bglobal : lang Global :=
| Bglobal_intro t e bs1 bs2 : Bglobaltype t bs1 -> Bexpr e bs2 -> Bglobal (mkGlobal t e) (bs1 ++ bs2).

Inductive Bexternidx : lang ExternIdx :=
| Bei_func x bs : Bidx x bs -> Bexternidx (EI_Func x) (x00 :: bs)
| Bei_table x bs : Bidx x bs -> Bexternidx (EI_Table x) (x01 :: bs)
| Bei_mem x bs : Bidx x bs -> Bexternidx (EI_Mem x) (x02 :: bs)
| Bei_global x bs : Bidx x bs -> Bexternidx (EI_Global x) (x03 :: bs)
| Bei_tag x bs : Bidx x bs -> Bexternidx (EI_Tag x) (x04 :: bs).
Inductive Bexport : lang Export :=
| Bexport_intro nm d bs1 bs2 : Bname nm bs1 -> Bexternidx d bs2 -> Bexport (mkExport nm d) (bs1 ++ bs2).

Inductive Belemkind : lang RefType :=
| Belemkind_func : Belemkind (mkRefType true (Ht AH_Func)) [x00].
(** the initialiser expression [ref.func y] for each function index *)
Definition ref_funcs (ys : list FuncIdx) : list Expr := map (fun y => [I_RefFunc y]) ys.
Inductive Belem : lang Elem :=
| Belem_0 e ys b bs1 bs2 : Bu32 0 b -> Bexpr e bs1 -> Blist Bidx ys bs2 ->
    Belem (mkElem (mkRefType false (Ht AH_Func)) (ref_funcs ys) (EM_Active 0 e)) (b ++ bs1 ++ bs2)
| Belem_1 rt ys b bs1 bs2 : Bu32 1 b -> Belemkind rt bs1 -> Blist Bidx ys bs2 ->
    Belem (mkElem rt (ref_funcs ys) EM_Passive) (b ++ bs1 ++ bs2)
| Belem_2 x e rt ys b bs1 bs2 bs3 bs4 : Bu32 2 b -> Bidx x bs1 -> Bexpr e bs2 -> Belemkind rt bs3 -> Blist Bidx ys bs4 ->
    Belem (mkElem rt (ref_funcs ys) (EM_Active x e)) (b ++ bs1 ++ bs2 ++ bs3 ++ bs4)
| Belem_3 rt ys b bs1 bs2 : Bu32 3 b -> Belemkind rt bs1 -> Blist Bidx ys bs2 ->
    Belem (mkElem rt (ref_funcs ys) EM_Declare) (b ++ bs1 ++ bs2)
| Belem_4 e es b bs1 bs2 : Bu32 4 b -> Bexpr e bs1 -> Blist Bexpr es bs2 ->
    Belem (mkElem (mkRefType true (Ht AH_Func)) es (EM_Active 0 e)) (b ++ bs1 ++ bs2)
| Belem_5 rt es b bs1 bs2 : Bu32 5 b -> Breftype rt bs1 -> Blist Bexpr es bs2 ->
    Belem (mkElem rt es EM_Passive) (b ++ bs1 ++ bs2)
| Belem_6 x e rt es b bs1 bs2 bs3 bs4 : Bu32 6 b -> Bidx x bs1 -> Bexpr e bs2 -> Breftype rt bs3 -> Blist Bexpr es bs4 ->
    Belem (mkElem rt es (EM_Active x e)) (b ++ bs1 ++ bs2 ++ bs3 ++ bs4)
| Belem_7 rt es b bs1 bs2 : Bu32 7 b -> Breftype rt bs1 -> Blist Bexpr es bs2 ->
    Belem (mkElem rt es EM_Declare) (b ++ bs1 ++ bs2).

(** code entries: locals ::= n:u32 t:valtype => t^n;
    func ::= loc_list:list(locals) e:expr  (if |concat(loc_list)| < 2^32);
    code ::= len:u32 f:func             (if len = ||func||) *)
Inductive Blocals : lang (list ValType) :=
| Blocals_intro n t bs1 bs2 : Bu32 n bs1 -> Bvaltype t bs2 -> Blocals (repeat t (N.to_nat n)) (bs1 ++ bs2).
Inductive Bfunc : lang (list ValType * Expr) :=
| Bfunc_intro locs e bs1 bs2 : Blist Blocals locs bs1 -> Bexpr e bs2 ->
    (N.of_nat (length (concat locs)) < 2 ^ 32)%N ->
    Bfunc (concat locs, e) (bs1 ++ bs2).
Inductive Bcode : lang (list ValType * Expr) :=
| Bcode_intro f bs1 bs2 : Bu32 (N.of_nat (length bs2)) bs1 -> Bfunc f bs2 -> Bcode f (bs1 ++ bs2).

Inductive Bdata : lang Data :=
| Bdata_0 e bb b bs1 bs2 : Bu32 0 b -> Bexpr e bs1 -> Blist Bbyte bb bs2 ->
    Bdata (mkData bb (DM_Active 0 e)) (b ++ bs1 ++ bs2)
| Bdata_1 bb b bs1 : Bu32 1 b -> Blist Bbyte bb bs1 ->
    Bdata (mkData bb DM_Passive) (b ++ bs1)
| Bdata_2 x e bb b bs1 bs2 bs3 : Bu32 2 b -> Bidx x bs1 -> Bexpr e bs2 -> Blist Bbyte bb bs3 ->
    Bdata (mkData bb (DM_Active x e)) (b ++ bs1 ++ bs2 ++ bs3).

(** ** Sections *)
Inductive section : Type :=
| SCustom (c : CustomSection)
| SType (ts : list RecType)
| SImport (is : list Import)
| SFunction (xs : list TypeIdx)
| STable (ts : list Table)
| SMemory (ms : list MemType)
| STag (ts : list TagType)
| SGlobal (gs : list Global)
| SExport (es : list Export)
| SStart (x : FuncIdx)
| SElement (es : list Elem)
| SDataCount (n : u32)
| SCode (cs : list (list ValType * Expr))
| SData (ds : list Data).

Inductive Bcontents : lang section :=
| Bc_custom c bs : Bcustom c bs -> Bcontents (SCustom c) bs
| Bc_type l bs : Blist Brectype l bs -> Bcontents (SType l) bs
| Bc_import l bs : Blist Bimport l bs -> Bcontents (SImport l) bs
| Bc_function l bs : Blist Bidx l bs -> Bcontents (SFunction l) bs
| Bc_table l bs : Blist Btable l bs -> Bcontents (STable l) bs
| Bc_memory l bs : Blist Bmemtype l bs -> Bcontents (SMemory l) bs
| Bc_tag l bs : Blist Btagtype l bs -> Bcontents (STag l) bs
| Bc_global l bs : Blist Bglobal l bs -> Bcontents (SGlobal l) bs
| Bc_export l bs : Blist Bexport l bs -> Bcontents (SExport l) bs
| Bc_start x bs : Bidx x bs -> Bcontents (SStart x) bs
| Bc_element l bs : Blist Belem l bs -> Bcontents (SElement l) bs
| Bc_datacount n bs : Bu32 n bs -> Bcontents (SDataCount n) bs
| Bc_code l bs : Blist Bcode l bs -> Bcontents (SCode l) bs
| Bc_data l bs : Blist Bdata l bs -> Bcontents (SData l) bs.

Definition kind_of (s : section) : SectionKind :=
  match s with
  | SCustom _ => SK_Custom | SType _ => SK_Type | SImport _ => SK_Import | SFunction _ => SK_Function
  | STable _ => SK_Table | SMemory _ => SK_Memory | STag _ => SK_Tag | SGlobal _ => SK_Global
  | SExport _ => SK_Export | SStart _ => SK_Start | SElement _ => SK_Element
  | SDataCount _ => SK_DataCount | SCode _ => SK_Code | SData _ => SK_Data
  end.
(** 5.5.2 section ids *)
Definition id_of (k : SectionKind) : byte :=
  match k with
  | SK_Custom => x00 | SK_Type => x01 | SK_Import => x02 | SK_Function => x03 | SK_Table => x04
  | SK_Memory => x05 | SK_Global => x06 | SK_Export => x07 | SK_Start => x08 | SK_Element => x09
  | SK_Code => x0a | SK_Data => x0b | SK_DataCount => x0c | SK_Tag => x0d
  end.
(** section_N(X) ::= N:byte len:u32 X  (if len = ||X||); [n] is the size field *)
Inductive Bsection : section * N -> list byte -> Prop :=
| Bsection_intro s bs1 bs2 : Bu32 (N.of_nat (length bs2)) bs1 -> Bcontents s bs2 ->
    Bsection (s, N.of_nat (length bs2)) (id_of (kind_of s) :: bs1 ++ bs2).

(** ** Modules (5.5.17) *)

(** the order in which non-custom sections may appear, each at most once *)
Definition section_order : list SectionKind :=
  [ SK_Type; SK_Import; SK_Function; SK_Table; SK_Memory; SK_Tag; SK_Global; SK_Export;
    SK_Start; SK_Element; SK_DataCount; SK_Code; SK_Data ].
(** [l1] is [l2] with some elements left out *)
Inductive subseq {A} : list A -> list A -> Prop :=
| subseq_nil : subseq [] []
| subseq_skip x l1 l2 : subseq l1 l2 -> subseq l1 (x :: l2)
| subseq_take x l1 l2 : subseq l1 l2 -> subseq (x :: l1) (x :: l2).

Definition is_custom (s : section) : bool := match s with SCustom _ => true | _ => false end.
Definition non_custom (ss : list section) : list section := filter (fun s => negb (is_custom s)) ss.

(** contents of all sections of one kind (at most one section, except custom) *)
Definition the {A} (f : section -> list A) (ss : list section) : list A := flat_map f ss.
Definition get_custom s := match s with SCustom c => [c] | _ => [] end.
Definition get_type s := match s with SType l => l | _ => [] end.
Definition get_import s := match s with SImport l => l | _ => [] end.
Definition get_function s := match s with SFunction l => l | _ => [] end.
Definition get_table s := match s with STable l => l | _ => [] end.
Definition get_memory s := match s with SMemory l => l | _ => [] end.
Definition get_tag s := match s with STag l => l | _ => [] end.
Definition get_global s := match s with SGlobal l => l | _ => [] end.
Definition get_export s := match s with SExport l => l | _ => [] end.
Definition get_start s := match s with SStart x => [x] | _ => [] end.
Definition get_element s := match s with SElement l => l | _ => [] end.
Definition get_datacount s := match s with SDataCount n => [n] | _ => [] end.
Definition get_code s := match s with SCode l => l | _ => [] end.
Definition get_data s := match s with SData l => l | _ => [] end.

(** an instruction that refers to a data segment, itself or in a nested block *)
Inductive mentions_data : instr -> Prop :=
| md_memory_init x y : mentions_data (I_MemoryInit x y)
| md_data_drop y : mentions_data (I_DataDrop y)
| md_array_new_data x y : mentions_data (I_ArrayNewData x y)
| md_array_init_data x y : mentions_data (I_ArrayInitData x y)
| md_block bt is i : In i is -> mentions_data i -> mentions_data (I_Block bt is)
| md_loop bt is i : In i is -> mentions_data i -> mentions_data (I_Loop bt is)
| md_then bt is1 is2 i : In i is1 -> mentions_data i -> mentions_data (I_If bt is1 is2)
| md_else bt is1 is2 i : In i is2 -> mentions_data i -> mentions_data (I_If bt is1 (Some is2))
| md_try bt cs is i : In i is -> mentions_data i -> mentions_data (I_TryTable bt cs is).

Definition magic : list byte := [x00; x61; x73; x6d].
Definition version1 : list byte := [x01; x00; x00; x00].

(** the module assembled from the sections [ss] (with their size fields) *)
Definition module_of (ss : list (section * N)) : Module_ :=
  let cs := map fst ss in
  {| version := version1;
     parsed_section_kinds := map kind_of (non_custom cs);
     section_headers := map (fun '(s, n) => mkHeader (kind_of s) n) ss;
     custom_sections := the get_custom cs;
     types := the get_type cs;
     funcs := map (fun '(x, (ls, e)) => mkFunc x ls e) (combine (the get_function cs) (the get_code cs));
     tables := the get_table cs;
     mems := the get_memory cs;
     globals := the get_global cs;
     elems := the get_element cs;
     data_count := hd_error (the get_datacount cs);
     datas := the get_data cs;
     start := hd_error (the get_start cs);
     imports := the get_import cs;
     exports := the get_export cs;
     tags := the get_tag cs |}.

Inductive Bmodule : lang Module_ :=
| Bmodule_intro ss bs :
    let cs := map fst ss in
    Bseq Bsection ss bs ->
    subseq (map kind_of (non_custom cs)) section_order ->
    length (the get_function cs) = length (the get_code cs) ->
    (forall n, In n (the get_datacount cs) -> n = N.of_nat (length (the get_data cs))) ->
    (the get_datacount cs = [] ->
       forall ls e i, In (ls, e) (the get_code cs) -> In i e -> ~ mentions_data i) ->
    Bmodule (module_of ss) (magic ++ version1 ++ bs).
