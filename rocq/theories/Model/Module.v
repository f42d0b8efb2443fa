(** src/decode/module.rs *)
From Verif Require Import Model.Prelude Model.Io Model.Ast Model.Errors Model.Integer Model.Helpers Model.Types Model.Instr Model.Sections.
Local Open Scope N_scope.

(** src/decode/module.rs:11-12 *)
Definition MAGIC_NUMBER : list byte := [x00; x61; x73; x6d].
Definition VERSION : list byte := [x01; x00; x00; x00].
(** src/decode/module.rs:14-23 *)
Definition EXPECTED_PREAMBLE : list byte := MAGIC_NUMBER ++ VERSION.

(** [a == b] on [u8; 8] *)
Fixpoint bytes_eqb (a b : list byte) : bool :=
  match a, b with
  | [], [] => true
  | x :: a', y :: b' => Byte.eqb x y && bytes_eqb a' b'
  | _, _ => false
  end.

(** #[derive(PartialEq, PartialOrd)] on src/core/module.rs:171-187: position in
    the declaration *)
Definition sk_rank (k : SectionKind) : N :=
  match k with
  | SK_Custom => 0 | SK_Type => 1 | SK_Import => 2 | SK_Function => 3 | SK_Table => 4
  | SK_Memory => 5 | SK_Tag => 6 | SK_Global => 7 | SK_Export => 8 | SK_Start => 9
  | SK_Element => 10 | SK_DataCount => 11 | SK_Code => 12 | SK_Data => 13
  end.
Definition sk_eqb (a b : SectionKind) : bool := sk_rank a =? sk_rank b.
Definition sk_ltb (a b : SectionKind) : bool := sk_rank a <? sk_rank b.

(** src/decode/module.rs:90-105 with src/decode/mod.rs:37-42 [from_marker] *)
Definition section_from_marker (b : byte) : option SectionKind :=
  assocN (b2n b)
    [ (0, SK_Custom)
    ; (1, SK_Type)
    ; (2, SK_Import)
    ; (3, SK_Function)
    ; (4, SK_Table)
    ; (5, SK_Memory)
    ; (6, SK_Global)
    ; (7, SK_Export)
    ; (8, SK_Start)
    ; (9, SK_Element)
    ; (10, SK_Code)
    ; (11, SK_Data)
    ; (12, SK_DataCount)
    ; (13, SK_Tag) ].

(** src/decode/module.rs:53-73 [Default for Module] *)
Definition default_module : Module_ :=
  mkModule VERSION [] [] [] [] [] [] [] [] [] None [] None [] [] [].

(** field assignments [module.x = v] (a record update per field used below) *)
(** src/decode/module.rs:312 *)
Definition set_headers v (m : Module_) := mkModule (version m) (parsed_section_kinds m) v (custom_sections m) (types m) (funcs m) (tables m) (mems m) (globals m) (elems m) (data_count m) (datas m) (start m) (imports m) (exports m) (tags m).
(** src/decode/module.rs:317 *)
Definition set_kinds v (m : Module_) := mkModule (version m) v (section_headers m) (custom_sections m) (types m) (funcs m) (tables m) (mems m) (globals m) (elems m) (data_count m) (datas m) (start m) (imports m) (exports m) (tags m).
(** src/decode/module.rs:231-233 *)
Definition set_customs v (m : Module_) := mkModule (version m) (parsed_section_kinds m) (section_headers m) v (types m) (funcs m) (tables m) (mems m) (globals m) (elems m) (data_count m) (datas m) (start m) (imports m) (exports m) (tags m).
(** src/decode/module.rs:235 *)
Definition set_types v (m : Module_) := mkModule (version m) (parsed_section_kinds m) (section_headers m) (custom_sections m) v (funcs m) (tables m) (mems m) (globals m) (elems m) (data_count m) (datas m) (start m) (imports m) (exports m) (tags m).
(** src/decode/module.rs:237-246, 272-284 *)
Definition set_funcs v (m : Module_) := mkModule (version m) (parsed_section_kinds m) (section_headers m) (custom_sections m) (types m) v (tables m) (mems m) (globals m) (elems m) (data_count m) (datas m) (start m) (imports m) (exports m) (tags m).
(** src/decode/module.rs:247 *)
Definition set_tables v (m : Module_) := mkModule (version m) (parsed_section_kinds m) (section_headers m) (custom_sections m) (types m) (funcs m) v (mems m) (globals m) (elems m) (data_count m) (datas m) (start m) (imports m) (exports m) (tags m).
(** src/decode/module.rs:248 *)
Definition set_mems v (m : Module_) := mkModule (version m) (parsed_section_kinds m) (section_headers m) (custom_sections m) (types m) (funcs m) (tables m) v (globals m) (elems m) (data_count m) (datas m) (start m) (imports m) (exports m) (tags m).
(** src/decode/module.rs:249 *)
Definition set_globals v (m : Module_) := mkModule (version m) (parsed_section_kinds m) (section_headers m) (custom_sections m) (types m) (funcs m) (tables m) (mems m) v (elems m) (data_count m) (datas m) (start m) (imports m) (exports m) (tags m).
(** src/decode/module.rs:252 *)
Definition set_elems v (m : Module_) := mkModule (version m) (parsed_section_kinds m) (section_headers m) (custom_sections m) (types m) (funcs m) (tables m) (mems m) (globals m) v (data_count m) (datas m) (start m) (imports m) (exports m) (tags m).
(** src/decode/module.rs:253-255 *)
Definition set_data_count v (m : Module_) := mkModule (version m) (parsed_section_kinds m) (section_headers m) (custom_sections m) (types m) (funcs m) (tables m) (mems m) (globals m) (elems m) v (datas m) (start m) (imports m) (exports m) (tags m).
(** src/decode/module.rs:299 *)
Definition set_datas v (m : Module_) := mkModule (version m) (parsed_section_kinds m) (section_headers m) (custom_sections m) (types m) (funcs m) (tables m) (mems m) (globals m) (elems m) (data_count m) v (start m) (imports m) (exports m) (tags m).
(** src/decode/module.rs:251 *)
Definition set_start v (m : Module_) := mkModule (version m) (parsed_section_kinds m) (section_headers m) (custom_sections m) (types m) (funcs m) (tables m) (mems m) (globals m) (elems m) (data_count m) (datas m) v (imports m) (exports m) (tags m).
(** src/decode/module.rs:236 *)
Definition set_imports v (m : Module_) := mkModule (version m) (parsed_section_kinds m) (section_headers m) (custom_sections m) (types m) (funcs m) (tables m) (mems m) (globals m) (elems m) (data_count m) (datas m) (start m) v (exports m) (tags m).
(** src/decode/module.rs:250 *)
Definition set_exports v (m : Module_) := mkModule (version m) (parsed_section_kinds m) (section_headers m) (custom_sections m) (types m) (funcs m) (tables m) (mems m) (globals m) (elems m) (data_count m) (datas m) (start m) (imports m) v (tags m).
(** src/decode/module.rs:301 *)
Definition set_tags v (m : Module_) := mkModule (version m) (parsed_section_kinds m) (section_headers m) (custom_sections m) (types m) (funcs m) (tables m) (mems m) (globals m) (elems m) (data_count m) (datas m) (start m) (imports m) (exports m) v.

(** the mutable locals of [decode_module]: [module] (210-212),
    [encountered_code_section] (216), [encountered_data_idx_in_code_section] (221) *)
(** src/decode/module.rs:210-220 *)
Record st := mkSt { st_module : Module_; st_code : bool; st_data_idx : bool }.
(** mutation of [module] only *)
(** src/decode/module.rs:229-317 *)
Definition on_module (f : Module_ -> Module_) (s : st) : st := mkSt (f (st_module s)) (st_code s) (st_data_idx s).

(** last element *)
(** src/decode/module.rs:26-35 [.last()] *)
Definition last_opt {A} (l : list A) : option A :=
  match rev l with [] => None | x :: _ => Some x end.

(** src/decode/module.rs:26-50 [validate_section_kind_expected] *)
Definition validate_section_kind_expected {R} (m : Module_) (current : SectionHeader) : M R DecodeModuleError unit :=
  match last_opt (parsed_section_kinds m) with
  | None => ret tt                                                              (* 35 *)
  | Some previous =>
      let current := sh_kind current in
      if sk_eqb current SK_Custom then ret tt                                   (* 35 *)
      else if sk_ltb current previous then throw (DM_SectionOutOfOrder current previous)   (* 41-43 *)
      else if sk_eqb current previous then throw (DM_DuplicateSection current)  (* 45-47 *)
      else ret tt
  end.

(** [funcs[i] = f] in a position known to exist *)
(** src/decode/module.rs:275, 283 *)
Fixpoint set_nth {A} (i : nat) (x : A) (l : list A) : list A :=
  match l, i with
  | [], _ => []
  | _ :: l', O => x :: l'
  | y :: l', S i' => y :: set_nth i' x l'
  end.

(** lines 273-277: [count] copies of each local's type, in order *)
Definition expand_locals (ls : list Local_) : list ValType :=
  flat_map (fun l => repeat (l_t l) (N.to_nat (l_count l))) ls.
Definition total_locals (ls : list Local_) : N :=
  fold_right (fun l n => l_count l + n) 0 ls.

(** src/decode/module.rs:272-284: [for (i, code) in codes.into_iter().enumerate()].
    The growth of [funcs[i].locals] is charged to the allocator once. *)
Fixpoint fill_codes {env : Env} {R} (i : nat) (codes : list Code) (fs : list Func) (data_idx : bool)
  : M R DecodeModuleError (list Func * bool) :=
  match codes with
  | [] => ret (fs, data_idx)
  | c :: codes' =>
      _ <- alloc (total_locals (c_locals c)) ;;                                 (* 273-277 *)
      match nth_error fs i with
      | None => panic_with IndexOutOfBounds                                     (* module.funcs[i] *)
      | Some f =>
          fill_codes (S i) codes'
            (set_nth i (mkFunc (f_type f) (f_locals f ++ expand_locals (c_locals c)) (c_expr c)) fs)   (* 275, 283 *)
            (if c_data_index c then true else data_idx)                         (* 279-281 *)
      end
  end.

Section Module_.
  Context {env : Env} {R : Type} `{Reader R}.

  (** src/decode/module.rs:362-371 *)
  Definition parse_preamble : M R ParsePreambleError unit :=
    preamble <- map_err Pre_Io (read_exact 8) ;;
    if negb (bytes_eqb preamble EXPECTED_PREAMBLE) then throw (Pre_Unexpected preamble)
    else ret tt.

  (** src/decode/module.rs:388-392: an error of kind UnexpectedEof while reading
      the id means end of module *)
  Definition read_section_id : M R DecodeSectionHeaderError (option byte) :=
    fun r => match read_byte r with
             | (Ok id, r') => (Ok (Some id), r')
             | (Err UnexpectedEof, r') => (Ok None, r')
             | (Err e, r') => (Err (Hdr_ReadSectionIdByte e), r')
             | (Panic p, r') => (Panic p, r')
             | (Stuck, r') => (Stuck, r')
             end.

  (** src/decode/module.rs:385-398 *)
  Definition decode_section_header : M R DecodeSectionHeaderError (option SectionHeader) :=
    id <- read_section_id ;;
    match id with
    | None => ret None
    | Some id =>
        match section_from_marker id with                                       (* 394 *)
        | None => throw (Hdr_InvalidSectionId (InvalidSectionId id))
        | Some kind =>
            size <- map_err Hdr_DecodeSectionSize decode_u32 ;;                 (* 395 *)
            ret (Some (mkHeader kind size))
        end
    end.

  (** src/decode/module.rs:229-302: [match section_kind] *)
  Definition decode_section (kind : SectionKind) (s : st) : M R DecodeModuleError st :=
    let m := st_module s in
    match kind with
    | SK_Custom =>
        c <- map_err DM_DecodeCustomSection decode_section_custom ;;
        ret (on_module (set_customs (custom_sections m ++ [c])) s)
    | SK_Type =>
        x <- map_err DM_DecodeTypeSection decode_type_section ;;
        ret (on_module (set_types x) s)
    | SK_Import =>
        x <- map_err DM_DecodeImportSection decode_import_section ;;
        ret (on_module (set_imports x) s)
    | SK_Function =>
        x <- map_err DM_DecodeFunctionSection decode_function_section ;;
        ret (on_module (set_funcs (funcs m ++ map (fun t => mkFunc t [] []) x)) s)
    | SK_Table =>
        x <- map_err DM_DecodeTableSection decode_table_section ;;
        ret (on_module (set_tables x) s)
    | SK_Memory =>
        x <- map_err DM_DecodeMemorySection decode_memory_section ;;
        ret (on_module (set_mems x) s)
    | SK_Global =>
        x <- map_err DM_DecodeGlobalSection decode_global_section ;;
        ret (on_module (set_globals x) s)
    | SK_Export =>
        x <- map_err DM_DecodeExportSection decode_export_section ;;
        ret (on_module (set_exports x) s)
    | SK_Start =>
        x <- map_err DM_DecodeStartSection decode_start_section ;;
        ret (on_module (set_start (Some x)) s)
    | SK_Element =>
        x <- map_err DM_DecodeElementSection decode_element_section ;;
        ret (on_module (set_elems x) s)
    | SK_DataCount =>
        x <- map_err DM_DecodeDatacountSection decode_datacount_section ;;
        ret (on_module (set_data_count (Some x)) s)
    | SK_Code =>
        codes <- map_err DM_DecodeCodeSection decode_code_section ;;            (* 259 *)
        if negb (lenN codes =? lenN (funcs m))                                  (* 263 *)
        then throw (DM_CodeFuncEntriesLenMismatch (lenN codes) (lenN (funcs m)))
        else
          '(fs, d) <- fill_codes 0 codes (funcs m) (st_data_idx s) ;;           (* 272-284 *)
          ret (mkSt (set_funcs fs m) true d)                                    (* 257 *)
    | SK_Data =>
        datas <- map_err DM_DecodeDataSection decode_data_section ;;            (* 287 *)
        match data_count m with
        | Some n =>
            if negb (lenN datas =? n) then throw (DM_DataCountMismatch (lenN datas) n)   (* 291-298 *)
            else ret (on_module (set_datas datas) s)
        | None => ret (on_module (set_datas datas) s)                           (* 299 *)
        end
    | SK_Tag =>
        x <- map_err DM_DecodeTagSection decode_tag_section ;;
        ret (on_module (set_tags x) s)
    end.
End Module_.

Section DecodeModule.
  Context {env : Env} {R : Type} `{Reader R}.

  (** src/decode/module.rs:224-318: one iteration of the [while let] loop, after
      the header.  The vectors of section kinds and custom sections are no longer
      than that of the headers, so only the latter is charged. *)
  Definition section_step (h : SectionHeader) (s : st) : M R DecodeModuleError st :=
    '(s', limit) <-
      with_take (sh_size h) (                                                   (* 224 *)
        _ <- validate_section_kind_expected (st_module s) h ;;                  (* 226 *)
        decode_section (sh_kind h) s) ;;                                        (* 229-302 *)
    if negb (limit =? 0) then                                                   (* 304 *)
      got <- sub_u64 (sh_size h) limit ;;                                       (* 308 *)
      throw (DM_SectionSizeMismatch (sh_kind h) (sh_size h) got)
    else
      let s := on_module (fun m => set_headers (section_headers m ++ [h]) m) s' in   (* 312 *)
      _ <- alloc (lenN (section_headers (st_module s))) ;;
      ret (if sk_eqb (sh_kind h) SK_Custom then s
           else on_module (fun m => set_kinds (parsed_section_kinds m ++ [sh_kind h]) m) s).  (* 313-318 *)

  (** src/decode/module.rs:223-319, the loop *)
  Fixpoint section_loop (fuel : nat) (s : st) : M R DecodeModuleError st :=
    match fuel with
    | O => stuck
    | S fuel' =>
        h <- map_err DM_DecodeSectionHeader decode_section_header ;;            (* 223 *)
        match h with
        | None => ret s
        | Some h => s' <- section_step h s ;; section_loop fuel' s'
        end
    end.
  (** the same with enough fuel for the reader at hand *)
  Definition section_loop' (s : st) : M R DecodeModuleError st :=
    fun r => section_loop (S (budget r)) s r.

  (** src/decode/module.rs:323-348: the checks after the loop *)
  Definition final_checks (s : st) : M R DecodeModuleError Module_ :=
    let m := st_module s in
    if negb (lenN (funcs m) =? 0) && negb (st_code s)                           (* 323 *)
    then throw (DM_CodeFuncEntriesLenMismatch 0 (lenN (funcs m)))
    else if match data_count m with
            | Some n => negb (n =? lenN (datas m))                              (* 335-336 *)
            | None => false
            end
    then throw (DM_DataCountDatasLenMismatch (lenN (datas m))
                  (match data_count m with Some n => n | None => 0 end))
    else if st_data_idx s && match data_count m with None => true | Some _ => false end   (* 346 *)
    then throw DM_DataIndexWithoutDataCount
    else ret m.                                                                 (* 350 *)

  (** src/decode/module.rs:207-351 [decode_module], the crate's entry point *)
  Definition decode_module : M R DecodeModuleError Module_ :=
    _ <- map_err DM_ParsePreamble parse_preamble ;;                             (* 208 *)
    s <- section_loop' (mkSt default_module false false) ;;
    final_checks s.
End DecodeModule.
