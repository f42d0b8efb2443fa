(** Specification, part 7: what is reported about an input that is not a
    module. *)
From Verif Require Import Model.Prelude Model.Io Model.Ast Model.Errors.
From Verif Require Import Spec.Lang Spec.Types Spec.Instr Spec.Module Spec.Streams Spec.Leb Spec.Layout Spec.Faults.

(** [k] comes strictly before [k'] in the prescribed order of sections *)
Definition precedes (k k' : SectionKind) : Prop :=
  exists l1 l2 l3, section_order = l1 ++ k :: l2 ++ k' :: l3.
(** the last non-custom section *)
Definition last_kind (cs : list section) : option SectionKind :=
  hd_error (rev (map kind_of (non_custom cs))).

(** Sections that can begin a module (more sections may follow). *)
Record beginning (cs : list section) : Prop := {
  beg_order : subseq (map kind_of (non_custom cs)) section_order;
  beg_code : forall l, In (SCode l) cs -> length l = length (the get_function cs);
  beg_data : forall l n, In (SData l) cs -> In (SDataCount n) cs -> n = N.of_nat (length l)
}.

(** What is wrong with the header of a section of kind [k] after [cs]. *)
Inductive misplaced (cs : list section) (k : SectionKind) : DecodeModuleError -> Prop :=
| mis_order p : last_kind cs = Some p -> precedes k p -> misplaced cs k (DM_SectionOutOfOrder k p)
| mis_twice : last_kind cs = Some k -> misplaced cs k (DM_DuplicateSection k).
(** What is wrong with the section [x], in place after [cs]. *)
Inductive mismatch (cs : list section) : section -> DecodeModuleError -> Prop :=
| mm_code l : length l <> length (the get_function cs) ->
    mismatch cs (SCode l) (DM_CodeFuncEntriesLenMismatch (N.of_nat (length l)) (N.of_nat (length (the get_function cs))))
| mm_data l n : In (SDataCount n) cs -> N.of_nat (length l) <> n ->
    mismatch cs (SData l) (DM_DataCountMismatch (N.of_nat (length l)) n).
(** What is wrong with the sections [cs] as a whole module, in the order in
    which it is looked for. *)
Inductive incomplete (cs : list section) : DecodeModuleError -> Prop :=
| inc_code : (forall l, ~ In (SCode l) cs) -> the get_function cs <> [] ->
    incomplete cs (DM_CodeFuncEntriesLenMismatch 0 (N.of_nat (length (the get_function cs))))
| inc_data n : length (the get_function cs) = length (the get_code cs) ->
    In (SDataCount n) cs -> n <> N.of_nat (length (the get_data cs)) ->
    incomplete cs (DM_DataCountDatasLenMismatch (N.of_nat (length (the get_data cs))) n)
| inc_index ls e i : length (the get_function cs) = length (the get_code cs) ->
    (forall n, ~ In (SDataCount n) cs) -> In (ls, e) (the get_code cs) -> In i e -> mentions_data i ->
    incomplete cs DM_DataIndexWithoutDataCount.

(** ** Section headers *)

(** What is wrong with the size field when the input goes on with [rest] and
    then stops as [stop]. *)
Inductive bad_size (rest : list byte) (stop : ending) : DecodeU32Error -> Prop :=
| bs_large cs b rest' : rest = cs ++ b :: rest' -> Forall continues cs -> length cs < 5 -> ~ continues b ->
    (2 ^ 32 <= leb_unsigned (cs ++ [b]))%N -> bad_size rest stop U32_TooLarge
| bs_long cs rest' : rest = cs ++ rest' -> Forall continues cs -> length cs = 5 -> bad_size rest stop U32_RepresentationTooLong
| bs_cut : Forall continues rest -> length rest < 5 ->
    bad_size rest stop (U32_Io (match stop with Ends => UnexpectedEof | Fails k => k end)).

(** ** One section *)

(** What is wrong with a section of kind [k] and declared size [n], after the
    sections [cs], when the input goes on with [rest] and stops as [stop]. *)
Inductive wrong_section (cs : list section) (k : SectionKind) (n : N) (rest : list byte) (stop : ending) : DecodeModuleError -> Prop :=
| ws_misplaced e : misplaced cs k e -> wrong_section cs k n rest stop e
(* the contents are malformed, or longer than declared, or cut off *)
| ws_contents bs' stop' e : (forall e', ~ misplaced cs k e') -> fenced n rest stop = (bs', stop') -> Fcontents k bs' stop' e ->
    wrong_section cs k n rest stop e
(* the contents do not agree with an earlier section *)
| ws_mismatch x q rest' e : (forall e', ~ misplaced cs k e') -> kind_of x = k -> Bcontents x q -> rest = q ++ rest' ->
    (N.of_nat (length q) <= n)%N -> mismatch cs x e -> wrong_section cs k n rest stop e
(* the contents are shorter than declared *)
| ws_size x q rest' : k <> SK_Custom -> kind_of x = k -> Bcontents x q -> rest = q ++ rest' ->
    (N.of_nat (length q) < n)%N -> beginning (cs ++ [x]) ->
    wrong_section cs k n rest stop (DM_SectionSizeMismatch k n (N.of_nat (length q)))
(* the input ends before the end of a custom section *)
| ws_custom c : k = SK_Custom -> Bcustom c rest -> (N.of_nat (length rest) < n)%N -> stop = Ends ->
    wrong_section cs k n rest stop (DM_SectionSizeMismatch SK_Custom n (N.of_nat (length rest))).

(** ** Whole inputs: [bs], then [stop] *)
Inductive diagnosis (bs : list byte) (stop : ending) : DecodeModuleError -> Prop :=
| dg_short : length bs < 8 -> diagnosis bs stop (DM_ParsePreamble (Pre_Io (match stop with Ends => UnexpectedEof | Fails k => k end)))
| dg_preamble : 8 <= length bs -> firstn 8 bs <> preamble -> diagnosis bs stop (DM_ParsePreamble (Pre_Unexpected (firstn 8 bs)))
(* after well-formed sections [xs] ... *)
| dg_read (xs : list (section * N)) w k : Bseq Bsection xs w -> beginning (map fst xs) ->
    bs = preamble ++ w -> stop = Fails k -> k <> UnexpectedEof ->
    diagnosis bs stop (DM_DecodeSectionHeader (Hdr_ReadSectionIdByte k))
| dg_id (xs : list (section * N)) w b rest : Bseq Bsection xs w -> beginning (map fst xs) ->
    bs = preamble ++ w ++ b :: rest -> (forall k, b <> id_of k) ->
    diagnosis bs stop (DM_DecodeSectionHeader (Hdr_InvalidSectionId (InvalidSectionId b)))
| dg_size (xs : list (section * N)) w k rest e : Bseq Bsection xs w -> beginning (map fst xs) ->
    bs = preamble ++ w ++ id_of k :: rest -> bad_size rest stop e ->
    diagnosis bs stop (DM_DecodeSectionHeader (Hdr_DecodeSectionSize e))
| dg_section (xs : list (section * N)) w k nb n rest e : Bseq Bsection xs w -> beginning (map fst xs) ->
    bs = preamble ++ w ++ id_of k :: nb ++ rest -> Bu32 n nb -> wrong_section (map fst xs) k n rest stop e ->
    diagnosis bs stop e
(* ... and nothing else *)
| dg_end (xs : list (section * N)) w e : Bseq Bsection xs w -> beginning (map fst xs) ->
    bs = preamble ++ w -> stop = Ends \/ stop = Fails UnexpectedEof -> incomplete (map fst xs) e ->
    diagnosis bs stop e.
