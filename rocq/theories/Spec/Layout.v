(** Specification, part 8: the outer layout of a file, read off the section
    headers alone, and what it means for two modules to differ only in custom
    sections. *)
From Verif Require Import Model.Ast Spec.Lang Spec.Types Spec.Instr Spec.Module.

(** a file split at its section headers: kind and payload of each section *)
Inductive parts : list (SectionKind * list byte) -> list byte -> Prop :=
| parts_nil : parts [] []
| parts_cons k payload size ps rest :
    Bu32 (N.of_nat (length payload)) size -> parts ps rest ->
    parts ((k, payload) :: ps) (id_of k :: size ++ payload ++ rest).

Definition preamble : list byte := [x00; x61; x73; x6d; x01; x00; x00; x00].

(** the module with its custom sections forgotten *)
Definition without_customs (m : Module_) : Module_ :=
  {| version := version m;
     parsed_section_kinds := parsed_section_kinds m;
     section_headers := filter (fun h => match sh_kind h with SK_Custom => false | _ => true end) (section_headers m);
     custom_sections := [];
     types := types m; funcs := funcs m; tables := tables m; mems := mems m; globals := globals m;
     elems := elems m; data_count := data_count m; datas := datas m; start := start m;
     imports := imports m; exports := exports m; tags := tags m |}.
