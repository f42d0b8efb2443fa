(** Specification: how numbers and section kinds are written in error texts.
    Decimal numerals are in Spec/Cli.v. *)
From Verif Require Import Model.Prelude Model.Ast Model.Module Spec.Cli.
From Coq Require Import String Ascii.
Local Open Scope string_scope.

(** with a minus sign if negative *)
Definition integer (s : string) (z : Z) : Prop :=
  ((0 <= z)%Z /\ decimal s (Z.to_N z)) \/ ((z < 0)%Z /\ exists t, s = "-" ++ t /\ decimal t (Z.to_N (- z))).

(** a digit 0..9, A..F *)
Definition is_hexit (c : ascii) (d : N) : Prop :=
  ((d < 10)%N /\ N_of_ascii c = (48 + d)%N) \/ ((10 <= d < 16)%N /\ N_of_ascii c = (65 + (d - 10))%N).
(** at least [2] digits and no further leading zeros *)
Inductive hexits : string -> N -> Prop :=
| hexits_two a c b d : is_hexit a c -> is_hexit b d -> hexits (String a (String b "")) (16 * c + d)
| hexits_more s n b d : hexits s n -> (16 <= n)%N -> is_hexit b d -> hexits (s ++ String b "") (16 * n + d).
Definition hexadecimal (s : string) (n : N) : Prop := exists t, s = "0x" ++ t /\ hexits t n.

(** without leading zeros *)
Definition short_hexadecimal (s : string) (n : N) : Prop :=
  ((16 <= n)%N /\ hexadecimal s n) \/ exists c, s = "0x" ++ String c "" /\ is_hexit c n.
(** bytes, one per line, each followed by a comma *)
Inductive byte_lines : string -> list byte -> Prop :=
| byte_lines_nil : byte_lines "" []
| byte_lines_cons s b t bs : short_hexadecimal s (Byte.to_N b) -> byte_lines t bs ->
    byte_lines ("    " ++ s ++ "," ++ String (ascii_of_nat 10) t) (b :: bs).

(** the section kinds by name *)
Inductive kind_name : string -> SectionKind -> Prop :=
| kn_custom : kind_name "Custom" SK_Custom
| kn_type : kind_name "Type" SK_Type
| kn_import : kind_name "Import" SK_Import
| kn_function : kind_name "Function" SK_Function
| kn_table : kind_name "Table" SK_Table
| kn_memory : kind_name "Memory" SK_Memory
| kn_tag : kind_name "Tag" SK_Tag
| kn_global : kind_name "Global" SK_Global
| kn_export : kind_name "Export" SK_Export
| kn_start : kind_name "Start" SK_Start
| kn_element : kind_name "Element" SK_Element
| kn_datacount : kind_name "DataCount" SK_DataCount
| kn_code : kind_name "Code" SK_Code
| kn_data : kind_name "Data" SK_Data.
