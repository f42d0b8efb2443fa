(** The order of [SectionKind] as user code sees it. *)
From Verif Require Import Model.Ast Model.Module.
From Coq Require Import NArith.

(** src/core/module.rs:171-187 #[derive(PartialOrd)] on an enum without fields:
    compares the positions of the variants in the declaration *)
Definition kind_partial_cmp (a b : SectionKind) : option comparison := Some (N.compare (sk_rank a) (sk_rank b)).
(** the provided methods of core::cmp::PartialOrd ([<], [<=], [>], [>=]) *)
Definition kind_lt (a b : SectionKind) : bool := match kind_partial_cmp a b with Some Lt => true | _ => false end.
Definition kind_le (a b : SectionKind) : bool := match kind_partial_cmp a b with Some (Lt | Eq) => true | _ => false end.
Definition kind_gt (a b : SectionKind) : bool := match kind_partial_cmp a b with Some Gt => true | _ => false end.
Definition kind_ge (a b : SectionKind) : bool := match kind_partial_cmp a b with Some (Gt | Eq) => true | _ => false end.
