(** C63: the names and the layout of what [wadec --verbose] and [{:?}] print.
    [show_Module], [show_DecodeModuleError] (names, fields, order: Spec/Shown.v),
    [lines], [page], [phrase] (layout: Spec/Outline.v), [readable] (Spec/Debug.v). *)
From Verif Require Import Model.Prelude Model.Io Model.Ast Model.Errors Model.Display Model.Module Model.Debug Model.DebugError Model.Cli.
From Verif Require Import Spec.Layout Spec.Cli Spec.Texts Spec.Debug Spec.Shown Spec.Outline.
From Verif Require Import Proofs.Decimal Proofs.Debug Proofs.Shown.
From Verif Require Import Properties.Samples Properties.Debug.
From Coq Require Import List String Strings.Byte.
Local Open Scope string_scope.

(** [{:#?}]: a line per name, four spaces per level, a comma after each field *)
Theorem C63_module (T : Texts) m : readable T -> debug_module m = page (lines 0 "" (show_Module m) "").
Proof. exact (module_page T m). Qed.
Theorem C63_error (T : Texts) e : readable T -> debug_error e = page (lines 0 "" (show_DecodeModuleError e) "").
Proof. exact (error_page T e). Qed.
(** [{:?}]: on one line, except below the [Type::] of a vector element *)
Theorem C63_compact_module (T : Texts) m : readable T -> compact_module m = phrase (show_Module m).
Proof. exact (module_phrase T m). Qed.
Theorem C63_compact_error (T : Texts) e : readable T -> compact_error e = phrase (show_DecodeModuleError e).
Proof. exact (error_phrase T e). Qed.
(** the one public error type that no error contains *)
Theorem C63_packtype (T : Texts) x : exists s, decimal s (Byte.to_N x) /\
  pretty (d_InvalidPackTypeMarkerError (InvalidPackTypeMarker x)) =
"InvalidPackTypeMarkerError(
    " ++ s ++ ",
)" /\ compact (d_InvalidPackTypeMarkerError (InvalidPackTypeMarker x)) = "InvalidPackTypeMarkerError(" ++ s ++ ")".
Proof. exists (dec (Byte.to_N x)). split; [apply dec_ok|]. destruct x; split; vm_compute; reflexivity. Qed.
(** the tool: the module is all that [--verbose] prints to stdout; the error
    follows, on stderr, what is printed without [--verbose] *)
Theorem C63_cli (T : Texts) env R (HR : Reader R) (r : R) : readable T ->
  match fst (@decode_module env R HR r) with
  | Ok m => @cli_main T env R HR true (inr r) = Some (mkOutcome 0 [page (lines 0 "" (show_Module m) "")] [])
  | Err e => exists messages, @cli_main T env R HR false (inr r) = Some (mkOutcome 1 [] messages) /\
      @cli_main T env R HR true (inr r) = Some (mkOutcome 1 [] (messages ++ [(line_feed ++ "DEBUG OUTPUT:" ++ line_feed ++ page (lines 0 "" (show_DecodeModuleError e) ""))%string])%list)
  | _ => True
  end.
Proof.
  intros HT. unfold cli_main. destruct (fst (@decode_module env R HR r)) as [m|e| |]; [| |exact I..].
  - rewrite (C63_module T m HT). reflexivity.
  - rewrite (C63_error T e HT). unfold abort. rewrite app_assoc, app_nil_r. eexists. split; reflexivity.
Qed.
(** numbers are printed in decimal, without leading zeros, and with a minus sign
    if they are negative *)
Theorem C63_numbers : (forall n, decimal (dec n) n) /\ (forall z, integer (decZ z) z).
Proof. exact (conj dec_ok decZ_ok). Qed.

(** the hypothesis: [sample_readable] (Properties/Debug.v).  An export, and an
    error; C58_ex, C59_ex and C61_ex show a module and an error in full. *)
Example C63_ex : page (lines 0 "" (@show_Export sample_texts (mkExport [x61] (EI_Func 3%N))) "") =
"Export {
    name: ""a"",
    externidx: Func(
        FuncIdx(
            3,
        ),
    ),
}".
Proof. reflexivity. Qed.
Example C63_ex_error : page (lines 0 "" (@show_DecodeModuleError sample_texts (DM_DecodeMemorySection (MemSec_DecodeList (ParseElement 0%N (MemTypeE (Lim_ReadFlagByte UnexpectedEof)))))) "") =
"DecodeMemorySection(
    DecodeList(
        ParseElement {
            position: 0,
            source: DecodeMemoryTypeError::DecodeMemoryTypeError(
                ReadFlagByte(
                    Error {
                        kind: UnexpectedEof,
                    },
                ),
            ),
        },
    ),
)".
Proof. reflexivity. Qed.
Example C63_ex_compact : phrase (@show_Export sample_texts (mkExport [x61] (EI_Func 3%N))) = "Export { name: ""a"", externidx: Func(FuncIdx(3)) }".
Proof. reflexivity. Qed.
Example C63_ex_module : exists m, fst (@decode_module roomy _ _ (preamble ++ [x07; x05; x01; x01; x61; x00; x03])%list) = Ok m /\
  firstn 10 (skipn 27 (lines 0 "" (@show_Module sample_texts m) "")) = lines 1 "exports: " (DList [@show_Export sample_texts (mkExport [x61] (EI_Func 3%N))]) ",".
Proof. eexists. split; [vm_compute; reflexivity|]. vm_compute. reflexivity. Qed.

Print Assumptions C63_module.
Print Assumptions C63_error.
Print Assumptions C63_compact_module.
Print Assumptions C63_compact_error.
Print Assumptions C63_cli.
Print Assumptions C63_numbers.
Print Assumptions C63_packtype.
