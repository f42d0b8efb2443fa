-Q theories Verif
theories/Model/Prelude.v
theories/Model/Io.v
theories/Model/Ast.v
theories/Model/Errors.v
theories/Model/Integer.v
theories/Model/Helpers.v
theories/Model/Types.v
theories/Model/Instr.v
theories/Model/Sections.v
theories/Model/Module.v
theories/Model/Display.v
theories/Model/Debug.v
theories/Model/DebugError.v
theories/Model/Cli.v
theories/Model/Eq.v
theories/Model/Order.v
theories/Model/Utf8.v
theories/Model/Stack.v
theories/Model/Override.v
theories/Model/Print.v
theories/Spec/Lang.v
theories/Spec/Types.v
theories/Spec/Instr.v
theories/Spec/Module.v
theories/Spec/Streams.v
theories/Spec/Leb.v
theories/Spec/Faults.v
theories/Spec/Diagnosis.v
theories/Spec/Layout.v
theories/Spec/Else.v
theories/Spec/Causes.v
theories/Spec/Cli.v
theories/Proofs/Machine.v
theories/Proofs/Reads.v
theories/Proofs/Safe.v
theories/Proofs/Parses.v
theories/Proofs/Leb.v
theories/Proofs/Utf8.v
theories/Proofs/Loop.v
theories/Proofs/GHelpers.v
theories/Proofs/GTypes.v
theories/Proofs/GInstr.v
theories/Proofs/GPrefix.v
theories/Proofs/GControl.v
theories/Proofs/GSections.v
theories/Proofs/GModule.v
theories/Proofs/GAssemble.v
theories/Proofs/SafeWalk.v
theories/Proofs/Sim.v
theories/Proofs/Final.v
theories/Proofs/FinalInt.v
theories/Proofs/Diag.v
theories/Proofs/Components.v
theories/Proofs/Blames.v
theories/Proofs/FTypes.v
theories/Proofs/FInstr.v
theories/Proofs/FControl.v
theories/Proofs/FSections.v
theories/Proofs/Unamb.v
theories/Proofs/Modules.v
theories/Proofs/Reports.v
theories/Proofs/Fences.v
theories/Proofs/Instrs.v
theories/Properties/Integers.v
theories/Properties/Components.v
theories/Properties/Samples.v
theories/Properties/Fixtures.v
theories/Properties/Modules.v
theories/Properties/Instructions.v
theories/Properties/Vectors.v
theories/Proofs/Entries.v
theories/Properties/Diagnosis.v
theories/Spec/Resources.v
theories/Proofs/Need.v
theories/Proofs/Fits.v
theories/Proofs/Exact.v
theories/Proofs/Sizes.v
theories/Proofs/Encode.v
theories/Spec/Encode.v
theories/Proofs/Shortest.v
theories/Proofs/ShortModule.v
theories/Properties/Encode.v
theories/Properties/Resources.v
theories/Proofs/Causes.v
theories/Properties/Causes.v
theories/Properties/Cli.v
theories/Properties/Faults.v
theories/Spec/Equal.v
theories/Proofs/Equal.v
theories/Proofs/EqualModule.v
theories/Properties/Equal.v
theories/Spec/Calls.v
theories/Proofs/Tame.v
theories/Proofs/Erase.v
theories/Proofs/Replay.v
theories/Proofs/Logs.v
theories/Properties/Calls.v
theories/Spec/Texts.v
theories/Properties/Messages.v
theories/Properties/Universal.v
theories/Spec/Debug.v
theories/Proofs/Decimal.v
theories/Proofs/Pretty.v
theories/Proofs/Debug.v
theories/Proofs/DebugError.v
theories/Proofs/Blank.v
theories/Properties/Debug.v
theories/Spec/Own.v
theories/Spec/Print.v
theories/Proofs/Own.v
theories/Properties/Own.v
theories/Properties/Print.v
theories/Spec/Shown.v
theories/Spec/Outline.v
theories/Proofs/Outline.v
theories/Proofs/Shown.v
theories/Properties/Outline.v
theories/Spec/Locality.v
theories/Spec/Elements.v
theories/Proofs/Elements.v
theories/Proofs/Locality.v
theories/Properties/Locality.v
theories/Properties/Elements.v
theories/Spec/Isolation.v
theories/Proofs/Isolation.v
theories/Properties/Isolation.v
theories/Properties/Order.v
theories/Spec/Report.v
theories/Spec/Honest.v
theories/Spec/Utf8.v
theories/Proofs/Utf8Error.v
theories/Proofs/Utf8Module.v
theories/Proofs/Honest.v
theories/Proofs/HonestModule.v
theories/Proofs/Report.v
theories/Properties/Report.v
theories/Properties/Honest.v
theories/Properties/Utf8.v
theories/Spec/Stack.v
theories/Proofs/Stack.v
theories/Properties/Stack.v
theories/Spec/Length.v
theories/Proofs/Length.v
theories/Proofs/ErrorLength.v
theories/Properties/Length.v
