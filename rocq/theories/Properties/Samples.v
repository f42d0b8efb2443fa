(** Concrete inputs used to show that theorems are not vacuous: test fixtures
    of the repository, and enough resources to decode them. *)
From Verif Require Import Model.Prelude Model.Io Model.Ast Model.Errors Model.Module.
From Verif Require Import Spec.Streams.
From Coq Require Import Lia.

Definition roomy : Env := {| stack_limit := 2000; alloc_limit := 2 ^ 32; probe := fun _ => 31%N |}.
Lemma roomy_ok n : n <= 1998 -> sufficient roomy n.
Proof. intros Hn. split; cbn [roomy stack_limit alloc_limit]; [split; [discriminate|]|lia]. change (2 ^ 32)%N with 4294967296%N. lia. Qed.

(** tests/fixtures/kitchensink.wasm *)
Definition kitchensink : list byte :=
  [x00; x61; x73; x6d; x01; x00; x00; x00; x00; x07; x04; x6e; x6f; x74; x65; x68; x69; x01; x0a; x02; x60; x00; x00; x60; x02; x7f; x7f; x01; x7f; x02; x10; x01; x03; x65; x6e; x76; x08; x69; x6d; x70; x73; x74; x61; x72; x74; x00; x00; x03; x03; x02; x00; x01; x04; x04; x01; x70; x00; x01; x05; x03; x01; x00; x01; x06; x06; x01; x7f; x01; x41; x2a; x0b; x07; x18; x04; x03; x61; x64; x64; x00; x02; x03; x6d; x65; x6d; x02; x00; x03; x74; x61; x62; x01; x00; x02; x67; x30; x03; x00; x08; x01; x01; x09; x07; x01; x00; x41; x00; x0b; x01; x02; x0a; x0e; x02; x04; x00; x10; x00; x0b; x07; x00; x20; x00; x20; x01; x6a; x0b; x0b; x0a; x01; x00; x41; x00; x0b; x04; x00; x11; x22; x33].
(** tests/fixtures/add.wasm *)
Definition add : list byte :=
  [x00; x61; x73; x6d; x01; x00; x00; x00; x01; x07; x01; x60; x02; x7f; x7f; x01; x7f; x03; x02; x01; x00; x07; x07; x01; x03; x61; x64; x64; x00; x00; x0a; x09; x01; x07; x00; x20; x00; x20; x01; x6a; x0b].
(** tests/fixtures/with_locals_exported.wasm *)
Definition with_locals_exported : list byte :=
  [x00; x61; x73; x6d; x01; x00; x00; x00; x01; x07; x01; x60; x02; x7f; x7f; x01; x7f; x03; x02; x01; x00; x07; x0e; x01; x0a; x61; x64; x64; x5f; x6c; x6f; x63; x61; x6c; x73; x00; x00; x0a; x0b; x01; x09; x01; x02; x7f; x20; x00; x20; x01; x6a; x0b].
(** tests/fixtures/control_instructions.wasm *)
Definition control_instructions : list byte :=
  [x00; x61; x73; x6d; x01; x00; x00; x00; x01; x09; x02; x60; x00; x00; x60; x00; x02; x7f; x7f; x02; x19; x02; x03; x65; x6e; x76; x04; x74; x61; x67; x30; x04; x00; x00; x03; x65; x6e; x76; x04; x74; x61; x67; x31; x04; x00; x00; x03; x03; x02; x00; x00; x04; x04; x01; x70; x00; x01; x07; x0b; x01; x07; x63; x6f; x6e; x74; x72; x6f; x6c; x00; x01; x0a; x52; x02; x02; x00; x0b; x4d; x00; x01; x02; x40; x00; x0b; x02; x40; x03; x40; x0c; x01; x0b; x0b; x02; x40; x41; x00; x0d; x00; x0b; x02; x40; x41; x00; x0e; x01; x00; x00; x0b; x02; x40; x41; x00; x04; x40; x00; x05; x01; x0b; x0b; x02; x01; x41; x2a; x41; x07; x0b; x1a; x1a; x10; x00; x41; x00; x11; x00; x00; x08; x01; x0a; x1f; x40; x04; x00; x01; x01; x01; x01; x01; x02; x01; x03; x01; x00; x0b; x0f; x0b].
(** tests/fixtures/custom_section_size_overreported.wasm *)
Definition custom_section_size_overreported : list byte :=
  [x00; x61; x73; x6d; x01; x00; x00; x00; x01; x05; x01; x60; x00; x01; x7f; x03; x02; x01; x00; x07; x0a; x01; x06; x61; x6e; x73; x77; x65; x72; x00; x00; x0a; x06; x01; x04; x00; x41; x2a; x0b; x00; x05; x01; x78; xff].
(** tests/fixtures/two_funcs_add2.wasm *)
Definition two_funcs_add2 : list byte :=
  [x00; x61; x73; x6d; x01; x00; x00; x00; x01; x07; x01; x60; x02; x7f; x7f; x01; x7f; x03; x03; x02; x00; x00; x07; x08; x01; x04; x61; x64; x64; x32; x00; x01; x0a; x11; x02; x07; x00; x20; x00; x20; x01; x6a; x0b; x07; x00; x20; x00; x20; x01; x6a; x0b].
(** tests/fixtures/start_section.wasm *)
Definition start_section : list byte :=
  [x00; x61; x73; x6d; x01; x00; x00; x00; x01; x04; x01; x60; x00; x00; x03; x02; x01; x00; x08; x01; x00; x0a; x04; x01; x02; x00; x0b].

Definition module_in (bs : list byte) : Module_ :=
  match fst (@decode_module roomy _ _ bs) with Ok m => m | _ => default_module end.
Lemma kitchensink_ok : fst (@decode_module roomy _ _ kitchensink) = Ok (module_in kitchensink).
Proof. vm_compute. reflexivity. Qed.
Lemma with_locals_ok : fst (@decode_module roomy _ _ with_locals_exported) = Ok (module_in with_locals_exported).
Proof. vm_compute. reflexivity. Qed.
