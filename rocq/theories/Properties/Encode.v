(** C45 which modules are decoded, C53 shortest encodings. *)
From Verif Require Import Model.Prelude Model.Io Model.Ast Model.Errors Model.Module.
From Verif Require Import Spec.Lang Spec.Types Spec.Instr Spec.Module Spec.Streams Spec.Layout Spec.Encode.
From Verif Require Import Proofs.Machine Proofs.Final Proofs.Components Proofs.Shortest Proofs.ShortModule Properties.Samples Properties.Modules.
From Coq Require Import Lia ZifyN ZifyNat.

(** ** C45 the decodable modules *)
(** what is decoded is representable, and its section headers are those of
    encodings of its sections *)
Theorem C45_sound env (evs : list event) m : fst (@decode_module env _ _ evs) = Ok m ->
  representable m /\ Forall2 can_take (sections m) (section_headers m).
Proof.
  intros Hd. apply module_sound in Hd as (bs & e & _ & _ & HB). apply module_rep in HB as (HR & xs & w & _ & HB & EX & EH).
  split; [exact HR|]. rewrite <- EX, <- EH. eapply sizes_of. exact HB.
Qed.
(** conversely every such module is decoded, from some input, by every process
    with the resources for it *)
Theorem C45_complete m : representable m -> Forall2 can_take (sections m) (section_headers m) ->
  exists bs : list byte, forall env, sufficient env (length bs) -> fst (@decode_module env _ _ bs) = Ok m.
Proof.
  intros HR HF. apply of_sizes in HF as (xs & w & HB & EX & EH). pose proof (encoded m xs w HR EX HB) as HM. rewrite EH, with_same_headers in HM.
  eexists. intros env HS. apply C02_complete_slice; [exact HS|exact HM].
Qed.
(** up to the recorded sizes: exactly the representable modules *)
Theorem C45_exact m : representable m <->
  exists (bs : list byte) m', same_but_sizes m m' /\ forall env, sufficient env (length bs) -> fst (@decode_module env _ _ bs) = Ok m'.
Proof.
  split.
  - intros HR. exists (encode m), (resized m). split; [exact (same_resized m HR)|]. intros env HS. apply C02_complete_slice; [exact HS|exact (encode_ok m HR)].
  - intros (bs & m' & HS & Hd). specialize (Hd (bigenv (length bs)) (bigenv_ok _)). apply C01_sound_slice in Hd. apply module_rep in Hd as [HR _].
    exact (same_rep _ _ (same_sym _ _ HS) HR).
Qed.

(** ** C53 the shortest encoding *)
(** no input that decodes to a module is shorter than its shortest encoding,
    which decodes to the same module with its own section sizes *)
Theorem C53_shortest env (evs : list event) bs stop m : content evs = (bs, stop) -> fst (@decode_module env _ _ evs) = Ok m ->
  length (encode m) <= length bs /\
  forall env', sufficient env' (length (encode m)) -> fst (@decode_module env' _ _ (encode m)) = Ok (resized m).
Proof.
  intros Hc Hd. apply module_sound in Hd as (bs' & e & Hc' & _ & HB). rewrite Hc in Hc'. injection Hc' as <- <-.
  split; [exact (encode_min _ _ HB)|]. intros env' HS. apply C02_complete_slice; [exact HS|]. apply encode_ok. apply (module_rep _ _ HB).
Qed.
(** and this changes nothing else *)
Theorem C53_same env (evs : list event) m : fst (@decode_module env _ _ evs) = Ok m -> same_but_sizes m (resized m) /\ encode (resized m) = encode m /\
  Forall2 (fun h h' => sh_kind h = sh_kind h' /\ (sh_size h' <= sh_size h)%N) (section_headers m) (section_headers (resized m)).
Proof.
  intros Hd. destruct (C45_sound _ _ _ Hd) as [HR HF]. pose proof (same_resized m HR) as HS. split; [exact HS|]. split; [symmetry; exact (same_encode _ _ HS)|].
  unfold resized. cbn [section_headers with_headers]. revert HF. generalize (section_headers m). induction 1 as [|s h ss hs HC _ IH]; cbn [map]; constructor; [|exact IH].
  apply can_take_min in HC as [H1 [H2 _]]. split; [exact H1|exact H2].
Qed.
(** it is a canonical form: two inputs carry the same module, up to the sizes of
    sections, exactly when their shortest encodings are equal *)
Theorem C53_canonical env1 env2 (evs1 evs2 : list event) m1 m2 : fst (@decode_module env1 _ _ evs1) = Ok m1 -> fst (@decode_module env2 _ _ evs2) = Ok m2 ->
  (encode m1 = encode m2 <-> same_but_sizes m1 m2).
Proof.
  intros H1 H2. apply C45_sound in H1 as [R1 _]. apply C45_sound in H2 as [R2 _]. split; [|exact (same_encode _ _)].
  intros E. pose proof (encode_ok _ R1) as B1. pose proof (encode_ok _ R2) as B2. rewrite E in B1. pose proof (C01_unambiguous _ _ _ B1 B2) as ER.
  destruct (same_resized _ R1) as [K1 F1]. destruct (same_resized _ R2) as [K2 F2]. split; congruence.
Qed.
(** the resources that suffice for an input suffice for its shortest encoding *)
Theorem C53_resources env (bs : list byte) m : sufficient env (length bs) -> fst (@decode_module env _ _ bs) = Ok m ->
  fst (@decode_module env _ _ (encode m)) = Ok (resized m).
Proof.
  intros HS Hd. apply C01_sound_slice in Hd. pose proof (encode_min _ _ Hd) as HL. apply C02_complete_slice; [|apply encode_ok; apply (module_rep _ _ Hd)].
  exact (sufficient_le _ _ _ HL HS).
Qed.

(** repository fixtures that are already shortest *)
Example C53_ex : encode (module_in kitchensink) = kitchensink /\ encode (module_in with_locals_exported) = with_locals_exported /\
  resized (module_in kitchensink) = module_in kitchensink.
Proof. vm_compute. repeat split. Qed.
(** an input of 16 bytes; the shortest for its module has 14: the size of the section
    and the number of its functions were padded *)
Example C53_padded : let bs := preamble ++ [x03; x82; x00; x80; x00; x0a; x01; x00] in
  fst (@decode_module roomy _ _ bs) = Ok (module_in bs) /\ encode (module_in bs) = preamble ++ [x03; x01; x00; x0a; x01; x00] /\
  map sh_size (section_headers (module_in bs)) = [2%N; 1%N] /\ map sh_size (section_headers (resized (module_in bs))) = [1%N; 1%N].
Proof. vm_compute. repeat split. Qed.
Example C45_ex : representable (module_in kitchensink) /\ length (sections (module_in kitchensink)) = 12.
Proof. split; [exact (proj1 (C45_sound roomy (plain kitchensink Ends) _ ltac:(vm_compute; reflexivity)))|vm_compute; reflexivity]. Qed.
(** a module that is never decoded: its types have no section to be in *)
Example C45_not : ~ representable (with_headers [] (module_in kitchensink)) /\
  forall env (bs : list byte), fst (@decode_module env _ _ bs) <> Ok (with_headers [] (module_in kitchensink)).
Proof.
  assert (HN : ~ representable (with_headers [] (module_in kitchensink))) by (intros HR; apply (r_types _ HR); vm_compute; discriminate).
  split; [exact HN|]. intros env bs Hd. apply C01_sound_slice in Hd. apply module_rep in Hd as [HR _]. exact (HN HR).
Qed.
