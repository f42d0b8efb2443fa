(** C68: an error in a section, and in an entry of a section, is about that
    section, that entry, alone.  [about], [position], [moved], [entries],
    [opens] are in Spec/Isolation.v, [fenced] in Spec/Faults.v, [preamble] in
    Spec/Layout.v. *)
From Verif Require Import Model.Prelude Model.Io Model.Ast Model.Errors Model.Module.
From Verif Require Import Spec.Lang Spec.Types Spec.Instr Spec.Module Spec.Streams Spec.Leb Spec.Layout Spec.Faults Spec.Diagnosis.
From Verif Require Import Proofs.Machine Proofs.Components Proofs.Final Proofs.Modules Proofs.Fences Proofs.Diag Proofs.Encode Proofs.Shortest Proofs.ShortModule.
From Verif Require Import Properties.Samples Properties.Modules Properties.Diagnosis Properties.Locality.
From Verif Require Import Spec.Elements Spec.Isolation Proofs.Isolation.
From Coq Require Import Lia.

(** nothing needs to come before a section *)
Lemma opens_nil k : opens k [].
Proof.
  exists []. split; [constructor|]. split.
  - split; cbn; [unfold section_order; repeat first [apply subseq_nil|apply subseq_skip]|intros l []|intros l n []].
  - intros e HM. destruct HM as [p HM _|HM]; discriminate HM.
Qed.

(** An error about the contents of a section: there is such a section in the
    file, and the error is reported by every file in which a section of this
    kind has the same contents (what can be read of them is the same), whatever
    comes before and after. *)
Theorem C68_section env (evs : list event) bs stop e k : content evs = (bs, stop) -> fst (@decode_module env _ _ evs) = Err e -> about e = Some k ->
  exists w size n rest, bs = preamble ++ w ++ id_of k :: size ++ rest /\ opens k w /\ Bu32 n size /\
  forall env' (evs' : list event) w' size' n' rest' stop', content evs' = (preamble ++ w' ++ id_of k :: size' ++ rest', stop') ->
    sufficient env' (length (preamble ++ w' ++ id_of k :: size' ++ rest')) ->
    opens k w' -> Bu32 n' size' -> fenced n' rest' stop' = fenced n rest stop ->
    fst (@decode_module env' _ _ evs') = Err e.
Proof.
  intros Hc Hd HA. destruct (located _ _ _ _ _ _ Hc Hd HA) as (w & size & n & rest & Hbs & Ho & HU & HF).
  exists w, size, n, rest. split; [exact Hbs|]. split; [exact Ho|]. split; [exact HU|].
  intros env' evs' w' size' n' rest' stop' Hc' HS Ho' HU' E. apply (occurs env' evs' w' size' n' rest' stop' e k Hc' HS Ho' HU'). rewrite E. exact HF.
Qed.
(** In particular the sections before can be left out ... *)
Theorem C68_alone env (evs : list event) bs stop e k : content evs = (bs, stop) -> fst (@decode_module env _ _ evs) = Err e -> about e = Some k ->
  exists w tail, bs = preamble ++ w ++ id_of k :: tail /\
  forall env' (evs' : list event), content evs' = (preamble ++ id_of k :: tail, stop) -> sufficient env' (length (preamble ++ id_of k :: tail)) ->
    fst (@decode_module env' _ _ evs') = Err e.
Proof.
  intros Hc Hd HA. destruct (C68_section _ _ _ _ _ _ Hc Hd HA) as (w & size & n & rest & Hbs & _ & HU & H).
  exists w, (size ++ rest). split; [exact Hbs|]. intros env' evs' Hc' HS. exact (H env' evs' [] size n rest stop Hc' HS (opens_nil k) HU eq_refl).
Qed.
(** ... and if all declared bytes [p] of the section are there, also those
    after it: the file of just this section reports the error, if and only if
    any other file that ends with it does *)
Theorem C68_exact env env' (evs evs' : list event) w w' size size' p e k : opens k w -> opens k w' ->
  Bu32 (N.of_nat (length p)) size -> Bu32 (N.of_nat (length p)) size' ->
  content evs = (preamble ++ w ++ id_of k :: size ++ p, Ends) -> content evs' = (preamble ++ w' ++ id_of k :: size' ++ p, Ends) ->
  sufficient env (length (preamble ++ w ++ id_of k :: size ++ p)) -> sufficient env' (length (preamble ++ w' ++ id_of k :: size' ++ p)) ->
  about e <> None ->
  fst (@decode_module env _ _ evs) = Err e <-> fst (@decode_module env' _ _ evs') = Err e.
Proof.
  intros Ho Ho' HU HU' Hc Hc' HS HS' HA. rewrite (exact_fault env evs w size p e k Hc HS Ho HU HA). symmetry. exact (exact_fault env' evs' w' size' p e k Hc' HS' Ho' HU' HA).
Qed.

(** An error about an entry of a section: with well-formed entries of that kind
    in place of those before it - and any sections before - it is reported for
    the entry at its new position. *)
Theorem C68_entry env (evs : list event) bs stop e k i : content evs = (bs, stop) -> fst (@decode_module env _ _ evs) = Err e ->
  about e = Some k -> position e = Some i ->
  exists w size n rest m count items q, bs = preamble ++ w ++ id_of k :: size ++ rest /\ Bu32 n size /\
  fst (fenced n rest stop) = count ++ concat items ++ q /\ Bu32 m count /\ entries k items /\ i = N.of_nat (length items) /\ (i < m)%N /\
  forall env' (evs' : list event) w' size' n' rest' stop' m' count' items', content evs' = (preamble ++ w' ++ id_of k :: size' ++ rest', stop') ->
    sufficient env' (length (preamble ++ w' ++ id_of k :: size' ++ rest')) ->
    opens k w' -> Bu32 n' size' -> Bu32 m' count' -> entries k items' -> (N.of_nat (length items') < m')%N ->
    fenced n' rest' stop' = (count' ++ concat items' ++ q, snd (fenced n rest stop)) ->
    fst (@decode_module env' _ _ evs') = Err (moved (N.of_nat (length items')) e).
Proof.
  intros Hc Hd HA HP. destruct (located _ _ _ _ _ _ Hc Hd HA) as (w & size & n & rest & Hbs & Ho & HU & HF).
  destruct (entry_moved _ _ _ _ _ HF HP) as (m & count & items & q & Eq & HUm & HE & Ei & Hi & HM).
  exists w, size, n, rest, m, count, items, q. repeat (split; [assumption|]).
  intros env' evs' w' size' n' rest' stop' m' count' items' Hc' HS Ho' HU' HUm' HE' Hl EF.
  apply (occurs env' evs' w' size' n' rest' stop' _ k Hc' HS Ho' HU'). rewrite EF. cbn [fst snd]. exact (HM m' count' items' HUm' HE' Hl).
Qed.
(** In particular a file with a single section and, in it, the bytes [q] of the
    entry (and those after it, up to the end of the section or the input)
    reports it at position 0 *)
Theorem C68_entry_alone env (evs : list event) bs stop e k i : content evs = (bs, stop) -> fst (@decode_module env _ _ evs) = Err e ->
  about e = Some k -> position e = Some i ->
  exists a q b size stop', bs = a ++ q ++ b /\ (stop' = Ends \/ stop' = stop /\ b = []) /\
  forall env' (evs' : list event), content evs' = (preamble ++ id_of k :: size ++ x01 :: q, stop') -> sufficient env' (length (preamble ++ id_of k :: size ++ x01 :: q)) ->
    fst (@decode_module env' _ _ evs') = Err (moved 0 e).
Proof.
  intros Hc Hd HA HP. destruct (C68_entry _ _ _ _ _ _ _ Hc Hd HA HP) as (w & size & n & rest & m & count & items & q & Hbs & HU & Eq & HUm & _ & _ & _ & H).
  assert (H1 : Bu32 1%N [x01]) by (apply (u32_small 1%N x01); [reflexivity|lia]).
  assert (Hcl : (1 <= length count)%nat) by (inversion HUm; subst; cbn [length]; lia).
  unfold fenced in *. destruct (N.leb_spec n (N.of_nat (length rest))) as [Hn|Hn]; cbn [fst snd] in *.
  - assert (El : length (firstn (N.to_nat n) rest) = N.to_nat n) by (apply firstn_length_le; lia). rewrite Eq, !app_length in El.
    destruct (u32_exists (N.of_nat (length (x01 :: q)))) as (size' & HU' & _); [apply Bu32_lt in HU; cbn [length]; lia|].
    exists (preamble ++ w ++ id_of k :: size ++ count ++ concat items), q, (skipn (N.to_nat n) rest), size', Ends. split; [|split; [left; reflexivity|]].
    + rewrite Hbs. rewrite <- (firstn_skipn (N.to_nat n) rest) at 1. rewrite Eq. rewrite <- !app_assoc. cbn [app]. rewrite <- !app_assoc. reflexivity.
    + intros env' evs' Hc' HS. refine (H env' evs' [] size' (N.of_nat (length (x01 :: q))) (x01 :: q) Ends 1%N [x01] [] Hc' HS (opens_nil k) HU' H1 _ _ _); [constructor|cbn [length]; lia|].
      rewrite N.leb_refl, Nnat.Nat2N.id, firstn_all. reflexivity.
  - subst rest. rewrite !app_length in Hn.
    exists (preamble ++ w ++ id_of k :: size ++ count ++ concat items), q, [], size, stop. split; [|split; [right; auto|]].
    + rewrite Hbs. rewrite app_nil_r. rewrite <- !app_assoc. cbn [app]. rewrite <- !app_assoc. reflexivity.
    + intros env' evs' Hc' HS. refine (H env' evs' [] size n (x01 :: q) stop 1%N [x01] [] Hc' HS (opens_nil k) HU H1 _ _ _); [constructor|cbn [length]; lia|].
      destruct (N.leb_spec n (N.of_nat (length (x01 :: q)))) as [Hn'|Hn']; [cbn [length] in Hn'; lia|reflexivity].
Qed.

(** A file whose second body has a bad instruction: the code section alone, and
    the body alone, show it *)
Definition bodies : list byte := [x02; x02; x00; x0b; x03; x00; xff; x0b].
Definition flaw (i : N) : DecodeModuleError :=
  DM_DecodeCodeSection (CodeSec_DecodeList (ParseElement i (Code_DecodeFunctionBody (Expr_ParseInstruction (PE_InvalidOpcode xff))))).
Definition flawed : list byte := preamble ++ file [(SK_Type, [x01; x60; x00; x00]); (SK_Function, [x02; x00; x00]); (SK_Code, bodies); (SK_Data, [x00])].
Example C68_ex_file : fst (@decode_module roomy _ _ flawed) = Err (flaw 1). Proof. vm_compute. reflexivity. Qed.
Example C68_ex : about (flaw 1) = Some SK_Code /\ position (flaw 1) = Some 1%N /\ moved 0 (flaw 1) = flaw 0 /\
  fst (@decode_module roomy _ _ (preamble ++ file [(SK_Code, bodies)])) = Err (flaw 1) /\
  fst (@decode_module roomy _ _ (preamble ++ file [(SK_Code, [x01; x03; x00; xff; x0b])])) = Err (flaw 0).
Proof. vm_compute. auto 6. Qed.
(** the same behind a memory section, by [C68_exact] *)
Lemma opens_code : opens SK_Code [x05; x01; x00].
Proof.
  destruct after_memory as (_ & _ & _ & _ & HB & _).
  exists [(SMemory [], 1%N)]. split.
  { apply (Bseq_cons _ _ [] [x05; x01; x00] []); [|constructor]. apply (Bsection_intro (SMemory []) [x01] [x00]); [apply u32_1; reflexivity|].
    apply Bc_memory, (Blist_intro _ [] [x00] []); [apply u32_1; reflexivity|constructor]. }
   split; [exact HB|]. intros e HM. destruct HM as [p HM HP|HM]; [|discriminate HM].
  injection HM as <-. apply precedes_iff in HP as (_ & _ & HP). exfalso; vm_compute in HP; discriminate HP.
Qed.
Example C68_ex_moved : fst (@decode_module roomy _ _ (preamble ++ [x05; x01; x00] ++ id_of SK_Code :: [x08] ++ bodies)) = Err (flaw 1).
Proof.
  assert (HU : Bu32 (N.of_nat (length bodies)) [x08]) by (apply u32_small; [reflexivity|vm_compute; reflexivity]).
  pose proof (C68_exact roomy roomy (byte_by_byte (preamble ++ [x05; x01; x00] ++ id_of SK_Code :: [x08] ++ bodies) Ends) (byte_by_byte (preamble ++ [] ++ id_of SK_Code :: [x08] ++ bodies) Ends)
    [x05; x01; x00] [] [x08] [x08] bodies (flaw 1) SK_Code opens_code (opens_nil SK_Code) HU HU eq_refl eq_refl) as H.
  etransitivity; [symmetry; exact (C30_slice roomy (byte_by_byte (preamble ++ [x05; x01; x00] ++ id_of SK_Code :: [x08] ++ bodies) Ends) (preamble ++ [x05; x01; x00] ++ id_of SK_Code :: [x08] ++ bodies) eq_refl)|].
  apply H; [apply roomy_ok; vm_compute; repeat constructor|apply roomy_ok; vm_compute; repeat constructor|discriminate|].
  etransitivity; [exact (C30_slice roomy (byte_by_byte (preamble ++ [] ++ id_of SK_Code :: [x08] ++ bodies) Ends) (preamble ++ [] ++ id_of SK_Code :: [x08] ++ bodies) eq_refl)|]. vm_compute. reflexivity.
Qed.

Print Assumptions C68_section.
Print Assumptions C68_alone.
Print Assumptions C68_exact.
Print Assumptions C68_entry.
Print Assumptions C68_entry_alone.
