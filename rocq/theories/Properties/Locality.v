(** C64: every part of a module comes from its own section.  [payloads], [agree],
    [compatible], [dispensable], [lacks] are in Spec/Locality.v, [parts] in
    Spec/Layout.v. *)
From Verif Require Import Model.Prelude Model.Io Model.Ast Model.Errors Model.Module.
From Verif Require Import Spec.Lang Spec.Module Spec.Streams Spec.Layout Spec.Locality Spec.Resources.
From Verif Require Import Proofs.Machine Proofs.Locality Proofs.Shortest Proofs.ShortModule.
From Verif Require Import Properties.Samples Properties.Modules.
From Coq Require Import Lia.

(** the sections of kind [k] alone decide what is in the module for them,
    whatever else is in the file, and however it is read *)
Theorem C64_own env env' (evs evs' : list event) m m' w w' ps ps' k :
  fst (@decode_module env _ _ evs) = Ok m -> fst (@decode_module env' _ _ evs') = Ok m' ->
  fst (content evs) = preamble ++ w -> fst (content evs') = preamble ++ w' -> parts ps w -> parts ps' w' ->
  payloads k ps = payloads k ps' -> agree k m m'.
Proof.
  intros Hd Hd' Hw Hw' Hp Hp' E. destruct (C01_sound _ _ _ Hd) as (bs & e & Hc & _ & HB), (C01_sound _ _ _ Hd') as (bs' & e' & Hc' & _ & HB').
  rewrite Hc in Hw. rewrite Hc' in Hw'. cbn in Hw, Hw'. subst bs bs'. exact (own _ _ _ _ _ _ k HB HB' Hp Hp' E).
Qed.
(** without a section of kind [k], there is nothing of that kind *)
Theorem C64_absent env (evs : list event) m w ps k :
  fst (@decode_module env _ _ evs) = Ok m -> fst (content evs) = preamble ++ w -> parts ps w -> payloads k ps = [] -> lacks k m.
Proof.
  intros Hd Hw Hp E. destruct (C01_sound _ _ _ Hd) as (bs & e & Hc & _ & HB). rewrite Hc in Hw. cbn in Hw. subst bs. exact (absent _ _ _ k HB Hp E).
Qed.
(** two modules that agree in every kind of section are the same, up to the recorded sizes *)
Theorem C64_all m m' : (forall k, agree k m m') -> version m = version m' -> parsed_section_kinds m = parsed_section_kinds m' -> section_headers m = section_headers m' -> m = m'.
Proof.
  intros H E1 E2 E3. pose proof (H SK_Custom). pose proof (H SK_Type). pose proof (H SK_Import). pose proof (H SK_Function) as F. pose proof (H SK_Table). pose proof (H SK_Memory). pose proof (H SK_Tag).
  pose proof (H SK_Global). pose proof (H SK_Export). pose proof (H SK_Start). pose proof (H SK_Element). pose proof (H SK_DataCount). pose proof (H SK_Code) as C. pose proof (H SK_Data).
  clear H. cbn [agree] in *. assert (E : funcs m = funcs m').
  { revert F C. generalize (funcs m), (funcs m'). intros l. induction l as [|[t ls e] l IH]; intros [|[t' ls' e'] l'] F C; try discriminate F; [reflexivity|]. cbn in F, C. injection F as -> F. injection C as -> -> C. f_equal. auto. }
  clear F C. destruct m, m'. cbn in *. subst. reflexivity.
Qed.
(** replacing a section by the section of the same kind of another module *)
Theorem C64_swap env env1 env2 (w w' w'' : list byte) m m' a b a' b' k p p' : k <> SK_Custom ->
  fst (@decode_module env1 _ _ (preamble ++ w)) = Ok m -> parts (a ++ (k, p) :: b) w ->
  fst (@decode_module env2 _ _ (preamble ++ w')) = Ok m' -> parts (a' ++ (k, p') :: b') w' ->
  parts (a ++ (k, p') :: b) w'' -> sufficient env (length (preamble ++ w'')) ->
  (compatible k m m' ->
     exists m'', fst (@decode_module env _ _ (preamble ++ w'')) = Ok m'' /\ agree k m'' m' /\ (forall j, j <> k -> agree j m'' m)) /\
  (~ compatible k m m' -> forall m'', fst (@decode_module env _ _ (preamble ++ w'')) <> Ok m'').
Proof.
  intros Hk Hd Hp Hd' Hp' Hp'' HS. apply C01_sound_slice in Hd, Hd'. pose proof (swap _ _ _ _ _ _ _ _ _ _ _ _ Hk Hd Hp Hd' Hp' Hp'') as HW. split.
  - intros HC. apply HW in HC as [m'' HB]. exists m''. split; [exact (C02_complete_slice _ _ _ HS HB)|]. split.
    + apply (own _ _ _ _ _ _ k HB Hd' Hp'' Hp'). rewrite (proj1 (payloads_one _ _ _ _ _ _ Hk HB Hp'')), (proj1 (payloads_one _ _ _ _ _ _ Hk Hd' Hp')). reflexivity.
    + intros j Hj. apply (own _ _ _ _ _ _ j HB Hd Hp'' Hp). apply payloads_swap. exact Hj.
  - intros HC m'' Hd''. apply HC. apply HW. exists m''. exact (C01_sound_slice _ _ _ Hd'').
Qed.
(** leaving a section out *)
Theorem C64_drop env env1 (w w'' : list byte) m a b k p : k <> SK_Custom ->
  fst (@decode_module env1 _ _ (preamble ++ w)) = Ok m -> parts (a ++ (k, p) :: b) w ->
  parts (a ++ b) w'' -> sufficient env (length (preamble ++ w'')) ->
  (dispensable k m ->
     exists m'', fst (@decode_module env _ _ (preamble ++ w'')) = Ok m'' /\ lacks k m'' /\ (forall j, j <> k -> agree j m'' m)) /\
  (~ dispensable k m -> forall m'', fst (@decode_module env _ _ (preamble ++ w'')) <> Ok m'').
Proof.
  intros Hk Hd Hp Hp'' HS. apply C01_sound_slice in Hd. pose proof (drop _ _ _ _ _ _ _ Hk Hd Hp Hp'') as HW. split.
  - intros HC. apply HW in HC as [m'' HB]. exists m''. split; [exact (C02_complete_slice _ _ _ HS HB)|]. split.
    + apply (absent _ _ _ k HB Hp''). exact (proj2 (payloads_one _ _ _ _ _ _ Hk Hd Hp)).
    + intros j Hj. apply (own _ _ _ _ _ _ j HB Hd Hp'' Hp). symmetry. apply payloads_drop. exact Hj.
  - intros HC m'' Hd''. apply HC. apply HW. exists m''. exact (C01_sound_slice _ _ _ Hd'').
Qed.

(** ** A module with a type, a function, an export and a body; one with two functions *)
Definition one : list (SectionKind * list byte) :=
  [(SK_Type, [x01; x60; x00; x00]); (SK_Function, [x01; x00]); (SK_Export, [x01; x01; x61; x00; x00]); (SK_Code, [x01; x02; x00; x0b])].
Definition two : list (SectionKind * list byte) :=
  [(SK_Type, [x01; x60; x00; x00]); (SK_Function, [x02; x00; x00]); (SK_Export, [x01; x01; x62; x00; x01]); (SK_Code, [x02; x02; x00; x0b; x03; x00; x01; x0b])].
(** the file with the sections [ps], each shorter than 128 bytes *)
Definition file (ps : list (SectionKind * list byte)) : list byte := flat_map (fun p => id_of (fst p) :: byte_of (N.of_nat (length (snd p))) :: snd p) ps.
Lemma file_parts ps : Forall (fun p => (length (snd p) < 128)%nat) ps -> parts ps (file ps).
Proof.
  induction 1 as [|[k p] ps H _ IH]; [constructor|]. change (file ((k, p) :: ps)) with (id_of k :: [byte_of (N.of_nat (length p))] ++ p ++ file ps). cbn [snd] in H.
  apply (parts_cons k p [byte_of (N.of_nat (length p))]); [|exact IH]. apply u32_small; [apply val_byte_of|]; lia.
Qed.
Definition host : Module_ := module_in (preamble ++ file one).
Definition donor : Module_ := module_in (preamble ++ file two).
Example C64_host : fst (@decode_module roomy _ _ (preamble ++ file one)) = Ok host. Proof. vm_compute. reflexivity. Qed.
Example C64_donor : fst (@decode_module roomy _ _ (preamble ++ file two)) = Ok donor. Proof. vm_compute. reflexivity. Qed.
(** the export section can be replaced, the function section cannot *)
Definition mixed (k : SectionKind) : list (SectionKind * list byte) :=
  map (fun p => if kind_dec (fst p) k then (k, hd [] (payloads k two)) else p) one.
Example C64_ex_export : exists m, fst (@decode_module roomy _ _ (preamble ++ file (mixed SK_Export))) = Ok m /\ exports m = exports donor /\ exports m <> exports host /\ funcs m = funcs host.
Proof. eexists. split; [vm_compute; reflexivity|]. vm_compute. split; [reflexivity|split; [discriminate|reflexivity]]. Qed.
Example C64_ex_swap : exists m, fst (@decode_module roomy _ _ (preamble ++ file (mixed SK_Export))) = Ok m /\ agree SK_Export m donor /\ forall j, j <> SK_Export -> agree j m host.
Proof.
  assert (F : forall ps, forallb (fun p => Nat.ltb (length (snd p)) 128) ps = true -> parts ps (file ps)).
  { intros ps H. apply file_parts. apply Forall_forall. intros p Hp. rewrite forallb_forall in H. apply Nat.ltb_lt. exact (H p Hp). }
  refine (proj1 (C64_swap roomy roomy roomy (file one) (file two) (file (mixed SK_Export)) host donor (firstn 2 one) (skipn 3 one) (firstn 2 two) (skipn 3 two) SK_Export _ _ _ C64_host (F one eq_refl) C64_donor (F two eq_refl) (F (mixed SK_Export) eq_refl) _) I); [discriminate|].
  apply roomy_ok. vm_compute. repeat constructor.
Qed.
Example C64_ex_function : ~ compatible SK_Function host donor /\ (exists e, fst (@decode_module roomy _ _ (preamble ++ file (mixed SK_Function))) = Err e).
Proof. split; [vm_compute; discriminate|]. eexists. vm_compute. reflexivity. Qed.
Example C64_ex_drop : dispensable SK_Export host /\ ~ dispensable SK_Code host /\ (exists e, fst (@decode_module roomy _ _ (preamble ++ file (firstn 3 one))) = Err e).
Proof. split; [exact I|]. split; [vm_compute; discriminate|]. eexists. vm_compute. reflexivity. Qed.

Print Assumptions C64_own.
Print Assumptions C64_absent.
Print Assumptions C64_all.
Print Assumptions C64_swap.
Print Assumptions C64_drop.
