(** C66: every entry of a section stands for itself.  [entry], [Bentry],
    [entries], [consists], [listed] and [fits] are in Spec/Elements.v, [agree] in
    Spec/Locality.v, [parts] in Spec/Layout.v. *)
From Verif Require Import Model.Prelude Model.Io Model.Ast Model.Errors Model.Module.
From Verif Require Import Spec.Lang Spec.Types Spec.Instr Spec.Module Spec.Streams Spec.Layout Spec.Locality Spec.Resources.
From Verif Require Import Proofs.Machine Proofs.Unamb Proofs.Locality Proofs.Elements Proofs.Shortest Proofs.ShortModule.
From Verif Require Import Properties.Samples Properties.Modules Properties.Locality.
From Verif Require Import Spec.Elements.
From Coq Require Import Lia.

(** the contents of a section fall into a count and one item for each entry of
    the module, in the same order; and they do so in one way only *)
Theorem C66_entries env (evs : list event) m w a b k p : listed k ->
  fst (@decode_module env _ _ evs) = Ok m -> fst (content evs) = preamble ++ w -> parts (a ++ (k, p) :: b) w ->
  exists items, consists p items /\ Forall2 (Bentry k) (entries k m) items /\
    forall es items', consists p items' -> Forall2 (Bentry k) es items' -> items' = items /\ es = entries k m.
Proof.
  intros HL Hd Hw Hp. destruct (C01_sound _ _ _ Hd) as (bs & e & Hc & _ & HB). rewrite Hc in Hw. cbn in Hw. subst bs. exact (section_unique _ _ _ _ _ _ HL HB Hp).
Qed.
(** an entry is determined by its own bytes, whatever else is in the section and
    in the file, wherever it is, and however the file is read *)
Theorem C66_own env env' (evs evs' : list event) m m' items items' k i j bs e e' :
  fst (@decode_module env _ _ evs) = Ok m -> fst (@decode_module env' _ _ evs') = Ok m' ->
  Forall2 (Bentry k) (entries k m) items -> Forall2 (Bentry k) (entries k m') items' ->
  nth_error items i = Some bs -> nth_error items' j = Some bs ->
  nth_error (entries k m) i = Some e -> nth_error (entries k m') j = Some e' -> e = e'.
Proof.
  intros _ _ HF HF' Hi Hj He He'. refine (proj1 (entry_prefix _ _ _ _ _ [] [] (forall2_nth _ _ _ _ _ _ HF He Hi) (forall2_nth _ _ _ _ _ _ HF' He' Hj) _)). reflexivity.
Qed.
(** any list of entries can take the place of those of a section: the result
    decodes to the module with exactly these entries, if and only if [fits] *)
Theorem C66_put env env1 (w w'' : list byte) m a b k p p' es items : listed k ->
  fst (@decode_module env1 _ _ (preamble ++ w)) = Ok m -> parts (a ++ (k, p) :: b) w ->
  Forall2 (Bentry k) es items -> consists p' items ->
  parts (a ++ (k, p') :: b) w'' -> sufficient env (length (preamble ++ w'')) ->
  (fits k m es ->
     exists m'', fst (@decode_module env _ _ (preamble ++ w'')) = Ok m'' /\ entries k m'' = es /\ (forall j, j <> k -> agree j m'' m)) /\
  (~ fits k m es -> forall m'', fst (@decode_module env _ _ (preamble ++ w'')) <> Ok m'').
Proof.
  intros HL Hd Hp HF HI Hp'' HS. apply C01_sound_slice in Hd. pose proof (put _ _ _ _ _ _ _ _ _ _ HL Hd Hp HF HI Hp'') as HW.
  assert (Hk : k <> SK_Custom) by (intros ->; destruct HL). split.
  - intros HC. apply HW in HC as [m'' HB]. exists m''. split; [exact (C02_complete_slice _ _ _ HS HB)|]. split.
    + destruct (section_unique _ _ _ _ _ _ HL HB Hp'') as (items'' & _ & _ & HU). symmetry. exact (proj2 (HU es items HI HF)).
    + intros j Hj. apply (own _ _ _ _ _ _ j HB Hd Hp'' Hp). symmetry. apply payloads_swap. exact Hj.
  - intros HC m'' Hd''. apply HC. apply HW. exists m''. exact (C01_sound_slice _ _ _ Hd'').
Qed.

(** replacing the [i]-th entry replaces just that entry; only the code of a
    function can be wrong there *)
Theorem C66_replace env env1 (w w'' : list byte) m a b k p p' items i e bs : listed k ->
  fst (@decode_module env1 _ _ (preamble ++ w)) = Ok m -> parts (a ++ (k, p) :: b) w ->
  Forall2 (Bentry k) (entries k m) items -> consists p items -> i < length items -> Bentry k e bs ->
  consists p' (firstn i items ++ bs :: skipn (S i) items) ->
  parts (a ++ (k, p') :: b) w'' -> sufficient env (length (preamble ++ w'')) ->
  (forall ls body x, e = En_Code ls body -> data_count m = None -> In x body -> ~ mentions_data x) ->
  exists m'', fst (@decode_module env _ _ (preamble ++ w'')) = Ok m'' /\
    entries k m'' = firstn i (entries k m) ++ e :: skipn (S i) (entries k m) /\ (forall j, j <> k -> agree j m'' m).
Proof.
  intros HL Hd Hp HF HI Hi He HI' Hp'' HS HM. pose proof (f2_length _ _ _ HF) as EL. rewrite <- EL in Hi.
  refine (proj1 (C66_put env env1 w w'' m a b k p p' _ _ HL Hd Hp (forall2_set k _ _ i e bs HF He Hi) HI' Hp'' HS) _).
  pose proof (entries_length k m) as EN. destruct k; try exact I; cbn [fits].
  - rewrite set_length by exact Hi. exact EN.
  - split; [rewrite set_length by exact Hi; exact EN|]. intros HD ls body x Hin Hx. apply in_set in Hin as [<-|Hin].
    + exact (HM ls body x eq_refl HD Hx).
    + exact (module_mentions m w (C01_sound_slice _ _ _ Hd) HD ls body x Hin Hx).
  - right. rewrite set_length by exact Hi. exact EN.
Qed.

(** ** Examples, on the modules [one] and [two] of C64 *)
Lemma file_ok ps : forallb (fun p => Nat.ltb (length (snd p)) 128) ps = true -> parts ps (file ps).
Proof. intros H. apply file_parts. apply Forall_forall. intros p Hp. rewrite forallb_forall in H. apply Nat.ltb_lt. exact (H p Hp). Qed.
(** [two] has two bodies, of two and three bytes *)
Definition bodies : list (list byte) := [[x02; x00; x0b]; [x03; x00; x01; x0b]].
Example C66_bodies : entries SK_Code donor = [En_Code [] []; En_Code [] [I_Nop]] /\ consists [x02; x02; x00; x0b; x03; x00; x01; x0b] bodies /\ Forall2 (Bentry SK_Code) (entries SK_Code donor) bodies.
Proof.
  split; [vm_compute; reflexivity|].
  assert (K : consists [x02; x02; x00; x0b; x03; x00; x01; x0b] bodies) by (exists [x02]; split; [apply u32_small; reflexivity|reflexivity]).
  assert (B : forall e bs, Bexpr e bs -> (N.of_nat (length ([x00] ++ bs)) < 128)%N -> Bentry SK_Code (En_Code [] e) (byte_of (N.of_nat (length ([x00] ++ bs))) :: [x00] ++ bs)).
  { intros e bs HB HN. constructor. apply (Bcode_intro ([], e) [byte_of (N.of_nat (length ([x00] ++ bs)))]).
    - apply u32_small; [apply val_byte_of|]; lia.
    - apply (Bfunc_intro [] e [x00] bs); [|exact HB|reflexivity]. apply (Blist_intro Blocals [] [x00] []); [apply u32_small; reflexivity|constructor]. }
  split; [exact K|]. vm_compute (entries SK_Code donor). constructor; [|constructor; [|constructor]].
  - exact (B [] [x0b] (Bexpr_intro [] [] BIs_nil) eq_refl).
  - apply (B [I_Nop] [x01; x0b]); [|reflexivity]. refine (Bexpr_intro [I_Nop] [x01] (BIs_cons I_Nop [] [x01] [] _ BIs_nil)). exact (g0 (prefix_op x01) eq_refl).
Qed.
Example C66_ex_entries : exists items, consists [x02; x02; x00; x0b; x03; x00; x01; x0b] items /\ Forall2 (Bentry SK_Code) (entries SK_Code donor) items /\ items = bodies.
Proof.
  destruct (C66_entries roomy [EvData x00 (skipn 1 (preamble ++ file two))] donor (file two) (firstn 3 two) [] SK_Code [x02; x02; x00; x0b; x03; x00; x01; x0b] I) as (items & HI & HF & HU);
    [vm_compute; reflexivity|reflexivity|exact (file_ok two eq_refl)|].
  exists items. split; [exact HI|]. split; [exact HF|]. destruct C66_bodies as (_ & HI' & HF'). symmetry. exact (proj1 (HU _ _ HI' HF')).
Qed.
(** one of its bodies replaced by another; the boundaries shift, the other body and the types stay *)
Definition bodies' : list (list byte) := [[x04; x00; x01; x01; x0b]; [x03; x00; x01; x0b]].
Definition patched : list (SectionKind * list byte) := firstn 3 two ++ [(SK_Code, x02 :: concat bodies')].
Example C66_ex_replace : exists m, fst (@decode_module roomy _ _ (preamble ++ file patched)) = Ok m /\
  entries SK_Code m = [En_Code [] [I_Nop; I_Nop]; En_Code [] [I_Nop]] /\ forall j, j <> SK_Code -> agree j m donor.
Proof.
  destruct C66_bodies as (E & HI & HF).
  destruct (C66_replace roomy roomy (file two) (file patched) donor (firstn 3 two) [] SK_Code [x02; x02; x00; x0b; x03; x00; x01; x0b] (x02 :: concat bodies') bodies 0 (En_Code [] [I_Nop; I_Nop]) [x04; x00; x01; x01; x0b]) as (m & Hd & HE & HA).
  - exact I.
  - exact C64_donor.
  - exact (file_ok two eq_refl).
  - exact HF.
  - exact HI.
  - cbn. lia.
  - constructor. apply (Bcode_intro ([], [I_Nop; I_Nop]) [x04]); [apply u32_small; reflexivity|].
    apply (Bfunc_intro [] _ [x00] [x01; x01; x0b]); [|  |reflexivity].
    + apply (Blist_intro Blocals [] [x00] []); [apply u32_small; reflexivity|constructor].
    + refine (Bexpr_intro [I_Nop; I_Nop] [x01; x01] (BIs_cons I_Nop [I_Nop] [x01] [x01] _ (BIs_cons I_Nop [] [x01] [] _ BIs_nil))); exact (g0 (prefix_op x01) eq_refl).
  - exists [x02]. split; [apply u32_small; reflexivity|reflexivity].
  - exact (file_ok patched eq_refl).
  - apply roomy_ok. vm_compute. repeat constructor.
  - intros ls body x [= <- <-] _ [<-|[<-|[]]] H; inversion H.
  - exists m. split; [exact Hd|]. split; [|exact HA]. rewrite HE, E. reflexivity.
Qed.
(** the exports of [one] and [two] put together; a list of functions that is too long does not fit *)
Definition merged : list (SectionKind * list byte) :=
  map (fun p => if kind_dec (fst p) SK_Export then (SK_Export, [x02; x01; x61; x00; x00; x01; x62; x00; x01]) else p) one.
Example C66_ex_merge : exists m, fst (@decode_module roomy _ _ (preamble ++ file merged)) = Ok m /\ exports m = exports host ++ exports donor /\ exports donor <> [].
Proof. eexists. split; [vm_compute; reflexivity|]. vm_compute. split; [reflexivity|discriminate]. Qed.
Example C66_ex_unfit : ~ fits SK_Function host [En_Function 0%N; En_Function 0%N] /\ fits SK_Export host [] /\ exists e, fst (@decode_module roomy _ _ (preamble ++ file (mixed SK_Function))) = Err e.
Proof. split; [vm_compute; discriminate|]. split; [exact I|]. eexists. vm_compute. reflexivity. Qed.

Print Assumptions C66_entries.
Print Assumptions C66_own.
Print Assumptions C66_put.
Print Assumptions C66_replace.
