(** C68: an error in a section is about that section alone. *)
From Verif Require Import Model.Prelude Model.Io Model.Ast Model.Errors Model.Module.
From Verif Require Import Spec.Lang Spec.Types Spec.Instr Spec.Module Spec.Streams Spec.Leb Spec.Layout Spec.Faults Spec.Diagnosis.
From Verif Require Import Proofs.Machine Proofs.Components Proofs.Final Proofs.Unamb Proofs.Modules Proofs.Reports Proofs.Fences Proofs.Elements.
From Verif Require Import Properties.Samples Properties.Modules Properties.Diagnosis.
From Verif Require Import Spec.Elements Spec.Isolation.
From Coq Require Import Lia.

Lemma about_contents k bs stop e : Fcontents k bs stop e -> about e = Some k.
Proof. intros H. apply contents_wrapped in H. destruct e; try contradiction; subst k; reflexivity. Qed.
Lemma about_wrong cs k n rest stop e : wrong_section cs k n rest stop e -> about e <> None ->
  about e = Some k /\ (forall e', ~ misplaced cs k e') /\ exists bs' stop', fenced n rest stop = (bs', stop') /\ Fcontents k bs' stop' e.
Proof.
  intros HW HA. inversion HW as [? HM|? ? ? HP HF HC|? ? ? ? ? ? ? ? HM|? ? ? ? ? ? ? ?|? ? ? ? ?]; subst.
  - destruct HM; contradiction HA; reflexivity.
  - split; [exact (about_contents _ _ _ _ HC)|]. eauto.
  - match goal with HM : mismatch _ _ _ |- _ => destruct HM; contradiction HA; reflexivity end.
  - contradiction HA; reflexivity.
  - contradiction HA; reflexivity.
Qed.
Lemma incomplete_about cs e : incomplete cs e -> about e = None.
Proof. intros []; reflexivity. Qed.
(** where the section is that the error is about *)
Lemma located env (evs : list event) bs stop e k : content evs = (bs, stop) -> fst (@decode_module env _ _ evs) = Err e -> about e = Some k ->
  exists w size n rest, bs = preamble ++ w ++ id_of k :: size ++ rest /\ opens k w /\ Bu32 n size /\
    Fcontents k (fst (fenced n rest stop)) (snd (fenced n rest stop)) e.
Proof.
  intros Hc Hd HA. apply (C50_sound _ _ _ _ _ Hc) in Hd.
  destruct Hd as [Hl|Hl HN|xs w k' Hq HB Hbs Hst Hk|xs w b rest Hq HB Hbs HN|xs w k' rest e1 Hq HB Hbs He|xs w k' nb n rest e1 Hq HB Hbs HU HW|xs w e1 Hq HB Hbs Hst HI]; try discriminate HA.
  - destruct (about_wrong _ _ _ _ _ _ HW) as (HA' & HP & b' & s' & HF & HC); [congruence|]. assert (k' = k) by congruence. subst k'.
    exists w, nb, n, rest. rewrite HF. split; [exact Hbs|]. split; [exists xs; auto|]. auto.
  - apply incomplete_about in HI. congruence.
Qed.
(** the error occurs wherever the section is put *)
Lemma occurs env (evs : list event) w size n rest stop e k : content evs = (preamble ++ w ++ id_of k :: size ++ rest, stop) ->
  sufficient env (length (preamble ++ w ++ id_of k :: size ++ rest)) -> opens k w -> Bu32 n size ->
  Fcontents k (fst (fenced n rest stop)) (snd (fenced n rest stop)) e -> fst (@decode_module env _ _ evs) = Err e.
Proof.
  intros Hc HS (xs & Hq & HB & HP) HU HF. apply (section_after _ _ _ _ xs k n rest e Hc HS); [exists w, size; auto|].
  destruct (fenced n rest stop) as [b' s'] eqn:E. eapply ws_contents; [exact HP|exact E|exact HF].
Qed.

(** ** entries *)
Lemma seq_moved {A} (X : lang A) k items : (forall e b, Bentry k e b -> exists x, X x b) -> entries k items ->
  exists xs, Bseq X xs (concat items) /\ length xs = length items.
Proof.
  intros HX H. induction H as [|b items (en & Hb) _ (xs & HS & Hl)]; [exists []; split; [constructor|reflexivity]|].
  destruct (HX _ _ Hb) as (x & Hx). exists (x :: xs). split; [constructor; assumption|cbn; congruence].
Qed.
Lemma seq_entries {A} (X : lang A) k xs w : (forall x b, X x b -> exists e, Bentry k e b) -> Bseq X xs w ->
  exists items, entries k items /\ w = concat items /\ length items = length xs.
Proof.
  intros HX H. induction H as [|x xs b1 b2 Hx _ (items & HE & -> & Hl)]; [exists []; repeat split; constructor|].
  exists (b1 :: items). split; [constructor; [exact (HX _ _ Hx)|exact HE]|]. split; [reflexivity|cbn; congruence].
Qed.
Lemma list_moved {A E} (X : lang A) (F : faulty E) (f : DecodeListError E -> DecodeModuleError) k bs stop l i :
  (forall e b, Bentry k e b -> exists x, X x b) -> (forall x b, X x b -> exists e, Bentry k e b) ->
  Flist X F bs stop l -> position_in l = Some i ->
  exists n count items q, bs = count ++ concat items ++ q /\ Bu32 n count /\ entries k items /\ i = N.of_nat (length items) /\ (i < n)%N /\
    forall n' count' items', Bu32 n' count' -> entries k items' -> (N.of_nat (length items') < n')%N ->
      at_ f (Flist X F) (count' ++ concat items' ++ q) stop (f (moved_in (N.of_nat (length items')) l)).
Proof.
  intros H1 H2 [(x & _ & ->)|(n & count & rest & -> & HU & (xs & w & q & e' & -> & HS & Hn & HF & ->))] HP; [discriminate|].
  injection HP as <-. destruct (seq_entries X k _ _ H2 HS) as (items & HE & -> & Hl). exists n, count, items, q. rewrite Hl.
  split; [reflexivity|]. split; [exact HU|]. split; [exact HE|]. split; [reflexivity|]. split; [exact Hn|].
  intros n' count' items' HU' HE' Hn'. destruct (seq_moved X k _ H1 HE') as (xs' & HS' & Hl'). eexists. split; [|reflexivity]. right.
  exists n', count', (concat items' ++ q). split; [reflexivity|]. split; [exact HU'|]. exists xs', (concat items'), q, e'. rewrite Hl'. auto.
Qed.
Lemma entry_moved k bs stop e i : Fcontents k bs stop e -> position e = Some i ->
  exists n count items q, bs = count ++ concat items ++ q /\ Bu32 n count /\ entries k items /\ i = N.of_nat (length items) /\ (i < n)%N /\
    forall n' count' items', Bu32 n' count' -> entries k items' -> (N.of_nat (length items') < n')%N ->
      Fcontents k (count' ++ concat items' ++ q) stop (moved (N.of_nat (length items')) e).
Proof.
  intros HF HP. destruct k; try (destruct HF as (l & HF & ->); cbn [position] in HP; try discriminate HP;
    refine (list_moved _ _ _ _ _ _ _ _ _ _ HF HP); [intros ? ? HX; inversion HX; subst; eexists; eassumption|]).
  1: { destruct HF as [(x & _ & ->)|(a & pre & rest & _ & _ & x & _ & ->)]; discriminate. }
  all: try (intros x b HX; eexists; econstructor; exact HX).
  1, 2: destruct HF as (l & _ & ->); discriminate HP.
  intros [ls ex] b HX. eexists. econstructor. exact HX.
Qed.
Lemma moved_about i e : about (moved i e) = about e.
Proof. destruct e as [| | | | | | | | | |[]|[]|[]|[]|[]|[]|[]|[]|[]|[]|[]|[]|[]|[]]; reflexivity. Qed.

(** ** one section, entirely there *)
Lemma exact_fault env (evs : list event) w size p e k : content evs = (preamble ++ w ++ id_of k :: size ++ p, Ends) ->
  sufficient env (length (preamble ++ w ++ id_of k :: size ++ p)) -> opens k w -> Bu32 (N.of_nat (length p)) size -> about e <> None ->
  fst (@decode_module env _ _ evs) = Err e <-> Fcontents k p Ends e.
Proof.
  intros Hc HS Ho HU HA. pose proof (fenced_exact p [] Ends) as HE. rewrite app_nil_r in HE. split.
  2: { intros HF. apply (occurs env evs w size (N.of_nat (length p)) p Ends e k Hc HS Ho HU). rewrite HE. exact HF. }
  destruct Ho as (xs & Hq & HB & HP). intros Hd. destruct (errors_after env evs xs w _ Ends e Hq HB Hc HS Hd) as (ys & v & rest & Ev & Hys & _ & HT).
  assert (HX : exists k' nb n rest', rest = id_of k' :: nb ++ rest' /\ Bu32 n nb /\ wrong_section (map fst (xs ++ ys)) k' n rest' Ends e).
  { destruct HT as [? ? ?|? ? ? ?|? ? ? ? ?|k' nb n rest' e1 E1 HU' HW|e1 ? ? HI]; try (contradiction HA; reflexivity); [eauto 8|].
    apply incomplete_about in HI. contradiction. }
  destruct HX as (k' & nb & n & rest' & -> & HU' & HW). destruct (about_wrong _ _ _ _ _ _ HW HA) as (_ & _ & b' & s' & HF & HC).
  destruct Hys as [|y ys b1 b2 Hy Hys].
  - cbn [app] in Ev. injection Ev as Ek Ev. apply id_of_inj in Ek. subst k'. destruct (decodes_prefix_free _ _ decodes_u32 _ _ _ _ _ _ Ev HU HU') as [<- <-].
    apply app_inv_head in Ev. subst rest'. rewrite HE in HF. injection HF as <- <-. exact HC.
  - destruct Hy as [x n1 p1 HU1 _]. rewrite <- !app_assoc in Ev. cbn [app] in Ev. injection Ev as _ Ev. rewrite <- !app_assoc in Ev.
    destruct (decodes_prefix_free _ _ decodes_u32 _ _ _ _ _ _ Ev HU HU1) as [El <-]. apply app_inv_head in Ev. apply (f_equal (@length byte)) in Ev. rewrite !app_length in Ev. cbn [length] in Ev. lia.
Qed.
