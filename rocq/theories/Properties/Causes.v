(** Root causes: which errors are due to the way the input stops, and which are
    there whatever follows.  [io_cause], [negative_blocktype], [cut_blocktype]
    are in Spec/Causes.v, [n_module] (an error as text and payload) in
    Model/Display.v. *)
From Verif Require Import Model.Prelude Model.Io Model.Ast Model.Errors Model.Display Model.Module.
From Verif Require Import Spec.Lang Spec.Types Spec.Instr Spec.Module Spec.Streams Spec.Leb Spec.Layout Spec.Faults Spec.Diagnosis Spec.Causes.
From Verif Require Import Proofs.Machine Proofs.Components Proofs.Diag Proofs.Final Proofs.GAssemble Proofs.Unamb Proofs.Modules Proofs.Causes.
From Verif Require Import Properties.Samples Properties.Modules Properties.Diagnosis.
From Coq Require Import Lia.

Ltac not_io Hk := unfold io_cause in Hk; cbn in Hk; discriminate Hk.

(** ** C33 I/O failures *)

(** If the reader fails with [k], the error is at the bottom that failure; or
    the failure hit a block type [(ref null? ht)], reported as a negative
    index; or the bytes delivered before the failure are faulty in themselves:
    the error is the same whatever comes after them. *)
Theorem C33_cause env (evs : list event) bs k e : content evs = (bs, Fails k) -> k <> UnexpectedEof ->
  fst (@decode_module env _ _ evs) = Err e ->
  io_cause (n_module e) k \/
  (negative_blocktype (n_module e) /\ cut_blocktype bs) \/
  (forall env' (evs' : list event) rest stop', content evs' = (bs ++ rest, stop') -> sufficient env' (length (bs ++ rest)) ->
     fst (@decode_module env' _ _ evs') = Err e).
Proof.
  intros Hc Hk Hd. apply (C50_sound _ _ _ _ _ Hc) in Hd. destruct (diagnosis_settled _ _ _ Hd) as [H1|[H1|[H1|[H1 _]]]]; [auto|auto| |].
  - inversion H1 as [xs w e0 Hq HB Hbs [?|Hst] HI|xs w nb n rest c Hq HB Hbs HU HC Hl Hst]; subst; try congruence.
  - right. right. intros env' evs' rest stop' Hc' HS. exact (proj2 (C50_exact env' evs' _ _ e HS Hc') (H1 rest stop')).
Qed.
(** if the bytes delivered are the beginning of a module, only the failure is to blame *)
Theorem C33_prefix env (evs : list event) bs rest k m e : content evs = (bs, Fails k) -> k <> UnexpectedEof ->
  Bmodule m (bs ++ rest) -> fst (@decode_module env _ _ evs) = Err e ->
  io_cause (n_module e) k \/ (negative_blocktype (n_module e) /\ cut_blocktype bs).
Proof.
  intros Hc Hk HM Hd. destruct (C33_cause _ _ _ _ _ Hc Hk Hd) as [H1|[H1|H1]]; [auto|auto|]. exfalso.
  assert (Hc' : content (plain (bs ++ rest) Ends) = (bs ++ rest, Ends)) by (apply content_plain; discriminate).
  specialize (H1 (bigenv (length (bs ++ rest))) _ rest Ends Hc' (bigenv_ok _)).
  exact (C48_error _ _ _ _ _ _ Hc' (or_introl eq_refl) H1 HM).
Qed.
(** an I/O error that is reported is the reader's own, or says that bytes are missing *)
Theorem C33_honest env (evs : list event) bs stop e k : content evs = (bs, stop) -> fst (@decode_module env _ _ evs) = Err e ->
  io_cause (n_module e) k -> stop = Fails k \/ k = UnexpectedEof.
Proof.
  intros Hc Hd Hk. apply (C50_sound _ _ _ _ _ Hc) in Hd. destruct (diagnosis_settled _ _ _ Hd) as [H1|[[[H1|H1] _]|[H1|[_ H1]]]].
  - pose proof (io_cause_inj _ _ _ Hk H1) as ->. destruct stop; auto.
  - unfold io_cause in Hk. rewrite H1 in Hk. not_io Hk.
  - unfold io_cause in Hk. rewrite H1 in Hk. not_io Hk.
  - destruct H1 as [xs w e0 Hq HB Hbs Hst HI|]; [destruct HI|]; not_io Hk.
  - right. auto.
Qed.
(** a failure that is reported, and one that is swallowed: the input stops
    after [block (ref null ..] *)
Definition start_of_function : list byte := preamble ++ [x03; x02; x01; x00; x0a; x08; x01; x06; x00; x02].
Example C33_ex k : k <> Interrupted ->
  (exists e, fst (@decode_module roomy _ _ (plain start_of_function (Fails k))) = Err e /\ io_cause (n_module e) k)
  /\ (exists e, fst (@decode_module roomy _ _ (plain (start_of_function ++ [x63]) (Fails k))) = Err e /\ forall k', ~ io_cause (n_module e) k')
  /\ Bmodule (module_in (start_of_function ++ [x63; x00; x0b; x0b])) (start_of_function ++ [x63; x00; x0b; x0b]).
Proof.
  intros Hk. split; [|split].
  - destruct k; try congruence; eexists; (split; [vm_compute; reflexivity|reflexivity]).
  - destruct k; try congruence; eexists; (split; [vm_compute; reflexivity|intros k' Hk'; discriminate Hk']).
  - apply (C01_sound_slice roomy). vm_compute. reflexivity.
Qed.

(** ** C51 errors are final *)

(** An error that is not due to the end of the input is there whatever
    follows: no continuation of the bytes read so far is a module.  Conversely
    if they can be continued to a module, the error is one of the following. *)
Theorem C51_final env (evs : list event) bs stop e : content evs = (bs, stop) -> fst (@decode_module env _ _ evs) = Err e ->
  io_cause (n_module e) (io stop) \/
  (negative_blocktype (n_module e) /\ cut_blocktype bs) \/
  (* the input ends between two sections, or in a custom section *)
  ((stop = Ends \/ stop = Fails UnexpectedEof) /\ exists xs, ends_after xs bs /\ incomplete (map fst xs) e) \/
  (stop = Ends /\ exists xs n rest c, after xs SK_Custom n rest bs /\ Bcustom c rest /\ (N.of_nat (length rest) < n)%N /\
     e = DM_SectionSizeMismatch SK_Custom n (N.of_nat (length rest))) \/
  (forall env' (evs' : list event) rest stop', content evs' = (bs ++ rest, stop') -> sufficient env' (length (bs ++ rest)) ->
     fst (@decode_module env' _ _ evs') = Err e).
Proof.
  intros Hc Hd. apply (C50_sound _ _ _ _ _ Hc) in Hd. destruct (diagnosis_settled _ _ _ Hd) as [H1|[H1|[H1|[H1 _]]]]; [auto|auto| |].
  - right. right. inversion H1 as [xs w e0 Hq HB Hbs Hst HI|xs w nb n rest c Hq HB Hbs HU HC Hl Hst]; subst.
    + left. split; [exact Hst|]. exists xs. split; [exists w; auto|exact HI].
    + right. left. split; [reflexivity|]. exists xs, n, rest, c. split; [exists w, nb; auto|auto].
  - right. right. right. right. intros env' evs' rest stop' Hc' HS. exact (proj2 (C50_exact env' evs' _ _ e HS Hc') (H1 rest stop')).
Qed.
(** what can be said about the beginning of a module *)
Theorem C44_error env (evs : list event) bs rest m e : content evs = (bs, Ends) -> Bmodule m (bs ++ rest) -> fst (@decode_module env _ _ evs) = Err e ->
  io_cause (n_module e) UnexpectedEof \/
  (negative_blocktype (n_module e) /\ cut_blocktype bs) \/
  (* bytes missing in the last custom section *)
  (exists n got, e = DM_SectionSizeMismatch SK_Custom n got /\ (got < n)%N) \/
  (* a section missing *)
  (exists f, e = DM_CodeFuncEntriesLenMismatch 0%N f) \/
  (exists c, e = DM_DataCountDatasLenMismatch 0%N c).
Proof.
  intros Hc HM Hd. destruct (C51_final _ _ _ _ _ Hc Hd) as [H1|[H1|[[_ (xs & (w & -> & Hq & HB) & HI)]|[[_ (xs & n & r & c & _ & _ & Hl & ->)]|H1]]]]; [auto|auto| |eauto 7|].
  - right. right. right. rewrite <- app_assoc in HM. apply Bmodule_iff in HM as (ys & w' & Hp & Hq' & Ha). unfold preamble, magic, version1 in Hp. cbn [app] in Hp. injection Hp as <-.
    destruct (sections_split _ _ _ _ Hq Hq') as (zs & -> & _). apply assemble_iff in Ha as [[Ho _ Hn Hi] _].
    rewrite map_app in *. change (subseq (kinds (map fst xs ++ map fst zs)) section_order) in Ho. apply order_iff in Ho. rewrite kinds_app in Ho. apply ksorted_app in Ho as (Ho1 & _ & Ho).
    destruct HI as [Hcode Hf|n Hlen Hn1 Hn2|ls b i Hlen Hno Hb Hib Hm].
    + left. eauto.
    + right. exists n. f_equal.
      assert (Hd0 : forall l, ~ In (SData l) (map fst xs)).
      { intros l Hl. apply Hn2. rewrite (beg_data _ HB l n Hl Hn1). f_equal. f_equal. symmetry. apply (the_unique get_data SK_Data _ (SData l)); [intros []; cbn; congruence|discriminate|exact Ho1|exact Hl|reflexivity]. }
      rewrite (the_nil get_data SK_Data); [reflexivity|intros []; cbn; congruence|discriminate|].
      intros Hin. unfold kinds in Hin. apply in_map_iff in Hin as (x & Hx & Hin). apply filter_In in Hin as [Hin _]. destruct x; try discriminate Hx. eapply Hd0; eauto.
    + exfalso. rewrite !the_app in Hi. refine (Hi _ ls b i _ Hib Hm); [|apply in_or_app; auto].
      rewrite (the_nil get_datacount SK_DataCount), (the_nil get_datacount SK_DataCount); [reflexivity|intros []; cbn; congruence|discriminate| |intros []; cbn; congruence|discriminate|].
      * intros Hin. assert (HC : In SK_Code (kinds (map fst xs))).
        { unfold the in Hb. apply in_flat_map in Hb as (x & Hx & Hb). destruct x; cbn in Hb; try contradiction. unfold kinds. apply in_map_iff. eexists. split; [|apply filter_In; split; [exact Hx|reflexivity]]. reflexivity. }
        specialize (Ho _ _ HC Hin). red in Ho. cbn in Ho. lia.
      * intros Hin. unfold kinds in Hin. apply in_map_iff in Hin as (x & Hx & Hin). apply filter_In in Hin as [Hin _]. destruct x; try discriminate Hx. eapply Hno; eauto.
  - exfalso. assert (Hc' : content (plain (bs ++ rest) Ends) = (bs ++ rest, Ends)) by (apply content_plain; discriminate).
    specialize (H1 (bigenv (length (bs ++ rest))) _ rest Ends Hc' (bigenv_ok _)). exact (C48_error _ _ _ _ _ _ Hc' (or_introl eq_refl) H1 HM).
Qed.
(** each of the five can happen *)
Example C44_error_ex :
  let bs := start_of_function ++ [x63; x00; x0b; x0b] ++ [x00; x02; x01; x61] in
  (exists m, Bmodule m bs)
  /\ fst (@decode_module roomy _ _ (firstn 10 bs)) = Err (DM_DecodeFunctionSection (FuncSec_DecodeList (DecodeLength (U32_Io UnexpectedEof))))
  /\ fst (@decode_module roomy _ _ (firstn 12 bs)) = Err (DM_CodeFuncEntriesLenMismatch 0%N 1%N)
  /\ (exists e, fst (@decode_module roomy _ _ (firstn 19 bs)) = Err e /\ negative_blocktype (n_module e))
  /\ fst (@decode_module roomy _ _ (preamble ++ [x00; x03; x01; x61])) = Err (DM_SectionSizeMismatch SK_Custom 3%N 2%N)
  /\ fst (@decode_module roomy _ _ (preamble ++ [x0c; x01; x01])) = Err (DM_DataCountDatasLenMismatch 0%N 1%N).
Proof.
  cbv zeta. split; [eexists; apply (C01_sound_slice roomy); vm_compute; reflexivity|]. split; [vm_compute; reflexivity|]. split; [vm_compute; reflexivity|].
  split; [eexists; split; [vm_compute; reflexivity|left; reflexivity]|]. split; vm_compute; reflexivity.
Qed.
(** a fault that no continuation can repair: a memory with limits of kind 9 *)
Example C51_ex env (evs : list event) rest stop : content evs = ((preamble ++ [x05; x02; x01; x09]) ++ rest, stop) ->
  sufficient env (length ((preamble ++ [x05; x02; x01; x09]) ++ rest)) ->
  fst (@decode_module env _ _ evs) = Err (DM_DecodeMemorySection (MemSec_DecodeList (ParseElement 0%N (MemTypeE (Lim_UnexpectedFlagByte x09))))).
Proof.
  intros Hc HS. assert (Hc0 : content (plain (preamble ++ [x05; x02; x01; x09]) Ends) = (preamble ++ [x05; x02; x01; x09], Ends)) by (apply content_plain; discriminate).
  assert (Ed : fst (@decode_module roomy _ _ (plain (preamble ++ [x05; x02; x01; x09]) Ends)) =
    Err (DM_DecodeMemorySection (MemSec_DecodeList (ParseElement 0%N (MemTypeE (Lim_UnexpectedFlagByte x09)))))) by (vm_compute; reflexivity).
  destruct (C51_final _ _ _ _ _ Hc0 Ed) as [H1|[[[H1|H1] _]|[[_ (xs & _ & H1)]|[[_ (xs & n & r & c & _ & _ & Hl & H1)]|H1]]]].
  - discriminate H1.
  - vm_compute in H1. discriminate H1.
  - vm_compute in H1. discriminate H1.
  - inversion H1.
  - discriminate H1.
  - exact (H1 _ _ _ _ Hc HS).
Qed.
