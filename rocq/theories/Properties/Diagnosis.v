(** What is reported about inputs that are not modules.  [diagnosis],
    [beginning], [misplaced], [mismatch], [incomplete] are in Spec/Diagnosis.v;
    [content] in Spec/Streams.v; [parts] and [preamble] in Spec/Layout.v. *)
From Verif Require Import Model.Prelude Model.Io Model.Ast Model.Errors Model.Sections Model.Module.
From Verif Require Import Spec.Lang Spec.Types Spec.Instr Spec.Module Spec.Streams Spec.Leb Spec.Layout Spec.Faults Spec.Diagnosis.
From Verif Require Import Proofs.Machine Proofs.Components Proofs.Final Proofs.Unamb Proofs.Modules Proofs.Reports Proofs.Fences Proofs.Entries.
From Verif Require Import Properties.Samples Properties.Modules.
From Coq Require Import Lia.

(** ** C50 every error is the diagnosis of the input, and every input with a
    diagnosis gets that error *)
Theorem C50_exact env (evs : list event) bs stop e : sufficient env (length bs) -> content evs = (bs, stop) ->
  fst (@decode_module env _ _ evs) = Err e <-> diagnosis bs stop e.
Proof. exact (diagnosis_exact env evs bs stop e). Qed.
(** whatever the resources, an error is never a wrong diagnosis *)
Theorem C50_sound env (evs : list event) bs stop e : content evs = (bs, stop) -> fst (@decode_module env _ _ evs) = Err e -> diagnosis bs stop e.
Proof. exact (diagnosis_backward env evs bs stop e). Qed.
(** an input has a diagnosis exactly if it is not a module *)
Theorem C50_total (bs : list byte) : (exists e, diagnosis bs Ends e) <-> ~ (exists m, Bmodule m bs).
Proof.
  pose (env := bigenv (length bs)). assert (HS : sufficient env (length bs)) by apply bigenv_ok. assert (Hc : content (plain bs Ends) = (bs, Ends)) by (apply content_plain; discriminate). split.
  - intros [e HD] [m HM]. apply (C50_exact env _ bs Ends e HS Hc) in HD. eapply C48_error; eauto.
  - intros HN. destruct (C48_decided env bs HS) as [(m & _ & HM)|(e & He & _)]; [exfalso; eauto|]. exists e. apply (C50_exact env _ bs Ends e HS Hc). rewrite (C30_slice env _ bs Hc). exact He.
Qed.
(** a diagnosis is unique *)
Theorem C50_unique (bs : list byte) stop e1 e2 : stop <> Fails Interrupted -> diagnosis bs stop e1 -> diagnosis bs stop e2 -> e1 = e2.
Proof.
  pose (env := bigenv (length bs)). assert (HS : sufficient env (length bs)) by apply bigenv_ok. intros Hs H1 H2. assert (Hc : content (plain bs stop) = (bs, stop)) by (apply content_plain; exact Hs).
  apply (C50_exact env _ bs stop _ HS Hc) in H1, H2. rewrite H1 in H2. injection H2 as ->. reflexivity.
Qed.

(** [after xs w k n rest bs]: the input [bs] begins with the preamble and the
    well-formed sections [xs], which may begin a module, and continues with the
    header of a section of kind [k] and declared size [n], and then [rest]. *)
Definition after (xs : list (section * N)) (k : SectionKind) (n : N) (rest bs : list byte) : Prop :=
  exists w size, bs = preamble ++ w ++ id_of k :: size ++ rest /\ Bseq Bsection xs w /\ beginning (map fst xs) /\ Bu32 n size.
(** [bs] is the preamble and the well-formed sections [xs], which may begin a module *)
Definition ends_after (xs : list (section * N)) (bs : list byte) : Prop :=
  exists w, bs = preamble ++ w /\ Bseq Bsection xs w /\ beginning (map fst xs).
Lemma after_section bs stop e : diagnosis bs stop e ->
  match e with DM_ParsePreamble _ | DM_DecodeSectionHeader _ => True
  | _ => (exists xs k n rest, after xs k n rest bs /\ wrong_section (map fst xs) k n rest stop e) \/
         (exists xs, ends_after xs bs /\ (stop = Ends \/ stop = Fails UnexpectedEof) /\ incomplete (map fst xs) e)
  end.
Proof.
  intros [Hl|Hl HN|xs w k Hq HB Hbs Hst Hk|xs w b rest Hq HB Hbs HN|xs w k rest e1 Hq HB Hbs He|xs w k nb n rest e1 Hq HB Hbs HU HW|xs w e1 Hq HB Hbs Hst He]; try exact I.
  - assert (HX : exists xs k n rest, after xs k n rest bs /\ wrong_section (map fst xs) k n rest stop e1) by (exists xs, k, n, rest; split; [exists w, nb; auto|exact HW]).
    destruct e1; auto.
  - assert (HX : exists xs, ends_after xs bs /\ (stop = Ends \/ stop = Fails UnexpectedEof) /\ incomplete (map fst xs) e1) by (exists xs; split; [exists w; auto|auto]).
    destruct e1; auto.
Qed.
Lemma section_after env (evs : list event) bs stop xs k n rest e : content evs = (bs, stop) -> sufficient env (length bs) ->
  after xs k n rest bs -> wrong_section (map fst xs) k n rest stop e -> fst (@decode_module env _ _ evs) = Err e.
Proof. intros Hc HS (w & nb & Hbs & Hq & HB & HU) HW. apply (C50_exact env evs bs stop e HS Hc). eapply dg_section; eauto. Qed.
Lemma end_after env (evs : list event) bs stop xs e : content evs = (bs, stop) -> sufficient env (length bs) ->
  ends_after xs bs -> stop = Ends \/ stop = Fails UnexpectedEof -> incomplete (map fst xs) e -> fst (@decode_module env _ _ evs) = Err e.
Proof. intros Hc HS (w & Hbs & Hq & HB) Hst HI. apply (C50_exact env evs bs stop e HS Hc). eapply dg_end; eauto. Qed.
(** an error in the contents of a section says so *)
Lemma contents_wrapped k bs stop e : Fcontents k bs stop e ->
  match e with
  | DM_DecodeCustomSection _ => k = SK_Custom | DM_DecodeTypeSection _ => k = SK_Type | DM_DecodeImportSection _ => k = SK_Import
  | DM_DecodeFunctionSection _ => k = SK_Function | DM_DecodeTableSection _ => k = SK_Table | DM_DecodeMemorySection _ => k = SK_Memory
  | DM_DecodeTagSection _ => k = SK_Tag | DM_DecodeGlobalSection _ => k = SK_Global | DM_DecodeExportSection _ => k = SK_Export
  | DM_DecodeStartSection _ => k = SK_Start | DM_DecodeElementSection _ => k = SK_Element | DM_DecodeDatacountSection _ => k = SK_DataCount
  | DM_DecodeCodeSection _ => k = SK_Code | DM_DecodeDataSection _ => k = SK_Data
  | _ => False
  end.
Proof.
  destruct k; unfold Fcontents; try (intros (x & _ & ->); reflexivity).
  intros [(x & _ & ->)|(a & pre & rest & _ & _ & HK)]; [reflexivity|]. destruct stop; [destruct HK as (? & ? & ->)|destruct HK as (? & ? & ->)]; reflexivity.
Qed.
Ltac wrong HW := inversion HW as [? HM|? ? ? ? HC|? ? ? ? ? ? ? ? ? HM|? ? ? ? ? ? ? ? ?|? ? ? ? ?]; subst;
  try (match goal with HC : Fcontents _ _ _ _ |- _ => apply contents_wrapped in HC; contradiction end);
  try (inversion HM; subst).

(** ** C21 order of sections *)
Theorem C21_out_of_order env (evs : list event) bs stop k p : content evs = (bs, stop) -> sufficient env (length bs) ->
  fst (@decode_module env _ _ evs) = Err (DM_SectionOutOfOrder k p) <->
  exists xs n rest, after xs k n rest bs /\ last_kind (map fst xs) = Some p /\ precedes k p.
Proof.
  intros Hc HS. split.
  - intros Hd. apply (C50_sound _ _ _ _ _ Hc), after_section in Hd. destruct Hd as [(xs & k' & n & rest & HA & HW)|(xs & _ & _ & HI)]; [|inversion HI].
    wrong HW. exists xs, n, rest. auto.
  - intros (xs & n & rest & HA & Hl & Hp). eapply section_after; eauto. apply ws_misplaced, mis_order; assumption.
Qed.
Theorem C21_duplicate env (evs : list event) bs stop k : content evs = (bs, stop) -> sufficient env (length bs) ->
  fst (@decode_module env _ _ evs) = Err (DM_DuplicateSection k) <->
  exists xs n rest, after xs k n rest bs /\ last_kind (map fst xs) = Some k.
Proof.
  intros Hc HS. split.
  - intros Hd. apply (C50_sound _ _ _ _ _ Hc), after_section in Hd. destruct Hd as [(xs & k' & n & rest & HA & HW)|(xs & _ & _ & HI)]; [|inversion HI].
    wrong HW. exists xs, n, rest. auto.
  - intros (xs & n & rest & HA & Hl). eapply section_after; eauto. apply ws_misplaced, mis_twice; assumption.
Qed.
(** [rest] and [stop] are arbitrary above: the contents are not looked at *)
Lemma u32_1 b n : val b = n -> (n < 2 ^ 7)%N -> Bu32 n [b].
Proof. intros <- Hn. apply (Bu_last 32); [exact Hn|eapply N.lt_trans; [exact Hn|reflexivity]]. Qed.
Lemma after_memory : after [(SMemory [], 1%N)] SK_Type 5%N [xff; xff] (preamble ++ [x05; x01; x00] ++ [x01; x05; xff; xff]).
Proof.
  exists [x05; x01; x00], [x05]. split; [reflexivity|]. split; [|split].
  - apply (Bseq_cons _ _ [] [x05; x01; x00] []); [|constructor]. apply (Bsection_intro (SMemory []) [x01] [x00]); [apply u32_1; reflexivity|].
    apply Bc_memory, (Blist_intro _ [] [x00] []); [apply u32_1; reflexivity|constructor].
  - split; cbn; [|intros l [|[]]; discriminate|intros l n [|[]]; discriminate]. unfold section_order. repeat first [apply subseq_take|apply subseq_skip|apply subseq_nil].
  - apply u32_1; reflexivity.
Qed.
Example C21_ex : fst (@decode_module roomy _ _ [EvErr Interrupted; EvData x00 [x61; x73; x6d; x01; x00; x00; x00; x05; x01; x00]; EvData x01 [x05; xff; xff]; EvErr (OtherKind 9)])
  = Err (DM_SectionOutOfOrder SK_Type SK_Memory).
Proof.
  eapply (C21_out_of_order roomy _ (preamble ++ [x05; x01; x00] ++ [x01; x05; xff; xff]) (Fails (OtherKind 9))); [reflexivity|apply roomy_ok; cbn; lia|].
  exists [(SMemory [], 1%N)], 5%N, [xff; xff]. split; [exact after_memory|]. split; [reflexivity|]. exists [], [SK_Import; SK_Function; SK_Table]. eexists. reflexivity.
Qed.

(** ** C22 declared sizes *)
(** contents shorter than declared *)
Theorem C22_size_mismatch env (evs : list event) bs stop k n got : content evs = (bs, stop) -> sufficient env (length bs) -> k <> SK_Custom ->
  fst (@decode_module env _ _ evs) = Err (DM_SectionSizeMismatch k n got) <->
  exists xs x q rest, after xs k n (q ++ rest) bs /\ kind_of x = k /\ Bcontents x q /\ beginning (map fst xs ++ [x]) /\ got = N.of_nat (length q) /\ (got < n)%N.
Proof.
  intros Hc HS Hk. split.
  - intros Hd. apply (C50_sound _ _ _ _ _ Hc), after_section in Hd. destruct Hd as [(xs & k' & n' & rest & HA & HW)|(xs & _ & _ & HI)]; [|inversion HI].
    wrong HW; [|congruence]. eexists xs, _, _, _. eauto 10.
  - intros (xs & x & q & rest & HA & Hkx & HC & HB & -> & Hl). eapply section_after; eauto. eapply ws_size; eauto.
Qed.
(** a custom section takes all its declared bytes, so only the end of the input can leave it short *)
Theorem C22_custom_mismatch env (evs : list event) bs stop n got : content evs = (bs, stop) -> sufficient env (length bs) ->
  fst (@decode_module env _ _ evs) = Err (DM_SectionSizeMismatch SK_Custom n got) <->
  exists xs c rest, after xs SK_Custom n rest bs /\ stop = Ends /\ Bcustom c rest /\ got = N.of_nat (length rest) /\ (got < n)%N.
Proof.
  intros Hc HS. split.
  - intros Hd. apply (C50_sound _ _ _ _ _ Hc), after_section in Hd. destruct Hd as [(xs & k' & n' & rest & HA & HW)|(xs & _ & _ & HI)]; [|inversion HI].
    wrong HW; [congruence|]. exists xs. eexists. exists rest. eauto 10.
  - intros (xs & c & rest & HA & Hst & HC & -> & Hl). eapply section_after; eauto. eapply ws_custom; eauto.
Qed.
(** a section whose declared bytes [p] are all there: either they are exactly
    the contents of a section that may come next, or decoding fails with an
    error that depends on nothing after [p] - not on the bytes [rest], not on
    how the stream stops, not on the reader *)
Theorem C22_fence (xs : list (section * N)) w k size p :
  Bseq Bsection xs w -> beginning (map fst xs) -> Bu32 (N.of_nat (length p)) size ->
  (exists x, kind_of x = k /\ Bcontents x p /\ beginning (map fst xs ++ [x])) \/
  (exists e, forall env evs rest stop, content evs = (preamble ++ w ++ id_of k :: size ++ p ++ rest, stop) ->
     sufficient env (length (preamble ++ w ++ id_of k :: size ++ p ++ rest)) -> fst (@decode_module env _ _ evs) = Err e).
Proof. intros Hq HB HU. exact (fence xs w Hq HB k size p HU). Qed.
(** a section with fewer bytes left than declared is never accepted *)
Theorem C22_cut env (evs : list event) (xs : list (section * N)) w k size n rest stop m :
  Bseq Bsection xs w -> Bu32 n size -> (N.of_nat (length rest) < n)%N ->
  content evs = (preamble ++ w ++ id_of k :: size ++ rest, stop) -> fst (@decode_module env _ _ evs) <> Ok m.
Proof. exact (never_cut env evs xs w k size n rest stop m). Qed.
Example C22_ex : fst (@decode_module roomy _ _ (preamble ++ [x05; x02; x00; x00])) = Err (DM_SectionSizeMismatch SK_Memory 2%N 1%N)
  /\ fst (@decode_module roomy _ _ (preamble ++ [x05; x02; x00; xff; xff])) = Err (DM_SectionSizeMismatch SK_Memory 2%N 1%N)
  /\ fst (@decode_module roomy _ _ custom_section_size_overreported) = Err (DM_SectionSizeMismatch SK_Custom 5%N 3%N).
Proof. vm_compute. auto. Qed.
(** the same for code entries ([q]: the rest of the payload from an entry on):
    what the decoder of an entry reports, [decode_module] reports *)
Theorem C22_entry_reported env (evs : list event) (xs : list (section * N)) w size p m cnt (fs : list (list ValType * Expr)) fb q rest stop e :
  Bseq Bsection xs w -> beginning (map fst xs) -> (forall e', ~ misplaced (map fst xs) SK_Code e') ->
  p = cnt ++ fb ++ q -> Bu32 (N.of_nat (length p)) size -> Bu32 m cnt -> Bseq Bcode fs fb -> (N.of_nat (length fs) < m)%N ->
  fst (@parse_code env _ _ q) = Err e ->
  content evs = (preamble ++ w ++ id_of SK_Code :: size ++ p ++ rest, stop) -> sufficient env (length (preamble ++ w ++ id_of SK_Code :: size ++ p ++ rest)) ->
  fst (@decode_module env _ _ evs) = Err (DM_DecodeCodeSection (CodeSec_DecodeList (ParseElement (N.of_nat (length fs)) e))).
Proof. exact (code_entry_error env evs xs w size p m cnt fs fb q rest stop e). Qed.
Theorem C22_entry_short env f n size q rest : sufficient env (length (size ++ q ++ rest)) -> Bu32 n size -> Bfunc f q -> (N.of_nat (length q) < n)%N ->
  fst (@parse_code env _ _ (size ++ q ++ rest)) = Err (Code_EntrySizeMismatch n (n - N.of_nat (length q))%N (N.of_nat (length q))).
Proof. exact (entry_short env f n size q rest). Qed.
Theorem C22_entry_fence env size p : sufficient env (length p) -> Bu32 (N.of_nat (length p)) size ->
  (exists f, Bfunc f p) \/ (exists e, forall rest, sufficient env (length (size ++ p ++ rest)) -> fst (@parse_code env _ _ (size ++ p ++ rest)) = Err e).
Proof. exact (entry_decided env size p). Qed.
Example C22_entry_ex : fst (@decode_module roomy _ _ (preamble ++ [x03; x02; x01; x00; x0a; x05; x01; x03; x00; x0b; x0b]))
  = Err (DM_DecodeCodeSection (CodeSec_DecodeList (ParseElement 0%N (Code_EntrySizeMismatch 3%N 1%N 2%N)))).
Proof. vm_compute. reflexivity. Qed.

(** ** C23 functions and code *)
Theorem C23_mismatch env (evs : list event) bs stop c f : content evs = (bs, stop) -> sufficient env (length bs) ->
  fst (@decode_module env _ _ evs) = Err (DM_CodeFuncEntriesLenMismatch c f) <->
  (exists xs n l q rest, after xs SK_Code n (q ++ rest) bs /\ (forall e, ~ misplaced (map fst xs) SK_Code e) /\ Blist Bcode l q /\ (N.of_nat (length q) <= n)%N /\
     c = N.of_nat (length l) /\ f = N.of_nat (length (the get_function (map fst xs))) /\ c <> f) \/
  (exists xs, ends_after xs bs /\ (stop = Ends \/ stop = Fails UnexpectedEof) /\ (forall l, ~ In (SCode l) (map fst xs)) /\
     c = 0%N /\ f = N.of_nat (length (the get_function (map fst xs))) /\ f <> 0%N).
Proof.
  intros Hc HS. split.
  - intros Hd. apply (C50_sound _ _ _ _ _ Hc), after_section in Hd. destruct Hd as [(xs & k' & n' & rest & HA & HW)|(xs & HA & Hst & HI)].
    + wrong HW. left. cbn [kind_of] in *. match goal with HC : Bcontents _ _ |- _ => inversion HC; subst end. eexists xs, n', _, _, _. split; [exact HA|]. split; [assumption|]. split; [eassumption|]. split; [assumption|]. split; [reflexivity|]. split; [reflexivity|]. lia.
    + inversion HI; subst. right. exists xs. repeat split; auto; try apply HA. destruct (the get_function (map fst xs)); [congruence|cbn; lia].
  - intros [(xs & n & l & q & rest & HA & HM & HB & Hl & -> & -> & Hne)|(xs & HA & Hst & HN & -> & -> & Hne)].
    + eapply section_after; eauto. eapply (ws_mismatch _ _ _ _ _ (SCode l) q); eauto; [apply Bc_code; exact HB|]. apply mm_code. lia.
    + eapply end_after; eauto. apply inc_code; [exact HN|]. destruct (the get_function (map fst xs)); [cbn in Hne; congruence|discriminate].
Qed.
Example C23_ex : fst (@decode_module roomy _ _ (preamble ++ [x03; x03; x02; x00; x00; x0a; x04; x01; x02; x00; x0b])) = Err (DM_CodeFuncEntriesLenMismatch 1%N 2%N)
  /\ fst (@decode_module roomy _ _ (preamble ++ [x03; x03; x02; x00; x00])) = Err (DM_CodeFuncEntriesLenMismatch 0%N 2%N).
Proof. vm_compute. auto. Qed.

(** ** C24 data count *)
Theorem C24_mismatch env (evs : list event) bs stop d c : content evs = (bs, stop) -> sufficient env (length bs) ->
  fst (@decode_module env _ _ evs) = Err (DM_DataCountMismatch d c) <->
  exists xs n l q rest, after xs SK_Data n (q ++ rest) bs /\ (forall e, ~ misplaced (map fst xs) SK_Data e) /\ Blist Bdata l q /\ (N.of_nat (length q) <= n)%N /\
    In (SDataCount c) (map fst xs) /\ d = N.of_nat (length l) /\ d <> c.
Proof.
  intros Hc HS. split.
  - intros Hd. apply (C50_sound _ _ _ _ _ Hc), after_section in Hd. destruct Hd as [(xs & k' & n' & rest & HA & HW)|(xs & HA & Hst & HI)]; [|inversion HI].
    wrong HW. cbn [kind_of] in *. match goal with HC : Bcontents _ _ |- _ => inversion HC; subst end. eexists xs, n', _, _, _. split; [exact HA|]. split; [assumption|]. split; [eassumption|]. split; [assumption|]. split; [eassumption|]. split; [reflexivity|assumption].
  - intros (xs & n & l & q & rest & HA & HM & HB & Hl & HI & -> & Hne).
    eapply section_after; eauto. eapply (ws_mismatch _ _ _ _ _ (SData l) q); eauto; [apply Bc_data; exact HB|]. apply mm_data; assumption.
Qed.
(** no data section although the count is not 0 *)
Theorem C24_missing env (evs : list event) bs stop d c : content evs = (bs, stop) -> sufficient env (length bs) ->
  fst (@decode_module env _ _ evs) = Err (DM_DataCountDatasLenMismatch d c) <->
  exists xs, ends_after xs bs /\ (stop = Ends \/ stop = Fails UnexpectedEof) /\ length (the get_function (map fst xs)) = length (the get_code (map fst xs)) /\
    In (SDataCount c) (map fst xs) /\ d = N.of_nat (length (the get_data (map fst xs))) /\ d <> c.
Proof.
  intros Hc HS. split.
  - intros Hd. apply (C50_sound _ _ _ _ _ Hc), after_section in Hd. destruct Hd as [(xs & k' & n' & rest & HA & HW)|(xs & HA & Hst & HI)]; [wrong HW|].
    inversion HI; subst. exists xs. repeat split; auto.
  - intros (xs & HA & Hst & Hl & HI & -> & Hne). eapply end_after; eauto. apply inc_data; auto.
Qed.
Example C24_ex : fst (@decode_module roomy _ _ (preamble ++ [x0c; x01; x02; x0b; x03; x01; x01; x00])) = Err (DM_DataCountMismatch 1%N 2%N)
  /\ fst (@decode_module roomy _ _ (preamble ++ [x0c; x01; x02])) = Err (DM_DataCountDatasLenMismatch 0%N 2%N).
Proof. vm_compute. auto. Qed.

(** ** C25 data indices *)
Theorem C25_rejected env (evs : list event) bs stop : content evs = (bs, stop) -> sufficient env (length bs) ->
  fst (@decode_module env _ _ evs) = Err DM_DataIndexWithoutDataCount <->
  exists xs ls e i, ends_after xs bs /\ (stop = Ends \/ stop = Fails UnexpectedEof) /\ length (the get_function (map fst xs)) = length (the get_code (map fst xs)) /\
    (forall n, ~ In (SDataCount n) (map fst xs)) /\ In (ls, e) (the get_code (map fst xs)) /\ In i e /\ mentions_data i.
Proof.
  intros Hc HS. split.
  - intros Hd. apply (C50_sound _ _ _ _ _ Hc), after_section in Hd. destruct Hd as [(xs & k' & n' & rest & HA & HW)|(xs & HA & Hst & HI)]; [wrong HW|].
    inversion HI; subst. eexists xs, _, _, _. repeat split; eauto.
  - intros (xs & ls & e & i & HA & Hst & Hl & HN & H1 & H2 & H3). eapply end_after; eauto. eapply inc_index; eauto.
Qed.
Example C25_ex : fst (@decode_module roomy _ _ (preamble ++ [x03; x02; x01; x00; x0a; x0a; x01; x08; x00; x02; x40; xfc; x09; x00; x0b; x0b])) = Err DM_DataIndexWithoutDataCount.
Proof. vm_compute. reflexivity. Qed.

(** ** C26 locals *)
(** one group of local declarations: count and type *)
Inductive Bgroup : lang (N * ValType) :=
| Bgroup_intro n t bs1 bs2 : Bu32 n bs1 -> Bvaltype t bs2 -> Bgroup (n, t) (bs1 ++ bs2).
Lemma locals_groups locs w : Bseq Blocals locs w -> exists gs, Bseq Bgroup gs w /\ locs = map (fun '(n, t) => repeat t (N.to_nat n)) gs.
Proof.
  induction 1 as [|l locs b1 b2 Hl _ (gs & IH & ->)]; [exists []; split; [constructor|reflexivity]|]. inversion Hl; subst.
  eexists ((_, _) :: gs). split; [constructor; [constructor; eassumption|exact IH]|reflexivity].
Qed.
(** the code of an accepted module: function [i] comes from the [i]-th entry of
    the code section (its bytes: size, number of groups, groups, body), and its
    locals are the groups written out in order *)
Lemma seq_pieces {A} (X : lang A) xs w : Bseq X xs w -> exists pieces, w = concat pieces /\ Forall2 X xs pieces.
Proof. induction 1 as [|x xs b1 b2 Hx _ (ps & -> & HF)]; [exists []; split; [reflexivity|constructor]|]. exists (b1 :: ps). split; [reflexivity|constructor; assumption]. Qed.
Lemma forall2_nth {A B} (P : A -> B -> Prop) l1 l2 : Forall2 P l1 l2 -> forall i a, nth_error l1 i = Some a -> exists b, nth_error l2 i = Some b /\ P a b.
Proof. induction 1 as [|a b l1 l2 Hp _ IH]; intros [|i] x E; try discriminate; cbn in *; [injection E as <-; eauto|eauto]. Qed.
Lemma forall2_in {A B} (P : A -> B -> Prop) l1 l2 a : Forall2 P l1 l2 -> In a l1 -> exists b, In b l2 /\ P a b.
Proof. induction 1 as [|x b l1 l2 Hp _ IH]; intros []; [subst; exists b; cbn; auto|]. destruct IH as (y & Hy & HP); [assumption|]. exists y. cbn. auto. Qed.
Theorem C26_expansion env (evs : list event) m i f : fst (@decode_module env _ _ evs) = Ok m -> nth_error (funcs m) i = Some f ->
  exists ps w cnt entries size ngroups groups gb body, fst (content evs) = preamble ++ w /\ parts ps w /\
    In (SK_Code, cnt ++ concat entries) ps /\ Bu32 (N.of_nat (length entries)) cnt /\ length entries = length (funcs m) /\
    nth_error entries i = Some (size ++ ngroups ++ gb ++ body) /\ Bu32 (N.of_nat (length (ngroups ++ gb ++ body))) size /\
    Bu32 (N.of_nat (length groups)) ngroups /\ Bseq Bgroup groups gb /\ Bexpr (f_body f) body /\
    f_locals f = concat (map (fun '(n, t) => repeat t (N.to_nat n)) groups).
Proof.
  intros Hd Hf. destruct (C01_sound _ _ _ Hd) as (bs & e & -> & _ & HB). destruct (module_code _ _ HB) as (xs & w & l & -> & Hq & Hlen & Hn). cbn [fst].
  destruct (Hn _ _ Hf) as ((nc & HI) & t & ls & ex & Ec & ->). cbn [f_locals f_body]. destruct (sections_parts _ _ Hq) as (ps & Hps & HF).
  destruct (forall2_in _ _ _ _ HF HI) as ([k p] & Hp & Hk & _ & HC). cbn in Hk, HC. subst k.
  inversion HC as [| | | | | | | | | | | |l' ? HL|]; subst. inversion HL as [? cnt fb HU Hs Eq]; subst. destruct (seq_pieces _ _ _ Hs) as (entries & -> & HE).
  destruct (forall2_nth _ _ _ HE _ _ Ec) as (en & Hen & Hcode). inversion Hcode as [? size fb HUs Hfn]; subst. inversion Hfn as [locs ? lb body Hll He Ht]; subst.
  inversion Hll as [? ngroups gb HUg Hg]; subst. destruct (locals_groups _ _ Hg) as (groups & Hgs & ->). rewrite map_length in HUg.
  exists ps, w, cnt, entries, size, ngroups, groups, gb, body. rewrite <- !app_assoc in *. assert (EL : length l = length entries) by (clear -HE; induction HE; cbn; congruence). rewrite EL in HU, Hlen. auto 15.
Qed.
(** too many locals: exactly when this error is reported for an entry, given
    its bytes [q] ([C22_entry_reported] lifts this to [decode_module]) *)
Theorem C26_out_of_bound env q i mx tot : (2 ^ 32 - 1 <= @alloc_limit env)%N ->
  fst (@parse_code env _ _ q) = Err (Code_DecodeLocalsVector (ParseElement i (Loc_LocalsCountOutOfBound mx tot))) <->
  mx = (2 ^ 32 - 1)%N /\ exists sz size k ngroups (locs : list (list ValType)) gb n cb rest,
    q = size ++ ngroups ++ gb ++ cb ++ rest /\ Bu32 sz size /\ Bu32 k ngroups /\ i = N.of_nat (length locs) /\ (i < k)%N /\ Bseq Blocals locs gb /\
    (N.of_nat (length (concat locs)) < 2 ^ 32)%N /\ Bu32 n cb /\ tot = (N.of_nat (length (concat locs)) + n)%N /\ (2 ^ 32 <= tot)%N /\
    (N.of_nat (length (ngroups ++ gb ++ cb)) <= sz)%N.
Proof.
  intros Ha. split; [apply entry_locals_oob_inv|].
  intros (-> & sz & size & k & ngroups & locs & gb & n & cb & rest & -> & Hsz & Hk & -> & Hi & Hl & Ht & Hn & -> & Hge & Hle). eapply entry_locals_oob; eassumption.
Qed.
(** in particular no total of 2^32 or more is ever accepted *)
Theorem C26_never env q sz size k ngroups (locs : list (list ValType)) gb n cb rest c q' : (2 ^ 32 - 1 <= @alloc_limit env)%N ->
  q = size ++ ngroups ++ gb ++ cb ++ rest -> Bu32 sz size -> Bu32 k ngroups -> (N.of_nat (length locs) < k)%N -> Bseq Blocals locs gb ->
  (N.of_nat (length (concat locs)) < 2 ^ 32)%N -> Bu32 n cb -> (2 ^ 32 <= N.of_nat (length (concat locs)) + n)%N -> (N.of_nat (length (ngroups ++ gb ++ cb)) <= sz)%N ->
  @parse_code env _ _ q <> (Ok c, q').
Proof.
  intros Ha -> Hsz Hk Hi Hl Ht Hn Hge Hle HE.
  pose proof (entry_locals_oob env sz size k ngroups locs gb n cb rest Ha Hsz Hk Hi Hl Ht Hn Hge Hle) as HX. rewrite HE in HX. discriminate.
Qed.
Example C26_ex : fst (@decode_module roomy _ _ (preamble ++ [x03; x02; x01; x00; x0a; x0c; x01; x0a; x02; xff; xff; xff; xff; x0f; x7f; x01; x7e; x0b]))
  = Err (DM_DecodeCodeSection (CodeSec_DecodeList (ParseElement 0%N (Code_DecodeLocalsVector (ParseElement 1%N (Loc_LocalsCountOutOfBound (2 ^ 32 - 1)%N (2 ^ 32)%N)))))).
Proof. vm_compute. reflexivity. Qed.

(** ** C27 custom sections are transparent to errors, too *)
Theorem C27_errors env (evs evs' : list event) (xs : list (section * N)) w c n b rest stop e :
  Bseq Bsection xs w -> Bsection (SCustom c, n) b ->
  content evs = (preamble ++ w ++ rest, stop) -> content evs' = (preamble ++ w ++ b ++ rest, stop) ->
  sufficient env (length (preamble ++ w ++ b ++ rest)) ->
  fst (@decode_module env _ _ evs) = Err e <-> fst (@decode_module env _ _ evs') = Err e.
Proof. exact (custom_errors env evs evs' xs w c n b rest stop e). Qed.
Example C27_ex : fst (@decode_module roomy _ _ (preamble ++ [x05; x01; x00] ++ [x05; xff])) = fst (@decode_module roomy _ _ (preamble ++ [x05; x01; x00] ++ [x00; x02; x01; x61] ++ [x05; xff])).
Proof. vm_compute. reflexivity. Qed.
