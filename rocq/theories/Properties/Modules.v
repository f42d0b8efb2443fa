(** Whole modules.  [decode_module] is the crate's entry point; a reader is an
    arbitrary finite sequence of events (Model/Io.v), [content] is what it
    delivers (Spec/Streams.v); [decode_module bs] with [bs : list byte] is
    decoding from a slice. *)
From Verif Require Import Model.Prelude Model.Io Model.Ast Model.Errors Model.Module.
From Verif Require Import Spec.Lang Spec.Types Spec.Instr Spec.Module Spec.Streams Spec.Layout.
From Verif Require Import Proofs.Machine Proofs.Final Proofs.Unamb Proofs.Modules.
From Verif Require Import Properties.Samples.

(** ** C01 soundness *)
Theorem C01_sound env (evs : list event) m : fst (@decode_module env _ _ evs) = Ok m ->
  exists bs e, content evs = (bs, e) /\ (e = Ends \/ e = Fails UnexpectedEof) /\ Bmodule m bs.
Proof. exact (module_sound evs m). Qed.
Theorem C01_sound_slice env (bs : list byte) m : fst (@decode_module env _ _ bs) = Ok m -> Bmodule m bs.
Proof. exact (module_sound_slice bs m). Qed.
(** the grammar assigns at most one module to a byte string, so [m] is *the* module *)
Theorem C01_unambiguous m1 m2 bs : Bmodule m1 bs -> Bmodule m2 bs -> m1 = m2.
Proof. exact (module_unamb m1 m2 bs). Qed.
Example C01_ex : Bmodule (module_in kitchensink) kitchensink /\ length (funcs (module_in kitchensink)) = 2.
Proof. split; [exact (C01_sound_slice roomy _ _ kitchensink_ok)|vm_compute; reflexivity]. Qed.

(** ** C02 completeness *)
Theorem C02_complete env (evs : list event) bs e m : sufficient env (length bs) -> content evs = (bs, e) ->
  e = Ends \/ e = Fails UnexpectedEof -> Bmodule m bs -> fst (@decode_module env _ _ evs) = Ok m.
Proof. exact (module_complete evs bs e m). Qed.
Theorem C02_complete_slice env (bs : list byte) m : sufficient env (length bs) -> Bmodule m bs -> fst (@decode_module env _ _ bs) = Ok m.
Proof. exact (module_complete_slice bs m). Qed.
(** a derivation in the grammar, not obtained by running the decoder *)
Example C02_grammar : exists m, Bmodule m (preamble ++ [x03; x02; x01; x00] ++ [x00; x03; x01; x61; xff] ++ [x0a; x04; x01; x02; x00; x0b]).
Proof.
  assert (U : forall b n, val b = n -> (n < 2 ^ 7)%N -> Bu32 n [b]) by (intros b n <- Hn; apply (Bu_last 32); [exact Hn|eapply N.lt_trans; [exact Hn|reflexivity]]).
  eexists. apply (Bmodule_intro [(SFunction [0%N], 2%N); (SCustom (mkCustom [x61] [xff]), 3%N); (SCode [([], [])], 4%N)]).
  - apply (Bseq_cons _ _ _ [x03; x02; x01; x00]).
    { apply (Bsection_intro (SFunction [0%N]) [x02] [x01; x00]); [apply U; reflexivity|].
      apply Bc_function, (Blist_intro _ [0%N] [x01] [x00]); [apply U; reflexivity|]. apply (Bseq_cons _ _ [] [x00] []); [apply U; reflexivity|constructor]. }
    apply (Bseq_cons _ _ _ [x00; x03; x01; x61; xff]).
    { apply (Bsection_intro (SCustom (mkCustom [x61] [xff])) [x03] [x01; x61; xff]); [apply U; reflexivity|].
      apply Bc_custom, (Bcustom_intro [x61] [xff] [x01; x61]). split.
      - apply (Blist_intro _ [x61] [x01] [x61]); [apply U; reflexivity|]. apply (Bseq_cons _ _ [] [x61] []); [reflexivity|constructor].
      - exists [97%N]. split; [constructor; [left; reflexivity|constructor]|reflexivity]. }
    apply (Bseq_cons _ _ [] [x0a; x04; x01; x02; x00; x0b] []); [|constructor].
    apply (Bsection_intro (SCode [([], [])]) [x04] [x01; x02; x00; x0b]); [apply U; reflexivity|].
    apply Bc_code, (Blist_intro _ [_] [x01] [x02; x00; x0b]); [apply U; reflexivity|]. apply (Bseq_cons _ _ [] [x02; x00; x0b] []); [|constructor].
    apply (Bcode_intro _ [x02] [x00; x0b]); [apply U; reflexivity|]. apply (Bfunc_intro [] [] [x00] [x0b]); [|apply (Bexpr_intro [] []); constructor|reflexivity].
    apply (Blist_intro _ [] [x00] []); [apply U; reflexivity|constructor].
  - cbn. unfold section_order. repeat first [apply subseq_take|apply subseq_skip|apply subseq_nil].
  - reflexivity.
  - intros n [].
  - intros _ ls e i [[= <- <-]|[]] [].
Qed.

(** ** C48 errors imply malformedness: no assumption on resources *)
Theorem C48_error env (evs : list event) bs e er m : content evs = (bs, e) -> e = Ends \/ e = Fails UnexpectedEof ->
  fst (@decode_module env _ _ evs) = Err er -> ~ Bmodule m bs.
Proof. exact (err_malformed evs bs e er m). Qed.
Theorem C48_error_slice env (bs : list byte) er m : fst (@decode_module env _ _ bs) = Err er -> ~ Bmodule m bs.
Proof. exact (err_malformed_slice bs er m). Qed.
Example C48_ex m : ~ Bmodule m custom_section_size_overreported.
Proof. eapply (C48_error_slice roomy). vm_compute. reflexivity. Qed.
(** Together: with the resources, every input is decided, and rightly. *)
Theorem C48_decided env (bs : list byte) : sufficient env (length bs) ->
  (exists m, fst (@decode_module env _ _ bs) = Ok m /\ Bmodule m bs) \/
  (exists er, fst (@decode_module env _ _ bs) = Err er /\ forall m, ~ Bmodule m bs).
Proof.
  intros HS. destruct (decode_decided_slice bs HS) as [[m E]|[er E]]; [left; exists m; split; [exact E|eapply C01_sound_slice; exact E]|].
  right. exists er. split; [exact E|]. intros m. eapply C48_error_slice. exact E.
Qed.

(** ** C43 preamble *)
Theorem C43_short env (evs : list event) bs e : content evs = (bs, e) -> length bs < 8 ->
  fst (@decode_module env _ _ evs) = Err (DM_ParsePreamble (Pre_Io (match e with Ends => UnexpectedEof | Fails k => k end))).
Proof. exact (preamble_short evs bs e). Qed.
Theorem C43_wrong env (evs : list event) bs e : content evs = (bs, e) -> 8 <= length bs -> firstn 8 bs <> preamble ->
  fst (@decode_module env _ _ evs) = Err (DM_ParsePreamble (Pre_Unexpected (firstn 8 bs))).
Proof. exact (preamble_wrong evs bs e). Qed.
(** preamble errors are reported in no other case *)
Theorem C43_only env (evs : list event) bs e x : content evs = (bs, e) -> fst (@decode_module env _ _ evs) = Err (DM_ParsePreamble x) ->
  length bs < 8 \/ firstn 8 bs <> preamble.
Proof. exact (preamble_only evs bs e x). Qed.
Theorem C43_accepted env (evs : list event) m : fst (@decode_module env _ _ evs) = Ok m -> exists w, fst (content evs) = preamble ++ w.
Proof. intros Hd. destruct (C01_sound _ _ _ Hd) as (bs & e & -> & _ & HB). inversion HB; subst. eexists. reflexivity. Qed.
Example C43_ex : fst (@decode_module roomy _ _ [EvData x00 [x61; x73]; EvErr Interrupted; EvData x6d [x02; x00; x00; x00; x00]])
  = Err (DM_ParsePreamble (Pre_Unexpected [x00; x61; x73; x6d; x02; x00; x00; x00])).
Proof. apply (C43_wrong roomy _ [x00; x61; x73; x6d; x02; x00; x00; x00; x00] Ends); [reflexivity|cbn; auto with arith|discriminate]. Qed.

(** ** C49 success consumes the whole stream *)
Theorem C49_slice env (bs : list byte) m rest : @decode_module env _ _ bs = (Ok m, rest) -> rest = [].
Proof. exact (consumes_all_slice bs m rest). Qed.
(** the reader is left right after its first end-of-file report (or UnexpectedEof
    failure, see C32): nothing of the content is left, nothing after it is read *)
Theorem C49_events env (evs evs' : list event) m : @decode_module env _ _ evs = (Ok m, evs') -> content evs' = content (after_stop evs).
Proof. exact (consumes_all evs m evs'). Qed.
Example C49_ex : snd (@decode_module roomy _ _ [EvData x00 [x61; x73; x6d; x01; x00; x00; x00]; EvEof; EvData xff []]) = [EvData xff []].
Proof. vm_compute. reflexivity. Qed.

(** ** C30 chunking and interruptions *)
Theorem C30_content env (evs1 evs2 : list event) : content evs1 = content evs2 ->
  fst (@decode_module env _ _ evs1) = fst (@decode_module env _ _ evs2).
Proof. exact (decode_content evs1 evs2). Qed.
Theorem C30_slice env (evs : list event) bs : content evs = (bs, Ends) -> fst (@decode_module env _ _ evs) = fst (@decode_module env _ _ bs).
Proof. exact (decode_slice evs bs). Qed.
Example C30_ex : content [EvData x00 [x61]; EvErr Interrupted; EvData x73 [x6d; x01; x00; x00; x00]] = content [EvErr Interrupted; EvData x00 [x61; x73; x6d; x01]; EvData x00 [x00; x00]; EvEof; EvErr (OtherKind 3)].
Proof. reflexivity. Qed.

(** ** C31 a failing reader never yields a module *)
Theorem C31_failure env (evs : list event) bs k m : content evs = (bs, Fails k) -> k <> UnexpectedEof -> fst (@decode_module env _ _ evs) <> Ok m.
Proof.
  intros Hc Hk Hd. destruct (C01_sound _ _ _ Hd) as (bs' & e & Hc' & He & _). rewrite Hc in Hc'. injection Hc' as <- <-. destruct He as [He|He]; congruence.
Qed.
Example C31_ex : fst (@decode_module roomy _ _ (map (fun b => EvData b []) kitchensink ++ [EvErr (OtherKind 7)])) = Err (DM_DecodeSectionHeader (Hdr_ReadSectionIdByte (OtherKind 7))).
Proof. vm_compute. reflexivity. Qed.

(** ** C32 a reader's own UnexpectedEof counts as the end of the stream *)
Theorem C32_refuted env bs m : sufficient env (length bs) -> Bmodule m bs ->
  exists evs, content evs = (bs, Fails UnexpectedEof) /\ fst (@decode_module env _ _ evs) = Ok m.
Proof.
  intros HS HB. exists (plain bs (Fails UnexpectedEof)). split; [apply content_plain; discriminate|].
  eapply C02_complete; [exact HS|apply content_plain; discriminate|auto|exact HB].
Qed.
(** but only after a complete module *)
Theorem C32_boundary env (evs : list event) bs m : content evs = (bs, Fails UnexpectedEof) -> fst (@decode_module env _ _ evs) = Ok m -> Bmodule m bs.
Proof. intros Hc Hd. destruct (C01_sound _ _ _ Hd) as (bs' & e & Hc' & _ & HB). congruence. Qed.
(** in fact it is treated throughout exactly like an end of file *)
Example C32_ex : fst (@decode_module roomy _ _ (map (fun b => EvData b []) kitchensink ++ [EvErr UnexpectedEof; EvData x00 []])) = Ok (module_in kitchensink).
Proof. vm_compute. reflexivity. Qed.

(** ** C34 no panics, C35 termination *)
Theorem C34_panics env (evs : list event) p : fst (@decode_module env _ _ evs) = Panic p ->
  (p = AllocFailure /\ (@alloc_limit env < 2 ^ 32 - 1 \/ @alloc_limit env <= N.of_nat (length (fst (content evs))))%N) \/
  (p = StackOverflow /\ @stack_limit env <= S (length (fst (content evs)))).
Proof. exact (panic_why evs p). Qed.
Theorem C34_no_panic env (evs : list event) : sufficient env (length (fst (content evs))) -> forall p, fst (@decode_module env _ _ evs) <> Panic p.
Proof.
  intros [[Hh Hg] Hs] p Hd. destruct (C34_panics _ _ _ Hd) as [[_ [Hl|Hl]]|[_ Hl]]; [| |exact (Nat.lt_irrefl _ (Nat.lt_le_trans _ _ _ Hs Hl))].
  - exact (N.lt_irrefl _ (N.le_lt_trans _ _ _ Hh Hl)).
  - exact (N.lt_irrefl _ (N.lt_le_trans _ _ _ Hg Hl)).
Qed.
Theorem C35_terminates env (evs : list event) : fst (@decode_module env _ _ evs) <> Stuck.
Proof. exact (not_stuck evs). Qed.
Example C34_ex : sufficient roomy (length (fst (content [EvData x00 [x61]; EvErr Interrupted; EvErr (OtherKind 2)]))).
Proof. apply roomy_ok. cbn. auto with arith. Qed.

(** ** C46 resource limits only ever cause resource failure, in the process that
    has less of that resource *)
Theorem C46_limits (env1 env2 : Env) (evs : list event) :
  fst (@decode_module env1 _ _ evs) = fst (@decode_module env2 _ _ evs)
  \/ (fst (@decode_module env1 _ _ evs) = Panic AllocFailure /\ (@alloc_limit env1 < @alloc_limit env2)%N)
  \/ (fst (@decode_module env1 _ _ evs) = Panic StackOverflow /\ @stack_limit env1 < @stack_limit env2)
  \/ (fst (@decode_module env2 _ _ evs) = Panic AllocFailure /\ (@alloc_limit env2 < @alloc_limit env1)%N)
  \/ (fst (@decode_module env2 _ _ evs) = Panic StackOverflow /\ @stack_limit env2 < @stack_limit env1).
Proof.
  destruct (decode_envs env1 env2 evs) as [E|[[[L E]|[L E]]|[[L E]|[L E]]]]; [left; exact E|right..].
  - left. exact (conj E L).
  - right; left. exact (conj E L).
  - right; right; left. exact (conj E L).
  - right; right; right. exact (conj E L).
Qed.
Example C46_ex : fst (@decode_module (Build_Env 0 (2 ^ 32) (fun _ => 0%N)) _ _ kitchensink) = Panic StackOverflow
  /\ fst (@decode_module (Build_Env 1 (2 ^ 32) (fun _ => 0%N)) _ _ kitchensink) = fst (@decode_module roomy _ _ kitchensink).
Proof. vm_compute. auto. Qed.

(** ** C20 section order *)
Theorem C20_order env (evs : list event) m : fst (@decode_module env _ _ evs) = Ok m ->
  let ks := filter (fun k => match k with SK_Custom => false | _ => true end) (map sh_kind (section_headers m)) in
  subseq ks section_order /\ NoDup ks /\ parsed_section_kinds m = ks.
Proof. intros Hd. destruct (C01_sound _ _ _ Hd) as (bs & e & _ & _ & HB). destruct (module_order _ _ HB) as (H1 & H2 & <-). auto. Qed.

(** ** C23 functions and code *)
Theorem C23_functions env (evs : list event) m : fst (@decode_module env _ _ evs) = Ok m ->
  exists ss w, fst (content evs) = preamble ++ w /\ Bseq Bsection ss w /\
    let ts := the get_function (map fst ss) in let cs := the get_code (map fst ss) in
    length (funcs m) = length ts /\ length (funcs m) = length cs /\
    (forall i f, nth_error (funcs m) i = Some f <->
       exists t ls e, nth_error ts i = Some t /\ nth_error cs i = Some (ls, e) /\ f = mkFunc t ls e).
Proof. intros Hd. destruct (C01_sound _ _ _ Hd) as (bs & e & -> & _ & HB). exact (module_funcs _ _ HB). Qed.

(** ** C24 data count *)
Theorem C24_datacount env (evs : list event) m n : fst (@decode_module env _ _ evs) = Ok m -> data_count m = Some n -> n = N.of_nat (length (datas m)).
Proof. intros Hd. destruct (C01_sound _ _ _ Hd) as (bs & e & _ & _ & HB). exact (module_datacount _ _ n HB). Qed.

(** ** C25 data indices *)
Theorem C25_data_index env (evs : list event) m f i : fst (@decode_module env _ _ evs) = Ok m ->
  In f (funcs m) -> In i (f_body f) -> mentions_data i -> exists n, data_count m = Some n.
Proof. intros Hd. destruct (C01_sound _ _ _ Hd) as (bs & e & _ & _ & HB). exact (module_mentions _ _ f i HB). Qed.

(** ** C26 locals (expansion is part of the grammar: Bfunc, Blocals) *)
Theorem C26_bound env (evs : list event) m f : fst (@decode_module env _ _ evs) = Ok m -> In f (funcs m) -> (N.of_nat (length (f_locals f)) < 2 ^ 32)%N.
Proof. intros Hd. destruct (C01_sound _ _ _ Hd) as (bs & e & _ & _ & HB). exact (module_locals _ _ f HB). Qed.

(** ** C28, C29 custom sections and headers *)
Theorem C29_layout env (evs : list event) m : fst (@decode_module env _ _ evs) = Ok m ->
  exists ps w, fst (content evs) = preamble ++ w /\ parts ps w /\
    section_headers m = map (fun p => mkHeader (fst p) (N.of_nat (length (snd p)))) ps.
Proof. intros Hd. destruct (C01_sound _ _ _ Hd) as (bs & e & -> & _ & HB). destruct (module_parts _ _ HB) as (ps & w & H1 & H2 & H3 & _). eauto. Qed.
(** a file can be split in only one way *)
Theorem C29_unique ps1 ps2 w : parts ps1 w -> parts ps2 w -> ps1 = ps2.
Proof. exact (parts_unamb ps1 ps2 w). Qed.
Theorem C28_customs env (evs : list event) m ps w : fst (@decode_module env _ _ evs) = Ok m -> fst (content evs) = preamble ++ w -> parts ps w ->
  Forall2 (fun c payload => exists name_bytes, Bname (cs_name c) name_bytes /\ payload = name_bytes ++ cs_contents c)
    (custom_sections m) (map snd (filter (fun p => match fst p with SK_Custom => true | _ => false end) ps)).
Proof.
  intros Hd Hw Hp. destruct (C01_sound _ _ _ Hd) as (bs & e & Hc & _ & HB). rewrite Hc in Hw. cbn in Hw. subst.
  destruct (module_parts _ _ HB) as (ps' & w' & Hw & Hp' & _ & HF). unfold preamble in Hw; cbn [app] in Hw; injection Hw as <-. rewrite (C29_unique _ _ _ Hp Hp').
  clear -HF. induction HF as [|c p cs' ps HB _ IH]; constructor; [|exact IH]. inversion HB; subst. cbn. eauto.
Qed.
Example C28_ex : custom_sections (module_in kitchensink) = [mkCustom [x6e; x6f; x74; x65] [x68; x69]].
Proof. vm_compute. reflexivity. Qed.

(** ** C27 custom sections are transparent *)
Theorem C27_insert env (xs1 xs2 : list (section * N)) w1 w2 c n b m :
  sufficient env (length (preamble ++ w1 ++ b ++ w2)) ->
  Bseq Bsection xs1 w1 -> Bsection (SCustom c, n) b -> Bseq Bsection xs2 w2 ->
  fst (@decode_module env _ _ (preamble ++ w1 ++ w2)) = Ok m ->
  exists m', fst (@decode_module env _ _ (preamble ++ w1 ++ b ++ w2)) = Ok m' /\ without_customs m' = without_customs m /\
    custom_sections m = the get_custom (map fst xs1) ++ the get_custom (map fst xs2) /\
    custom_sections m' = the get_custom (map fst xs1) ++ c :: the get_custom (map fst xs2).
Proof.
  intros HS H1 HB H2 Hd. apply C01_sound_slice in Hd. destruct (custom_insert _ _ _ _ _ _ _ _ H1 HB H2 Hd) as (m' & HB' & HR). exists m'. split; [|exact HR].
  apply C02_complete_slice; assumption.
Qed.
Theorem C27_remove env (xs1 xs2 : list (section * N)) w1 w2 c n b m' :
  sufficient env (length (preamble ++ w1 ++ w2)) ->
  Bseq Bsection xs1 w1 -> Bsection (SCustom c, n) b -> Bseq Bsection xs2 w2 ->
  fst (@decode_module env _ _ (preamble ++ w1 ++ b ++ w2)) = Ok m' ->
  exists m, fst (@decode_module env _ _ (preamble ++ w1 ++ w2)) = Ok m /\ without_customs m' = without_customs m /\
    custom_sections m = the get_custom (map fst xs1) ++ the get_custom (map fst xs2) /\
    custom_sections m' = the get_custom (map fst xs1) ++ c :: the get_custom (map fst xs2).
Proof.
  intros HS H1 HB H2 Hd. apply C01_sound_slice in Hd. destruct (custom_remove _ _ _ _ _ _ _ _ H1 HB H2 Hd) as (m & HB' & HR). exists m. split; [|exact HR].
  apply C02_complete_slice; assumption.
Qed.

(** ** C44 truncation *)
Theorem C44_truncation env m (p rest : list byte) m' : Bmodule m (p ++ rest) -> fst (@decode_module env _ _ p) = Ok m' ->
  exists xs1 xs2 w1, p = preamble ++ w1 /\ Bseq Bsection xs1 w1 /\ Bseq Bsection xs2 rest /\ m = module_of (xs1 ++ xs2) /\ m' = module_of xs1.
Proof. intros HB Hd. apply C01_sound_slice in Hd. exact (module_truncated _ _ _ _ HB Hd). Qed.
(** cutting inside a section, or inside the preamble, is an error *)
Theorem C44_inside env m (p rest : list byte) : sufficient env (length p) -> Bmodule m (p ++ rest) ->
  (forall xs2, ~ Bseq Bsection xs2 rest) -> exists er, fst (@decode_module env _ _ p) = Err er.
Proof.
  intros HS HB HN. destruct (C48_decided env p HS) as [(m' & Hd & _)|(er & Hd & _)]; [|eauto].
  exfalso. destruct (C44_truncation _ _ _ _ _ HB Hd) as (xs1 & xs2 & w1 & _ & _ & H2 & _). exact (HN _ H2).
Qed.
Example C44_ex : exists m, Bmodule m (firstn 17 kitchensink ++ skipn 17 kitchensink) /\ exists m', fst (@decode_module roomy _ _ (firstn 17 kitchensink)) = Ok m'.
Proof. exists (module_in kitchensink). split; [apply C01_ex|eexists; vm_compute; reflexivity]. Qed.
