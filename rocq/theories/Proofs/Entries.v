(** Code entries: their sizes are fences, their locals are bounded. *)
From Verif Require Import Model.Prelude Model.Io Model.Ast Model.Errors Model.Integer Model.Helpers Model.Types Model.Instr Model.Sections Model.Module.
From Verif Require Import Spec.Lang Spec.Types Spec.Instr Spec.Module Spec.Streams Spec.Leb Spec.Layout Spec.Faults Spec.Diagnosis.
From Verif Require Import Proofs.Machine Proofs.Reads Proofs.Safe Proofs.Parses Proofs.Leb Proofs.Loop Proofs.GHelpers Proofs.GTypes Proofs.GControl Proofs.GSections Proofs.GModule Proofs.GAssemble Proofs.SafeWalk Proofs.Sim Proofs.Final Proofs.Diag Proofs.Components Proofs.Unamb Proofs.Modules Proofs.Reports Proofs.Fences.
From Verif Require Import Properties.Vectors.
From Coq Require Import Lia ZifyBool ZifyNat ZifyN.

Lemma D_parse_code : decodes (fun env => parse_code) Gcode.
Proof. eapply decodes_of; intros env; [apply parses_code|apply safe_code]. Qed.

Lemma parse_code_eq {env : Env} n nb body : Bu32 n nb -> parse_code (nb ++ body) =
  match code_entry (mkTake n body) with
  | (Ok (ls, (e, d)), t) => if (t_limit t =? 0)%N then (Ok (mkCode n ls e d), t_inner t)
      else (if (t_limit t <=? n)%N then Err (Code_EntrySizeMismatch n (t_limit t) (n - t_limit t)%N) else Panic ArithOverflow, t_inner t)
  | (Err e, t) => (Err e, t_inner t) | (Panic p, t) => (Panic p, t_inner t) | (Stuck, t) => (Stuck, t_inner t)
  end.
Proof.
  intros HU. unfold parse_code. unfold bind at 1. unfold map_err at 1. rewrite (decodes_word decode_u32 Bu32 n nb body decodes_u32 HU).
  unfold with_take. fold (@code_entry env (Take (list byte)) _). unfold bind at 1. destruct (code_entry (mkTake n body)) as [[[ls [e d]]|e|pn|] t]; try reflexivity.
  destruct (t_limit t =? 0)%N; cbn [negb]; [reflexivity|]. unfold bind, sub_u64. destruct (t_limit t <=? n)%N; reflexivity.
Qed.

(** the language read within an entry *)
Definition Gentry : lang (list Local_ * (Expr * bool)) := fun x bs =>
  exists b1 b2, bs = b1 ++ b2 /\ (Blist Glocal (fst x) b1 /\ (total_locals (fst x) < 2 ^ 32)%N) /\
    Bexpr (fst (snd x)) b2 /\ snd (snd x) = existsb instruction_contains_data_index (fst (snd x)).
Section Entry.
  Context {env : Env} {R C : Type} `{Lawful R C}.
  Lemma parses_entry : Parses (code_entry : M R _ _) Gentry.
  Proof.
    unfold code_entry. eapply parses_ext.
    { parses_step; [apply parses_map_err, parses_locals|]. parses_step; [apply parses_map_err, parses_decode_expr|]. apply parses_ret. }
    intros [ls [e d]] bs. unfold Gentry. cbn [fst snd]. split.
    - intros (ls0 & b5 & b6 & -> & Hls & Hk). apply g_bind_ret in Hk as (ed & [= -> <-] & [He Hd]). exists b5, b6. auto.
    - intros (b1 & b2 & -> & Hl & He & Hd). eexists _, _, _. split; [reflexivity|]. split; [exact Hl|]. apply g_bind_ret. exists (e, d). split; [reflexivity|]. split; assumption.
  Qed.
  Lemma safe_entry : Safe stack_limit (code_entry : M R _ _) 0 any.
  Proof.
    unfold code_entry. eapply (safe_bind _ 0 0); [eapply safe_map_err, safe_list_st with (Inv := loc_inv)| |lia].
    - split; [reflexivity|lia].
    - intros l s Hl. apply safe_code_local, Hl.
    - intros l _. eapply (safe_bind _ 0 0); [apply safe_map_err, safe_expr|intros; apply safe_ret; exact I|lia].
  Qed.
End Entry.

Lemma entry_fence {env : Env} p rest : fst (code_entry (mkTake (N.of_nat (length p)) (p ++ rest))) = fst (code_entry (plain p Ends)).
Proof.
  assert (Hle : env_le env env) by (split; reflexivity).
  destruct (sim_code_entry Hle _ _ _ _ _ _ _ _ _ _ fenceK _ (mkTake (N.of_nat (length p)) (p ++ rest)) (plain p Ends)) as [[He _]|[He|[He|[He _]]]]; [|exact He|exfalso..].
  - change (fenceK (mkTake (N.of_nat (length p)) (map AByte (p ++ rest))) (events_abs (plain p Ends))). rewrite <- (app_nil_r (map AByte (p ++ rest))).
    eapply (fenced_fenceK _ _ Ends); [left; reflexivity|]. rewrite fenced_exact. apply content_plain. discriminate.
  - pose proof (safe_entry (mkTake (N.of_nat (length p)) (p ++ rest))) as HS. destruct (code_entry _) as [x t]. cbn in He. subst x. destruct HS as [_ []].
  - pose proof (safe_entry (plain p Ends)) as HS. destruct (code_entry (plain p Ends)) as [x t]. cbn in He. subst x. destruct HS as [_ []].
  - apply He. split; reflexivity.
Qed.
Lemma Bfunc_entry f q : Bfunc f q -> exists ls d, Gentry (ls, (snd f, d)) q /\ fst f = expand_locals ls.
Proof.
  intros HF. inversion HF as [locs e b3 b4 Hl He Ht]; subst. inversion Hl as [? b5 b6 Hk Hq]; subst. apply seq_locals_inv in Hq as (ls & Hq & ->).
  exists ls, (existsb instruction_contains_data_index e). unfold expand_locals. rewrite flat_map_concat_map. split; [|reflexivity].
  exists (b5 ++ b6), b4. cbn [fst snd]. split; [reflexivity|]. rewrite map_length in Hk. split; [split; [constructor; assumption|]|auto].
  rewrite <- flat_map_concat_map in Ht. fold (expand_locals ls) in Ht. rewrite <- total_expand in Ht. exact Ht.
Qed.
Lemma entry_Bfunc ls e d q : Gentry (ls, (e, d)) q -> Bfunc (expand_locals ls, e) q.
Proof.
  intros (b1 & b2 & -> & [Hl Ht] & He & _). cbn [fst snd] in *. unfold expand_locals. rewrite flat_map_concat_map. inversion Hl as [? ? ? Hn Hq]; subst. constructor; [|assumption|].
  - constructor; [rewrite map_length; assumption|apply seq_locals; assumption].
  - rewrite <- flat_map_concat_map. fold (expand_locals ls). rewrite <- total_expand. assumption.
Qed.
Lemma entry_short env f n nb q rest : sufficient env (length (nb ++ q ++ rest)) -> Bu32 n nb -> Bfunc f q -> (N.of_nat (length q) < n)%N ->
  fst (@parse_code env _ _ (nb ++ q ++ rest)) = Err (Code_EntrySizeMismatch n (n - N.of_nat (length q))%N (N.of_nat (length q))).
Proof.
  intros [Hh Hs] HU HF Hl. rewrite (parse_code_eq n nb _ HU). destruct (Bfunc_entry _ _ HF) as (ls & d & HG & _).
  pose proof (safe_entry (mkTake n (q ++ rest))) as HSf.
  destruct (p_complete _ _ (parses_entry (R := Take (list byte))) (mkTake n (q ++ rest)) _ q (mkTake (n - lenN q) (map AByte rest)) HG) as [(t & E & Ht)|Hg].
  - change (abs (mkTake n (q ++ rest))) with (mkTake n (map AByte (q ++ rest))). apply bsteps_take; [unfold lenN; lia|]. rewrite map_app. apply bsteps_list.
  - rewrite E. cbn [snd fst]. assert (t_limit t = n - lenN q)%N as -> by (destruct t as [tn ti]; injection Ht as -> _; reflexivity).
    unfold lenN. destruct (N.eqb_spec (n - N.of_nat (length q)) 0); [lia|]. destruct (N.leb_spec (n - N.of_nat (length q)) n); [|lia]. cbn [fst]. f_equal. f_equal. lia.
  - exfalso. destruct (code_entry _) as [[a|e|[]|] t]; cbn in Hg, HSf; try contradiction; destruct HSf as [_ HSf]; try contradiction; unfold short in *; rewrite !app_length in *; lia.
Qed.
Lemma entry_decided env nb p : sufficient env (length p) -> Bu32 (N.of_nat (length p)) nb ->
  (exists f, Bfunc f p) \/ (exists e, forall rest, sufficient env (length (nb ++ p ++ rest)) -> fst (@parse_code env _ _ (nb ++ p ++ rest)) = Err e).
Proof.
  intros [Hh Hst] HU. pose proof (safe_entry (plain p Ends)) as HSf. pose proof (budget_plain p Ends) as Hbp. cbn [budget event_reader] in HSf.
  assert (Hc : content (plain p Ends) = (p, Ends)) by (apply content_plain; discriminate). destruct (content_stream _ _ _ Hc) as (tl & Ha & HS).
  destruct (code_entry (plain p Ends)) as [[[ls [e d]]|e|[]|] r'] eqn:Es; cbn in HSf; try (destruct HSf as [_ HSf]; (contradiction || (unfold short in *; lia))).
  - destruct (p_sound _ _ parses_entry _ _ _ Es) as (q & Hb & HG). change (abs (plain p Ends)) with (events_abs (plain p Ends)) in Hb. rewrite Ha in Hb.
    apply (stream_bsteps _ _ HS) in Hb as (p' & Hp & _). apply entry_Bfunc in HG. destruct p' as [|b p'].
    + left. rewrite app_nil_r in Hp. subst q. eauto.
    + right. exists (Code_EntrySizeMismatch (N.of_nat (length p)) (N.of_nat (length p) - N.of_nat (length q))%N (N.of_nat (length q))). intros rest HS'.
      assert (Ep : nb ++ p ++ rest = nb ++ q ++ ((b :: p') ++ rest)) by (rewrite Hp, <- app_assoc; reflexivity). rewrite Ep in HS' |- *.
      eapply entry_short; [exact HS'|exact HU|exact HG|rewrite Hp, app_length; cbn [length]; lia].
  - right. exists e. intros rest _. rewrite (parse_code_eq _ nb _ HU). pose proof (entry_fence p rest) as EF. rewrite Es in EF. destruct (code_entry (mkTake _ _)) as [x t]. cbn in EF. subst x. reflexivity.
Qed.

(** ** an error in a code entry is what [decode_module] reports *)
Lemma codes_one_by_one env fs fb q : sufficient env (length (fb ++ q)) -> Bseq Gcode fs fb -> one_by_one (@parse_code env _ _) (fb ++ q) fs q.
Proof.
  intros HS Hq. revert HS. induction Hq as [|c fs b1 b2 Hc Hq IH]; intros HS; [constructor|]. rewrite <- app_assoc in *. econstructor.
  - apply (decodes_complete _ _ D_parse_code); assumption.
  - apply IH. eapply sufficient_le; [|exact HS]. rewrite !app_length. lia.
Qed.
Lemma codes_inv (fs : list (list ValType * Expr)) fb : Bseq Bcode fs fb -> exists cs, Bseq Gcode cs fb /\ fs = map code_fn cs.
Proof.
  intros Hq. induction Hq as [|f fs b1 b2 Hf _ (cs & IH & ->)]; [exists []; split; [constructor|reflexivity]|].
  apply Bcode_Gcode in Hf as (c & Hc & <-). exists (c :: cs). split; [constructor; assumption|reflexivity].
Qed.
Lemma code_section_err env m cnt (fs : list (list ValType * Expr)) fb q e : sufficient env (length (cnt ++ fb ++ q)) -> Bu32 m cnt -> Bseq Bcode fs fb -> (N.of_nat (length fs) < m)%N ->
  fst (@parse_code env _ _ q) = Err e -> fst (@decode_code_section env _ _ (cnt ++ fb ++ q)) = Err (CodeSec_DecodeList (ParseElement (N.of_nat (length fs)) e)).
Proof.
  intros HS HU Hq Hm He. destruct (parse_code q) as [x q'] eqn:Eq. cbn in He. subst x. apply codes_inv in Hq as (cs & Hq & ->). rewrite map_length in *.
  assert (HE : decode_list (@parse_code env _ _) (cnt ++ fb ++ q) = (Err (ParseElement (N.of_nat (length cs)) e), q')).
  { apply C09_element. exists m, (fb ++ q), cs, q. split; [apply (decodes_word decode_u32 Bu32 m cnt (fb ++ q) decodes_u32 HU)|].
    split; [destruct HS; apply Bu32_lt in HU; lia|]. split; [exact Hm|]. split; [lia|]. split; [|exact Eq].
    apply codes_one_by_one; [|exact Hq]. eapply sufficient_le; [|exact HS]. rewrite (app_length cnt). lia. }
  unfold decode_code_section, map_err. rewrite HE. reflexivity.
Qed.
Theorem code_entry_error env (evs : list event) (xs : list (section * N)) w nb p m cnt (fs : list (list ValType * Expr)) fb q rest stop e :
  Bseq Bsection xs w -> beginning (map fst xs) -> (forall e', ~ misplaced (map fst xs) SK_Code e') ->
  p = cnt ++ fb ++ q -> Bu32 (N.of_nat (length p)) nb -> Bu32 m cnt -> Bseq Bcode fs fb -> (N.of_nat (length fs) < m)%N ->
  fst (@parse_code env _ _ q) = Err e ->
  content evs = (preamble ++ w ++ id_of SK_Code :: nb ++ p ++ rest, stop) -> sufficient env (length (preamble ++ w ++ id_of SK_Code :: nb ++ p ++ rest)) ->
  fst (@decode_module env _ _ evs) = Err (DM_DecodeCodeSection (CodeSec_DecodeList (ParseElement (N.of_nat (length fs)) e))).
Proof.
  intros Hq HB HM Hp HU Hm Hf Hl He Hc HS. apply (diagnosis_exact env evs _ stop _ HS Hc). eapply (dg_section _ stop xs w SK_Code nb _ (p ++ rest)); eauto.
  eapply ws_contents; [exact HM|apply fenced_exact|]. apply (cerr_fault (env := env) SK_Code p).
  { exists [], []. split; [change (abs p) with (map AByte p); rewrite <- (app_nil_r (map AByte p)); apply bsteps_list|reflexivity]. }
  exists (CodeSec_DecodeList (ParseElement (N.of_nat (length fs)) e)). split; [|reflexivity]. rewrite Hp. eapply code_section_err; eauto. rewrite <- Hp.
  eapply sufficient_le; [|exact HS]. rewrite !app_length. cbn [length]. rewrite !app_length. lia.
Qed.

(** ** locals *)
Lemma total_app a b : total_locals (a ++ b) = (total_locals a + total_locals b)%N.
Proof. unfold total_locals. induction a as [|x a IH]; cbn; [reflexivity|]. rewrite IH. lia. Qed.
Section Locals.
  Context {R C : Type} `{Lawful R C}.
  Lemma no_give_up {E A} (p : M R E A) Q r : (forall env d, @Safe env R E A _ d p 0 Q) -> ~ gave_up (fst (p r)).
  Proof using.
    intros HS. specialize (HS (Build_Env 0 (2 ^ 32)%N (fun _ => 0%N)) (S (budget r)) r). destruct (p r) as [[a|e|[]|] r']; cbn in *; intros Hg; try contradiction; destruct HS as [_ HS]; try contradiction; unfold short in *; cbn [alloc_limit stack_limit] in *; lia.
  Qed.
  Lemma u32_ok (r : R) n bs c : Bu32 n bs -> bsteps (abs r) bs c -> exists r', decode_u32 r = (Ok n, r') /\ abs r' = c.
  Proof using.
    intros HU Hb. destruct (p_complete _ _ parses_u32 _ _ _ _ HU Hb) as [HX|Hg]; [exact HX|]. exfalso. revert Hg. eapply no_give_up. intros env d. eapply safe_weaken; [apply safe_u32|lia|intros; exact I].
  Qed.
  Lemma local_ok (r : R) st l bs c : (st <= 2 ^ 32 - 1)%N -> Glocal l bs -> (st + l_count l < 2 ^ 32)%N -> bsteps (abs r) bs c ->
    exists r', parse_code_local (2 ^ 32 - 1)%N st r = (Ok (l, (st + l_count l)%N), r') /\ abs r' = c.
  Proof using.
    intros Hst HG Hl Hb. destruct (p_complete _ _ (parses_local (2 ^ 32 - 1)%N st) r (l, (st + l_count l)%N) bs c) as [HX|Hg]; auto.
    - repeat split; cbn [fst snd]; [exact HG|lia|lia].
    - exfalso. revert Hg. eapply no_give_up. intros env d. eapply safe_weaken; [apply (safe_code_local d [mkLocal st (l_t l)]); split; [cbn; lia|exact Hst]|lia|intros; exact I].
  Qed.
  Lemma local_oob (r : R) st n bs c : (st <= 2 ^ 32 - 1)%N -> Bu32 n bs -> (2 ^ 32 <= st + n)%N -> bsteps (abs r) bs c ->
    exists r', parse_code_local (2 ^ 32 - 1)%N st r = (Err (Loc_LocalsCountOutOfBound (2 ^ 32 - 1)%N (st + n)%N), r').
  Proof using.
    intros Hst HU Hl Hb. pose proof (Bu32_lt _ _ HU) as Hn. destruct (u32_ok _ _ _ _ HU Hb) as (r' & E & _). exists r'. unfold parse_code_local, bind at 1, map_err at 1. rewrite E. unfold bind, add_u64.
    destruct (N.ltb_spec (st + n) (2 ^ 64)); [|lia]. cbn [ret]. unfold ret at 1. destruct (N.ltb_spec (2 ^ 32 - 1) (st + n)%N); [reflexivity|lia].
  Qed.
  Lemma locals_seq ls : forall (r : R) st w c, (st <= 2 ^ 32 - 1)%N -> Bseq Glocal ls w -> (st + total_locals ls < 2 ^ 32)%N -> bsteps (abs r) w c ->
    exists r', in_sequence (parse_code_local (2 ^ 32 - 1)%N) st r ls (st + total_locals ls)%N r' /\ abs r' = c.
  Proof using.
    induction ls as [|l ls IH]; intros r st w c Hst Hq Ht Hb; inversion Hq as [|? ? b1 b2 Hl Hq']; subst.
    - apply bsteps_nil_inv in Hb as ->. exists r. cbn. rewrite N.add_0_r. split; [constructor|reflexivity].
    - cbn [total_locals fold_right] in Ht |- *. fold (total_locals ls) in *. apply bsteps_app_inv in Hb as (c1 & Hb1 & Hb2).
      destruct (local_ok r st l b1 c1 Hst Hl ltac:(lia) Hb1) as (r1 & E1 & <-).
      destruct (IH r1 (st + l_count l)%N b2 c ltac:(lia) Hq' ltac:(lia) Hb2) as (r2 & E2 & Hc). exists r2. split; [|exact Hc]. rewrite N.add_assoc. econstructor; eassumption.
  Qed.
  Lemma locals_oob {env : Env} (r : R) k nb ls w n cb c : (2 ^ 32 - 1 <= alloc_limit)%N -> Bu32 k nb -> (N.of_nat (length ls) < k)%N -> Bseq Glocal ls w ->
    (total_locals ls < 2 ^ 32)%N -> Bu32 n cb -> (2 ^ 32 <= total_locals ls + n)%N -> bsteps (abs r) (nb ++ w ++ cb) c ->
    fst (decode_list_st (parse_code_local (2 ^ 32 - 1)%N) 0%N r) = Err (ParseElement (N.of_nat (length ls)) (Loc_LocalsCountOutOfBound (2 ^ 32 - 1)%N (total_locals ls + n)%N)).
  Proof using.
    intros Ha HU Hk Hq Ht Hn Hl Hb. apply bsteps_app_inv in Hb as (c0 & Hb0 & Hb). apply bsteps_app_inv in Hb as (c1 & Hb1 & Hb2).
    destruct (u32_ok _ _ _ _ HU Hb0) as (r0 & E0 & <-). destruct (locals_seq ls r0 0%N w c1 ltac:(lia) Hq Ht Hb1) as (r1 & HI & <-).
    destruct (local_oob r1 (0 + total_locals ls)%N n cb c ltac:(lia) Hn ltac:(lia) Hb2) as (r2 & E2).
    rewrite (proj2 (C09_element_st (parse_code_local (2 ^ 32 - 1)%N) 0%N r (N.of_nat (length ls)) (Loc_LocalsCountOutOfBound (2 ^ 32 - 1)%N (0 + total_locals ls + n)%N) r2)); [reflexivity|].
    exists k, r0, ls, (0 + total_locals ls)%N, r1. split; [exact E0|]. split; [apply Bu32_lt in HU; lia|]. split; [exact Hk|]. split; [lia|]. split; [exact HI|exact E2].
  Qed.
End Locals.
Lemma entry_locals_oob env sz sb k nb (locs : list (list ValType)) w n cb rest : (2 ^ 32 - 1 <= @alloc_limit env)%N ->
  Bu32 sz sb -> Bu32 k nb -> (N.of_nat (length locs) < k)%N -> Bseq Blocals locs w -> (N.of_nat (length (concat locs)) < 2 ^ 32)%N ->
  Bu32 n cb -> (2 ^ 32 <= N.of_nat (length (concat locs)) + n)%N -> (N.of_nat (length (nb ++ w ++ cb)) <= sz)%N ->
  fst (@parse_code env _ _ (sb ++ nb ++ w ++ cb ++ rest)) = Err (Code_DecodeLocalsVector (ParseElement (N.of_nat (length locs)) (Loc_LocalsCountOutOfBound (2 ^ 32 - 1)%N (N.of_nat (length (concat locs)) + n)%N))).
Proof.
  intros Ha Hsz HU Hk Hq Ht Hn Hl Hf. apply seq_locals_inv in Hq as (ls & Hq & ->). rewrite map_length in *. rewrite <- flat_map_concat_map in *. fold (expand_locals ls) in *. rewrite <- total_expand in *.
  rewrite (parse_code_eq sz sb _ Hsz). unfold code_entry, bind at 1, map_err at 1.
  pose proof (locals_oob (mkTake sz (nb ++ w ++ cb ++ rest)) k nb ls w n cb (mkTake (sz - lenN (nb ++ w ++ cb))%N (map AByte rest)) Ha HU Hk Hq Ht Hn Hl) as HL.
  destruct (decode_list_st _ _ _) as [x t]. cbn [fst] in HL. rewrite HL; [reflexivity|]. change (abs (mkTake sz (nb ++ w ++ cb ++ rest))) with (mkTake sz (map AByte (nb ++ w ++ cb ++ rest))).
  apply bsteps_take; [exact Hf|]. replace (nb ++ w ++ cb ++ rest) with ((nb ++ w ++ cb) ++ rest) by (rewrite <- !app_assoc; reflexivity). rewrite map_app. apply bsteps_list.
Qed.
Section LocalsInv.
  Context {R C : Type} `{Lawful R C}.
  Lemma locals_seq_inv ls : forall (r : R) st st' r', in_sequence (parse_code_local (2 ^ 32 - 1)%N) st r ls st' r' -> (st < 2 ^ 32)%N ->
    exists w, Bseq Glocal ls w /\ bsteps (abs r) w (abs r') /\ st' = (st + total_locals ls)%N /\ (st' < 2 ^ 32)%N.
  Proof using.
    induction ls as [|l ls IH]; intros r st st' r' HI Hst; inversion HI as [|? ? ? st1 r1 ? ? ? Hf HI']; subst.
    - exists []. cbn. rewrite N.add_0_r. repeat split; [constructor|constructor|exact Hst].
    - destruct (p_sound _ _ (parses_local (2 ^ 32 - 1)%N st) _ _ _ Hf) as (b & Hb & HG & E & Hle & _). cbn [fst snd] in *.
      destruct (IH _ _ _ _ HI' ltac:(lia)) as (w & Hw & Hbw & -> & Hlt). exists (b ++ w). cbn [total_locals fold_right]. fold (total_locals ls).
      split; [constructor; assumption|]. split; [eapply bsteps_app; eassumption|]. split; lia.
  Qed.
  Lemma locals_oob_inv {env : Env} (r : R) i mx tot r' : decode_list_st (parse_code_local (2 ^ 32 - 1)%N) 0%N r = (Err (ParseElement i (Loc_LocalsCountOutOfBound mx tot)), r') ->
    exists k nb ls w n cb, Bu32 k nb /\ i = N.of_nat (length ls) /\ (i < k)%N /\ Bseq Glocal ls w /\ (total_locals ls < 2 ^ 32)%N /\ Bu32 n cb /\
      mx = (2 ^ 32 - 1)%N /\ tot = (total_locals ls + n)%N /\ (2 ^ 32 <= tot)%N /\ bsteps (abs r) (nb ++ w ++ cb) (abs r').
  Proof using.
    intros HE. apply C09_element_st in HE as (k & r0 & ls & st1 & r1 & Eu & _ & Hi & Hl & HI & Hf).
    destruct (p_sound _ _ parses_u32 _ _ _ Eu) as (nb & Hnb & HU). destruct (locals_seq_inv _ _ _ _ _ HI eq_refl) as (w & Hw & Hbw & -> & Hlt).
    unfold parse_code_local in Hf. unfold bind at 1, map_err at 1 in Hf. destruct (decode_u32 r1) as [[n|e|pn|] r2] eqn:En; try discriminate.
    destruct (p_sound _ _ parses_u32 _ _ _ En) as (cb & Hcb & Hn). unfold bind, add_u64 in Hf. destruct (_ <? 2 ^ 64)%N; [|discriminate]. unfold ret at 1 in Hf.
    destruct (N.ltb_spec (2 ^ 32 - 1) (0 + total_locals ls + n)) as [HL|HL].
    - injection Hf as <- <- <-. exists k, nb, ls, w, n, cb. repeat split; try assumption; try lia. eapply bsteps_app; [exact Hnb|]. eapply bsteps_app; eassumption.
    - exfalso. unfold map_err in Hf. destruct (decode_valtype r2) as [[]]; discriminate.
  Qed.
End LocalsInv.
Lemma entry_locals_oob_inv env q i mx tot : fst (@parse_code env _ _ q) = Err (Code_DecodeLocalsVector (ParseElement i (Loc_LocalsCountOutOfBound mx tot))) ->
  mx = (2 ^ 32 - 1)%N /\ exists sz sb k nb (locs : list (list ValType)) w n cb rest,
    q = sb ++ nb ++ w ++ cb ++ rest /\ Bu32 sz sb /\ Bu32 k nb /\ i = N.of_nat (length locs) /\ (i < k)%N /\ Bseq Blocals locs w /\
    (N.of_nat (length (concat locs)) < 2 ^ 32)%N /\ Bu32 n cb /\ tot = (N.of_nat (length (concat locs)) + n)%N /\ (2 ^ 32 <= tot)%N /\ (N.of_nat (length (nb ++ w ++ cb)) <= sz)%N.
Proof.
  intros HE. assert (HU : exists sz sb body, Bu32 sz sb /\ q = sb ++ body).
  { destruct (decode_u32 q) as [[sz|e|pn|] body] eqn:Eu.
    - destruct (decodes_sound _ _ decodes_u32 env _ _ _ Eu) as (sb & -> & HU). eauto.
    - exfalso. unfold parse_code, bind at 1, map_err at 1 in HE. rewrite Eu in HE. discriminate.
    - exfalso. unfold parse_code, bind at 1, map_err at 1 in HE. rewrite Eu in HE. discriminate.
    - exfalso. unfold parse_code, bind at 1, map_err at 1 in HE. rewrite Eu in HE. discriminate. }
  destruct HU as (sz & sb & body & Hsz & ->). rewrite (parse_code_eq sz sb _ Hsz) in HE.
  unfold code_entry in HE. unfold bind at 1 in HE. unfold map_err at 1 in HE. destruct (decode_list_st _ _ _) as [[ls|e|pn|] t] eqn:EL; try discriminate.
  - exfalso. unfold bind, map_err, ret in HE. destruct (decode_expr t) as [[[]|e|pn|] t'] in HE; try discriminate. destruct (_ =? 0)%N in HE; [discriminate|]. destruct (_ <=? _)%N in HE; discriminate.
  - injection HE as ->. apply locals_oob_inv in EL as (k & nb & ls & w & n & cb & HU & -> & Hk & Hq & Ht & Hn & -> & -> & Hge & Hb). split; [reflexivity|].
    apply bsteps_take_inv in Hb as (H1 & H2 & H3). change (t_limit (abs (mkTake sz body))) with sz in *. change (t_inner (abs (mkTake sz body))) with (map AByte body) in H3.
    apply bsteps_slice in H3 as (rest & -> & _). apply seq_locals in Hq. exists sz, sb, k, nb, (map (fun l => repeat (l_t l) (N.to_nat (l_count l))) ls), w, n, cb, rest.
    rewrite map_length, <- flat_map_concat_map. fold (expand_locals ls). rewrite <- total_expand. rewrite <- !app_assoc. repeat split; assumption.
Qed.

(** ** the code section of a module *)
Lemma module_code m bs : Bmodule m bs -> exists (xs : list (section * N)) w l, bs = preamble ++ w /\ Bseq Bsection xs w /\ length (funcs m) = length l /\
  forall i f, nth_error (funcs m) i = Some f -> (exists n, In (SCode l, n) xs) /\ exists t ls e, nth_error l i = Some (ls, e) /\ f = mkFunc t ls e.
Proof.
  inversion 1 as [ss w cs Hq Ho Hl Hc Hm]; subst. exists ss, w, (the get_code (map fst ss)). split; [reflexivity|]. split; [assumption|].
  unfold cs in *. cbn [funcs module_of]. split; [rewrite map_length, combine_length; lia|].
  intros i f Hf. rewrite nth_error_map in Hf. destruct (nth_error (combine _ _) i) as [[t [ls e]]|] eqn:En; [|discriminate]. injection Hf as <-.
  assert (Hnth : nth_error (the get_code (map fst ss)) i = Some (ls, e)).
  { clear -En. revert i En. generalize (the get_function (map fst ss)) (the get_code (map fst ss)). intros l1 l2. revert l1.
    induction l2 as [|y l2 IH]; intros [|x l1] [|i] En; try discriminate; cbn in *; [congruence|eauto]. }
  split; [|exists t, ls, e; auto].
  apply nth_error_In in Hnth. pose proof Hnth as HI. unfold the in HI. apply in_flat_map in HI as (x & Hx & HI). destruct x as [| | | | | | | | | | | |l|]; try contradiction. cbn in HI.
  rewrite (the_unique get_code SK_Code (map fst ss) (SCode l)); try assumption; try reflexivity; try discriminate; try (intros [] ?; cbn in *; congruence); [|apply order_iff; assumption].
  apply in_map_iff in Hx as ([y n] & Ey & HI'). cbn in Ey. subst y. exists n. exact HI'.
Qed.
