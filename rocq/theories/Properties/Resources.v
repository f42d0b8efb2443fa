(** Resources: memory, stack, and size of the result (C36, C37, C38).
    [alloc_limit] and [stack_limit] are the process limits (Model/Prelude.v);
    [shallow d m]: all instructions of [m] are nested less than [d] deep
    (Spec/Resources.v). *)
From Verif Require Import Model.Prelude Model.Io Model.Ast Model.Errors Model.Helpers Model.Types Model.Sections Model.Module.
From Verif Require Import Spec.Lang Spec.Types Spec.Instr Spec.Module Spec.Streams Spec.Layout Spec.Resources.
From Verif Require Import Proofs.Machine Proofs.GAssemble Proofs.Final Proofs.Modules Proofs.Need Proofs.Fits Proofs.Unamb Proofs.Exact Proofs.ShortModule Proofs.Sizes Proofs.Encode Proofs.Instrs.
From Verif Require Import Properties.Samples Properties.Modules.
From Coq Require Import Lia.

(** ** C36 memory *)
(** memory for as many elements as the input has bytes, and for the locals of
    the largest function, always suffices for a module *)
Theorem C36_enough env (evs : list event) bs m : content evs = (bs, Ends) -> Bmodule m bs ->
  (N.of_nat (length bs) <= @alloc_limit env)%N ->
  (forall f, In f (funcs m) -> (N.of_nat (length (f_locals f)) <= @alloc_limit env)%N) ->
  0 < @stack_limit env -> shallow (@stack_limit env) m ->
  fst (@decode_module env _ _ evs) = Ok m.
Proof.
  intros Hc HB Ha Hf Hs Hd. rewrite (C30_slice env evs bs Hc).
  set (e2 := Build_Env (stack_limit + (length bs + 2)) (2 ^ 32 + N.of_nat (length bs))%N (@probe env)).
  assert (H2 : fst (@decode_module e2 _ _ bs) = Ok m).
  { apply C02_complete_slice; [|exact HB]. unfold sufficient, e2. cbn [alloc_limit stack_limit]. lia. }
  destruct (@decode_module e2 _ _ bs) as [x r'] eqn:E. cbn [fst] in H2. subst x.
  destruct (suff_module env e2 eq_refl (conj Hs (Nat.le_add_r _ _)) (length bs) Ha bs m r' E) as (xs & Hm & HK).
  rewrite HK; [reflexivity|apply Nat.le_refl|].
  apply (needs_module env xs m Hs Hm). split; [exact Hd|exact Hf].
Qed.
(** every vector of the result, and not only the locals, had to fit *)
Theorem C36_needed env (evs : list event) m n : (0 < @alloc_limit env)%N -> fst (@decode_module env _ _ evs) = Ok m ->
  In n (vectors m) -> (N.of_nat n <= @alloc_limit env)%N.
Proof.
  intros Ha Hd HI. destruct (@decode_module env _ _ evs) as [x r'] eqn:HE. cbn [fst] in Hd. subst x.
  assert (H1 : (N.of_nat 1 <= @alloc_limit env)%N) by lia.
  destruct (fit_module H1 evs m r' HE) as (xs & Hm & HN & HL). pose proof (fits_all xs m Hm HN HL) as HF.
  exact (proj1 (Forall_forall _ _) HF n HI).
Qed.
(** the locals among them *)
Theorem C36_locals_needed env (evs : list event) m f : (0 < @alloc_limit env)%N -> fst (@decode_module env _ _ evs) = Ok m ->
  In f (funcs m) -> (N.of_nat (length (f_locals f)) <= @alloc_limit env)%N.
Proof.
  intros Ha Hd HI. eapply C36_needed; [exact Ha|exact Hd|]. unfold vectors. do 2 (apply in_or_app; right). apply in_or_app. right. apply in_or_app. left.
  apply in_flat_map. exists f. split; [exact HI|left; reflexivity].
Qed.
(** the longest vector of kitchensink.wasm has twelve elements, so it takes a heap
    for twelve to decode it, and that is enough *)
Example C36_needed_case : let with_heap n := Build_Env 100 n (fun _ => 31%N) in
  fold_right Nat.max 0 (vectors (module_in kitchensink)) = 12 /\
  fst (@decode_module (with_heap 12%N) _ _ kitchensink) = Ok (module_in kitchensink) /\
  fst (@decode_module (with_heap 11%N) _ _ kitchensink) = Panic AllocFailure.
Proof. vm_compute. repeat split. Qed.
(** exactly the modules whose vectors fit, and whose groups of locals do, are
    decoded; what else happens to a module is running out of memory or stack *)
Theorem C36_exact env (evs : list event) bs m : content evs = (bs, Ends) -> Bmodule m bs -> 0 < @stack_limit env -> (0 < @alloc_limit env)%N ->
  (fst (@decode_module env _ _ evs) = Ok m <->
     shallow (@stack_limit env) m /\
     (forall n, In n (vectors m) -> (N.of_nat n <= @alloc_limit env)%N) /\
     (forall n, local_groups bs n -> (N.of_nat n <= @alloc_limit env)%N)) /\
  (fst (@decode_module env _ _ evs) = Ok m \/ fst (@decode_module env _ _ evs) = Panic AllocFailure \/ fst (@decode_module env _ _ evs) = Panic StackOverflow).
Proof.
  intros Hc HB Hs Ha. split.
  - rewrite (exact_module env evs bs m Hc HB Hs Ha). unfold Fits.F. rewrite Forall_forall. reflexivity.
  - destruct (fst (@decode_module env _ _ evs)) as [m'|er|p|] eqn:HE.
    + destruct (C01_sound _ _ _ HE) as (bs' & e & Hc' & _ & HB'). rewrite Hc in Hc'. injection Hc' as <- <-. left. f_equal. exact (C01_unambiguous _ _ _ HB' HB).
    + exfalso. exact (C48_error env evs bs Ends er m Hc (or_introl eq_refl) HE HB).
    + destruct (C34_panics env evs p HE) as [[-> _]|[-> _]]; auto.
    + exfalso. exact (C35_terminates env evs HE).
Qed.
(** a function with four empty groups of locals takes memory for four, though no
    vector of the module has more than three elements *)
Definition grouped : list byte := preamble ++ [x01; x04; x01; x60; x00; x00; x03; x02; x01; x00; x0a; x0c; x01; x0a; x04; x00; x7f; x00; x7f; x00; x7f; x00; x7f; x0b].
Example C36_exact_case : let with_heap n := Build_Env 1 n (fun _ => 31%N) in
  Bmodule (module_in grouped) grouped /\ fold_right Nat.max 0 (vectors (module_in grouped)) = 3 /\ map f_locals (funcs (module_in grouped)) = [[]] /\ local_groups grouped 4 /\
  fst (@decode_module (with_heap 4%N) _ _ grouped) = Ok (module_in grouped) /\
  fst (@decode_module (with_heap 3%N) _ _ grouped) = Panic AllocFailure.
Proof.
  assert (HB : Bmodule (module_in grouped) grouped) by (apply (C01_sound_slice roomy); vm_compute; reflexivity).
  intros with_heap. split; [exact HB|]. split; [vm_compute; reflexivity|]. split; [vm_compute; reflexivity|].
  assert (H4 : fst (@decode_module (with_heap 4%N) _ _ grouped) = Ok (module_in grouped)) by (vm_compute; reflexivity).
  assert (H3 : fst (@decode_module (with_heap 3%N) _ _ grouped) = Panic AllocFailure) by (vm_compute; reflexivity).
  split; [|split; [exact H4|exact H3]].
  exists [(SK_Type, [x01; x60; x00; x00]); (SK_Function, [x01; x00]); (SK_Code, [x01; x0a; x04; x00; x7f; x00; x7f; x00; x7f; x00; x7f; x0b])],
    [x01; x04; x01; x60; x00; x00; x03; x02; x01; x00; x0a; x0c; x01; x0a; x04; x00; x7f; x00; x7f; x00; x7f; x00; x7f; x0b], [x01; x0a; x04; x00; x7f; x00; x7f; x00; x7f; x00; x7f; x0b], [4].
  split; [reflexivity|]. split.
  { apply (parts_cons SK_Type [x01; x60; x00; x00] [x04]); [apply ShortModule.u32_small; reflexivity|]. apply (parts_cons SK_Function [x01; x00] [x02]); [apply ShortModule.u32_small; reflexivity|].
    apply (parts_cons SK_Code [x01; x0a; x04; x00; x7f; x00; x7f; x00; x7f; x00; x7f; x0b] [x0c] [] []); [apply ShortModule.u32_small; reflexivity|constructor]. }
  split; [right; right; left; reflexivity|]. split; [|left; reflexivity].
  apply (grouped_codes [mkCode 10%N [mkLocal 0%N (VT_Num Int32); mkLocal 0%N (VT_Num Int32); mkLocal 0%N (VT_Num Int32); mkLocal 0%N (VT_Num Int32)] [] false]).
  destruct D_code as [KS _ _].
  destruct (KS roomy [x01; x0a; x04; x00; x7f; x00; x7f; x00; x7f; x00; x7f; x0b] [mkCode 10%N [mkLocal 0%N (VT_Num Int32); mkLocal 0%N (VT_Num Int32); mkLocal 0%N (VT_Num Int32); mkLocal 0%N (VT_Num Int32)] [] false] []) as (pre & Hpre & HG); [vm_compute; reflexivity|].
  rewrite app_nil_r in Hpre. rewrite Hpre. exact HG.
Qed.
(** no input makes it ask for more than 2^32-1 elements at once: see C34_panics.
    But malformed inputs do make it ask for that much, whatever their length: *)
Lemma bind_stop {R E A B} (p : M R E A) (q : A -> M R E B) r x r1 : p r = (Panic x, r1) -> bind p q r = (Panic x, r1).
Proof. unfold bind. intros ->. reflexivity. Qed.
Lemma map_err_stop {R E E' A} (f : E -> E') (p : M R E A) r x r1 : p r = (Panic x, r1) -> map_err f p r = (Panic x, r1).
Proof. unfold map_err. intros ->. reflexivity. Qed.
Definition hungry : list byte := preamble ++ [x01; x05; xff; xff; xff; xff; x0f].
Theorem C36_refuted env : (@alloc_limit env < 2 ^ 32 - 1)%N ->
  length hungry = 15 /\ fst (@decode_module env _ _ hungry) = Panic AllocFailure /\ forall m, ~ Bmodule m hungry.
Proof.
  intros Ha. split; [reflexivity|]. split.
  - unfold decode_module, hungry. erewrite (bind_ok _ _ _ tt [x01; x05; xff; xff; xff; xff; x0f]); [|reflexivity].
    rewrite (bind_stop _ _ _ AllocFailure []); [reflexivity|]. unfold section_loop'. change (S (budget [x01; x05; xff; xff; xff; xff; x0f])) with 8. cbn [section_loop].
    erewrite (bind_ok _ _ _ (Some (mkHeader SK_Type 5%N)) [xff; xff; xff; xff; x0f]); [|reflexivity].
    apply bind_stop. unfold section_step. apply bind_stop. unfold with_take. cbn [sh_size sh_kind].
    rewrite (bind_ok _ _ _ tt (mkTake 5%N [xff; xff; xff; xff; x0f])); [|reflexivity].
    cbn [decode_section]. rewrite (bind_stop _ _ _ AllocFailure (mkTake 0%N [])); [reflexivity|]. do 2 apply map_err_stop. unfold decode_list, decode_list_st.
    rewrite (bind_ok _ _ _ 4294967295%N (mkTake 0%N [])); [|reflexivity]. apply bind_stop. unfold alloc.
    replace (4294967295 <=? alloc_limit)%N with false; [reflexivity|]. symmetry. apply N.leb_gt. exact Ha.
  - intros m. apply (C48_error_slice roomy _ (DM_DecodeTypeSection (TypeSec_DecodeList (ParseElement 0%N (Rec_Io UnexpectedEof))))). vm_compute. reflexivity.
Qed.

(** ** C37 stack *)
(** with enough memory, decoding a module succeeds or overflows the stack, and
    the nesting of its instructions decides which *)
Theorem C37_exact env (evs : list event) bs m : content evs = (bs, Ends) -> Bmodule m bs ->
  (N.of_nat (length bs) <= @alloc_limit env)%N -> (2 ^ 32 - 1 <= @alloc_limit env)%N -> 0 < @stack_limit env ->
  (fst (@decode_module env _ _ evs) = Ok m <-> shallow (@stack_limit env) m) /\
  (fst (@decode_module env _ _ evs) = Panic StackOverflow <-> ~ shallow (@stack_limit env) m).
Proof.
  intros Hc HB Ha Hl Hs.
  assert (H1 : shallow stack_limit m -> fst (@decode_module env _ _ evs) = Ok m).
  { intros Hd. apply (C36_enough env evs bs m Hc HB Ha); [|exact Hs|exact Hd]. intros f Hf. pose proof (module_locals m bs f HB Hf). lia. }
  assert (H2 : fst (@decode_module env _ _ evs) = Ok m -> shallow stack_limit m).
  { intros Hd. destruct (@decode_module env _ _ evs) as [x r'] eqn:HE. cbn [fst] in Hd. subst x.
    destruct (had_module Hs evs m r' HE) as (xs & Hm & HN). apply (needs_module env xs m Hs Hm) in HN. apply HN. }
  split; [split; assumption|]. split; [intros Hp Hd; rewrite (H1 Hd) in Hp; discriminate|]. intros Hd.
  destruct (fst (@decode_module env _ _ evs)) as [m'|er|p|] eqn:HE.
  - exfalso. apply Hd. destruct (C01_sound _ _ _ HE) as (bs' & e & Hc' & _ & HB'). rewrite Hc in Hc'. injection Hc' as <- <-.
    rewrite (C01_unambiguous _ _ _ HB' HB) in H2. apply H2. reflexivity.
  - exfalso. exact (C48_error env evs bs Ends er m Hc (or_introl eq_refl) HE HB).
  - rewrite (C30_slice env evs bs Hc) in HE. destruct (panic_why_slice _ _ HE) as [[_ Hx]|[-> _]]; [lia|reflexivity].
  - exfalso. exact (C35_terminates env evs HE).
Qed.

(** (C36) of a module, a vector that does not fit is the only reason for a failed
    allocation, and deep nesting is the only reason for a stack overflow *)
Theorem C36_failure env (evs : list event) bs m : content evs = (bs, Ends) -> Bmodule m bs -> 0 < @stack_limit env -> (0 < @alloc_limit env)%N ->
  ((forall n, In n (vectors m) -> (N.of_nat n <= @alloc_limit env)%N) /\ (forall n, local_groups bs n -> (N.of_nat n <= @alloc_limit env)%N) ->
     fst (@decode_module env _ _ evs) <> Panic AllocFailure) /\
  (shallow (@stack_limit env) m -> fst (@decode_module env _ _ evs) <> Panic StackOverflow).
Proof.
  intros Hc HB Hs Ha. split.
  - intros [Hv Hg] HE.
    pose (envb := Build_Env (Nat.max (@stack_limit env) (S (S (length bs)))) (2 ^ 32 + N.of_nat (length bs))%N (@probe env)).
    pose (env' := Build_Env (Nat.max (@stack_limit env) (S (S (length bs)))) (@alloc_limit env) (@probe env)).
    assert (HD : shallow (@stack_limit env') m).
    { change (shallow (@stack_limit envb) m).
      assert (Hsb : sufficient envb (length bs)) by (unfold sufficient, envb; cbn [alloc_limit stack_limit]; lia).
      refine (proj1 (proj1 (C37_exact envb evs bs m Hc HB _ _ _)) _).
      - unfold envb; cbn [alloc_limit]; lia.
      - unfold envb; cbn [alloc_limit]; lia.
      - unfold envb; cbn [stack_limit]; lia.
      - exact (C02_complete envb evs bs Ends m Hsb Hc (or_introl eq_refl) HB). }
    assert (HO : fst (@decode_module env' _ _ evs) = Ok m).
    { refine (proj2 (proj1 (C36_exact env' evs bs m Hc HB _ Ha)) _); [unfold env'; cbn [stack_limit]; lia|]. split; [exact HD|]. split; [exact Hv|exact Hg]. }
    destruct (C46_limits env env' evs) as [E|[[_ L]|[[E _]|[[E _]|[E _]]]]].
    + rewrite HE, HO in E. discriminate.
    + exact (N.lt_irrefl _ L).
    + rewrite HE in E. discriminate.
    + rewrite HO in E. discriminate.
    + rewrite HO in E. discriminate.
  - intros HD HE.
    pose (env' := Build_Env (@stack_limit env) (2 ^ 32 + N.of_nat (length bs))%N (@probe env)).
    assert (HO : fst (@decode_module env' _ _ evs) = Ok m).
    { refine (proj2 (proj1 (C37_exact env' evs bs m Hc HB _ _ Hs)) HD); unfold env'; cbn [alloc_limit]; lia. }
    destruct (C46_limits env env' evs) as [E|[[E _]|[[_ L]|[[E _]|[E _]]]]].
    + rewrite HE, HO in E. discriminate.
    + rewrite HE in E. discriminate.
    + exact (Nat.lt_irrefl _ L).
    + rewrite HO in E. discriminate.
    + rewrite HO in E. discriminate.
Qed.
(** a module that fits neither way, and what each limit alone does to it *)
Example C36_failure_case : let m := module_in control_instructions in
  shallow 3 m /\ fst (@decode_module (Build_Env 3 1%N (fun _ => 31%N)) _ _ control_instructions) = Panic AllocFailure /\
  ~ shallow 1 m /\ fst (@decode_module (Build_Env 1 1000%N (fun _ => 31%N)) _ _ control_instructions) = Panic StackOverflow.
Proof.
  assert (HB : Bmodule (module_in control_instructions) control_instructions) by (apply (C01_sound_slice roomy); vm_compute; reflexivity).
  intros m. split; [|split; [vm_compute; reflexivity|split; [|vm_compute; reflexivity]]].
  - intros e i He Hi. assert (HA : forallb (fun e => forallb (fun i => Nat.ltb (nesting i) 3) e) (exprs (module_in control_instructions)) = true) by (vm_compute; reflexivity).
    rewrite forallb_forall in HA. specialize (HA e He). rewrite forallb_forall in HA. apply Nat.ltb_lt. exact (HA i Hi).
  - intros HS. assert (HA : existsb (fun e => existsb (fun i => Nat.leb 1 (nesting i)) e) (exprs (module_in control_instructions)) = true) by (vm_compute; reflexivity).
    apply existsb_exists in HA. destruct HA as (e & He & HA). apply existsb_exists in HA. destruct HA as (i & Hi & HA).
    apply Nat.leb_le in HA. exact (Nat.lt_irrefl _ (Nat.lt_le_trans _ _ _ (HS e i He Hi) HA)).
Qed.

(** [d] nested blocks, in the one function of a module *)
Fixpoint nested (d : nat) : Expr := match d with 0 => [] | S d' => [I_Block BT_Empty (nested d')] end.
Fixpoint nested_bytes (d : nat) : list byte := match d with 0 => [] | S d' => x02 :: [x40] ++ nested_bytes d' ++ [x0b] end.
Lemma nested_length d : length (nested_bytes d) = 3 * d.
Proof. induction d as [|d IH]; [reflexivity|]. cbn [nested_bytes length app]. rewrite app_length, IH. cbn. lia. Qed.
Lemma nested_instrs d : Binstrs (nested d) (nested_bytes d).
Proof.
  induction d as [|d IH]; [constructor|]. cbn [nested nested_bytes]. rewrite <- (app_nil_r (x02 :: _)). constructor; [|constructor].
  apply (BI_block BT_Empty (nested d) [x40]); [constructor|exact IH].
Qed.
Definition one_function ls e : list (section * N) -> Prop := fun ss => exists n1 n2, ss = [(SFunction [0%N], n1); (SCode [(ls, e)], n2)].
Lemma one_function_module (ls : list ValType) (e : Expr) (bs : list byte) : Bfunc (ls, e) bs -> (N.of_nat (length bs) + 6 < 2 ^ 32)%N ->
  (forall i, In i e -> ~ mentions_data i) ->
  exists m w, Bmodule m w /\ funcs m = [mkFunc 0%N ls e] /\ length w <= 24 + length bs.
Proof.
  intros HF Hl Hd. destruct (u32_exists (N.of_nat (length bs))) as (b1 & H1 & L1); [lia|].
  destruct (u32_byte 1) as (c1 & Hc1 & HC1); [reflexivity|]. destruct (u32_byte 0) as (c0 & Hc0 & HC0); [reflexivity|]. destruct (u32_byte 2) as (c2 & Hc2 & HC2); [reflexivity|].
  set (w := [c1] ++ b1 ++ bs). assert (Lw : length w = S (length b1 + length bs)) by (unfold w; rewrite !app_length; reflexivity).
  destruct (u32_exists (N.of_nat (length w))) as (b2 & H2 & L2); [lia|].
  exists (module_of [(SFunction [0%N], 2%N); (SCode [(ls, e)], N.of_nat (length w))]), (magic ++ version1 ++ (x03 :: [c2] ++ [c1; c0]) ++ (x0a :: b2 ++ w) ++ []).
  split; [|split; [reflexivity|rewrite !app_length; cbn [length]; rewrite !app_length; cbn [length magic version1]; lia]].
  apply (Bmodule_intro [(SFunction [0%N], 2%N); (SCode [(ls, e)], N.of_nat (length w))]).
  - apply Bseq_cons; [apply (Bsection_intro (SFunction [0%N]) [c2] [c1; c0]); [exact HC2|]|apply Bseq_cons; [|constructor]].
    + apply Bc_function, (Blist_intro _ [0%N] [c1] [c0]); [exact HC1|]. apply (Bseq_cons _ _ [] [c0] []); [exact HC0|constructor].
    + apply (Bsection_intro (SCode [(ls, e)]) b2 w); [exact H2|]. apply Bc_code. unfold w. rewrite <- (app_nil_r (b1 ++ bs)).
      apply (Blist_intro _ [_] [c1] ((b1 ++ bs) ++ [])); [exact HC1|]. apply Bseq_cons; [|constructor]. constructor; assumption.
  - cbn. unfold section_order. repeat first [apply subseq_take|apply subseq_skip|apply subseq_nil].
  - reflexivity.
  - intros n [].
  - intros _ ls' e' i [[= <- <-]|[]] Hi. exact (Hd i Hi).
Qed.
(** for every stack there is a module, as long as three times the stack is
    high, that needs more *)
Theorem C37_refuted (d : nat) : 0 < d -> (N.of_nat d < 2 ^ 30)%N ->
  exists bs m, length bs <= 3 * d + 26 /\ Bmodule m bs /\
    forall env, @stack_limit env = d -> (N.of_nat (length bs) <= @alloc_limit env)%N -> (2 ^ 32 - 1 <= @alloc_limit env)%N ->
      fst (@decode_module env _ _ bs) = Panic StackOverflow.
Proof.
  intros Hd Hb. destruct (u32_byte 0) as (c0 & Hc0 & HC0); [reflexivity|].
  destruct (one_function_module [] (nested d) ([c0] ++ nested_bytes d ++ [x0b])) as (m & w & HB & Hf & Hw).
  - apply (Bfunc_intro []); [apply (Blist_intro _ [] [c0] []); [exact HC0|constructor]|constructor; apply nested_instrs|reflexivity].
  - rewrite !app_length, nested_length. cbn [length]. change (2 ^ 32)%N with (4 * 2 ^ 30)%N. lia.
  - assert (HN : forall k i, In i (nested k) -> ~ mentions_data i).
    { intros k. induction k as [|k IH]; intros i Hi; [destruct Hi|]. destruct Hi as [<-|[]]. intros HM. inversion HM; subst. eapply IH; eassumption. }
    exact (HN d).
  - exists w, m. rewrite !app_length, nested_length in Hw. cbn [length] in Hw. split; [lia|]. split; [exact HB|]. intros env <- Hl Ha.
    assert (Hc : content (plain w Ends) = (w, Ends)) by (apply content_plain; discriminate).
    rewrite <- (C30_slice env _ _ Hc). apply (C37_exact env _ w m Hc HB Hl Ha Hd).
    intros HS. destruct stack_limit as [|d] eqn:HL; [lia|].
    assert (HD : forall k, fold_right (fun j n => Nat.max (nesting j) n) 0 (nested k) = k).
    { induction k as [|k IH]; [reflexivity|]. cbn [nested fold_right nesting]. rewrite IH. lia. }
    specialize (HS (nested (S d)) (I_Block BT_Empty (nested d))). cbn [nesting] in HS. rewrite HD in HS.
    assert (S d < S d); [|lia]. apply HS; [|left; reflexivity].
    unfold exprs. rewrite Hf. left. reflexivity.
Qed.

(** ** C38 size of the result *)
(** everything but the locals is linear in the input *)
Theorem C38_linear env (evs : list event) m : fst (@decode_module env _ _ evs) = Ok m -> size m <= 2 * length (fst (content evs)).
Proof. intros Hd. destruct (C01_sound _ _ _ Hd) as (bs & e & -> & _ & HB). exact (lin_module m bs HB). Qed.
(** the locals are not: an input of bounded length has as many as it likes *)
Theorem C38_refuted (n : N) : (n < 2 ^ 32)%N -> exists bs m f, length bs <= 32 /\ Bmodule m bs /\ funcs m = [f] /\ N.of_nat (length (f_locals f)) = n /\
  forall env, sufficient env (length bs) -> fst (@decode_module env _ _ bs) = Ok m.
Proof.
  intros Hn. destruct (u32_exists n Hn) as (b & HU & HL). destruct (u32_byte 1) as (c1 & Hc1 & HC1); [reflexivity|].
  destruct (one_function_module (concat [repeat (VT_Num Int32) (N.to_nat n)]) [] (([c1] ++ (b ++ [x7f]) ++ []) ++ [] ++ [x0b])) as (m & w & HB & Hf & Hw).
  - constructor; [|constructor; constructor|cbn [concat]; rewrite app_nil_r, repeat_length, N2Nat.id; exact Hn].
    apply (Blist_intro _ [_] [c1] _); [exact HC1|]. apply Bseq_cons; [|constructor]. constructor; [exact HU|]. repeat constructor.
  - rewrite !app_length. cbn [length]. change (2 ^ 32)%N with 4294967296%N. lia.
  - intros i [].
  - exists w, m. eexists. rewrite !app_length in Hw. cbn [length] in Hw. split; [lia|]. split; [exact HB|]. split; [exact Hf|]. split.
    + cbn [f_locals concat]. rewrite app_nil_r, repeat_length, N2Nat.id. reflexivity.
    + intros env HS. apply C02_complete_slice; assumption.
Qed.
Example C38_ex : size (module_in kitchensink) = 95 /\ length kitchensink = 137.
Proof. vm_compute. auto. Qed.

(** a process with a stack for 3 activations and memory for 154 elements:
    enough for a repository fixture of 154 bytes whose blocks are nested twice;
    with a stack for 2 it overflows *)
Definition tight : Env := Build_Env 3 154 (fun _ => 0%N).
Lemma control_module : Bmodule (module_in control_instructions) control_instructions.
Proof. apply (C01_sound_slice roomy). vm_compute. reflexivity. Qed.
Definition deepest (m : Module_) : nat := fold_right Nat.max 0 (map nesting (concat (exprs m))).
Lemma shallow_deepest d m : deepest m < d -> shallow d m.
Proof.
  unfold deepest. intros Hd e i He Hi. assert (HI : In i (concat (exprs m))) by (apply in_concat; eauto). clear He Hi.
  induction (concat (exprs m)) as [|j l IH]; [destruct HI|]. cbn [map fold_right] in Hd. destruct HI as [->|HI]; [lia|]. apply IH; [lia|exact HI].
Qed.
Example C36_ex : shallow 3 (module_in control_instructions) /\ fst (@decode_module tight _ _ (plain control_instructions Ends)) = Ok (module_in control_instructions).
Proof.
  assert (HS : shallow 3 (module_in control_instructions)) by (apply shallow_deepest; vm_compute; auto). split; [exact HS|].
  apply (C36_enough tight _ control_instructions); [apply content_plain; discriminate|exact control_module|discriminate| |cbn; auto with arith|exact HS].
  intros f Hf. vm_compute in Hf. destruct Hf as [<-|[<-|[]]]; discriminate.
Qed.
Example C37_ex : ~ shallow 2 (module_in control_instructions) /\ fst (@decode_module (Build_Env 2 (2 ^ 32) (fun _ => 0%N)) _ _ (plain control_instructions Ends)) = Panic StackOverflow.
Proof.
  assert (HP : fst (@decode_module (Build_Env 2 (2 ^ 32) (fun _ => 0%N)) _ _ (plain control_instructions Ends)) = Panic StackOverflow) by (vm_compute; reflexivity).
  split; [|exact HP]. refine (proj1 (proj2 (C37_exact (Build_Env 2 (2 ^ 32) (fun _ => 0%N)) _ control_instructions _ _ control_module _ _ _)) HP);
    [apply content_plain; discriminate|discriminate|discriminate|cbn; auto with arith].
Qed.
