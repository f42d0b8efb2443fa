(** Printing what was decoded needs stack in proportion to nesting (C71).
    [height]: Spec/Stack.v; [pretty_in], [cli_main_in]: Model/Stack.v. *)
From Verif Require Import Model.Prelude Model.Io Model.Ast Model.Errors Model.Display Model.Module Model.Cli Model.Stack Model.Utf8.
From Verif Require Import Spec.Lang Spec.Types Spec.Instr Spec.Module Spec.Streams Spec.Layout Spec.Resources Spec.Faults Spec.Diagnosis Spec.Cli Spec.Utf8 Spec.Stack.
From Verif Require Import Proofs.Machine Proofs.Final Proofs.Modules Proofs.Need Proofs.Fits Proofs.Exact Proofs.Shortest Proofs.ShortModule Proofs.Encode Proofs.Utf8Error Proofs.Stack.
From Verif Require Import Properties.Samples Properties.Modules Properties.Resources Properties.Debug Properties.Utf8.
From Coq Require Import Lia ZifyN ZifyNat ZifyBool String.
Local Open Scope string_scope.
Local Open Scope nat_scope.

(** [n] nested calls print a value that is at most [n] high, and no other *)
Theorem C71_exact n t : (height t <= n -> pretty_in n t = Some (pretty t)) /\ (n < height t -> pretty_in n t = None).
Proof. rewrite pretty_in_height. split; intros H; destruct (Nat.leb_spec (height t) n); try reflexivity; lia. Qed.

(** an instruction is printed in two or three levels for each block around the
    innermost one, and at most seven more *)
Theorem C71_instruction {T : Texts} i : 2 * nesting i <= height (d_instr i) <= 3 * nesting i + 7.
Proof. split; [apply instr_tall|apply instr_height]. Qed.

(** what was decoded on a stack of [stack_limit] is printed on three times
    that, and a constant *)
Theorem C71_module {T : Texts} env (evs : list event) m k : 0 < @stack_limit env -> fst (@decode_module env _ _ evs) = Ok m ->
  Nat.max 13 (3 * @stack_limit env + 9) <= k -> pretty_in k (d_module m) = Some (debug_module m).
Proof.
  intros Hs HD Hk. apply C71_exact. refine (Nat.le_trans _ _ _ (module_height (@stack_limit env) m _ _) Hk); [lia|].
  destruct (@decode_module env _ _ evs) as [x r'] eqn:HE. cbn [fst] in HD. subst x.
  destruct (had_module Hs evs m r' HE) as (xs & Hm & HN). apply (needs_module env xs m Hs Hm) in HN. apply HN.
Qed.
(** whatever limits the decoder works under, the nesting of the instructions
    decides *)
Theorem C71_shallow {T : Texts} d m : 1 <= d -> shallow d m -> height (d_module m) <= Nat.max 13 (3 * d + 9).
Proof. apply module_height. Qed.
Theorem C71_deep {T : Texts} m f i : In f (funcs m) -> In i (f_body f) -> 2 * nesting i + 4 <= height (d_module m).
Proof. apply module_tall. Qed.

(** no error is more than 17 levels above what std prints: however the input
    is nested, whatever it is *)
Theorem C71_error {T : Texts} h e k : 1 <= h -> depth_of_std T h -> 17 + h <= k -> pretty_in k (d_DecodeModuleError e) = Some (debug_error e).
Proof. intros Hh HT Hk. apply C71_exact. pose proof (eh_DecodeModuleError h Hh HT e). lia. Qed.
(** for std's Utf8Error, three levels are enough *)
Theorem C71_utf8 T h : 3 <= h -> (forall e, height (debug_io e) <= h) -> depth_of_std (located_texts T) h.
Proof.
  intros Hh HT. split; [exact HT|]. intros bs. cbn [located_texts debug_utf8_error]. unfold utf8_debug.
  destruct (utf8_error 0 bs) as [[v [n|]]|]; cbn; lia.
Qed.

(** ** the command-line tool *)
(** without --verbose, nothing is printed with Debug *)
Theorem C71_silent {T : Texts} env k (opened : (dyn_error * string) + list event) :
  @cli_main_in T env _ _ k false opened = @cli_main T env _ _ false opened.
Proof. destruct opened as [[e dbg]|r]; [reflexivity|]. unfold cli_main_in, cli_main. destruct (fst (decode_module r)); reflexivity. Qed.
(** with it, the tool runs to its end on a stack in proportion to the one that
    decoding needed *)
Theorem C71_verbose {T : Texts} env k h (opened : (dyn_error * string) + list event) : 0 < @stack_limit env -> 1 <= h -> depth_of_std T h ->
  Nat.max (17 + h) (3 * @stack_limit env + 10) <= k -> @cli_main_in T env _ _ k true opened = @cli_main T env _ _ true opened.
Proof.
  intros Hs Hh HT Hk. destruct opened as [[e dbg]|r]; [reflexivity|]. unfold cli_main_in, cli_main. destruct (fst (decode_module r)) as [m|e|p|] eqn:HD; try reflexivity.
  - rewrite (C71_module env r m k Hs HD); [reflexivity|lia].
  - rewrite (C71_error h e k Hh HT); [reflexivity|lia].
Qed.
(** a failure is reported on a stack of constant height *)
Theorem C71_failure {T : Texts} env k h (evs : list event) e : 1 <= h -> depth_of_std T h -> 17 + h <= k -> fst (@decode_module env _ _ evs) = Err e ->
  @cli_main_in T env _ _ k true (inr evs) = @cli_main T env _ _ true (inr evs).
Proof. intros Hh HT Hk HD. unfold cli_main_in, cli_main. rewrite HD, (C71_error h e k Hh HT Hk). reflexivity. Qed.

(** a module with one function, and its expressions *)
Lemma one_function_exprs (ls : list ValType) (e : Expr) (bs : list byte) : Bfunc (ls, e) bs -> (N.of_nat (List.length bs) + 6 < 2 ^ 32)%N ->
  (forall i, In i e -> ~ mentions_data i) ->
  exists m w, Bmodule m w /\ funcs m = [mkFunc 0%N ls e] /\ exprs m = [e] /\ List.length w <= 24 + List.length bs.
Proof.
  intros HF Hl Hd. destruct (u32_exists (N.of_nat (List.length bs))) as (b1 & H1 & L1); [lia|].
  destruct (u32_byte 1) as (c1 & Hc1 & HC1); [reflexivity|]. destruct (u32_byte 0) as (c0 & Hc0 & HC0); [reflexivity|]. destruct (u32_byte 2) as (c2 & Hc2 & HC2); [reflexivity|].
  set (w := ([c1] ++ b1 ++ bs)%list). assert (Lw : List.length w = S (List.length b1 + List.length bs)) by (unfold w; rewrite !app_length; reflexivity).
  destruct (u32_exists (N.of_nat (List.length w))) as (b2 & H2 & L2); [lia|].
  exists (module_of [(SFunction [0%N], 2%N); (SCode [(ls, e)], N.of_nat (List.length w))]), (magic ++ version1 ++ (x03 :: [c2] ++ [c1; c0]) ++ (x0a :: b2 ++ w) ++ [])%list.
  split; [|split; [reflexivity|split; [reflexivity|rewrite !app_length; cbn [List.length]; rewrite !app_length; cbn [List.length magic version1]; lia]]].
  apply (Bmodule_intro [(SFunction [0%N], 2%N); (SCode [(ls, e)], N.of_nat (List.length w))]).
  - apply Bseq_cons; [apply (Bsection_intro (SFunction [0%N]) [c2] [c1; c0]); [exact HC2|]|apply Bseq_cons; [|constructor]].
    + apply Bc_function, (Blist_intro _ [0%N] [c1] [c0]); [exact HC1|]. apply (Bseq_cons _ _ [] [c0] []); [exact HC0|constructor].
    + apply (Bsection_intro (SCode [(ls, e)]) b2 w); [exact H2|]. apply Bc_code. unfold w. rewrite <- (app_nil_r (b1 ++ bs)).
      apply (Blist_intro _ [_] [c1] ((b1 ++ bs) ++ [])); [exact HC1|]. apply Bseq_cons; [|constructor]. constructor; assumption.
  - cbn. unfold section_order. repeat first [apply subseq_take|apply subseq_skip|apply subseq_nil].
  - reflexivity.
  - intros n [].
  - intros _ ls' e' i [[= <- <-]|[]] Hi. exact (Hd i Hi).
Qed.
Lemma deep_nested k : fold_right (fun j n => Nat.max (nesting j) n) 0 (nested k) = k.
Proof. induction k as [|k IH]; [reflexivity|]. cbn [nested fold_right nesting]. rewrite IH. lia. Qed.

(** no stack is enough for all that can be decoded: [d] nested blocks, in a
    file three times as long, are decoded on a stack of [d + 1] and accepted
    silently, and to print them the stack must be twice as high *)
Theorem C71_refuted {T : Texts} d : 0 < d -> (N.of_nat d < 2 ^ 30)%N ->
  exists bs m, List.length bs <= 3 * d + 26 /\ Bmodule m bs /\
    forall env k, d < @stack_limit env -> (N.of_nat (List.length bs) <= @alloc_limit env)%N -> (2 ^ 32 - 1 <= @alloc_limit env)%N ->
      @cli_main_in T env _ _ k false (inr (plain bs Ends)) = Some (mkOutcome 0 [] []) /\
      (k < 2 * d + 4 -> @cli_main_in T env _ _ k true (inr (plain bs Ends)) = None) /\
      (3 * d + 12 <= k -> @cli_main_in T env _ _ k true (inr (plain bs Ends)) = Some (mkOutcome 0 [debug_module m] [])).
Proof.
  intros Hd Hb. destruct (u32_byte 0) as (c0 & Hc0 & HC0); [reflexivity|].
  destruct (one_function_exprs [] (nested d) ([c0] ++ nested_bytes d ++ [x0b])%list) as (m & w & HB & Hf & He & Hw).
  - apply (Bfunc_intro []); [apply (Blist_intro _ [] [c0] []); [exact HC0|constructor]|constructor; apply nested_instrs|reflexivity].
  - rewrite !app_length, nested_length. cbn [List.length]. change (2 ^ 32)%N with (4 * 2 ^ 30)%N. lia.
  - assert (HN : forall k i, In i (nested k) -> ~ mentions_data i).
    { intros k. induction k as [|k IH]; intros i Hi; [destruct Hi|]. destruct Hi as [<-|[]]. intros HM. inversion HM; subst. eapply IH; eassumption. }
    exact (HN d).
  - exists w, m. rewrite !app_length, nested_length in Hw. cbn [List.length] in Hw. split; [lia|]. split; [exact HB|]. intros env k Hs Ha Hl.
    assert (Hn : forall i, In i (nested d) -> nesting i <= d).
    { intros i Hi. pose proof (deep_in i _ Hi) as H. unfold deep in H. rewrite deep_nested in H. exact H. }
    assert (HS : forall s, d < s -> shallow s m).
    { intros s Hds e i Hie Hi. rewrite He in Hie. destruct Hie as [<-|[]]. specialize (Hn i Hi). lia. }
    assert (Hc : content (plain w Ends) = (w, Ends)) by (apply content_plain; discriminate).
    assert (HD : fst (@decode_module env _ _ (plain w Ends)) = Ok m) by (apply (C37_exact env _ w m Hc HB Ha Hl ltac:(lia)); apply HS; exact Hs).
    unfold cli_main_in. rewrite HD. split; [reflexivity|]. split; intros Hk.
    + destruct d as [|d']; [lia|]. rewrite (proj2 (C71_exact k (d_module m))); [reflexivity|].
      assert (Ht : 2 * nesting (I_Block BT_Empty (nested d')) + 4 <= height (d_module m)).
      { apply (module_tall m (mkFunc 0%N [] (nested (S d')))); [rewrite Hf; left; reflexivity|left; reflexivity]. }
      cbn [nesting] in Ht. rewrite deep_nested in Ht. lia.
    + rewrite (proj1 (C71_exact k (d_module m))); [reflexivity|]. pose proof (module_height (S d) m ltac:(lia) (HS (S d) ltac:(lia))). lia.
Qed.
(** the stack that decoding took is not enough *)
Theorem C71_same_stack {T : Texts} d : 0 < d -> (N.of_nat d < 2 ^ 30)%N ->
  exists bs m, List.length bs <= 3 * d + 26 /\ Bmodule m bs /\
    forall env, @stack_limit env = S d -> (N.of_nat (List.length bs) <= @alloc_limit env)%N -> (2 ^ 32 - 1 <= @alloc_limit env)%N ->
      @cli_main T env _ _ false (inr (plain bs Ends)) = Some (mkOutcome 0 [] []) /\ @cli_main_in T env _ _ (@stack_limit env) true (inr (plain bs Ends)) = None.
Proof.
  intros Hd Hb. destruct (C71_refuted (T := T) d Hd Hb) as (bs & m & Hl & HB & H). exists bs, m. split; [exact Hl|]. split; [exact HB|]. intros env Hs Ha Hm.
  destruct (H env (@stack_limit env) ltac:(lia) Ha Hm) as (H1 & H2 & _). rewrite <- (C71_silent env (@stack_limit env)). split; [exact H1|]. apply H2. lia.
Qed.

(** the blocks of a sample, on two stacks *)
Example C71_ex : let t := @d_module sample_texts (module_in control_instructions) in
  height t = 11 /\ pretty_in 10 t = None /\ pretty_in 11 t = Some (@debug_module sample_texts (module_in control_instructions)).
Proof. intros t. split; [vm_compute; reflexivity|]. split; vm_compute; reflexivity. Qed.
(** an error, in a name that is not UTF-8 *)
Example C71_error_ex : let e := DM_DecodeCustomSection (Cust_DecodeName (Name_Utf8 [xff])) in
  height (@d_DecodeModuleError (located_texts sample_texts) e) = 7 /\ fst (@decode_module roomy _ _ (magic ++ version1 ++ [x00; x02; x01; xff])%list) = Err e.
Proof. split; vm_compute; reflexivity. Qed.
