(** How long the verbose output is (C72).
    [text_rows], [locals_of]: Spec/Length.v; [lines], [page]: Spec/Outline.v. *)
From Verif Require Import Model.Prelude Model.Io Model.Ast Model.Errors Model.Display Model.Module Model.Debug Model.DebugError Model.Cli Model.Stack Model.Utf8.
From Verif Require Import Spec.Lang Spec.Types Spec.Instr Spec.Module Spec.Streams Spec.Layout Spec.Diagnosis Spec.Utf8 Spec.Resources Spec.Cli Spec.Debug Spec.Shown Spec.Outline Spec.Stack Spec.Length.
From Verif Require Import Proofs.Machine Proofs.Final Proofs.Modules Proofs.Encode Proofs.Outline Proofs.Shown Proofs.Stack Proofs.Length Proofs.ErrorLength.
From Verif Require Import Properties.Samples Properties.Modules Properties.Diagnosis Properties.Resources Properties.Debug Properties.Outline Properties.Utf8 Properties.Stack.
From Coq Require Import Lia ZifyN ZifyNat ZifyBool String.
Local Open Scope string_scope.
Local Open Scope nat_scope.

(** at most eight lines for each byte of the file, and eight for each local *)
Theorem C72_rows {T : Texts} m bs : readable T -> Bmodule m bs -> text_rows (debug_module m) <= 8 * (List.length bs + locals_of m).
Proof. intros HT H. rewrite (module_text_rows T m HT). apply module_rows. exact H. Qed.
Theorem C72_decoded {T : Texts} env (evs : list event) m : readable T -> fst (@decode_module env _ _ evs) = Ok m ->
  text_rows (debug_module m) <= 8 * (List.length (fst (content evs)) + locals_of m).
Proof. intros HT HD. destruct (C01_sound _ _ _ HD) as (bs & e & -> & _ & HB). exact (C72_rows m bs HT HB). Qed.
(** what is printed between --verbose and the end of a successful run *)
Theorem C72_cli {T : Texts} env (evs : list event) m : readable T -> fst (@decode_module env _ _ evs) = Ok m ->
  exists text, @cli_main T env _ _ true (inr evs) = Some (mkOutcome 0 [text] []) /\ 3 * locals_of m <= text_rows text <= 8 * (List.length (fst (content evs)) + locals_of m).
Proof.
  intros HT HD. exists (debug_module m). split; [unfold cli_main; rewrite HD; reflexivity|]. split; [|exact (C72_decoded env evs m HT HD)].
  rewrite (module_text_rows T m HT). apply locals_tall.
Qed.
(** the locals have to be counted: a file of 32 bytes is printed on as many
    lines as it likes *)
Theorem C72_locals {T : Texts} (n : N) : readable T -> (n < 2 ^ 32)%N -> exists bs m, List.length bs <= 32 /\ Bmodule m bs /\ (3 * n <= N.of_nat (text_rows (debug_module m)))%N /\
  forall env, sufficient env (List.length bs) -> fst (@decode_module env _ _ bs) = Ok m.
Proof.
  intros HT Hn. destruct (C38_refuted n Hn) as (bs & m & f & Hl & HB & Hf & HL & HD). exists bs, m. split; [exact Hl|]. split; [exact HB|]. split; [|exact HD].
  rewrite (module_text_rows T m HT). pose proof (locals_tall (T := T) m) as H. unfold locals_of in H. rewrite Hf in H. cbn [fold_right] in H. lia.
Qed.

(** of an error, no more is printed than a line for each byte of the file and a
    constant: only a name that is not UTF-8 is shown, and it is in the file *)
Lemma text_rows_pos s : 1 <= text_rows s.
Proof. induction s as [|c s IH]; [apply le_n|]. cbn [text_rows]. destruct (Ascii.eqb _ _); lia. Qed.
Theorem C72_error {T : Texts} env h (evs : list event) e : readable T -> rows_of_std T h -> fst (@decode_module env _ _ evs) = Err e ->
  text_rows (debug_error e) <= 33 + h + List.length (fst (content evs)).
Proof.
  intros HT [H1 H2] He. destruct (content evs) as [bs stop] eqn:Ec. pose proof (C50_sound env evs bs stop e Ec He) as D. cbn [fst].
  rewrite (error_text_rows T e HT). apply er_Module.
  - exact (Nat.le_trans _ _ _ (text_rows_pos _) (H1 UnexpectedEof)).
  - intros k. rewrite <- (tree_text_rows _ (io_shape T HT k)). apply H1.
  - intros b. rewrite <- (tree_text_rows _ (utf8_shape T HT b)). apply H2.
  - exact (error_brief bs stop e D).
  - intros b ->. exact (error_preamble bs stop b D).
Qed.
(** without a name in it, a constant *)
Theorem C72_error_constant {T : Texts} env h (evs : list event) e : readable T -> rows_of_std T h -> fst (@decode_module env _ _ evs) = Err e ->
  (forall bytes, ~ carries (n_module e) bytes) -> text_rows (debug_error e) <= 33 + h.
Proof.
  intros HT [H1 H2] He Hn. destruct (content evs) as [bs stop] eqn:Ec. pose proof (C50_sound env evs bs stop e Ec He) as D.
  rewrite (error_text_rows T e HT). replace (33 + h) with (33 + h + 0) by lia. apply er_Module.
  - exact (Nat.le_trans _ _ _ (text_rows_pos _) (H1 UnexpectedEof)).
  - intros k. rewrite <- (tree_text_rows _ (io_shape T HT k)). apply H1.
  - intros b. rewrite <- (tree_text_rows _ (utf8_shape T HT b)). apply H2.
  - intros b Hb. destruct (Hn b Hb).
  - intros b ->. exact (error_preamble bs stop b D).
Qed.
(** for std's Utf8Error, six lines are enough *)
Theorem C72_utf8 T h : readable T -> 6 <= h -> (forall e, text_rows (pretty (debug_io e)) <= h) -> rows_of_std (located_texts T) h.
Proof.
  intros HT Hh H. split; [exact H|]. intros bs. rewrite tree_text_rows.
  - cbn [located_texts debug_utf8_error]. unfold utf8_debug. destruct (utf8_error 0 bs) as [[v [n|]]|]; cbn; lia.
  - exact (utf8_shape _ (C70_readable T HT) bs).
Qed.

(** no line is further to the right than the nesting of instructions takes it *)
Theorem C72_indent {T : Texts} d m : readable T -> 1 <= d -> shallow d m ->
  exists ls, debug_module m = page ls /\ forall l, In l ls -> fst l < Nat.max 13 (3 * d + 9).
Proof.
  intros HT Hd Hs. eexists. split; [exact (C63_module T m HT)|]. intros l Hi. rewrite <- s_Module in Hi.
  pose proof (lines_low (d_module m) 0 "" "") as H. rewrite Forall_forall in H. specialize (H l Hi). pose proof (module_height (T := T) d m Hd Hs). change (S (fst l) <= height (d_module m)) in H. lia.
Qed.

(** the indentation of nested blocks *)
Lemma weigh_nested {T : Texts} d : forall k, 5 * d * d + 5 * k * d <= weigh k (d_list d_instr (nested d)) + d.
Proof.
  induction d as [|d IH]; intros k; [lia|]. specialize (IH (S (S k))). cbn [nested].
  change (d_list d_instr [I_Block BT_Empty (nested d)]) with (DList [DTuple "Block" [DAtom "Empty"; d_list d_instr (nested d)]]).
  remember (d_list d_instr (nested d)) as x. cbn [weigh fold_right]. nia.
Qed.
Lemma weigh_body {T : Texts} m f : In f (funcs m) -> weigh 3 (d_expr (f_body f)) <= weigh 0 (d_module m).
Proof.
  intros Hf. assert (H1 : weigh 3 (d_expr (f_body f)) <= weigh 2 (d_func f)).
  { unfold d_func. remember (d_expr (f_body f)) as x. remember (d_list d_valtype (f_locals f)) as y. cbn [weigh fold_right snd]. lia. }
  assert (H2 : weigh 2 (d_func f) <= weigh 1 (d_list d_func (funcs m))).
  { unfold d_list. pose proof (weigh_in (weigh 2) (map d_func (funcs m)) (d_func f) (in_map d_func _ _ Hf)) as H. destruct (map d_func (funcs m)) as [|x l] eqn:E; [cbn in H|cbn [weigh]; lia].
    destruct (funcs m); [destruct Hf|discriminate E]. }
  refine (Nat.le_trans _ _ _ H1 (Nat.le_trans _ _ _ H2 _)). unfold d_module.
  match goal with |- weigh 1 ?x <= weigh 0 (DStruct ?nm ?fs) => change (weigh 0 (DStruct nm fs)) with (0 + (0 + fold_right (fun nf n => weigh 1 (snd nf) + n) 0 fs)); pose proof (weigh_in (fun nf => weigh 1 (snd nf)) fs ("funcs", x)) as H end.
  cbn [snd] in H. apply H. cbn [In]. tauto.
Qed.

(** the bytes are quadratic: a file of [3 * d + 26] bytes, of which [20 * d * d]
    spaces are printed *)
Theorem C72_quadratic {T : Texts} d : readable T -> (N.of_nat d < 2 ^ 30)%N ->
  exists bs m, List.length bs <= 3 * d + 26 /\ Bmodule m bs /\ locals_of m = 0 /\ 20 * d * d <= String.length (debug_module m) /\
    forall env, d < @stack_limit env -> (N.of_nat (List.length bs) <= @alloc_limit env)%N -> (2 ^ 32 - 1 <= @alloc_limit env)%N ->
      @cli_main T env _ _ true (inr (plain bs Ends)) = Some (mkOutcome 0 [debug_module m] []).
Proof.
  intros HT Hb. destruct (u32_byte 0) as (c0 & Hc0 & HC0); [reflexivity|].
  destruct (one_function_exprs [] (nested d) ([c0] ++ nested_bytes d ++ [x0b])%list) as (m & w & HB & Hf & He & Hw).
  - apply (Bfunc_intro []); [apply (Blist_intro _ [] [c0] []); [exact HC0|constructor]|constructor; apply nested_instrs|reflexivity].
  - rewrite !app_length, nested_length. cbn [List.length]. change (2 ^ 32)%N with (4 * 2 ^ 30)%N. lia.
  - assert (HN : forall k i, In i (nested k) -> ~ mentions_data i).
    { intros k. induction k as [|k IH]; intros i Hi; [destruct Hi|]. destruct Hi as [<-|[]]. intros HM. inversion HM; subst. eapply IH; eassumption. }
    exact (HN d).
  - exists w, m. rewrite !app_length, nested_length in Hw. cbn [List.length] in Hw. split; [lia|]. split; [exact HB|].
    split; [unfold locals_of; rewrite Hf; reflexivity|]. split.
    + pose proof (module_indent T m HT) as H1. pose proof (weigh_body (T := T) m (mkFunc 0%N [] (nested d))) as H2. rewrite Hf in H2. specialize (H2 (or_introl eq_refl)). cbn [f_body] in H2.
      pose proof (weigh_nested (T := T) d 3) as H3. unfold d_expr in H2. lia.
    + intros env Hs Ha Hl. assert (HS : shallow (S d) m).
      { intros e i Hie Hi. rewrite He in Hie. destruct Hie as [<-|[]]. pose proof (deep_in i _ Hi) as H. unfold deep in H. rewrite deep_nested in H. lia. }
      assert (Hc : content (plain w Ends) = (w, Ends)) by (apply content_plain; discriminate).
      assert (HD : fst (@decode_module env _ _ (plain w Ends)) = Ok m).
      { apply (C37_exact env _ w m Hc HB Ha Hl ltac:(lia)). intros e i Hie Hi. specialize (HS e i Hie Hi). lia. }
      unfold cli_main. rewrite HD. reflexivity.
Qed.

(** a file, its locals and the lines it is printed on *)
Example C72_ex : readable sample_texts /\ Bmodule (module_in control_instructions) control_instructions /\
  text_rows (@debug_module sample_texts (module_in control_instructions)) = 302 /\ locals_of (module_in control_instructions) = 0 /\ List.length control_instructions = 154.
Proof. split; [exact sample_readable|]. split; [apply (C01_sound_slice roomy); vm_compute; reflexivity|]. split; [|split]; vm_compute; reflexivity. Qed.
(** a name of four bytes, of which the third is wrong *)
Example C72_error_ex : let e := DM_DecodeCustomSection (Cust_DecodeName (Name_Utf8 [x41; x42; xff; x43])) in
  fst (@decode_module roomy _ _ (magic ++ version1 ++ [x00; x05; x04; x41; x42; xff; x43])%list) = Err e /\
  text_rows (@debug_error (located_texts sample_texts) e) = 20.
Proof. split; vm_compute; reflexivity. Qed.

Print Assumptions C72_rows.
Print Assumptions C72_decoded.
Print Assumptions C72_cli.
Print Assumptions C72_locals.
Print Assumptions C72_indent.
Print Assumptions C72_quadratic.
Print Assumptions C72_error.
Print Assumptions C72_error_constant.
Print Assumptions C72_utf8.
