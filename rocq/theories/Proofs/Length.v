(** The rows of the verbose output are linear in the length of the file. *)
From Verif Require Import Model.Prelude Model.Ast Model.Display Model.Debug.
From Verif Require Import Spec.Lang Spec.Types Spec.Instr Spec.Module Spec.Resources Spec.Debug Spec.Outline Spec.Stack Spec.Length.
From Verif Require Import Proofs.Sizes Proofs.Pretty Proofs.Debug Proofs.Outline.
From Coq Require Import Lia String.
Local Open Scope string_scope.
Local Open Scope nat_scope.

(** how many lines, by recursion *)
Fixpoint tall (t : dtree) : nat :=
  match t with
  | DAtom _ => 1
  | DTuple _ [] | DStruct _ [] | DList [] => 1
  | DTuple _ fs => S (S (fold_right (fun f n => tall f + n) 0 fs))
  | DStruct _ fs => S (S (fold_right (fun nf n => tall (snd nf) + n) 0 fs))
  | DList es => S (S (fold_right (fun e n => tall e + n) 0 es))
  | DPath _ t => tall t
  end.
Lemma length_flat {A B} (F : A -> list B) w l : Forall (fun a => List.length (F a) = w a) l -> List.length (flat_map F l) = fold_right (fun a n => w a + n) 0 l.
Proof. induction 1 as [|a l H _ IH]; [reflexivity|]. cbn [flat_map fold_right]. rewrite app_length, H, IH. reflexivity. Qed.
Lemma tall_lines t : forall k b a, List.length (lines k b t a) = tall t.
Proof.
  induction t as [s|n fs IH|n fs IH|es IH|n t IH] using dtree_ind'; intros k b a; [reflexivity| | | |apply IH].
  - destruct fs as [|f fs]; [reflexivity|]. cbn [lines tall List.length]. rewrite app_length, (length_flat _ tall); [cbn [List.length]; lia|]. eapply Forall_impl; [|exact IH]. intros y H; apply H.
  - destruct fs as [|f fs]; [reflexivity|]. cbn [lines tall List.length]. rewrite app_length, (length_flat _ (fun nf => tall (snd nf))); [cbn [List.length]; lia|]. eapply Forall_impl; [|exact IH]. intros y H; apply H.
  - destruct es as [|f fs]; [reflexivity|]. cbn [lines tall List.length]. rewrite app_length, (length_flat _ tall); [cbn [List.length]; lia|]. eapply Forall_impl; [|exact IH]. intros y H; apply H.
Qed.

(** ** the text and its lines *)
Lemma rows_app a b : S (text_rows (a ++ b)) = text_rows a + text_rows b.
Proof. induction a as [|c a IH]; [reflexivity|]. cbn [append text_rows]. destruct (Ascii.eqb c _); lia. Qed.
Lemma rows_line s : one_line s -> text_rows s = 1.
Proof.
  unfold one_line. induction s as [|c s IH]; [reflexivity|]. cbn [list_ascii_of_string text_rows]. intros H. destruct (Ascii.eqb_spec c (Ascii.ascii_of_nat 10)) as [->|_]; [exfalso; apply H; left; reflexivity|].
  apply IH. intros Hi. apply H. right. exact Hi.
Qed.
Lemma spaces_line n : one_line (spaces n).
Proof. induction n as [|n IH]; unfold one_line in *; cbn; [intros []|]. intros [E|E]; [discriminate E|exact (IH E)]. Qed.
Lemma page_rows ls : ls <> [] -> Forall (fun l => one_line (snd l)) ls -> text_rows (page ls) = List.length ls.
Proof.
  intros Hn H. induction H as [|l ls Hl H IH]; [contradiction|]. assert (H1 : text_rows (spaces (4 * fst l) ++ snd l)%string = 1) by (apply rows_line, one_line_app; [apply spaces_line|exact Hl]).
  destruct ls as [|l' ls]; [exact H1|]. unfold page in *. cbn [map String.concat List.length] in *. specialize (IH ltac:(discriminate)).
  pose proof (rows_app (spaces (4 * fst l) ++ snd l)%string (line_feed ++ String.concat line_feed (map (fun l => spaces (4 * fst l) ++ snd l)%string (l' :: ls)))%string) as E1.
  pose proof (rows_app line_feed (String.concat line_feed (map (fun l => spaces (4 * fst l) ++ snd l)%string (l' :: ls)))) as E2. cbn [map String.concat] in E1, E2. change (text_rows line_feed) with 2 in E2. lia.
Qed.
Lemma atom_line s : atom s -> one_line s.
Proof. intros [H|[H| ->]]; [apply token_line; exact H|apply literal_line; exact H|no_newline]. Qed.
Lemma lines_one p t : wf p t -> forall k b a, one_line b -> one_line a -> Forall (fun l => one_line (snd l)) (lines k b t a).
Proof.
  assert (Hc : one_line ",") by no_newline. assert (He : one_line "") by no_newline.
  induction t as [s|n fs IH|n fs IH|es IH|n t IH] using dtree_ind'; intros Hw k b a Hb Ha.
  - constructor; [|constructor]. cbn [snd]. repeat apply one_line_app; try assumption. apply atom_line. exact Hw.
  - apply wf_tuple in Hw as (Ht%token_line & Hn & Hf). destruct fs as [|f fs]; [contradiction|]. rewrite lines_tuple. constructor; [cbn [snd]; repeat apply one_line_app; try assumption; no_newline|].
    apply Forall_app. split; [|constructor; [cbn [snd]; apply one_line_app; [no_newline|exact Ha]|constructor]].
    apply Forall_flat_map. rewrite Forall_forall in IH, Hf |- *. intros y Hy. apply (IH y Hy (Hf y Hy)); assumption.
  - apply wf_struct in Hw as (Ht%token_line & Hn & Hf). destruct fs as [|f fs]; [contradiction|]. rewrite lines_struct. constructor; [cbn [snd]; repeat apply one_line_app; try assumption; no_newline|].
    apply Forall_app. split; [|constructor; [cbn [snd]; apply one_line_app; [no_newline|exact Ha]|constructor]].
    apply Forall_flat_map. rewrite Forall_forall in IH, Hf |- *. intros y Hy. destruct (Hf y Hy) as [Hy1 Hy2]. apply (IH y Hy Hy2); [apply one_line_app; [apply token_line; exact Hy1|no_newline]|assumption].
  - apply wf_list in Hw. destruct es as [|f fs]; [constructor; [|constructor]; cbn [snd]; repeat apply one_line_app; try assumption; no_newline|].
    rewrite lines_list. constructor; [cbn [snd]; repeat apply one_line_app; try assumption; no_newline|].
    apply Forall_app. split; [|constructor; [cbn [snd]; apply one_line_app; [no_newline|exact Ha]|constructor]].
    apply Forall_flat_map. rewrite Forall_forall in IH, Hw |- *. intros y Hy. apply (IH y Hy (Hw y Hy)); assumption.
  - destruct Hw as (_ & Ht & Hw). apply (IH Hw); [|exact Ha]. repeat apply one_line_app; [exact Hb|apply token_line; exact Ht|no_newline].
Qed.
Lemma module_text_rows (T : Texts) m : readable T -> text_rows (debug_module m) = tall (d_module m).
Proof.
  intros HT. pose proof (module_wf (p := true) HT m) as Hw. unfold debug_module. rewrite (pretty_page true _ Hw), page_rows; [apply tall_lines|apply lines_some|].
  apply (lines_one true _ Hw); no_newline.
Qed.
(** levels: below the height *)
Lemma lines_low t : forall k b a, Forall (fun l => S (fst l) <= k + height t) (lines k b t a).
Proof.
  assert (HL : forall {A} (F : A -> list (nat * string)) (w : A -> nat) k l, Forall (fun y => Forall (fun l => S (fst l) <= S k + w y) (F y)) l ->
    Forall (fun l' : nat * string => S (fst l') <= k + S (fold_right (fun y n => Nat.max (w y) n) 0 l)) (flat_map F l)).
  { intros A F w k l H. apply Forall_flat_map. induction H as [|y l H _ IH]; constructor; cbn [fold_right].
    - eapply Forall_impl; [|exact H]. intros x Hx. cbn beta in *. lia.
    - eapply Forall_impl; [|exact IH]. intros y' Hy'. eapply Forall_impl; [|exact Hy']. intros x Hx. cbn beta in *. lia. }
  induction t as [s|n fs IH|n fs IH|es IH|n t IH] using dtree_ind'; intros k b a.
  - constructor; [cbn; lia|constructor].
  - destruct fs as [|f fs]; [constructor; [cbn; lia|constructor]|]. rewrite lines_tuple. constructor; [cbn; lia|]. apply Forall_app. split; [|constructor; [cbn; lia|constructor]].
    apply (HL _ _ height). eapply Forall_impl; [|exact IH]. intros y H. apply H.
  - destruct fs as [|f fs]; [constructor; [cbn; lia|constructor]|]. rewrite lines_struct. constructor; [cbn; lia|]. apply Forall_app. split; [|constructor; [cbn; lia|constructor]].
    apply (HL _ _ (fun nf => height (snd nf))). eapply Forall_impl; [|exact IH]. intros y H. apply H.
  - destruct es as [|f fs]; [constructor; [cbn; lia|constructor]|]. rewrite lines_list. constructor; [cbn; lia|]. apply Forall_app. split; [|constructor; [cbn; lia|constructor]].
    apply (HL _ _ height). eapply Forall_impl; [|exact IH]. intros y H. apply H.
  - eapply Forall_impl; [|apply IH]. intros x Hx. cbn [height]. cbn beta in *. lia.
Qed.

(** ** indentation *)
Fixpoint weigh (k : nat) (t : dtree) : nat :=
  match t with
  | DAtom _ => k
  | DTuple _ [] | DStruct _ [] | DList [] => k
  | DTuple _ fs => k + (k + fold_right (fun f n => weigh (S k) f + n) 0 fs)
  | DStruct _ fs => k + (k + fold_right (fun nf n => weigh (S k) (snd nf) + n) 0 fs)
  | DList es => k + (k + fold_right (fun e n => weigh (S k) e + n) 0 es)
  | DPath _ t => weigh k t
  end.
Definition levels (ls : list (nat * string)) : nat := sum fst ls.
Lemma levels_flat {A} (F : A -> list (nat * string)) w l : Forall (fun a => levels (F a) = w a) l -> levels (flat_map F l) = fold_right (fun a n => w a + n) 0 l.
Proof. unfold levels. induction 1 as [|a l H _ IH]; [reflexivity|]. cbn [flat_map fold_right]. rewrite sum_app, H, IH. reflexivity. Qed.
Lemma weigh_lines t : forall k b a, levels (lines k b t a) = weigh k t.
Proof.
  assert (H1 : forall (x : nat * string) l, levels (x :: l) = fst x + levels l) by reflexivity.
  assert (H2 : forall l l', levels (l ++ l') = levels l + levels l') by (intros; apply sum_app). assert (H0 : levels [] = 0) by reflexivity.
  induction t as [s|n fs IH|n fs IH|es IH|n t IH] using dtree_ind'; intros k b a; [apply Nat.add_0_r| | | |apply IH].
  - destruct fs as [|f fs]; [apply Nat.add_0_r|]. rewrite lines_tuple, H1, H2, H1, H0, (levels_flat _ (weigh (S k))); [cbn [fst weigh]; lia|]. eapply Forall_impl; [|exact IH]. intros y H; apply H.
  - destruct fs as [|f fs]; [apply Nat.add_0_r|]. rewrite lines_struct, H1, H2, H1, H0, (levels_flat _ (fun nf => weigh (S k) (snd nf))); [cbn [fst weigh]; lia|]. eapply Forall_impl; [|exact IH]. intros y H; apply H.
  - destruct es as [|f fs]; [apply Nat.add_0_r|]. rewrite lines_list, H1, H2, H1, H0, (levels_flat _ (weigh (S k))); [cbn [fst weigh]; lia|]. eapply Forall_impl; [|exact IH]. intros y H; apply H.
Qed.
Lemma slength_app a b : String.length (a ++ b)%string = String.length a + String.length b.
Proof. induction a as [|c a IH]; [reflexivity|]. cbn. rewrite IH. reflexivity. Qed.
Lemma spaces_length n : String.length (spaces n) = n.
Proof. induction n as [|n IH]; [reflexivity|]. cbn. rewrite IH. reflexivity. Qed.
Lemma page_length ls : 4 * levels ls <= String.length (page ls).
Proof.
  induction ls as [|l ls IH]; [apply Nat.le_0_l|]. unfold levels in *. rewrite sum_cons. unfold page in *. destruct ls as [|l' ls].
  - cbn [map String.concat]. rewrite slength_app, spaces_length. cbn. lia.
  - cbn [map String.concat] in *. rewrite !slength_app, spaces_length. lia.
Qed.
Lemma module_indent (T : Texts) m : readable T -> 4 * weigh 0 (d_module m) <= String.length (debug_module m).
Proof. intros HT. unfold debug_module. rewrite (pretty_page true _ (module_wf (p := true) HT m)), <- (weigh_lines _ 0 "" ""). apply page_length. Qed.
Lemma weigh_in {A} (w : A -> nat) l a : In a l -> w a <= fold_right (fun f n => w f + n) 0 l.
Proof. induction l as [|b l IH]; [intros []|]. intros [->|H]; cbn [fold_right]; [lia|specialize (IH H); lia]. Qed.

Definition items {A} (d : A -> dtree) (l : list A) : nat := sum (fun a => tall (d a)) l.
Lemma tall_list {A} (d : A -> dtree) l : tall (d_list d l) <= 2 + items d l.
Proof.
  unfold d_list, items. destruct l as [|a l]; [cbn; lia|]. cbn [tall map fold_right]. unfold sum. cbn [fold_right].
  enough (H : fold_right (fun e n => tall e + n) 0 (map d l) = fold_right (fun x n => tall (d x) + n) 0 l) by (rewrite H; lia).
  induction l as [|b l IH]; [reflexivity|]. cbn [map fold_right]. rewrite IH. reflexivity.
Qed.
Lemma items_const {A} (d : A -> dtree) k l : (forall a, tall (d a) <= k) -> items d l <= k * List.length l.
Proof. intros H. unfold items, sum. induction l as [|a l IH]; [cbn; lia|]. cbn [fold_right List.length]. specialize (H a). lia. Qed.
Definition Rows {A} (d : A -> dtree) (G : lang A) : Prop := Lin (fun a => tall (d a)) 8 G.
Lemma rows_list {A} (d : A -> dtree) G : Rows d G -> forall a bs, Blist G a bs -> 8 + items d a <= 8 * List.length bs.
Proof. intros H a bs HG. exact (lin_list _ 8 G H a bs HG). Qed.

(** ** types *)
Ltac down := cbn [tall fold_right fst snd map d_list d_idx d_N d_Z d_numtype d_vectype d_absheaptype d_bool d_mut d_packtype d_addrtype d_lane d_byte d_kind d_header d_heaptype d_valtype d_storagetype d_tagtype d_externtype d_blocktype d_catch d_datamode d_elemmode d_externidx].
Lemma ht_rows t : tall (d_heaptype t) = 3. Proof. destruct t; reflexivity. Qed.
Lemma rt_rows t : tall (d_reftype t) = 6. Proof. unfold d_reftype. pose proof (ht_rows (ht t)). remember (d_heaptype (ht t)) as x. down. lia. Qed.
Lemma vt_most t : tall (d_valtype t) <= 8. Proof. destruct t as [t|t|t]; cbn [d_valtype]; [| |pose proof (rt_rows t); remember (d_reftype t) as x]; down; lia. Qed.
Lemma vt_rows : Rows d_valtype Bvaltype.
Proof. intros t bs H. pose proof (vt_most t). apply one_val in H. unfold one in H. lia. Qed.
Lemma idx_rows s : Rows (d_idx s) Bidx.
Proof. intros x bs H. apply u_nonempty in H. down. lia. Qed.
Lemma vts_rows a bs : Blist Bvaltype a bs -> tall (d_list d_valtype a) + 6 <= 8 * List.length bs.
Proof. intros H. apply (rows_list _ _ vt_rows) in H. pose proof (tall_list d_valtype a). lia. Qed.
Lemma ft_rows a bs : Bfieldtype a bs -> tall (d_fieldtype a) + 3 <= 8 * List.length bs.
Proof.
  intros H. destruct H as [st m b1 b2 H1 H2]. apply len_mut in H2. rewrite app_length. unfold d_fieldtype. cbn [ft_mut ft_type].
  assert (H : tall (d_storagetype st) <= 2 + 8 * List.length b1).
  { destruct H1 as [t bs H|t bs H]; cbn [d_storagetype]; [apply vt_rows in H; remember (d_valtype t) as x; down; lia|destruct H; cbn [List.length]; down; lia]. }
  remember (d_storagetype st) as x. down. lia.
Qed.
Lemma ct_rows a bs : Bcomptype a bs -> tall (d_comptype a) + 9 <= 8 * List.length bs.
Proof.
  intros H. destruct H as [ft bs H|fts bs H|t1 t2 b1 b2 H1 H2]; cbn [d_comptype List.length].
  - apply ft_rows in H. remember (d_fieldtype ft) as x. down. lia.
  - assert (HR : Rows d_fieldtype Bfieldtype) by (intros f b Hf; apply ft_rows in Hf; lia). apply (rows_list _ _ HR) in H. pose proof (tall_list d_fieldtype fts). remember (d_list d_fieldtype fts) as x. cbn [tall fold_right]. lia.
  - apply vts_rows in H1. apply vts_rows in H2. rewrite app_length. remember (d_list d_valtype t1) as x. remember (d_list d_valtype t2) as y. cbn [tall fold_right snd]. lia.
Qed.
Lemma supers a bs : Blist Bidx a bs -> tall (d_list (d_idx "TypeIdx") a) + 6 <= 8 * List.length bs.
Proof. intros H. apply (rows_list _ _ (idx_rows "TypeIdx")) in H. pose proof (tall_list (d_idx "TypeIdx") a). lia. Qed.
Lemma sub_rows a bs : Bsubtype a bs -> tall (d_subtype a) + 5 <= 8 * List.length bs.
Proof.
  intros H. unfold d_subtype. destruct H as [xs ct b1 b2 H1 H2|xs ct b1 b2 H1 H2|ct bs H2]; apply ct_rows in H2; cbn [is_final supertypes comptype List.length]; remember (d_comptype ct) as x.
  - apply supers in H1. rewrite app_length. remember (d_list (d_idx "TypeIdx") xs) as y. cbn [tall fold_right snd d_bool]. lia.
  - apply supers in H1. rewrite app_length. remember (d_list (d_idx "TypeIdx") xs) as y. cbn [tall fold_right snd d_bool]. lia.
  - down. lia.
Qed.
Lemma rec_rows : Rows d_rectype Brectype.
Proof.
  intros a bs H. unfold d_rectype. destruct H as [sts bs H|st bs H].
  - assert (HR : Rows d_subtype Bsubtype) by (intros f b Hf; apply sub_rows in Hf; lia). apply (rows_list _ _ HR) in H. pose proof (tall_list d_subtype sts). remember (d_list d_subtype sts) as x. cbn [tall fold_right List.length]. lia.
  - apply sub_rows in H. change (d_list d_subtype [st]) with (DList [d_subtype st]). remember (d_subtype st) as x. cbn [tall fold_right]. lia.
Qed.
Lemma limits_rows l : tall (d_limits l) <= 7.
Proof. unfold d_limits. destruct (lim_max l); cbn [d_option]; down; lia. Qed.
Lemma mt_rows : Rows d_memtype Bmemtype.
Proof. intros a bs H. destruct H as [l bs H]. apply len_limits in H. pose proof (limits_rows l). unfold d_memtype. cbn [mt_limits]. remember (d_limits l) as x. down. lia. Qed.
Lemma tt_rows a bs : Btabletype a bs -> tall (d_tabletype a) <= 15 /\ 3 <= List.length bs.
Proof.
  intros H. destruct H as [t l b1 b2 H1 H2]. apply len_limits in H2. apply one_ref in H1. unfold one in H1. rewrite app_length. pose proof (limits_rows l). pose proof (rt_rows t).
  unfold d_tabletype. cbn [tt_reftype tt_limits]. remember (d_limits l) as x. remember (d_reftype t) as y. down. lia.
Qed.
Lemma tag_rows : Rows d_tagtype Btagtype.
Proof. intros a bs H. destruct H as [x bs H]. apply u_nonempty in H. cbn [List.length]. down. lia. Qed.
Lemma gt_rows a bs : Bglobaltype a bs -> tall (d_globaltype a) + 5 <= 8 * List.length bs.
Proof.
  intros H. destruct H as [t m b1 b2 H1 H2]. apply len_mut in H2. apply vt_rows in H1. rewrite app_length. unfold d_globaltype. cbn [gt_mut gt_type]. remember (d_valtype t) as x. down. lia.
Qed.
Lemma ext_rows : Rows d_externtype Bexterntype.
Proof.
  intros a bs H. destruct H as [x bs H|t bs H|t bs H|t bs H|t bs H]; cbn [d_externtype List.length].
  - apply u_nonempty in H. down. lia.
  - apply tt_rows in H. remember (d_tabletype t) as y. down. lia.
  - apply mt_rows in H. remember (d_memtype t) as y. down. lia.
  - apply gt_rows in H. remember (d_globaltype t) as y. down. lia.
  - apply tag_rows in H. remember (d_tagtype t) as y. cbn [tall fold_right]. lia.
Qed.

(** ** instructions *)
Lemma bt_rows a bs : Bblocktype a bs -> tall (d_blocktype a) <= 2 + 8 * List.length bs.
Proof. intros H. destruct H as [|t bs H|x bs H]; cbn [d_blocktype]; [down; lia|apply vt_rows in H; remember (d_valtype t) as y; down; lia|apply s_nonempty in H; down; lia]. Qed.
Lemma catch_rows : Rows d_catch Bcatch.
Proof. intros a bs H. destruct H; down; cbn [List.length]; lia. Qed.
Lemma len_memarg a bs : Bmemarg a bs -> 2 <= List.length bs.
Proof. intros H. destruct H as [n m b1 b2 H1 _ H2|n x m b1 b2 b3 H1 _ _ H2]; apply u_nonempty in H1; apply u_nonempty in H2; rewrite ?app_length; lia. Qed.

Section Instrs.
  Context {T : Texts}.
  (** one opcode's immediates, after [k] rows' worth of opcode *)
  Definition slim (k : nat) (X : lang instr) : Prop := forall i bs, X i bs -> tall (d_instr i) <= k + 8 * List.length bs.
  Lemma slim0 k i : tall (d_instr i) <= k -> slim k (imm0 i).
  Proof. intros H i' bs [-> ->]. lia. Qed.
  Lemma slim1 {A} k (f : A -> instr) X : (forall a, tall (d_instr (f a)) <= k) -> slim k (imm1 f X).
  Proof. intros H i bs HX. destruct HX as [a bs HX]. specialize (H a). lia. Qed.
  Lemma slim2 {A B} k (f : A -> B -> instr) X Y : (forall a b, tall (d_instr (f a b)) <= k) -> slim k (imm2 f X Y).
  Proof. intros H i bs HX. destruct HX as [a b b1 b2 HX _]. specialize (H a b). lia. Qed.
  Lemma slim_memarg k (f : Memarg -> instr) : (forall a, tall (d_instr (f a)) <= k + 16) -> slim k (imm1 f Bmemarg).
  Proof. intros H i bs HX. destruct HX as [a bs HX]. apply len_memarg in HX. specialize (H a). lia. Qed.
  Lemma slim_cast k f : (forall a b c, tall (d_instr (f a b c)) <= k + 8) -> slim k (Bbr_on_cast f).
  Proof. intros H i bs HX. destruct HX as [n1 n2 l h1 h2 b1 b2 b3 b4 _ HX _ _]. apply u_nonempty in HX. specialize (H l (mkRefType n1 h1) (mkRefType n2 h2)). rewrite ?app_length. lia. Qed.
  Lemma slim_br_table : slim 8 (imm2 I_BrTable (Blist Bidx) Bidx).
  Proof.
    intros i bs HX. destruct HX as [a b b1 b2 H1 H2]. apply (rows_list _ _ (idx_rows "LabelIdx")) in H1. pose proof (tall_list (d_idx "LabelIdx") a). rewrite app_length.
    cbn [d_instr instr_name operands map d_operand d_variant]. remember (d_list (d_idx "LabelIdx") a) as x. down. lia.
  Qed.
  Lemma slim_select : slim 8 (imm1 (fun t => I_Select (Some t)) (Blist Bvaltype)).
  Proof.
    intros i bs HX. destruct HX as [a bs H]. apply vts_rows in H.
    cbn [d_instr instr_name operands map d_operand d_variant d_option]. remember (d_list d_valtype a) as x. down. lia.
  Qed.
  Lemma slim_const : slim 16 (imm1 I_V128Const (Bbytes 16)).
  Proof.
    intros i bs HX. destruct HX as [a bs [-> H]]. pose proof (tall_list d_byte a). pose proof (items_const d_byte 1 a (fun _ => le_n 1)).
    cbn [d_instr instr_name operands map d_operand d_variant]. unfold d_bytes. remember (d_list d_byte a) as x. cbn [tall fold_right]. lia.
  Qed.
  Lemma slim_shuffle : slim 16 (imm1 I_I8x16Shuffle (Bbytes 16)).
  Proof.
    intros i bs HX. destruct HX as [a bs [-> H]]. pose proof (tall_list d_lane a). pose proof (items_const d_lane 3 a (fun _ => le_n 3)).
    cbn [d_instr instr_name operands map d_operand d_variant]. remember (d_list d_lane a) as x. cbn [tall fold_right]. unfold LaneIdx in *. lia.
  Qed.
  Ltac number := apply Nat.leb_le; lazy; reflexivity.
  Lemma null_rows h : tall (d_instr (I_RefNull h)) <= 8. Proof. destruct h; number. Qed.
  Lemma test_rows t : tall (d_instr (I_RefTest t)) <= 16. Proof. destruct t as [n []]; number. Qed.
  Lemma rcast_rows t : tall (d_instr (I_RefCast t)) <= 16. Proof. destruct t as [n []]; number. Qed.
  Lemma on_cast_rows l a b : tall (d_instr (I_BrOnCast l a b)) <= 24. Proof. destruct a as [n []]; destruct b as [n' []]; number. Qed.
  Lemma on_cast_fail_rows l a b : tall (d_instr (I_BrOnCastFail l a b)) <= 24. Proof. destruct a as [n []]; destruct b as [n' []]; number. Qed.
  Ltac slim1 := first
    [ apply slim0; number
    | apply slim_br_table | apply slim_select | apply slim_const | apply slim_shuffle
    | apply slim_memarg; intros; number
    | apply slim1; first [exact null_rows|intros; apply test_rows|intros; apply rcast_rows|intros; number]
    | apply slim2; intros; number
    | apply slim_cast; first [exact on_cast_rows|exact on_cast_fail_rows] ].
  Lemma slim_in k (l : list (N * lang instr)) n X : Forall (fun p => slim k (snd p)) l -> In (n, X) l -> slim k X.
  Proof. intros HF HI. rewrite Forall_forall in HF. exact (HF _ HI). Qed.
  Lemma slim_ops n X : In (n, X) ops -> slim 8 X.
  Proof. apply slim_in. unfold ops. cbn [map run app]. repeat (constructor; [cbn [snd]; slim1|]). constructor. Qed.
  Lemma slim_fb n X : In (n, X) ops_fb -> slim 16 X.
  Proof. apply slim_in. unfold ops_fb. cbn [map run app]. repeat (constructor; [cbn [snd]; slim1|]). constructor. Qed.
  Lemma slim_fc n X : In (n, X) ops_fc -> slim 16 X.
  Proof. apply slim_in. unfold ops_fc. cbn [map run app]. repeat (constructor; [cbn [snd]; slim1|]). constructor. Qed.
  Lemma slim_fd n X : In (n, X) ops_fd -> slim 16 X.
  Proof. apply slim_in. unfold ops_fd. cbn [map run app]. repeat (constructor; [cbn [snd]; slim1|]). constructor. Qed.

  Lemma rows_instrs : (forall i bs, Binstr i bs -> tall (d_instr i) <= 8 * List.length bs) /\ (forall is bs, Binstrs is bs -> items d_instr is <= 8 * List.length bs).
  Proof.
    apply Binstr_Binstrs_ind.
    - intros b X i bs HI HX. apply slim_ops in HI. apply HI in HX. cbn [List.length]. lia.
    - intros n X i b1 b2 Hn HI HX. apply slim_fb in HI. apply HI in HX. apply u_nonempty in Hn. cbn [List.length]. rewrite app_length. lia.
    - intros n X i b1 b2 Hn HI HX. apply slim_fc in HI. apply HI in HX. apply u_nonempty in Hn. cbn [List.length]. rewrite app_length. lia.
    - intros n X i b1 b2 Hn HI HX. apply slim_fd in HI. apply HI in HX. apply u_nonempty in Hn. cbn [List.length]. rewrite app_length. lia.
    - intros bt is b1 b2 Hb _ IH. apply bt_rows in Hb. pose proof (tall_list d_instr is) as HL. unfold d_list in HL. cbn [d_instr]. remember (DList (map d_instr is)) as x. cbn [tall fold_right List.length]. rewrite ?app_length. cbn [List.length]. lia.
    - intros bt is b1 b2 Hb _ IH. apply bt_rows in Hb. pose proof (tall_list d_instr is) as HL. unfold d_list in HL. cbn [d_instr]. remember (DList (map d_instr is)) as x. cbn [tall fold_right List.length]. rewrite ?app_length. cbn [List.length]. lia.
    - intros bt is b1 b2 Hb _ IH. apply bt_rows in Hb. pose proof (tall_list d_instr is) as HL. unfold d_list in HL. cbn [d_instr]. remember (DList (map d_instr is)) as x. cbn [tall fold_right List.length]. rewrite ?app_length. cbn [List.length]. lia.
    - intros bt is1 is2 b1 b2 b3 Hb _ IH1 _ IH2. apply bt_rows in Hb. pose proof (tall_list d_instr is1) as HL1. pose proof (tall_list d_instr is2) as HL2. unfold d_list in HL1, HL2. cbn [d_instr]. remember (DList (map d_instr is1)) as x. remember (DList (map d_instr is2)) as y.
      cbn [tall fold_right List.length]. rewrite ?app_length. cbn [List.length]. rewrite ?app_length. cbn [List.length]. lia.
    - intros bt cs is b1 b2 b3 Hb Hc _ IH. apply bt_rows in Hb. apply (rows_list _ _ catch_rows) in Hc. pose proof (tall_list d_catch cs). pose proof (tall_list d_instr is) as HL. unfold d_list at 1 in HL. cbn [d_instr]. remember (DList (map d_instr is)) as x. remember (d_list d_catch cs) as y.
      cbn [tall fold_right List.length]. rewrite ?app_length. cbn [List.length]. lia.
    - cbn. lia.
    - intros i is b1 b2 _ IH1 _ IH2. unfold items in *. rewrite sum_cons, app_length. lia.
  Qed.
  Lemma expr_rows a bs : Bexpr a bs -> tall (d_expr a) + 6 <= 8 * List.length bs.
  Proof. intros H. destruct H as [is bs H]. apply rows_instrs in H. pose proof (tall_list d_instr is). unfold d_expr. rewrite app_length. cbn [List.length]. lia. Qed.

  (** ** entries *)
  Lemma import_rows : Rows d_import Bimport.
  Proof.
    intros a bs H. destruct H as [n1 n2 d b1 b2 b3 H1 H2 H3]. apply len_name in H1. apply len_name in H2. apply ext_rows in H3. unfold d_import. cbn [im_module im_item im_type]. remember (d_externtype d) as x.
    rewrite ?app_length. cbn [tall fold_right snd d_string]. lia.
  Qed.
  Lemma table_rows : Rows d_table Btable.
  Proof.
    intros a bs H. unfold d_table. destruct H as [t bs H|t e b1 b2 H1 H2]; cbn [t_type t_init].
    - apply tt_rows in H. assert (E : tall (d_expr [I_RefNull (ht (tt_reftype t))]) = 7) by (destruct (ht (tt_reftype t)); reflexivity).
      remember (d_expr [I_RefNull (ht (tt_reftype t))]) as x. remember (d_tabletype t) as y. cbn [tall fold_right]. lia.
    - apply tt_rows in H1. apply expr_rows in H2. remember (d_expr e) as x. remember (d_tabletype t) as y. cbn [tall fold_right List.length]. rewrite app_length. lia.
  Qed.
  Lemma global_rows : Rows d_global Bglobal.
  Proof. intros a bs H. destruct H as [t e b1 b2 H1 H2]. apply gt_rows in H1. apply expr_rows in H2. unfold d_global. cbn [g_type g_init]. remember (d_expr e) as x. remember (d_globaltype t) as y. rewrite app_length. cbn [tall fold_right snd]. lia. Qed.
  Lemma export_rows : Rows d_export Bexport.
  Proof.
    intros a bs H. destruct H as [n d b1 b2 H1 H2]. apply len_name in H1. unfold d_export. cbn [ex_name ex_idx]. rewrite app_length.
    assert (E : tall (d_externidx d) = 5) by (destruct d; reflexivity). remember (d_externidx d) as x. cbn [tall fold_right snd d_string].
    assert (2 <= List.length b2) by (destruct H2 as [x' b H|x' b H|x' b H|x' b H|x' b H]; apply u_nonempty in H; cbn [List.length]; lia). lia.
  Qed.
  Lemma ref_funcs_rows ys : items d_expr (ref_funcs ys) = 7 * List.length ys.
  Proof. unfold items, ref_funcs, sum. induction ys as [|y ys IH]; [reflexivity|]. cbn [map fold_right List.length]. rewrite IH. replace (tall (d_expr [I_RefFunc y])) with 7 by reflexivity. lia. Qed.
  Lemma by_index (ys : list FuncIdx) b : Blist Bidx ys b -> tall (d_list d_expr (ref_funcs ys)) + 6 <= 8 * List.length b.
  Proof. intros H. apply len_list in H; [|apply one_idx]. pose proof (tall_list d_expr (ref_funcs ys)) as HL. rewrite ref_funcs_rows in HL. unfold FuncIdx, u32 in *. lia. Qed.
  Lemma by_expr (es : list Expr) b : Blist Bexpr es b -> tall (d_list d_expr es) + 6 <= 8 * List.length b.
  Proof. intros H. assert (HR : Rows d_expr Bexpr) by (intros f b' Hf; apply expr_rows in Hf; lia). apply (rows_list _ _ HR) in H. pose proof (tall_list d_expr es). lia. Qed.
  Lemma len_kind a bs : Belemkind a bs -> List.length bs = 1. Proof. intros H; destruct H; reflexivity. Qed.
  Lemma elem_rows : Rows d_elem Belem.
  Proof.
    intros a bs H. unfold d_elem.
    destruct H as [e ys b b1 b2 Hb H1 H2|rt ys b b1 b2 Hb H1 H2|x e rt ys b b1 b2 b3 b4 Hb H0 H1 H3 H2|rt ys b b1 b2 Hb H1 H2
                  |e es b b1 b2 Hb H1 H2|rt es b b1 b2 Hb H1 H2|x e rt es b b1 b2 b3 b4 Hb H0 H1 H3 H2|rt es b b1 b2 Hb H1 H2];
      apply u_nonempty in Hb; cbn [e_type e_init e_mode d_elemmode];
      match goal with |- context [d_reftype ?t] => pose proof (rt_rows t) as HR; remember (d_reftype t) as zr end;
      first [apply by_index in H2|apply by_expr in H2];
      match goal with |- context [d_list d_expr ?l] => remember (d_list d_expr l) as zl end;
      rewrite ?app_length;
      first [apply expr_rows in H1; match goal with |- context [d_expr ?e] => remember (d_expr e) as ze end
            |apply len_kind in H1|apply one_ref in H1; unfold one in H1];
      cbn [tall fold_right snd d_idx d_N]; lia.
  Qed.
  Lemma data_rows : Rows d_data Bdata.
  Proof.
    intros a bs H. unfold d_data.
    destruct H as [e bb b b1 b2 Hb H1 H2|bb b b1 Hb H2|x e bb b b1 b2 b3 Hb H0 H1 H2]; apply u_nonempty in Hb; cbn [d_init d_mode d_datamode]; rewrite ?app_length;
      (apply len_list in H2; [|apply one_byte]); pose proof (tall_list d_byte bb) as HL; pose proof (items_const d_byte 1 bb (fun _ => le_n 1)) as HC; unfold d_bytes; remember (d_list d_byte bb) as zl;
      try (apply expr_rows in H1; remember (d_expr e) as ze); cbn [tall fold_right snd d_idx d_N]; lia.
  Qed.
  (** without its locals *)
  Definition code_rows (c : list ValType * Expr) : nat := 7 + tall (d_expr (snd c)).
  Lemma lin_code_rows : Lin code_rows 8 Bcode.
  Proof.
    intros c bs H. destruct H as [f b1 b2 H1 H2]. apply u_nonempty in H1. destruct H2 as [ls e b3 b4 H3 H4 _]. apply expr_rows in H4. unfold code_rows. cbn [snd]. rewrite ?app_length. lia.
  Qed.
  Lemma func_rows x ls e : tall (d_func (mkFunc x ls e)) <= code_rows (ls, e) + 8 * List.length ls.
  Proof.
    unfold d_func, code_rows. cbn [f_type f_locals f_body snd]. pose proof (tall_list d_valtype ls). pose proof (items_const d_valtype 8 ls vt_most).
    remember (d_list d_valtype ls) as y. remember (d_expr e) as z. cbn [tall fold_right snd d_idx d_N]. lia.
  Qed.
  Lemma custom_rows : Rows d_custom Bcustom.
  Proof.
    intros c bs H. destruct H as [nm ct bs H]. apply len_name in H. unfold d_custom. cbn [cs_name cs_contents]. rewrite app_length.
    pose proof (tall_list d_byte ct) as HL; pose proof (items_const d_byte 1 ct (fun _ => le_n 1)) as HC; unfold d_bytes; remember (d_list d_byte ct) as zl. cbn [tall fold_right snd d_string]. lia.
  Qed.

  (** ** sections and modules *)
  Definition section_rows (s : section) : nat :=
    match s with
    | SCustom c => tall (d_custom c) | SType l => items d_rectype l | SImport l => items d_import l | SFunction _ => 0
    | STable l => items d_table l | SMemory l => items d_memtype l | STag l => items d_tagtype l | SGlobal l => items d_global l
    | SExport l => items d_export l | SStart _ => 0 | SElement l => items d_elem l | SDataCount _ => 0
    | SCode l => sum code_rows l | SData l => items d_data l
    end.
  Lemma lin_contents_rows : Lin section_rows 8 Bcontents.
  Proof.
    intros s bs H. destruct H as [c bs H|l bs H|l bs H|l bs H|l bs H|l bs H|l bs H|l bs H|l bs H|x bs H|l bs H|n bs H|l bs H|l bs H]; cbn [section_rows]; try lia.
    - apply custom_rows in H. lia.
    - apply (rows_list _ _ rec_rows) in H. lia.
    - apply (rows_list _ _ import_rows) in H. lia.
    - apply (rows_list _ _ table_rows) in H. lia.
    - apply (rows_list _ _ mt_rows) in H. lia.
    - apply (rows_list _ _ tag_rows) in H. lia.
    - apply (rows_list _ _ global_rows) in H. lia.
    - apply (rows_list _ _ export_rows) in H. lia.
    - apply (rows_list _ _ elem_rows) in H. lia.
    - apply (lin_list _ _ _ lin_code_rows) in H. lia.
    - apply (rows_list _ _ data_rows) in H. lia.
  Qed.
  Lemma lin_section_rows : Lin (fun p => 5 + section_rows (fst p)) 8 Bsection.
  Proof. intros p bs H. destruct H as [s b1 b2 H1 H2]. apply u_nonempty in H1. apply lin_contents_rows in H2. cbn [fst List.length]. rewrite app_length. lia. Qed.
  Lemma funcs_rows (fs : list TypeIdx) (cs : list (list ValType * Expr)) :
    let l := map (fun '(x, (ls, e)) => mkFunc x ls e) (combine fs cs) in
    items d_func l <= sum code_rows cs + 8 * fold_right (fun f n => List.length (f_locals f) + n) 0 l.
  Proof.
    unfold items, sum. revert cs. induction fs as [|f fs IH]; intros [|[ls e] cs]; cbn [map fold_right combine]; try lia. specialize (IH cs). cbn zeta in IH.
    pose proof (func_rows f ls e). cbn [f_locals]. lia.
  Qed.
  Lemma items_le {A} (d : A -> dtree) k l : (forall a, tall (d a) <= k) -> items d l <= k * List.length l.
  Proof. apply items_const. Qed.
  Lemma rows_of ss : tall (d_module (module_of ss)) <= 42 + sum (fun p => 5 + section_rows (fst p)) ss + 8 * locals_of (module_of ss).
  Proof.
    assert (HF := funcs_rows (the get_function (map fst ss)) (the get_code (map fst ss))). cbn zeta in HF. fold (funcs (module_of ss)) in HF.
    change (map (fun '(x, (ls, e)) => mkFunc x ls e) (combine (the get_function (map fst ss)) (the get_code (map fst ss)))) with (funcs (module_of ss)) in HF.
    fold (locals_of (module_of ss)) in HF. set (L := locals_of (module_of ss)) in *. clearbody L.
    unfold d_module.
    assert (Hdc : tall (d_option d_N (data_count (module_of ss))) <= 3) by (destruct (data_count (module_of ss)); cbn [d_option]; down; lia).
    assert (Hst : tall (d_option (d_idx "FuncIdx") (start (module_of ss))) <= 5) by (destruct (start (module_of ss)); cbn [d_option]; down; lia).
    assert (Hve : tall (d_bytes (version (module_of ss))) = 6) by reflexivity.
    pose proof (tall_list d_kind (parsed_section_kinds (module_of ss))) as H1. pose proof (items_const d_kind 1 (parsed_section_kinds (module_of ss)) (fun _ => le_n 1)) as H1'.
    pose proof (tall_list d_header (section_headers (module_of ss))) as H2. pose proof (items_const d_header 4 (section_headers (module_of ss)) (fun _ => le_n 4)) as H2'.
    pose proof (tall_list d_custom (custom_sections (module_of ss))) as H3. pose proof (tall_list d_rectype (types (module_of ss))) as H4. pose proof (tall_list d_func (funcs (module_of ss))) as H5.
    pose proof (tall_list d_table (tables (module_of ss))) as H6. pose proof (tall_list d_memtype (mems (module_of ss))) as H7. pose proof (tall_list d_global (globals (module_of ss))) as H8.
    pose proof (tall_list d_elem (elems (module_of ss))) as H9. pose proof (tall_list d_data (datas (module_of ss))) as H10. pose proof (tall_list d_import (imports (module_of ss))) as H11.
    pose proof (tall_list d_export (exports (module_of ss))) as H12. pose proof (tall_list d_tagtype (tags (module_of ss))) as H13.
    remember (d_option d_N _) as x1. remember (d_option (d_idx "FuncIdx") _) as x2. remember (d_bytes (version _)) as x3.
    remember (d_list d_kind _) as x4. remember (d_list d_header _) as x5. remember (d_list d_custom _) as x6. remember (d_list d_rectype _) as x7. remember (d_list d_func _) as x8.
    remember (d_list d_table _) as x9. remember (d_list d_memtype _) as x10. remember (d_list d_global _) as x11. remember (d_list d_elem _) as x12. remember (d_list d_data _) as x13.
    remember (d_list d_import _) as x14. remember (d_list d_export _) as x15. remember (d_list d_tagtype _) as x16.
    cbn [tall fold_right snd].
    assert (HK : List.length (parsed_section_kinds (module_of ss)) <= List.length ss).
    { change (parsed_section_kinds (module_of ss)) with (map kind_of (non_custom (map fst ss))). rewrite map_length. unfold non_custom. rewrite <- (map_length fst ss). apply len_filter. }
    assert (HH : List.length (section_headers (module_of ss)) = List.length ss) by apply map_length.
    enough (HE : items d_custom (custom_sections (module_of ss)) + items d_rectype (types (module_of ss)) + items d_import (imports (module_of ss))
      + sum code_rows (the get_code (map fst ss)) + items d_table (tables (module_of ss)) + items d_memtype (mems (module_of ss)) + items d_tagtype (tags (module_of ss)) + items d_global (globals (module_of ss))
      + items d_export (exports (module_of ss)) + items d_elem (elems (module_of ss)) + items d_data (datas (module_of ss)) + 5 * List.length ss = sum (fun p => 5 + section_rows (fst p)) ss).
    { clear -HE HF Hdc Hst Hve H1 H2 H3 H4 H5 H6 H7 H8 H9 H10 H11 H12 H13 H1' H2' HK HH. lia. }
    clear. cbn [custom_sections types tables mems globals elems datas imports exports tags module_of]. unfold module_of. cbn [custom_sections types tables mems globals elems datas imports exports tags].
    unfold the, items in *. rewrite !sum_flat, !sum_map.
    induction ss as [|[s n] ss IH]; [reflexivity|]. rewrite !sum_cons. cbn [List.length].
    assert (HE : sum (fun a => tall (d_custom a)) (get_custom s) + sum (fun a => tall (d_rectype a)) (get_type s) + sum (fun a => tall (d_import a)) (get_import s)
     + sum code_rows (get_code s) + sum (fun a => tall (d_table a)) (get_table s) + sum (fun a => tall (d_memtype a)) (get_memory s) + sum (fun a => tall (d_tagtype a)) (get_tag s) + sum (fun a => tall (d_global a)) (get_global s)
     + sum (fun a => tall (d_export a)) (get_export s) + sum (fun a => tall (d_elem a)) (get_element s) + sum (fun a => tall (d_data a)) (get_data s) = section_rows s).
    { unfold section_rows, items. destruct s; cbn [get_custom get_type get_import get_code get_table get_memory get_tag get_global get_export get_element get_data]; rewrite ?sum_cons, ?sum_nil; lia. }
    cbn [fst]. lia.
  Qed.
  Lemma module_rows m bs : Bmodule m bs -> tall (d_module m) <= 8 * (List.length bs + locals_of m).
  Proof.
    intros H. destruct H as [ss bs cs H _ _ _ _]. apply (lin_seq _ _ _ lin_section_rows) in H. pose proof (rows_of ss). rewrite ?app_length. cbn [List.length magic version1]. lia.
  Qed.

  (** every local takes three lines *)
  Lemma vt_least t : 3 <= tall (d_valtype t).
  Proof. destruct t as [t|t|t]; cbn [d_valtype]; [down; lia|down; lia|]. pose proof (rt_rows t). remember (d_reftype t) as x. down. lia. Qed.
  Lemma list_least {A} (d : A -> dtree) l : items d l <= tall (d_list d l).
  Proof.
    unfold d_list, items. destruct l as [|a l]; [cbn; lia|]. cbn [tall map fold_right]. unfold sum. cbn [fold_right].
    enough (H : fold_right (fun e n => tall e + n) 0 (map d l) = fold_right (fun x n => tall (d x) + n) 0 l) by (rewrite H; lia).
    induction l as [|b l IH]; [reflexivity|]. cbn [map fold_right]. rewrite IH. reflexivity.
  Qed.
  Lemma items_ge {A} (d : A -> dtree) k l : (forall a, k <= tall (d a)) -> k * List.length l <= items d l.
  Proof. intros H. unfold items, sum. induction l as [|a l IH]; [cbn; lia|]. cbn [fold_right List.length]. specialize (H a). lia. Qed.
  Lemma func_least f : 3 * List.length (f_locals f) <= tall (d_func f).
  Proof.
    unfold d_func. pose proof (list_least d_valtype (f_locals f)). pose proof (items_ge d_valtype 3 (f_locals f) vt_least).
    remember (d_list d_valtype (f_locals f)) as y. remember (d_expr (f_body f)) as z. cbn [tall fold_right snd]. lia.
  Qed.
  Lemma locals_tall m : 3 * locals_of m <= tall (d_module m).
  Proof.
    assert (H1 : 3 * locals_of m <= items d_func (funcs m)).
    { unfold locals_of, items, sum. induction (funcs m) as [|f l IH]; [cbn; lia|]. cbn [fold_right]. pose proof (func_least f). lia. }
    pose proof (list_least d_func (funcs m)) as H2. refine (Nat.le_trans _ _ _ H1 (Nat.le_trans _ _ _ H2 _)). unfold d_module.
    remember (d_list d_func (funcs m)) as x.
    match goal with |- _ <= tall (DStruct ?nm ?fs) => change (tall (DStruct nm fs)) with (S (S (fold_right (fun nf n => tall (snd nf) + n) 0 fs))); pose proof (weigh_in (fun nf => tall (snd nf)) fs ("funcs"%string, x)) as H end.
    cbn [snd] in H. apply Nat.le_le_succ_r, Nat.le_le_succ_r, H. cbn [In]. tauto.
  Qed.
End Instrs.
