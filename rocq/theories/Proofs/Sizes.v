(** Sizes of decoded things are linear in the length of their encoding. *)
From Verif Require Import Model.Prelude Model.Ast.
From Verif Require Import Spec.Lang Spec.Types Spec.Instr Spec.Module Spec.Resources.
From Coq Require Import Lia.

Definition Lin {A} (w : A -> nat) (c : nat) (G : lang A) : Prop := forall a bs, G a bs -> w a <= c * length bs.
Definition one {A} (_ : A) : nat := 1.
Lemma sum_one {A} (l : list A) : sum one l = length l.
Proof. induction l as [|x l IH]; [reflexivity|]. cbn [length]. rewrite <- IH. reflexivity. Qed.
Lemma sum_cons {A} (w : A -> nat) x l : sum w (x :: l) = w x + sum w l.
Proof. reflexivity. Qed.
Lemma sum_nil {A} (w : A -> nat) : sum w [] = 0.
Proof. reflexivity. Qed.
Lemma sum_app {A} (w : A -> nat) l1 l2 : sum w (l1 ++ l2) = sum w l1 + sum w l2.
Proof. unfold sum. induction l1 as [|x l IH]; cbn; [reflexivity|]. rewrite IH. lia. Qed.
Lemma sum_map {A B} (w : B -> nat) (f : A -> B) l : sum w (map f l) = sum (fun x => w (f x)) l.
Proof. unfold sum. induction l as [|x l IH]; cbn; [reflexivity|]. rewrite IH. reflexivity. Qed.
Lemma sum_le {A} (w1 w2 : A -> nat) l : (forall x, In x l -> w1 x <= w2 x) -> sum w1 l <= sum w2 l.
Proof. unfold sum. induction l as [|x l IH]; cbn; intros Hl; [lia|]. pose proof (Hl x (or_introl eq_refl)). assert (forall y, In y l -> w1 y <= w2 y) by auto. specialize (IH H0). lia. Qed.
Lemma lin_up {A} (w : A -> nat) c c' G : Lin w c G -> c <= c' -> Lin w c' G.
Proof. intros HL Hc a bs HG. specialize (HL a bs HG). nia. Qed.
Lemma lin_seq {A} (w : A -> nat) c G : Lin w c G -> Lin (sum w) c (Bseq G).
Proof. intros HL a bs HG. induction HG as [|x xs b1 b2 Hx _ IH]; cbn; [lia|]. unfold sum in IH. specialize (HL _ _ Hx). rewrite app_length. nia. Qed.
Lemma u_nonempty w n bs : Bu w n bs -> 1 <= length bs.
Proof. intros H. destruct H; cbn; lia. Qed.
Lemma s_nonempty w n bs : Bs w n bs -> 1 <= length bs.
Proof. intros H. destruct H; cbn; lia. Qed.
(** with room for one unit per list, from the length field *)
Lemma lin_list {A} (w : A -> nat) c G : Lin w c G -> forall a bs, Blist G a bs -> c + sum w a <= c * length bs.
Proof.
  intros HL a bs HG. destruct HG as [xs b1 b2 H1 H2]. apply u_nonempty in H1. apply (lin_seq _ _ _ HL) in H2. rewrite app_length. nia.
Qed.
Lemma one_u w : Lin one 1 (Bu w).
Proof. intros a bs HG. apply u_nonempty in HG. unfold one. lia. Qed.
Lemma one_idx : Lin one 1 Bidx.
Proof. apply one_u. Qed.
Lemma one_byte : Lin one 1 Bbyte.
Proof. intros a bs ->. unfold one. cbn. lia. Qed.
Ltac inv H := inversion H; subst; clear H.
Lemma one_abs : Lin one 1 Babsheaptype.
Proof. intros a bs HG. destruct HG; unfold one; cbn; lia. Qed.
Lemma one_heap : Lin one 1 Bheaptype.
Proof. intros a bs HG. destruct HG as [t bs HG|x bs HG]; [apply one_abs in HG|apply s_nonempty in HG]; unfold one in *; lia. Qed.
Lemma one_ref : Lin one 1 Breftype.
Proof. intros a bs HG. destruct HG as [t bs HG|t bs HG|t bs HG]; [apply one_heap in HG|apply one_heap in HG|apply one_abs in HG]; unfold one in *; cbn [length]; lia. Qed.
Lemma one_val : Lin one 1 Bvaltype.
Proof. intros a bs HG. destruct HG as [t bs HG|t bs HG|t bs HG]; [destruct HG; unfold one; cbn; lia|destruct HG; unfold one; cbn; lia|apply one_ref in HG]. unfold one in *; lia. Qed.
Lemma one_catch : Lin one 1 Bcatch.
Proof. intros a bs HG. destruct HG; unfold one; cbn; lia. Qed.
Lemma one_field : Lin one 1 Bfieldtype.
Proof. intros a bs HG. destruct HG as [st m b1 b2 H1 H2]. rewrite app_length. destruct H2; unfold one; cbn; lia. Qed.
Lemma len_list {A} (G : lang A) a bs : Lin one 1 G -> Blist G a bs -> 1 + length a <= length bs.
Proof. intros HL HG. pose proof (lin_list _ _ _ HL _ _ HG) as H. rewrite sum_one in H. lia. Qed.
Lemma len_limits a bs : Blimits a bs -> 2 <= length bs.
Proof. intros H. destruct H as [n bs H|n m b1 b2 H _|n bs H|n m b1 b2 H _]; apply u_nonempty in H; cbn; rewrite ?app_length; lia. Qed.
Lemma len_mut a bs : Bmut a bs -> length bs = 1.
Proof. intros H. destruct H; reflexivity. Qed.

(** instructions *)
Lemma in_run {A} (l : list A) n k (x : A) : In (k, x) (run n l) -> In x l.
Proof. revert n. induction l as [|y l IH]; intros n; cbn; [tauto|]. intros [H|H]; [left; congruence|right; eapply IH; exact H]. Qed.
(** one opcode's immediates *)
Definition flat (X : lang instr) : Prop := forall i bs, X i bs -> instr_size i <= 1 + length bs.
Lemma flat0 i : instr_size i = 1 -> flat (imm0 i).
Proof. intros H i' bs [-> ->]. cbn. lia. Qed.
Lemma flat1 {A} (f : A -> instr) (X : lang A) : (forall a bs, X a bs -> instr_size (f a) <= 1 + length bs) -> flat (imm1 f X).
Proof. intros H i bs HX. destruct HX as [a bs HX]. auto. Qed.
Lemma flat2 {A B} (f : A -> B -> instr) (X : lang A) (Y : lang B) : (forall a b bs, X a bs -> instr_size (f a b) <= 1 + length bs) -> flat (imm2 f X Y).
Proof. intros H i bs HX. destruct HX as [a b b1 b2 HX _]. rewrite app_length. specialize (H a b b1 HX). lia. Qed.
Definition easy (X : lang instr) : Prop := forall i bs, X i bs -> instr_size i = 1.
Lemma easy0 i : instr_size i = 1 -> easy (imm0 i).
Proof. intros H i' bs [-> ->]. exact H. Qed.
Lemma easy1 {A} (f : A -> instr) X : (forall a, instr_size (f a) = 1) -> easy (imm1 f X).
Proof. intros H i bs HX. destruct HX. auto. Qed.
Lemma easy2 {A B} (f : A -> B -> instr) X Y : (forall a b, instr_size (f a b) = 1) -> easy (imm2 f X Y).
Proof. intros H i bs HX. destruct HX. auto. Qed.
Lemma easyc f : (forall a b c, instr_size (f a b c) = 1) -> easy (Bbr_on_cast f).
Proof. intros H i bs HX. destruct HX. auto. Qed.
Lemma easy_flat X : easy X -> flat X.
Proof. intros H i bs HX. rewrite (H _ _ HX). lia. Qed.
Ltac easy1 := first [apply easy0; reflexivity|apply easy1; intros; reflexivity|apply easy2; intros; reflexivity|apply easyc; intros; reflexivity].
Lemma len_idxs a bs : Blist Bidx a bs -> S (length a) <= 1 + length bs.
Proof. intros H. apply len_list in H; [lia|apply one_idx]. Qed.
Lemma len_vals a bs : Blist Bvaltype a bs -> S (length a) <= 1 + length bs.
Proof. intros H. apply len_list in H; [lia|apply one_val]. Qed.
Ltac flat1 := first [apply easy_flat; easy1|apply flat1; exact len_vals|apply flat2; intros a b; exact (len_idxs a)].
Lemma flat_in (l : list (N * lang instr)) n X : Forall (fun p => flat (snd p)) l -> In (n, X) l -> flat X.
Proof. intros HF HI. rewrite Forall_forall in HF. exact (HF _ HI). Qed.
Lemma flat_ops n X : In (n, X) ops -> flat X.
Proof. apply flat_in. unfold ops. cbn [map run app]. repeat (constructor; [cbn [snd]; flat1|]). constructor. Qed.
Lemma flat_fb n X : In (n, X) ops_fb -> flat X.
Proof. apply flat_in. unfold ops_fb. cbn [map run app]. repeat (constructor; [cbn [snd]; flat1|]). constructor. Qed.
Lemma flat_fc n X : In (n, X) ops_fc -> flat X.
Proof. apply flat_in. unfold ops_fc. cbn [map run app]. repeat (constructor; [cbn [snd]; flat1|]). constructor. Qed.
Lemma flat_fd n X : In (n, X) ops_fd -> flat X.
Proof. apply flat_in. unfold ops_fd. cbn [map run app]. repeat (constructor; [cbn [snd]; flat1|]). constructor. Qed.

Lemma lin_instrs : (forall i bs, Binstr i bs -> instr_size i <= length bs) /\ (forall is bs, Binstrs is bs -> sum instr_size is <= length bs).
Proof.
  apply Binstr_Binstrs_ind.
  - intros b X i bs HI HX. apply flat_ops in HI. apply HI in HX. cbn [length]. lia.
  - intros n X i b1 b2 _ HI HX. apply flat_fb in HI. apply HI in HX. cbn [length]. rewrite app_length. lia.
  - intros n X i b1 b2 _ HI HX. apply flat_fc in HI. apply HI in HX. cbn [length]. rewrite app_length. lia.
  - intros n X i b1 b2 _ HI HX. apply flat_fd in HI. apply HI in HX. cbn [length]. rewrite app_length. lia.
  - intros bt is b1 b2 _ _ IH. unfold sum in IH. cbn [instr_size length]. rewrite !app_length. lia.
  - intros bt is b1 b2 _ _ IH. unfold sum in IH. cbn [instr_size length]. rewrite !app_length. lia.
  - intros bt is b1 b2 _ _ IH. unfold sum in IH. cbn [instr_size length]. rewrite !app_length. lia.
  - intros bt is1 is2 b1 b2 b3 _ _ IH1 _ IH2. unfold sum in IH1, IH2. cbn [instr_size length]. rewrite !app_length. cbn [length]. lia.
  - intros bt cs is b1 b2 b3 _ Hc _ IH. unfold sum in IH. apply len_list in Hc; [|apply one_catch]. cbn [instr_size length]. rewrite !app_length. lia.
  - cbn. lia.
  - intros i is b1 b2 _ IH1 _ IH2. unfold sum in *. cbn [fold_right]. rewrite app_length. lia.
Qed.
Lemma lin_expr : Lin expr_size 1 Bexpr.
Proof. intros e bs H. destruct H as [is bs H]. apply lin_instrs in H. unfold expr_size. rewrite app_length. cbn [length]. lia. Qed.

(** entries *)
Lemma lin_comp : Lin (fun t => 2 + comptype_size t) 1 Bcomptype.
Proof.
  intros t bs H. destruct H as [ft bs H|fts bs H|t1 t2 b1 b2 H1 H2].
  - destruct H as [st m b1 b2 H1 H2]. apply len_mut in H2. assert (1 <= length b1) by (destruct H1 as [t b1 H|t b1 H]; [apply one_val in H; unfold one in H; lia|destruct H; cbn; lia]).
    cbn [comptype_size length]. rewrite app_length. lia.
  - apply len_list in H; [|apply one_field]. cbn [comptype_size length]. lia.
  - apply len_list in H1; [|apply one_val]. apply len_list in H2; [|apply one_val]. cbn [comptype_size length]. rewrite app_length. lia.
Qed.
Lemma lin_sub : Lin (fun st => 2 + (length (supertypes st) + comptype_size (comptype st))) 1 Bsubtype.
Proof.
  intros t bs H. destruct H as [xs ct b1 b2 H1 H2|xs ct b1 b2 H1 H2|ct bs H2]; apply lin_comp in H2; cbn [supertypes comptype length]; rewrite ?app_length; try lia.
  - apply len_list in H1; [unfold TypeIdx, u32 in *; lia|apply one_idx].
  - apply len_list in H1; [unfold TypeIdx, u32 in *; lia|apply one_idx].
Qed.
Lemma lin_rec : Lin rectype_size 1 Brectype.
Proof.
  intros t bs H. unfold rectype_size. destruct H as [sts bs H|st bs H].
  - assert (HL : Lin (fun st => 1 + length (supertypes st) + comptype_size (comptype st)) 1 Bsubtype) by (intros st b HG; apply lin_sub in HG; lia).
    pose proof (lin_list _ _ _ HL _ _ H) as HS. cbn [length]. lia.
  - apply lin_sub in H. cbn [sum fold_right]. lia.
Qed.
Lemma len_name a bs : Bname a bs -> 1 + length a <= length bs.
Proof. intros [H _]. apply len_list in H; [exact H|apply one_byte]. Qed.
Lemma lin_import : Lin import_size 1 Bimport.
Proof. intros a bs H. destruct H as [n1 n2 d b1 b2 b3 H1 H2 _]. apply len_name in H1. apply len_name in H2. unfold import_size. cbn [im_module im_item]. rewrite !app_length. lia. Qed.
Lemma lin_table : Lin table_size 1 Btable.
Proof.
  intros a bs H. unfold table_size. destruct H as [t bs H|t e b1 b2 _ H].
  - destruct H as [rt l b1 b2 H1 H2]. apply one_ref in H1. apply len_limits in H2. unfold one in H1. rewrite app_length. cbn. lia.
  - apply lin_expr in H. cbn [t_init length]. rewrite app_length. lia.
Qed.
Lemma lin_global : Lin global_size 1 Bglobal.
Proof. intros a bs H. destruct H as [t e b1 b2 H1 H2]. apply lin_expr in H2. destruct H1 as [t m b1 b3 H1 _]. apply one_val in H1. unfold one in H1. unfold global_size. cbn [g_init]. rewrite !app_length. lia. Qed.
Lemma lin_export : Lin export_size 1 Bexport.
Proof. intros a bs H. destruct H as [n d b1 b2 H1 _]. apply len_name in H1. unfold export_size. cbn [ex_name]. rewrite !app_length. lia. Qed.
Lemma sum_ref_funcs ys : sum expr_size (ref_funcs ys) = 2 * length ys.
Proof. unfold ref_funcs, sum. induction ys as [|y ys IH]; [reflexivity|]. cbn [map fold_right length]. rewrite IH. cbn. lia. Qed.
Lemma lin_elem : Lin elem_size 2 Belem.
Proof.
  intros a bs H. unfold elem_size.
  destruct H as [e ys b b1 b2 Hb H1 H2|rt ys b b1 b2 Hb H1 H2|x e rt ys b b1 b2 b3 b4 Hb H0 H1 H3 H2|rt ys b b1 b2 Hb H1 H2
                |e es b b1 b2 Hb H1 H2|rt es b b1 b2 Hb H1 H2|x e rt es b b1 b2 b3 b4 Hb H0 H1 H3 H2|rt es b b1 b2 Hb H1 H2];
    apply u_nonempty in Hb; cbn [e_init e_mode]; rewrite ?sum_ref_funcs, !app_length;
    unfold FuncIdx, u32, Expr in *; first [apply len_list in H2; [|apply one_idx]|apply (lin_list _ _ _ lin_expr) in H2]; first [apply lin_expr in H1; unfold Expr in *; lia|unfold Expr in *; lia].
Qed.
Lemma lin_data : Lin data_size 1 Bdata.
Proof.
  intros a bs H. unfold data_size.
  destruct H as [e bb b b1 b2 Hb H1 H2|bb b b1 Hb H2|x e bb b b1 b2 b3 Hb H0 H1 H2]; apply u_nonempty in Hb; cbn [d_init d_mode]; rewrite !app_length;
    (apply len_list in H2; [|apply one_byte]); first [apply lin_expr in H1; lia|unfold Expr in *; lia].
Qed.
Definition code_size (c : list ValType * Expr) : nat := 1 + expr_size (snd c).
Lemma lin_code : Lin code_size 1 Bcode.
Proof.
  intros c bs H. destruct H as [f b1 b2 H1 H2]. apply u_nonempty in H1. destruct H2 as [ls e b3 b4 H3 H4 _]. apply lin_expr in H4. unfold code_size. cbn [snd]. rewrite !app_length. lia.
Qed.
Lemma lin_custom : Lin custom_size 1 Bcustom.
Proof. intros c bs H. destruct H as [nm ct bs H]. apply len_name in H. unfold custom_size. cbn. rewrite app_length. lia. Qed.

(** sections and modules *)
Definition section_size (s : section) : nat :=
  match s with
  | SCustom c => custom_size c | SType l => sum rectype_size l | SImport l => sum import_size l | SFunction _ => 0
  | STable l => sum table_size l | SMemory l => length l | STag l => length l | SGlobal l => sum global_size l
  | SExport l => sum export_size l | SStart _ => 0 | SElement l => sum elem_size l | SDataCount _ => 0
  | SCode l => sum code_size l | SData l => sum data_size l
  end.
Lemma lin_contents : Lin section_size 2 Bcontents.
Proof.
  intros s bs H. destruct H as [c bs H|l bs H|l bs H|l bs H|l bs H|l bs H|l bs H|l bs H|l bs H|x bs H|l bs H|n bs H|l bs H|l bs H]; cbn [section_size]; try lia.
  - apply lin_custom in H. lia.
  - apply (lin_list _ _ _ lin_rec) in H. lia.
  - apply (lin_list _ _ _ lin_import) in H. lia.
  - apply (lin_list _ _ _ lin_table) in H. lia.
  - apply len_list in H; [lia|]. intros t b HG. destruct HG as [l' b HG]. apply len_limits in HG. unfold one. lia.
  - apply len_list in H; [lia|]. intros t b HG. destruct HG. unfold one. cbn. lia.
  - apply (lin_list _ _ _ lin_global) in H. lia.
  - apply (lin_list _ _ _ lin_export) in H. lia.
  - apply (lin_list _ _ _ lin_elem) in H. lia.
  - apply (lin_list _ _ _ lin_code) in H. lia.
  - apply (lin_list _ _ _ lin_data) in H. lia.
Qed.
Lemma lin_section : Lin (fun p => 2 + section_size (fst p)) 2 Bsection.
Proof. intros p bs H. destruct H as [s b1 b2 H1 H2]. apply u_nonempty in H1. apply lin_contents in H2. cbn [fst length]. rewrite app_length. lia. Qed.
Lemma sum_flat {A B} (w : B -> nat) (f : A -> list B) l : sum w (flat_map f l) = sum (fun x => sum w (f x)) l.
Proof. induction l as [|x l IH]; [reflexivity|]. cbn [flat_map]. rewrite sum_app, IH. reflexivity. Qed.
Lemma sum_combine (fs : list TypeIdx) (cs : list (list ValType * Expr)) :
  sum func_size (map (fun '(x, (ls, e)) => mkFunc x ls e) (combine fs cs)) <= sum code_size cs.
Proof.
  unfold sum. revert cs. induction fs as [|f fs IH]; intros [|[ls e] cs]; cbn [map fold_right combine]; try lia. specialize (IH cs).
  change (func_size (mkFunc f ls e)) with (code_size (ls, e)). lia.
Qed.
Lemma len_filter {A} (f : A -> bool) l : length (filter f l) <= length l.
Proof. induction l as [|x l IH]; cbn [filter length]; [lia|]. destruct (f x); cbn [length]; lia. Qed.
Lemma size_of ss : size (module_of ss) <= 4 + sum (fun p => 2 + section_size (fst p)) ss.
Proof.
  unfold size, module_of. cbn [version parsed_section_kinds section_headers custom_sections types funcs tables mems globals elems datas imports exports tags].
  pose proof (sum_combine (the get_function (map fst ss)) (the get_code (map fst ss))) as HC.
  change (length version1) with 4.
  assert (HK : length (map kind_of (non_custom (map fst ss))) <= length ss).
  { rewrite map_length. unfold non_custom. rewrite <- (map_length fst ss). apply len_filter. }
  set (K := length (map kind_of _)) in *. clearbody K.
  set (F := sum func_size _) in *. clearbody F.
  rewrite (map_length _ ss). unfold the in *. rewrite <- !sum_one, !sum_flat, !sum_map in *.
  enough (HE : forall x : section * N, sum custom_size (get_custom (fst x)) + sum rectype_size (get_type (fst x)) + sum import_size (get_import (fst x))
     + sum code_size (get_code (fst x)) + sum table_size (get_table (fst x)) + sum one (get_memory (fst x)) + sum one (get_tag (fst x)) + sum global_size (get_global (fst x))
     + sum export_size (get_export (fst x)) + sum elem_size (get_element (fst x)) + sum data_size (get_data (fst x)) = section_size (fst x)).
  { clear -HC HK HE. revert K F HC HK. induction ss as [|x ss IH]; intros K F HC HK; [cbn in *; lia|].
    specialize (HE x). rewrite !sum_cons in *. assert (Hu : one x = 1) by reflexivity. rewrite Hu in *.
    specialize (IH (K - 1) (F - sum code_size (get_code (fst x)))). lia. }
  intros [s n]. cbn [fst]. destruct s; cbn [get_custom get_type get_import get_code get_table get_memory get_tag get_global get_export get_element get_data section_size]; rewrite ?sum_cons, ?sum_nil, ?sum_one; cbn [length]; lia.
Qed.
Lemma lin_module : Lin size 2 Bmodule.
Proof.
  intros m bs H. destruct H as [ss bs cs H _ _ _ _]. apply (lin_seq _ _ _ lin_section) in H. pose proof (size_of ss). rewrite !app_length. cbn [length magic version1]. lia.
Qed.
