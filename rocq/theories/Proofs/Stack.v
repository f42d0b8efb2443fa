(** Heights of what is printed: modules in proportion to nesting, errors
    constant. *)
From Verif Require Import Model.Prelude Model.Io Model.Ast Model.Errors Model.Display Model.Debug Model.DebugError Model.Stack.
From Verif Require Import Spec.Module Spec.Layout Spec.Resources Spec.Stack.
From Verif Require Import Proofs.Pretty Proofs.Equal Proofs.Debug.
From Coq Require Import Lia String.
Local Open Scope string_scope.
Local Open Scope nat_scope.

(** ** pretty_in *)
Definition tallest (l : list dtree) : nat := fold_right (fun f n => Nat.max (height f) n) 0 l.
Definition tallest_field (l : list (string * dtree)) : nat := fold_right (fun nf n => Nat.max (height (snd nf)) n) 0 l.
Lemma height_pos t : 1 <= height t.
Proof. destruct t; cbn; lia. Qed.
Lemma all_trees n fs : Forall (fun t => pretty_in n t = if height t <=? n then Some (pretty t) else None) fs ->
  all (map (pretty_in n) fs) = if tallest fs <=? n then Some (map pretty fs) else None.
Proof.
  induction 1 as [|t fs Ht _ IH]; [reflexivity|]. cbn [map all tallest fold_right]. fold (tallest fs). rewrite Ht, IH.
  destruct (Nat.leb_spec (height t) n); destruct (Nat.leb_spec (tallest fs) n); destruct (Nat.leb_spec (Nat.max (height t) (tallest fs)) n); try reflexivity; lia.
Qed.
Lemma all_fields n fs : Forall (fun nf => pretty_in n (snd nf) = if height (snd nf) <=? n then Some (pretty (snd nf)) else None) fs ->
  all (map (fun nf : string * dtree => match pretty_in n (snd nf) with Some s => Some (fst nf, s) | None => None end) fs)
  = if tallest_field fs <=? n then Some (map (fun nf => (fst nf, pretty (snd nf))) fs) else None.
Proof.
  induction 1 as [|t fs Ht _ IH]; [reflexivity|]. cbn [map all tallest_field fold_right]. fold (tallest_field fs). rewrite Ht, IH.
  destruct (Nat.leb_spec (height (snd t)) n); destruct (Nat.leb_spec (tallest_field fs) n); destruct (Nat.leb_spec (Nat.max (height (snd t)) (tallest_field fs)) n); try reflexivity; lia.
Qed.
Lemma pretty_in_height t : forall n, pretty_in n t = if height t <=? n then Some (pretty t) else None.
Proof.
  induction t as [s|nm fs IH|nm fs IH|es IH|nm t IH] using dtree_ind'; intros [|n]; try reflexivity.
  - change (height (DTuple nm fs)) with (S (tallest fs)). change (S (tallest fs) <=? S n) with (tallest fs <=? n).
    cbn [pretty_in]. rewrite (all_trees n fs); [|eapply Forall_impl; [|exact IH]; intros t H; apply H].
    destruct fs as [|f fs]; [reflexivity|]. destruct (tallest (f :: fs) <=? n); [|reflexivity]. cbn [pretty]. rewrite map_map. reflexivity.
  - change (height (DStruct nm fs)) with (S (tallest_field fs)). change (S (tallest_field fs) <=? S n) with (tallest_field fs <=? n).
    cbn [pretty_in]. rewrite (all_fields n fs); [|eapply Forall_impl; [|exact IH]; intros t H; apply H].
    destruct fs as [|f fs]; [reflexivity|]. destruct (tallest_field (f :: fs) <=? n); [|reflexivity]. cbn [pretty]. rewrite map_map. reflexivity.
  - change (height (DList es)) with (S (tallest es)). change (S (tallest es) <=? S n) with (tallest es <=? n).
    cbn [pretty_in]. rewrite (all_trees n es); [|eapply Forall_impl; [|exact IH]; intros t H; apply H].
    destruct es as [|f es]; [reflexivity|]. destruct (tallest (f :: es) <=? n); [|reflexivity]. cbn [pretty]. rewrite map_map. reflexivity.
  - change (height (DPath nm t)) with (S (height t)). change (S (height t) <=? S n) with (height t <=? n). cbn [pretty_in]. rewrite IH.
    destruct (height t <=? n); reflexivity.
Qed.

(** ** modules *)
Lemma tallest_le k l : Forall (fun t => height t <= k) l -> tallest l <= k.
Proof. induction 1 as [|t l H _ IH]; cbn [tallest fold_right]; [lia|]. fold (tallest l). lia. Qed.
Lemma tallest_ge k l t : In t l -> k <= height t -> k <= tallest l.
Proof. induction l as [|u l IH]; [intros []|]; intros [->|Hi] Hk; cbn [tallest fold_right]; fold (tallest l); [lia|]. specialize (IH Hi Hk). lia. Qed.
Lemma list_height {A} (d : A -> dtree) k l : (forall a, In a l -> height (d a) <= k) -> height (d_list d l) <= S k.
Proof. intros H. cbn [d_list height]. apply le_n_S, tallest_le, Forall_map, Forall_forall. exact H. Qed.
Lemma option_height {A} (d : A -> dtree) k o : (forall a, height (d a) <= k) -> height (d_option d o) <= S k.
Proof. intros H. destruct o as [a|]; cbn; [specialize (H a)|]; lia. Qed.

Ltac down := cbn [height fold_right fst snd map d_idx d_N d_Z d_memarg d_numtype d_vectype d_absheaptype d_bool d_mut d_packtype d_addrtype d_lane d_byte d_kind d_header d_variant d_heaptype d_valtype d_storagetype d_tagtype d_externtype d_blocktype d_catch d_datamode d_elemmode d_externidx d_operand].
Lemma ht_height t : height (d_heaptype t) <= 2. Proof. destruct t; down; lia. Qed.
Lemma rt_height t : height (d_reftype t) <= 3. Proof. unfold d_reftype. pose proof (ht_height (ht t)). down. lia. Qed.
Lemma vt_height t : height (d_valtype t) <= 4. Proof. destruct t as [t|t|t]; [| |pose proof (rt_height t)]; down; lia. Qed.
Lemma vts_height l : height (d_list d_valtype l) <= 5. Proof. apply list_height. intros; apply vt_height. Qed.
Lemma gt_height t : height (d_globaltype t) <= 5. Proof. unfold d_globaltype. pose proof (vt_height (gt_type t)). down. lia. Qed.
Lemma st_height t : height (d_storagetype t) <= 5. Proof. destruct t as [t|t]; [pose proof (vt_height t)|]; down; lia. Qed.
Lemma ft_height t : height (d_fieldtype t) <= 6. Proof. unfold d_fieldtype. pose proof (st_height (ft_type t)). down. lia. Qed.
Lemma ct_height t : height (d_comptype t) <= 8.
Proof.
  destruct t as [fs|f|ps rs]; cbn [d_comptype].
  - pose proof (list_height d_fieldtype 6 fs (fun a _ => ft_height a)). cbn [height fold_right]. lia.
  - pose proof (ft_height f). cbn [height fold_right]. lia.
  - pose proof (vts_height ps). pose proof (vts_height rs). cbn [height fold_right snd]. lia.
Qed.
Lemma sub_height t : height (d_subtype t) <= 9.
Proof.
  unfold d_subtype. pose proof (ct_height (comptype t)). pose proof (list_height (d_idx "TypeIdx") 2 (supertypes t) (fun a _ => le_n 2)).
  cbn [height fold_right snd d_bool]. lia.
Qed.
Lemma rec_height t : height (d_rectype t) <= 11.
Proof. unfold d_rectype. pose proof (list_height d_subtype 9 t (fun a _ => sub_height a)). cbn [height fold_right]. lia. Qed.
Lemma limits_height l : height (d_limits l) <= 3.
Proof. unfold d_limits. pose proof (option_height d_N 1 (lim_max l) (fun a => le_n 1)). cbn [height fold_right snd d_addrtype d_N]. lia. Qed.
Lemma mt_height t : height (d_memtype t) <= 4.
Proof. unfold d_memtype. pose proof (limits_height (mt_limits t)). cbn [height fold_right snd]. lia. Qed.
Lemma tt_height t : height (d_tabletype t) <= 4.
Proof. unfold d_tabletype. pose proof (limits_height (tt_limits t)). pose proof (rt_height (tt_reftype t)). cbn [height fold_right snd]. lia. Qed.
Lemma tag_height t : height (d_tagtype t) <= 3. Proof. down. lia. Qed.
Lemma ext_height t : height (d_externtype t) <= 6.
Proof. destruct t as [x|t|t|t|t]; [|pose proof (tt_height t)|pose proof (mt_height t)|pose proof (gt_height t)|]; cbn [d_externtype height fold_right]; try lia; down; lia. Qed.
Lemma bt_height t : height (d_blocktype t) <= 5. Proof. destruct t as [|t|x]; [|pose proof (vt_height t)|]; cbn [d_blocktype height fold_right]; down; lia. Qed.
Lemma catch_height c : height (d_catch c) <= 3. Proof. destruct c; down; lia. Qed.

Section Modules.
  Context {T : Texts}.
  Lemma operand_height o : height (d_operand o) <= 6.
  Proof.
    destruct o as [n x|n|z|b|b|b|l|l|l|t|t|t|m]; cbn [d_operand]; try (down; lia).
    - pose proof (list_height d_byte 1 l (fun a _ => le_n 1)). unfold d_bytes. lia.
    - pose proof (list_height d_lane 2 l (fun a _ => le_n 2)). lia.
    - pose proof (list_height (d_idx "LabelIdx") 2 l (fun a _ => le_n 2)). lia.
    - apply option_height. intros. apply vts_height.
    - pose proof (rt_height t). lia.
    - pose proof (ht_height t). lia.
  Qed.
  Lemma flat_height i : nested i = false -> height (d_instr i) <= 7.
  Proof.
    intros Hi. rewrite (flat_tree i Hi). destruct (operands i) as [|o l]; [down; lia|]. cbn [map d_variant]. change (DTuple (instr_name i) (d_operand o :: map d_operand l)) with (DTuple (instr_name i) (map d_operand (o :: l))).
    cbn [height]. apply le_n_S, tallest_le, Forall_map, Forall_forall. intros; apply operand_height.
  Qed.
  Definition deep (l : list instr) : nat := fold_right (fun j n => Nat.max (nesting j) n) 0 l.
  Lemma deep_in i l : In i l -> nesting i <= deep l.
  Proof. induction l as [|j l IH]; [intros []|]; intros [->|H]; cbn [deep fold_right]; fold (deep l); [lia|]. specialize (IH H). lia. Qed.
  Lemma body_height l : Forall (fun i => height (d_instr i) <= 3 * nesting i + 7) l -> height (DList (map d_instr l)) <= 3 * deep l + 8.
  Proof.
    intros H. cbn [height]. enough (tallest (map d_instr l) <= 3 * deep l + 7) by (unfold tallest in *; lia). apply tallest_le, Forall_map. apply Forall_forall. intros i Hi. rewrite Forall_forall in H. specialize (H i Hi). pose proof (deep_in i l Hi). lia.
  Qed.
  Lemma instr_height i : height (d_instr i) <= 3 * nesting i + 7.
  Proof.
    induction i as [i Hi|t l IH|t l IH|t l o IH IHo|t c l IH] using instr_nested_ind.
    - pose proof (flat_height i Hi). lia.
    - pose proof (bt_height t). apply body_height in IH. cbn [d_instr nesting]. fold (deep l). remember (DList (map d_instr l)) as b. cbn [height fold_right]. lia.
    - pose proof (bt_height t). apply body_height in IH. cbn [d_instr nesting]. fold (deep l). remember (DList (map d_instr l)) as b. cbn [height fold_right]. lia.
    - pose proof (bt_height t). apply body_height in IH. cbn [d_instr nesting]. fold (deep l). remember (DList (map d_instr l)) as b.
      destruct o as [l'|].
      + pose proof (body_height _ (IHo l' eq_refl)). fold (deep l'). remember (DList (map d_instr l')) as b'. cbn [height fold_right]. lia.
      + cbn [height fold_right]. lia.
    - pose proof (bt_height t). apply body_height in IH. pose proof (list_height d_catch 3 c (fun a _ => catch_height a)). cbn [d_instr nesting]. fold (deep l). remember (DList (map d_instr l)) as b. remember (d_list d_catch c) as b'. cbn [height fold_right]. lia.
  Qed.
  (** at least two levels for a block *)
  Lemma body_tall l n : n <= tallest (map d_instr l) -> S n <= height (DList (map d_instr l)).
  Proof. intros H. cbn [height]. unfold tallest in H. lia. Qed.
  Lemma body_tallest l : Forall (fun i => 2 * nesting i <= height (d_instr i)) l -> 2 * deep l <= tallest (map d_instr l).
  Proof. induction 1 as [|i l Hi _ IH]; [cbn; lia|]. cbn [deep fold_right map tallest]. fold (deep l). fold (tallest (map d_instr l)). lia. Qed.
  Lemma instr_tall i : 2 * nesting i <= height (d_instr i).
  Proof.
    induction i as [i Hi|t l IH|t l IH|t l o IH IHo|t c l IH] using instr_nested_ind.
    - pose proof (height_pos (d_instr i)). replace (nesting i) with 0; [lia|]. destruct i; try reflexivity; discriminate Hi.
    - apply body_tallest, body_tall in IH. cbn [d_instr nesting]. fold (deep l). remember (DList (map d_instr l)) as b. cbn [height fold_right]. lia.
    - apply body_tallest, body_tall in IH. cbn [d_instr nesting]. fold (deep l). remember (DList (map d_instr l)) as b. cbn [height fold_right]. lia.
    - apply body_tallest, body_tall in IH. cbn [d_instr nesting]. fold (deep l). remember (DList (map d_instr l)) as b. destruct o as [l'|].
      + specialize (IHo l' eq_refl). apply body_tallest, body_tall in IHo. fold (deep l'). remember (DList (map d_instr l')) as b'. cbn [height fold_right]. lia.
      + cbn [height fold_right]. lia.
    - apply body_tallest, body_tall in IH. cbn [d_instr nesting]. fold (deep l). remember (DList (map d_instr l)) as b. remember (d_list d_catch c) as b'. cbn [height fold_right]. lia.
  Qed.

  Lemma expr_height d e : 1 <= d -> (forall i, In i e -> nesting i < d) -> height (d_expr e) <= 3 * d + 5.
  Proof. intros Hd H. replace (3 * d + 5) with (S (3 * d + 4)) by lia. apply list_height. intros i Hi. pose proof (instr_height i). specialize (H i Hi). lia. Qed.
  Lemma field_height k fs : Forall (fun nf : string * dtree => height (snd nf) <= k) fs -> tallest_field fs <= k.
  Proof. induction 1 as [|t l H _ IH]; cbn [tallest_field fold_right]; [lia|]. fold (tallest_field l). lia. Qed.
  Lemma module_height d m : 1 <= d -> shallow d m -> height (d_module m) <= Nat.max 13 (3 * d + 9).
  Proof.
    intros Hd HS. set (k := Nat.max 13 (3 * d + 9)).
    assert (HE : forall e, In e (exprs m) -> height (d_expr e) <= 3 * d + 5) by (intros e He; apply expr_height; [exact Hd|intros i Hi; exact (HS e i He Hi)]). unfold exprs in HE.
    assert (Hfu : forall f, In f (funcs m) -> height (d_func f) <= 3 * d + 6 \/ height (d_func f) <= 6).
    { intros f Hf. assert (H := HE (f_body f)). specialize (H ltac:(apply in_or_app; left; apply in_map; exact Hf)).
      unfold d_func. pose proof (vts_height (f_locals f)). remember (d_expr (f_body f)) as b. remember (d_list d_valtype (f_locals f)) as l. cbn [height fold_right snd d_idx d_N]. lia. }
    assert (Hta : forall t, In t (tables m) -> height (d_table t) <= 3 * d + 6).
    { intros t Ht. assert (H := HE (t_init t)). specialize (H ltac:(apply in_or_app; right; apply in_or_app; left; apply in_map; exact Ht)).
      unfold d_table. pose proof (tt_height (t_type t)). remember (d_expr (t_init t)) as b. cbn [height fold_right snd]. lia. }
    assert (Hgl : forall g, In g (globals m) -> height (d_global g) <= 3 * d + 6).
    { intros t Ht. assert (H := HE (g_init t)). specialize (H ltac:(apply in_or_app; right; apply in_or_app; right; apply in_or_app; left; apply in_map; exact Ht)).
      unfold d_global. pose proof (gt_height (g_type t)). remember (d_expr (g_init t)) as b. cbn [height fold_right snd]. lia. }
    assert (Hel : forall e, In e (elems m) -> height (d_elem e) <= 3 * d + 7).
    { intros t Ht. assert (H : forall e, In e (elem_exprs t) -> height (d_expr e) <= 3 * d + 5).
      { intros e He. apply HE. do 3 (apply in_or_app; right). apply in_or_app; left. apply in_flat_map. exists t. split; assumption. }
      unfold d_elem. assert (Hi : height (d_list d_expr (e_init t)) <= 3 * d + 6).
      { replace (3 * d + 6) with (S (3 * d + 5)) by lia. apply list_height. intros e He. apply H. apply in_or_app. left. exact He. }
      assert (Hm : height (d_elemmode (e_mode t)) <= 3 * d + 6).
      { unfold elem_exprs in H. destruct (e_mode t) as [|x o|]; cbn [d_elemmode]; [down; lia| |down; lia].
        specialize (H o ltac:(apply in_or_app; right; left; reflexivity)). remember (d_expr o) as b. cbn [height fold_right snd d_idx d_N]. lia. }
      pose proof (rt_height (e_type t)). remember (d_list d_expr (e_init t)) as b. remember (d_elemmode (e_mode t)) as b'. cbn [height fold_right snd]. lia. }
    assert (Hda : forall x, In x (datas m) -> height (d_data x) <= 3 * d + 7).
    { intros t Ht. assert (H : forall e, In e (data_exprs t) -> height (d_expr e) <= 3 * d + 5).
      { intros e He. apply HE. do 4 (apply in_or_app; right). apply in_flat_map. exists t. split; assumption. }
      unfold d_data. pose proof (list_height d_byte 1 (d_init t) (fun a _ => le_n 1)) as Hb. change (height (d_bytes (d_init t)) <= 2) in Hb.
      assert (Hm : height (d_datamode (d_mode t)) <= 3 * d + 6).
      { unfold data_exprs in H. destruct (d_mode t) as [|x o]; cbn [d_datamode]; [down; lia|].
        specialize (H o (or_introl eq_refl)). remember (d_expr o) as b. cbn [height fold_right snd d_idx d_N]. lia. }
      remember (d_bytes (d_init t)) as b. remember (d_datamode (d_mode t)) as b'. cbn [height fold_right snd]. lia. }
    unfold d_module. change (S (tallest_field (match d_module m with DStruct _ fs => fs | _ => [] end)) <= k).
    replace k with (S (Nat.pred k)) by (unfold k; lia). apply le_n_S, field_height. cbn [d_module].
    assert (Hk : 12 <= Nat.pred k /\ 3 * d + 8 <= Nat.pred k) by (unfold k; lia). destruct Hk as [Hk1 Hk2]. clear HE HS. remember (Nat.pred k) as q. clear Heqq k.
    assert (HL : forall A (f : A -> dtree) l, (forall a, In a l -> S (height (f a)) <= q) -> height (d_list f l) <= q).
    { intros A f l H. destruct q as [|q']; [lia|]. apply list_height. intros a Ha. specialize (H a Ha). lia. }
    assert (HO : forall A (f : A -> dtree) o, (forall a, S (height (f a)) <= q) -> height (d_option f o) <= q).
    { intros A f o H. destruct q as [|q']; [lia|]. apply option_height. intros a. specialize (H a). lia. }
    repeat (apply Forall_cons; [cbn [snd]; first [apply HL|apply HO]|]); try (apply Forall_nil).
    - intros b _. down. lia.
    - intros b _. down. lia.
    - intros b _. down. lia.
    - intros c _. unfold d_custom. pose proof (list_height d_byte 1 (cs_contents c) (fun a _ => le_n 1)) as Hb. change (height (d_bytes (cs_contents c)) <= 2) in Hb. remember (d_bytes (cs_contents c)) as b. cbn [height fold_right snd d_string]. lia.
    - intros t _. pose proof (rec_height t). lia.
    - intros f Hf. destruct (Hfu f Hf); lia.
    - intros t Ht. specialize (Hta t Ht). lia.
    - intros t _. pose proof (mt_height t). lia.
    - intros t Ht. specialize (Hgl t Ht). lia.
    - intros t Ht. specialize (Hel t Ht). lia.
    - intros a. down. lia.
    - intros t Ht. specialize (Hda t Ht). lia.
    - intros a. down. lia.
    - intros i _. unfold d_import. pose proof (ext_height (im_type i)). remember (d_externtype (im_type i)) as b. cbn [height fold_right snd d_string]. lia.
    - intros e _. unfold d_export. assert (height (d_externidx (ex_idx e)) <= 3) by (destruct (ex_idx e); down; lia). remember (d_externidx (ex_idx e)) as b. cbn [height fold_right snd d_string]. lia.
    - intros t _. pose proof (tag_height t). lia.
  Qed.
  (** an instruction of a body is four levels below the module *)
  Lemma module_tall m f i : In f (funcs m) -> In i (f_body f) -> 2 * nesting i + 4 <= height (d_module m).
  Proof.
    intros Hf Hi. pose proof (instr_tall i) as H.
    assert (H1 : 2 * nesting i + 1 <= height (d_expr (f_body f))).
    { cbn [d_expr d_list height]. pose proof (tallest_ge _ _ _ (in_map d_instr _ _ Hi) H) as K. unfold tallest in K. lia. }
    assert (H2 : 2 * nesting i + 2 <= height (d_func f)).
    { unfold d_func. remember (d_expr (f_body f)) as b. cbn [height fold_right snd]. lia. }
    assert (H3 : 2 * nesting i + 3 <= height (d_list d_func (funcs m))).
    { cbn [d_list height]. pose proof (tallest_ge _ _ _ (in_map d_func _ _ Hf) H2) as K. unfold tallest in K. lia. }
    unfold d_module. remember (d_list d_func (funcs m)) as b. cbn [height fold_right snd]. lia.
  Qed.
End Modules.

(** ** errors *)
Create HintDb heights.
Section Errors.
  Context {T : Texts} (h : nat) (Hh : 1 <= h) (HT : depth_of_std T h).
  Lemma eh_io e : height (debug_io e) <= h. Proof. apply HT. Qed.
  Lemma eh_utf8 e : height (debug_utf8_error e) <= h. Proof. apply HT. Qed.
  Lemma eh_bytes e : height (d_bytes e) <= 1 + h. Proof. pose proof (list_height d_byte 1 e (fun a _ => le_n 1)). unfold d_bytes. lia. Qed.
  #[local] Hint Resolve eh_io eh_utf8 eh_bytes : heights.
  #[local] Opaque d_bytes.
  Lemma eh_list {E} n (d : E -> dtree) c : (forall u, height (d_DecodeU32Error u) <= 1 + h) -> (forall e, height (d e) <= c + h) -> forall e, height (d_list_error n d e) <= 2 + (c + h).
  Proof.
    intros Hu H [u|p s]; cbn [d_list_error].
    - specialize (Hu u). remember (d_DecodeU32Error u) as b. cbn [height fold_right]. lia.
    - specialize (H s). cbn [height fold_right snd d_N]. lia.
  Qed.
  #[local] Hint Resolve eh_list : heights.
  Tactic Notation "eh" reference(f) :=
    let e := fresh "e" in intros e; unfold f; destruct e; cbn [height fold_right snd fst d_byte d_N d_Z d_kind d_bool d_try_from_int_error];
    repeat match goal with
    | |- context [height ?t] => let K := fresh "K" in eassert (K : height t <= _) by (eauto with heights nocore); let n := fresh "n" in generalize dependent (height t); intros n K
    end; lia.
  Lemma eh_from_utf8_error : forall e, height (d_from_utf8_error e) <= 2 + h. Proof. intros e. unfold d_from_utf8_error. pose proof (eh_bytes e). pose proof (eh_utf8 e). remember (d_bytes e) as b. cbn [height fold_right snd]. lia. Qed.
  #[local] Hint Resolve eh_from_utf8_error : heights.
  Lemma eh_DecodeU32Error : forall e, height (d_DecodeU32Error e) <= 1 + h. Proof. eh d_DecodeU32Error. Qed.
  #[local] Hint Resolve eh_DecodeU32Error : heights.
  Lemma eh_DecodeU64Error : forall e, height (d_DecodeU64Error e) <= 1 + h. Proof. eh d_DecodeU64Error. Qed.
  #[local] Hint Resolve eh_DecodeU64Error : heights.
  Lemma eh_DecodeI32Error : forall e, height (d_DecodeI32Error e) <= 1 + h. Proof. eh d_DecodeI32Error. Qed.
  #[local] Hint Resolve eh_DecodeI32Error : heights.
  Lemma eh_DecodeI64Error : forall e, height (d_DecodeI64Error e) <= 1 + h. Proof. eh d_DecodeI64Error. Qed.
  #[local] Hint Resolve eh_DecodeI64Error : heights.
  Lemma eh_DecodeS33Error : forall e, height (d_DecodeS33Error e) <= 1 + h. Proof. eh d_DecodeS33Error. Qed.
  #[local] Hint Resolve eh_DecodeS33Error : heights.
  Lemma eh_DecodeTypeIdxError : forall e, height (d_DecodeTypeIdxError e) <= 2 + h. Proof. eh d_DecodeTypeIdxError. Qed.
  #[local] Hint Resolve eh_DecodeTypeIdxError : heights.
  Lemma eh_DecodeFuncIdxError : forall e, height (d_DecodeFuncIdxError e) <= 2 + h. Proof. eh d_DecodeFuncIdxError. Qed.
  #[local] Hint Resolve eh_DecodeFuncIdxError : heights.
  Lemma eh_DecodeTableIdxError : forall e, height (d_DecodeTableIdxError e) <= 2 + h. Proof. eh d_DecodeTableIdxError. Qed.
  #[local] Hint Resolve eh_DecodeTableIdxError : heights.
  Lemma eh_DecodeMemIdxError : forall e, height (d_DecodeMemIdxError e) <= 2 + h. Proof. eh d_DecodeMemIdxError. Qed.
  #[local] Hint Resolve eh_DecodeMemIdxError : heights.
  Lemma eh_DecodeGlobalIdxError : forall e, height (d_DecodeGlobalIdxError e) <= 2 + h. Proof. eh d_DecodeGlobalIdxError. Qed.
  #[local] Hint Resolve eh_DecodeGlobalIdxError : heights.
  Lemma eh_DecodeElemIdxError : forall e, height (d_DecodeElemIdxError e) <= 2 + h. Proof. eh d_DecodeElemIdxError. Qed.
  #[local] Hint Resolve eh_DecodeElemIdxError : heights.
  Lemma eh_DecodeDataIdxError : forall e, height (d_DecodeDataIdxError e) <= 2 + h. Proof. eh d_DecodeDataIdxError. Qed.
  #[local] Hint Resolve eh_DecodeDataIdxError : heights.
  Lemma eh_DecodeLocalIdxError : forall e, height (d_DecodeLocalIdxError e) <= 2 + h. Proof. eh d_DecodeLocalIdxError. Qed.
  #[local] Hint Resolve eh_DecodeLocalIdxError : heights.
  Lemma eh_DecodeLabelIdxError : forall e, height (d_DecodeLabelIdxError e) <= 2 + h. Proof. eh d_DecodeLabelIdxError. Qed.
  #[local] Hint Resolve eh_DecodeLabelIdxError : heights.
  Lemma eh_DecodeTagIdxError : forall e, height (d_DecodeTagIdxError e) <= 2 + h. Proof. eh d_DecodeTagIdxError. Qed.
  #[local] Hint Resolve eh_DecodeTagIdxError : heights.
  Lemma eh_DecodeFloat32Error : forall e, height (d_DecodeFloat32Error e) <= 1 + h. Proof. eh d_DecodeFloat32Error. Qed.
  #[local] Hint Resolve eh_DecodeFloat32Error : heights.
  Lemma eh_DecodeFloat64Error : forall e, height (d_DecodeFloat64Error e) <= 1 + h. Proof. eh d_DecodeFloat64Error. Qed.
  #[local] Hint Resolve eh_DecodeFloat64Error : heights.
  Lemma eh_DecodeByteVectorError : forall e, height (d_DecodeByteVectorError e) <= 2 + h. Proof. eh d_DecodeByteVectorError. Qed.
  #[local] Hint Resolve eh_DecodeByteVectorError : heights.
  Lemma eh_DecodeNameError : forall e, height (d_DecodeNameError e) <= 3 + h. Proof. eh d_DecodeNameError. Qed.
  #[local] Hint Resolve eh_DecodeNameError : heights.
  Lemma eh_InvalidAbsHeapTypeMarkerError : forall e, height (d_InvalidAbsHeapTypeMarkerError e) <= 1 + h. Proof. eh d_InvalidAbsHeapTypeMarkerError. Qed.
  #[local] Hint Resolve eh_InvalidAbsHeapTypeMarkerError : heights.
  Lemma eh_DecodeAbsHeapTypeError : forall e, height (d_DecodeAbsHeapTypeError e) <= 2 + h. Proof. eh d_DecodeAbsHeapTypeError. Qed.
  #[local] Hint Resolve eh_DecodeAbsHeapTypeError : heights.
  Lemma eh_DecodeHeapTypeError : forall e, height (d_DecodeHeapTypeError e) <= 2 + h. Proof. eh d_DecodeHeapTypeError. Qed.
  #[local] Hint Resolve eh_DecodeHeapTypeError : heights.
  Lemma eh_DecodeRefTypeError : forall e, height (d_DecodeRefTypeError e) <= 3 + h. Proof. eh d_DecodeRefTypeError. Qed.
  #[local] Hint Resolve eh_DecodeRefTypeError : heights.
  Lemma eh_DecodeValTypeError : forall e, height (d_DecodeValTypeError e) <= 4 + h. Proof. eh d_DecodeValTypeError. Qed.
  #[local] Hint Resolve eh_DecodeValTypeError : heights.
  Lemma eh_DecodeResultTypeError : forall e, height (d_DecodeResultTypeError e) <= 7 + h. Proof. eh d_DecodeResultTypeError. Qed.
  #[local] Hint Resolve eh_DecodeResultTypeError : heights.
  Lemma eh_InvalidMutabilityByteError : forall e, height (d_InvalidMutabilityByteError e) <= 1 + h. Proof. eh d_InvalidMutabilityByteError. Qed.
  #[local] Hint Resolve eh_InvalidMutabilityByteError : heights.
  Lemma eh_DecodeGlobalTypeError : forall e, height (d_DecodeGlobalTypeError e) <= 5 + h. Proof. eh d_DecodeGlobalTypeError. Qed.
  #[local] Hint Resolve eh_DecodeGlobalTypeError : heights.
  Lemma eh_DecodeStorageTypeError : forall e, height (d_DecodeStorageTypeError e) <= 5 + h. Proof. eh d_DecodeStorageTypeError. Qed.
  #[local] Hint Resolve eh_DecodeStorageTypeError : heights.
  Lemma eh_DecodeFieldTypeError : forall e, height (d_DecodeFieldTypeError e) <= 6 + h. Proof. eh d_DecodeFieldTypeError. Qed.
  #[local] Hint Resolve eh_DecodeFieldTypeError : heights.
  Lemma eh_DecodeCompTypeError : forall e, height (d_DecodeCompTypeError e) <= 9 + h. Proof. eh d_DecodeCompTypeError. Qed.
  #[local] Hint Resolve eh_DecodeCompTypeError : heights.
  Lemma eh_InvalidPackTypeMarkerError : forall e, height (d_InvalidPackTypeMarkerError e) <= 1 + h. Proof. eh d_InvalidPackTypeMarkerError. Qed.
  #[local] Hint Resolve eh_InvalidPackTypeMarkerError : heights.
  Lemma eh_DecodeSubTypeError : forall e, height (d_DecodeSubTypeError e) <= 10 + h. Proof. eh d_DecodeSubTypeError. Qed.
  #[local] Hint Resolve eh_DecodeSubTypeError : heights.
  Lemma eh_DecodeRecTypeError : forall e, height (d_DecodeRecTypeError e) <= 13 + h. Proof. eh d_DecodeRecTypeError. Qed.
  #[local] Hint Resolve eh_DecodeRecTypeError : heights.
  Lemma eh_ParseLimitsError : forall e, height (d_ParseLimitsError e) <= 2 + h. Proof. eh d_ParseLimitsError. Qed.
  #[local] Hint Resolve eh_ParseLimitsError : heights.
  Lemma eh_DecodeMemoryTypeError : forall e, height (d_DecodeMemoryTypeError e) <= 3 + h. Proof. eh d_DecodeMemoryTypeError. Qed.
  #[local] Hint Resolve eh_DecodeMemoryTypeError : heights.
  Lemma eh_DecodeTableTypeError : forall e, height (d_DecodeTableTypeError e) <= 4 + h. Proof. eh d_DecodeTableTypeError. Qed.
  #[local] Hint Resolve eh_DecodeTableTypeError : heights.
  Lemma eh_DecodeTagTypeError : forall e, height (d_DecodeTagTypeError e) <= 3 + h. Proof. eh d_DecodeTagTypeError. Qed.
  #[local] Hint Resolve eh_DecodeTagTypeError : heights.
  Lemma eh_DecodeExternTypeError : forall e, height (d_DecodeExternTypeError e) <= 6 + h. Proof. eh d_DecodeExternTypeError. Qed.
  #[local] Hint Resolve eh_DecodeExternTypeError : heights.
  Lemma eh_MemargError : forall e, height (d_MemargError e) <= 3 + h. Proof. eh d_MemargError. Qed.
  #[local] Hint Resolve eh_MemargError : heights.
  Lemma eh_LaneIdxError : forall e, height (d_LaneIdxError e) <= 1 + h. Proof. eh d_LaneIdxError. Qed.
  #[local] Hint Resolve eh_LaneIdxError : heights.
  Lemma eh_BlockTypeError : forall e, height (d_BlockTypeError e) <= 2 + h. Proof. eh d_BlockTypeError. Qed.
  #[local] Hint Resolve eh_BlockTypeError : heights.
  Lemma eh_CatchError : forall e, height (d_CatchError e) <= 3 + h. Proof. eh d_CatchError. Qed.
  #[local] Hint Resolve eh_CatchError : heights.
  Lemma eh_ControlError : forall e, height (d_ControlError e) <= 6 + h. Proof. eh d_ControlError. Qed.
  #[local] Hint Resolve eh_ControlError : heights.
  Lemma eh_ReferenceError : forall e, height (d_ReferenceError e) <= 3 + h. Proof. eh d_ReferenceError. Qed.
  #[local] Hint Resolve eh_ReferenceError : heights.
  Lemma eh_AggregateError : forall e, height (d_AggregateError e) <= 3 + h. Proof. eh d_AggregateError. Qed.
  #[local] Hint Resolve eh_AggregateError : heights.
  Lemma eh_ParametricError : forall e, height (d_ParametricError e) <= 7 + h. Proof. eh d_ParametricError. Qed.
  #[local] Hint Resolve eh_ParametricError : heights.
  Lemma eh_VariableError : forall e, height (d_VariableError e) <= 3 + h. Proof. eh d_VariableError. Qed.
  #[local] Hint Resolve eh_VariableError : heights.
  Lemma eh_TableError : forall e, height (d_TableError e) <= 3 + h. Proof. eh d_TableError. Qed.
  #[local] Hint Resolve eh_TableError : heights.
  Lemma eh_MemoryError : forall e, height (d_MemoryError e) <= 4 + h. Proof. eh d_MemoryError. Qed.
  #[local] Hint Resolve eh_MemoryError : heights.
  Lemma eh_NumericError : forall e, height (d_NumericError e) <= 2 + h. Proof. eh d_NumericError. Qed.
  #[local] Hint Resolve eh_NumericError : heights.
  Lemma eh_VectorError : forall e, height (d_VectorError e) <= 4 + h. Proof. eh d_VectorError. Qed.
  #[local] Hint Resolve eh_VectorError : heights.
  Lemma eh_ParseError : forall e, height (d_ParseError e) <= 8 + h. Proof. eh d_ParseError. Qed.
  #[local] Hint Resolve eh_ParseError : heights.
  Lemma eh_ParseExpressionError : forall e, height (d_ParseExpressionError e) <= 9 + h. Proof. eh d_ParseExpressionError. Qed.
  #[local] Hint Resolve eh_ParseExpressionError : heights.
  Lemma eh_DecodeCustomSectionError : forall e, height (d_DecodeCustomSectionError e) <= 4 + h. Proof. eh d_DecodeCustomSectionError. Qed.
  #[local] Hint Resolve eh_DecodeCustomSectionError : heights.
  Lemma eh_DecodeTypeSectionError : forall e, height (d_DecodeTypeSectionError e) <= 16 + h. Proof. eh d_DecodeTypeSectionError. Qed.
  #[local] Hint Resolve eh_DecodeTypeSectionError : heights.
  Lemma eh_DecodeImportError : forall e, height (d_DecodeImportError e) <= 7 + h. Proof. eh d_DecodeImportError. Qed.
  #[local] Hint Resolve eh_DecodeImportError : heights.
  Lemma eh_DecodeImportSectionError : forall e, height (d_DecodeImportSectionError e) <= 10 + h. Proof. eh d_DecodeImportSectionError. Qed.
  #[local] Hint Resolve eh_DecodeImportSectionError : heights.
  Lemma eh_DecodeFunctionSectionError : forall e, height (d_DecodeFunctionSectionError e) <= 5 + h. Proof. eh d_DecodeFunctionSectionError. Qed.
  #[local] Hint Resolve eh_DecodeFunctionSectionError : heights.
  Lemma eh_DecodeTableError : forall e, height (d_DecodeTableError e) <= 10 + h. Proof. eh d_DecodeTableError. Qed.
  #[local] Hint Resolve eh_DecodeTableError : heights.
  Lemma eh_DecodeTableSectionError : forall e, height (d_DecodeTableSectionError e) <= 13 + h. Proof. eh d_DecodeTableSectionError. Qed.
  #[local] Hint Resolve eh_DecodeTableSectionError : heights.
  Lemma eh_DecodeMemorySectionError : forall e, height (d_DecodeMemorySectionError e) <= 6 + h. Proof. eh d_DecodeMemorySectionError. Qed.
  #[local] Hint Resolve eh_DecodeMemorySectionError : heights.
  Lemma eh_DecodeTagSectionError : forall e, height (d_DecodeTagSectionError e) <= 6 + h. Proof. eh d_DecodeTagSectionError. Qed.
  #[local] Hint Resolve eh_DecodeTagSectionError : heights.
  Lemma eh_DecodeGlobalError : forall e, height (d_DecodeGlobalError e) <= 10 + h. Proof. eh d_DecodeGlobalError. Qed.
  #[local] Hint Resolve eh_DecodeGlobalError : heights.
  Lemma eh_DecodeGlobalSectionError : forall e, height (d_DecodeGlobalSectionError e) <= 13 + h. Proof. eh d_DecodeGlobalSectionError. Qed.
  #[local] Hint Resolve eh_DecodeGlobalSectionError : heights.
  Lemma eh_InvalidExportDescMarkerByte : forall e, height (d_InvalidExportDescMarkerByte e) <= 1 + h. Proof. eh d_InvalidExportDescMarkerByte. Qed.
  #[local] Hint Resolve eh_InvalidExportDescMarkerByte : heights.
  Lemma eh_DecodeExportError : forall e, height (d_DecodeExportError e) <= 4 + h. Proof. eh d_DecodeExportError. Qed.
  #[local] Hint Resolve eh_DecodeExportError : heights.
  Lemma eh_DecodeExportSectionError : forall e, height (d_DecodeExportSectionError e) <= 7 + h. Proof. eh d_DecodeExportSectionError. Qed.
  #[local] Hint Resolve eh_DecodeExportSectionError : heights.
  Lemma eh_DecodeStartSectionError : forall e, height (d_DecodeStartSectionError e) <= 3 + h. Proof. eh d_DecodeStartSectionError. Qed.
  #[local] Hint Resolve eh_DecodeStartSectionError : heights.
  Lemma eh_DecodeElementKindError : forall e, height (d_DecodeElementKindError e) <= 1 + h. Proof. eh d_DecodeElementKindError. Qed.
  #[local] Hint Resolve eh_DecodeElementKindError : heights.
  Lemma eh_DecodeElementError : forall e, height (d_DecodeElementError e) <= 12 + h. Proof. eh d_DecodeElementError. Qed.
  #[local] Hint Resolve eh_DecodeElementError : heights.
  Lemma eh_DecodeElementSectionError : forall e, height (d_DecodeElementSectionError e) <= 15 + h. Proof. eh d_DecodeElementSectionError. Qed.
  #[local] Hint Resolve eh_DecodeElementSectionError : heights.
  Lemma eh_DecodeDataCountSectionError : forall e, height (d_DecodeDataCountSectionError e) <= 2 + h. Proof. eh d_DecodeDataCountSectionError. Qed.
  #[local] Hint Resolve eh_DecodeDataCountSectionError : heights.
  Lemma eh_DecodeCodeLocalsError : forall e, height (d_DecodeCodeLocalsError e) <= 5 + h. Proof. eh d_DecodeCodeLocalsError. Qed.
  #[local] Hint Resolve eh_DecodeCodeLocalsError : heights.
  Lemma eh_DecodeCodeError : forall e, height (d_DecodeCodeError e) <= 10 + h. Proof. eh d_DecodeCodeError. Qed.
  #[local] Hint Resolve eh_DecodeCodeError : heights.
  Lemma eh_DecodeCodeSectionError : forall e, height (d_DecodeCodeSectionError e) <= 13 + h. Proof. eh d_DecodeCodeSectionError. Qed.
  #[local] Hint Resolve eh_DecodeCodeSectionError : heights.
  Lemma eh_DecodeDataSegmentError : forall e, height (d_DecodeDataSegmentError e) <= 10 + h. Proof. eh d_DecodeDataSegmentError. Qed.
  #[local] Hint Resolve eh_DecodeDataSegmentError : heights.
  Lemma eh_DecodeDataSectionError : forall e, height (d_DecodeDataSectionError e) <= 13 + h. Proof. eh d_DecodeDataSectionError. Qed.
  #[local] Hint Resolve eh_DecodeDataSectionError : heights.
  Lemma eh_ParsePreambleError : forall e, height (d_ParsePreambleError e) <= 2 + h. Proof. eh d_ParsePreambleError. Qed.
  #[local] Hint Resolve eh_ParsePreambleError : heights.
  Lemma eh_InvalidSectionIdError : forall e, height (d_InvalidSectionIdError e) <= 1 + h. Proof. eh d_InvalidSectionIdError. Qed.
  #[local] Hint Resolve eh_InvalidSectionIdError : heights.
  Lemma eh_DecodeSectionHeaderError : forall e, height (d_DecodeSectionHeaderError e) <= 2 + h. Proof. eh d_DecodeSectionHeaderError. Qed.
  #[local] Hint Resolve eh_DecodeSectionHeaderError : heights.
  Lemma eh_DecodeModuleError : forall e, height (d_DecodeModuleError e) <= 17 + h. Proof. eh d_DecodeModuleError. Qed.
  #[local] Hint Resolve eh_DecodeModuleError : heights.
End Errors.
