(** The decoders are the same function of every reader: a map between readers
    that commutes with [read] commutes with every decoder. *)
From Verif Require Import Model.Prelude Model.Io Model.Ast Model.Errors Model.Integer Model.Helpers Model.Types Model.Instr Model.Sections Model.Module.

Class Erasure (S R : Type) `{Reader S} `{Reader R} : Type := {
  er : S -> R;
  er_read : forall s n, read (er s) n = let '(x, s') := read s n in (x, er s');
  er_budget : forall s, budget (er s) = budget s
}.
#[export] Hint Mode Erasure ! - - - : typeclass_instances.

#[export] Instance take_erasure {S R} `{Erasure S R} : Erasure (Take S) (Take R).
Proof.
  refine {| er t := mkTake (t_limit t) (er (t_inner t)) |}.
  - intros t n. cbn. destruct (t_limit t =? 0)%N; [reflexivity|]. rewrite er_read. destruct (read (t_inner t) _) as [[d|k|] s']; try destruct (lenN d <=? t_limit t)%N; reflexivity.
  - intros t. exact (er_budget (t_inner t)).
Defined.
#[export] Instance chain_erasure {S R} `{Erasure S R} : Erasure (Chain S) (Chain R).
Proof.
  refine {| er c := mkChain (c_first c) (c_done c) (er (c_second c)) |}.
  - intros c n. cbn. rewrite er_read. destruct (c_done c) eqn:Ed; [|destruct (takeN n (c_first c)); [destruct (n =? 0)%N|]]; try reflexivity;
      try (destruct (read (c_second c) n) as [x s']; reflexivity). cbn. rewrite Ed. reflexivity.
  - intros c. cbn. rewrite er_budget. reflexivity.
Defined.

Definition Er {S R E A} `{Erasure S R} (p : M R E A) (q : M S E A) : Prop :=
  forall s, p (er s) = let '(x, s') := q s in (x, er s').

Section Comb.
  Context {env : Env} {S R : Type} `{Erasure S R}.
  Lemma er_ret {E A} (a : A) : Er (ret a : M R E A) (ret a).
  Proof. intros s; reflexivity. Qed.
  Lemma er_throw {E A} (e : E) : Er (throw e : M R E A) (throw e).
  Proof. intros s; reflexivity. Qed.
  Lemma er_panic {E A} p : Er (panic_with p : M R E A) (panic_with p).
  Proof. intros s; reflexivity. Qed.
  Lemma er_stuck {E A} : Er (stuck : M R E A) stuck.
  Proof. intros s; reflexivity. Qed.
  Lemma er_bind {E A B} (p : M R E A) p' (q : A -> M R E B) q' : Er p p' -> (forall a, Er (q a) (q' a)) -> Er (bind p q) (bind p' q').
  Proof. intros Hp Hq s. unfold bind. rewrite Hp. destruct (p' s) as [[a|e|pn|] s1]; try reflexivity. apply Hq. Qed.
  Lemma er_map_err {E E' A} (f : E -> E') (p : M R E A) p' : Er p p' -> Er (map_err f p) (map_err f p').
  Proof. intros Hp s. unfold map_err. rewrite Hp. destruct (p' s) as [[a|e|pn|] s1]; reflexivity. Qed.
  Lemma er_try_ok {E E' A} (p : M R E A) p' : Er p p' -> Er (try_ok p : M R E' _) (try_ok p').
  Proof. intros Hp s. unfold try_ok. rewrite Hp. destruct (p' s) as [[a|e|pn|] s1]; reflexivity. Qed.
  Lemma er_switch_nil {E A} n (d d' : _) : Er (d : M R E A) d' -> Er (switch n [] d) (switch n [] d').
  Proof. exact (fun H => H). Qed.
  Lemma er_switch_cons {E A} n p (a : M R E A) a' arms arms' d d' : Er a a' -> Er (switch n arms d) (switch n arms' d') -> Er (switch n ((p, a) :: arms) d) (switch n ((p, a') :: arms') d').
  Proof. intros Ha Hd. cbn. destruct (pmatch p n); assumption. Qed.
  Lemma er_alloc {E} n : Er (alloc n : M R E unit) (alloc n).
  Proof. unfold alloc. destruct (n <=? alloc_limit)%N; [apply er_ret|apply er_panic]. Qed.
  Lemma er_read_exact_loop fuel : forall need acc, Er (read_exact_loop fuel need acc : M R _ _) (read_exact_loop fuel need acc).
  Proof.
    induction fuel as [|fuel IH]; intros need acc s; cbn [read_exact_loop]; destruct (need =? 0)%N; try reflexivity.
    rewrite er_read. destruct (read s need) as [[[|b d]|k|] s1]; [reflexivity| |destruct k; try reflexivity; apply IH|reflexivity].
    destruct (lenN (b :: d) <=? need)%N; [apply IH|reflexivity].
  Qed.
  Lemma er_read_exact n : Er (read_exact n : M R _ _) (read_exact n).
  Proof. intros s. unfold read_exact. rewrite er_budget. apply er_read_exact_loop. Qed.
  Lemma er_read_byte : Er (read_byte : M R _ _) read_byte.
  Proof. apply er_bind; [apply er_read_exact|]. intros [|b l]; [apply er_panic|apply er_ret]. Qed.
  Lemma er_read_to_end : Er (read_to_end : M R _ _) read_to_end.
  Proof.
    intros s. unfold read_to_end. rewrite er_budget. generalize (Datatypes.S (budget s)) as fuel, 0 as i, (@nil byte) as acc. intros fuel. revert s.
    induction fuel as [|fuel IH]; intros s i acc; cbn [read_to_end_loop]; [reflexivity|].
    rewrite er_read. destruct (read s (N.succ (probe i))) as [[[|b d]|k|] s1]; [reflexivity|destruct (lenN (b :: d) <=? N.succ (probe i))%N; [destruct (lenN (acc ++ b :: d) <=? alloc_limit)%N; [apply IH|reflexivity]|reflexivity]|destruct k; try reflexivity; apply IH|reflexivity].
  Qed.
  Lemma er_with_chain {E A} b (p : M (Chain R) E A) p' : Er p p' -> Er (with_chain b p) (with_chain b p').
  Proof.
    intros Hp s. unfold with_chain. specialize (Hp (mkChain [b] false s)). cbn [er chain_erasure c_first c_done c_second] in Hp. rewrite Hp.
    destruct (p' (mkChain [b] false s)) as [x c]. reflexivity.
  Qed.
  Lemma er_with_take {E A} n (p : M (Take R) E A) p' : Er p p' -> Er (with_take n p) (with_take n p').
  Proof.
    intros Hp s. unfold with_take. specialize (Hp (mkTake n s)). cbn [er take_erasure t_limit t_inner] in Hp. rewrite Hp.
    destruct (p' (mkTake n s)) as [x c]. reflexivity.
  Qed.
  Lemma er_loopN {E T} (f f' : _) n : (forall t, Er (f t : M R E T) (f' t)) -> forall t, Er (loopN f n t) (loopN f' n t).
  Proof.
    intros Hst. destruct n as [|p]; cbn; [intros; apply er_ret|].
    induction p as [p IH|p IH|]; cbn; intros s.
    - apply er_bind; [apply Hst|]. intros s1. apply er_bind; apply IH.
    - apply er_bind; apply IH.
    - apply Hst.
  Qed.
  Lemma er_fuel {E A} (p : nat -> M R E A) p' : (forall n, Er (p n) (p' n)) -> Er (fun r => p (Datatypes.S (budget r)) r) (fun r => p' (Datatypes.S (budget r)) r).
  Proof. intros HS s. rewrite er_budget. apply HS. Qed.
End Comb.

Create HintDb er.
#[export] Hint Resolve er_ret er_throw er_panic er_stuck er_alloc er_read_exact er_read_byte er_read_to_end : er.
Ltac er_step :=
  match goal with
  | |- Er (bind _ _) _ => eapply er_bind; [|intros ?]
  | |- Er (map_err _ _) _ => eapply er_map_err
  | |- Er (try_ok _) _ => eapply er_try_ok
  | |- Er (switch _ [] _) _ => apply er_switch_nil
  | |- Er (switch _ (_ :: _) _) _ => apply er_switch_cons
  | |- Er (with_chain _ _) _ => apply er_with_chain
  | |- Er (with_take _ _) _ => apply er_with_take
  | |- Er (match ?o with Some _ => _ | None => _ end) _ => destruct o
  | |- Er (if ?c then _ else _) _ => destruct c
  | |- Er (match ?z with (x, y) => _ end) _ => destruct z
  | |- Er (let x := _ in _) _ => cbv zeta
  | |- Er (loopN _ _ _) _ => apply er_loopN; intros ?
  end.
Ltac erase := repeat (first [solve [eauto 2 with er nocore] | er_step]).
Ltac er_def f := intros; unfold f; erase.

Section Leaves.
  Context {env : Env} {S R : Type} `{Erasure S R}.
  Lemma er_shl_u32 {E} x n : Er (shl_u32 x n : M R E _) (shl_u32 x n). Proof. er_def @shl_u32. Qed.
  Lemma er_shl_u64 {E} x n : Er (shl_u64 x n : M R E _) (shl_u64 x n). Proof. er_def @shl_u64. Qed.
  Lemma er_shl_i64 {E} x n : Er (shl_i64 x n : M R E _) (shl_i64 x n). Proof. er_def @shl_i64. Qed.
  Lemma er_add_u8 {E} x n : Er (add_u8 x n : M R E _) (add_u8 x n). Proof. er_def @add_u8. Qed.
  Lemma er_add_u64 {E} x n : Er (add_u64 x n : M R E _) (add_u64 x n). Proof. er_def @add_u64. Qed.
  Lemma er_sub_u32 {E} x n : Er (sub_u32 x n : M R E _) (sub_u32 x n). Proof. er_def @sub_u32. Qed.
  Lemma er_sub_u64 {E} x n : Er (sub_u64 x n : M R E _) (sub_u64 x n). Proof. er_def @sub_u64. Qed.
  Hint Resolve er_shl_u32 er_shl_u64 er_shl_i64 er_add_u8 : er.
  Lemma er_u32 : Er (decode_u32 : M R _ _) decode_u32.
  Proof. assert (HH : forall is x y, Er (u32_loop is x y : M R _ _) (u32_loop is x y)) by (induction is as [|i is IH]; intros; cbn [u32_loop]; erase). apply HH. Qed.
  Lemma er_u64 : Er (decode_u64 : M R _ _) decode_u64.
  Proof. assert (HH : forall is x y, Er (u64_loop is x y : M R _ _) (u64_loop is x y)) by (induction is as [|i is IH]; intros; cbn [u64_loop]; erase). apply HH. Qed.
  Lemma er_i32 : Er (decode_i32 : M R _ _) decode_i32.
  Proof. assert (HH : forall is x y, Er (i32_loop is x y : M R _ _) (i32_loop is x y)) by (induction is as [|i is IH]; intros; cbn [i32_loop]; erase). apply HH. Qed.
  Lemma er_i64 : Er (decode_i64 : M R _ _) decode_i64.
  Proof. assert (HH : forall is x y, Er (i64_loop is x y : M R _ _) (i64_loop is x y)) by (induction is as [|i is IH]; intros; cbn [i64_loop]; erase). apply HH. Qed.
  Lemma er_s33 : Er (decode_s33 : M R _ _) decode_s33.
  Proof. assert (HH : forall is x y, Er (s33_loop is x y : M R _ _) (s33_loop is x y)) by (induction is as [|i is IH]; intros; cbn [s33_loop]; erase). apply HH. Qed.
End Leaves.
#[export] Hint Resolve er_shl_u32 er_shl_u64 er_shl_i64 er_add_u8 er_add_u64 er_sub_u32 er_sub_u64 er_u32 er_u64 er_i32 er_i64 er_s33 : er.

Section Helpers.
  Context {env : Env} {S R : Type} `{Erasure S R}.
  Lemma er_f32 : Er (decode_f32 : M R _ _) decode_f32. Proof. er_def @decode_f32. Qed.
  Lemma er_f64 : Er (decode_f64 : M R _ _) decode_f64. Proof. er_def @decode_f64. Qed.
  Lemma er_list_st {St E T} (f : St -> M R E (T * St)) f' st : (forall s, Er (f s) (f' s)) -> Er (decode_list_st f st) (decode_list_st f' st).
  Proof. intros Hf. unfold decode_list_st, list_step. erase. Qed.
  Lemma er_list {E T} (f : M R E T) f' : Er f f' -> Er (decode_list f) (decode_list f').
  Proof. intros Hf. unfold decode_list. apply er_list_st. intros _. erase. Qed.
  Lemma er_byte_vector : Er (decode_byte_vector : M R _ _) decode_byte_vector. Proof. er_def @decode_byte_vector. Qed.
  Hint Resolve er_byte_vector : er.
  Lemma er_name : Er (decode_name : M R _ _) decode_name. Proof. er_def @decode_name. Qed.
  Lemma er_unwrap {E} x : Er (u32_try_from_unwrap x : M R E _) (u32_try_from_unwrap x). Proof. er_def @u32_try_from_unwrap. Qed.
End Helpers.
#[export] Hint Resolve er_f32 er_f64 er_byte_vector er_name er_unwrap : er.
#[export] Hint Extern 1 (Er (decode_list _) _) => eapply er_list : er.

Section Types.
  Context {env : Env}.
  Lemma er_decode_typeidx {S R} `{Erasure S R} : Er (decode_typeidx : M R _ _) (decode_typeidx ). Proof. er_def @decode_typeidx. Qed.
  Hint Resolve er_decode_typeidx : er.
  Lemma er_decode_funcidx {S R} `{Erasure S R} : Er (decode_funcidx : M R _ _) (decode_funcidx ). Proof. er_def @decode_funcidx. Qed.
  Hint Resolve er_decode_funcidx : er.
  Lemma er_decode_tableidx {S R} `{Erasure S R} : Er (decode_tableidx : M R _ _) (decode_tableidx ). Proof. er_def @decode_tableidx. Qed.
  Hint Resolve er_decode_tableidx : er.
  Lemma er_decode_memidx {S R} `{Erasure S R} : Er (decode_memidx : M R _ _) (decode_memidx ). Proof. er_def @decode_memidx. Qed.
  Hint Resolve er_decode_memidx : er.
  Lemma er_decode_globalidx {S R} `{Erasure S R} : Er (decode_globalidx : M R _ _) (decode_globalidx ). Proof. er_def @decode_globalidx. Qed.
  Hint Resolve er_decode_globalidx : er.
  Lemma er_decode_elemidx {S R} `{Erasure S R} : Er (decode_elemidx : M R _ _) (decode_elemidx ). Proof. er_def @decode_elemidx. Qed.
  Hint Resolve er_decode_elemidx : er.
  Lemma er_decode_dataidx {S R} `{Erasure S R} : Er (decode_dataidx : M R _ _) (decode_dataidx ). Proof. er_def @decode_dataidx. Qed.
  Hint Resolve er_decode_dataidx : er.
  Lemma er_decode_localidx {S R} `{Erasure S R} : Er (decode_localidx : M R _ _) (decode_localidx ). Proof. er_def @decode_localidx. Qed.
  Hint Resolve er_decode_localidx : er.
  Lemma er_decode_labelidx {S R} `{Erasure S R} : Er (decode_labelidx : M R _ _) (decode_labelidx ). Proof. er_def @decode_labelidx. Qed.
  Hint Resolve er_decode_labelidx : er.
  Lemma er_decode_tagidx {S R} `{Erasure S R} : Er (decode_tagidx : M R _ _) (decode_tagidx ). Proof. er_def @decode_tagidx. Qed.
  Hint Resolve er_decode_tagidx : er.
  Lemma er_decode_absheaptype {S R} `{Erasure S R} : Er (decode_absheaptype : M R _ _) (decode_absheaptype ). Proof. er_def @decode_absheaptype. Qed.
  Hint Resolve er_decode_absheaptype : er.
  Lemma er_decode_heaptype {S R} `{Erasure S R} : Er (decode_heaptype : M R _ _) (decode_heaptype ). Proof. er_def @decode_heaptype. Qed.
  Hint Resolve er_decode_heaptype : er.
  Lemma er_decode_reftype {S R} `{Erasure S R} : Er (decode_reftype : M R _ _) (decode_reftype ). Proof. er_def @decode_reftype. Qed.
  Hint Resolve er_decode_reftype : er.
  Lemma er_decode_valtype {S R} `{Erasure S R} : Er (decode_valtype : M R _ _) (decode_valtype ). Proof. er_def @decode_valtype. Qed.
  Hint Resolve er_decode_valtype : er.
  Lemma er_decode_result_type {S R} `{Erasure S R} : Er (decode_result_type : M R _ _) (decode_result_type ). Proof. er_def @decode_result_type. Qed.
  Hint Resolve er_decode_result_type : er.
  Lemma er_decode_globaltype {S R} `{Erasure S R} : Er (decode_globaltype : M R _ _) (decode_globaltype ). Proof. er_def @decode_globaltype. Qed.
  Hint Resolve er_decode_globaltype : er.
  Lemma er_decode_storagetype {S R} `{Erasure S R} : Er (decode_storagetype : M R _ _) (decode_storagetype ). Proof. er_def @decode_storagetype. Qed.
  Hint Resolve er_decode_storagetype : er.
  Lemma er_decode_fieldtype {S R} `{Erasure S R} : Er (decode_fieldtype : M R _ _) (decode_fieldtype ). Proof. er_def @decode_fieldtype. Qed.
  Hint Resolve er_decode_fieldtype : er.
  Lemma er_decode_comptype {S R} `{Erasure S R} : Er (decode_comptype : M R _ _) (decode_comptype ). Proof. er_def @decode_comptype. Qed.
  Hint Resolve er_decode_comptype : er.
  Lemma er_decode_subtype {S R} `{Erasure S R} : Er (decode_subtype : M R _ _) (decode_subtype ). Proof. er_def @decode_subtype. Qed.
  Hint Resolve er_decode_subtype : er.
  Lemma er_decode_rectype {S R} `{Erasure S R} : Er (decode_rectype : M R _ _) (decode_rectype ). Proof. er_def @decode_rectype. Qed.
  Hint Resolve er_decode_rectype : er.
  Lemma er_parse_limits {S R} `{Erasure S R} : Er (parse_limits : M R _ _) (parse_limits ). Proof. er_def @parse_limits. Qed.
  Hint Resolve er_parse_limits : er.
  Lemma er_parse_memtype {S R} `{Erasure S R} : Er (parse_memtype : M R _ _) (parse_memtype ). Proof. er_def @parse_memtype. Qed.
  Hint Resolve er_parse_memtype : er.
  Lemma er_decode_tabletype {S R} `{Erasure S R} : Er (decode_tabletype : M R _ _) (decode_tabletype ). Proof. er_def @decode_tabletype. Qed.
  Hint Resolve er_decode_tabletype : er.
  Lemma er_decode_tagtype {S R} `{Erasure S R} : Er (decode_tagtype : M R _ _) (decode_tagtype ). Proof. er_def @decode_tagtype. Qed.
  Hint Resolve er_decode_tagtype : er.
  Lemma er_decode_externtype {S R} `{Erasure S R} : Er (decode_externtype : M R _ _) (decode_externtype ). Proof. er_def @decode_externtype. Qed.
  Hint Resolve er_decode_externtype : er.
End Types.
#[export] Hint Resolve er_decode_typeidx er_decode_funcidx er_decode_tableidx er_decode_memidx er_decode_globalidx er_decode_elemidx er_decode_dataidx er_decode_localidx er_decode_labelidx er_decode_tagidx er_decode_absheaptype er_decode_heaptype er_decode_reftype er_decode_valtype er_decode_result_type er_decode_globaltype er_decode_storagetype er_decode_fieldtype er_decode_comptype er_decode_subtype er_decode_rectype er_parse_limits er_parse_memtype er_decode_tabletype er_decode_tagtype er_decode_externtype : er.

Section Instr.
  Context {env : Env}.
  Lemma er_decode_memarg {S R} `{Erasure S R} : Er (decode_memarg : M R _ _) (decode_memarg ). Proof. er_def @decode_memarg. Qed.
  Hint Resolve er_decode_memarg : er.
  Lemma er_decode_laneidx {S R} `{Erasure S R} : Er (decode_laneidx : M R _ _) (decode_laneidx ). Proof. er_def @decode_laneidx. Qed.
  Hint Resolve er_decode_laneidx : er.
  Lemma er_decode_blocktype {S R} `{Erasure S R} : Er (decode_blocktype : M R _ _) (decode_blocktype ). Proof. er_def @decode_blocktype. Qed.
  Hint Resolve er_decode_blocktype : er.
  Lemma er_decode_catch {S R} `{Erasure S R} : Er (decode_catch : M R _ _) (decode_catch ). Proof. er_def @decode_catch. Qed.
  Hint Resolve er_decode_catch : er.
  Lemma er_decode_castop {S R} `{Erasure S R} : Er (decode_castop : M R _ _) (decode_castop ). Proof. er_def @decode_castop. Qed.
  Hint Resolve er_decode_castop : er.
  Lemma er_parse_body {S R} `{Erasure S R} p p' ae : Er p p' -> Er (parse_body p ae : M R _ _) (parse_body p' ae).
  Proof.
    intros Hp. unfold parse_body. apply (er_fuel (fun n => body_loop p ae n []) (fun n => body_loop p' ae n [])). intros n. generalize (@nil instr) as acc.
    induction n as [|n IH]; intros acc; cbn [body_loop]; [erase|]. apply er_bind; [exact Hp|]. intros [i| |]; erase.
  Qed.
  Hint Resolve er_parse_body : er.
  Lemma er_parse_block {S R} `{Erasure S R} p p' op : Er p p' -> Er (parse_block p op : M R _ _) (parse_block p' op).
  Proof.
    intros Hp. unfold parse_block, ctl. er_step; [erase|]. er_step; [erase|]. destruct a0 as [in1 [i| |]]; erase.
  Qed.
  Lemma er_parse_try_table {S R} `{Erasure S R} p p' : Er p p' -> Er (parse_try_table p : M R _ _) (parse_try_table p').
  Proof. intros Hp. unfold parse_try_table, ctl. erase. Qed.
  Lemma er_inner {S R} `{Erasure S R} {E A} op (tbl : list (N * A)) : Er (inner op tbl : M R E A) (inner op tbl). Proof. er_def @inner. Qed.
  Hint Resolve er_inner er_parse_block er_parse_try_table : er.
  Lemma er_parse_fb {S R} `{Erasure S R} : Er (parse_fb : M R _ _) parse_fb. Proof. unfold parse_fb, rf, agg, ctl. erase. Qed.
  Lemma er_parse_fc {S R} `{Erasure S R} : Er (parse_fc : M R _ _) parse_fc. Proof. unfold parse_fc, num, mem, tab. erase. Qed.
  Lemma er_parse_fd {S R} `{Erasure S R} : Er (parse_fd : M R _ _) parse_fd. Proof. unfold parse_fd, vec. erase. Qed.
  Hint Resolve er_parse_fb er_parse_fc er_parse_fd : er.
  Lemma er_parse_op {S R} `{Erasure S R} p p' opcode : Er p p' -> Er (parse_op p opcode : M R _ _) (parse_op p' opcode).
  Proof. intros Hp. unfold parse_op, ctl, rf, var, tab, mem, num. cbv zeta. erase. Qed.
  Hint Resolve er_parse_op : er.
  Lemma er_parse {S R} `{Erasure S R} d : Er (parse d : M R _ _) (parse d).
  Proof. induction d as [|d IH]; cbn [parse]; erase. Qed.
  Hint Resolve er_parse : er.
  Lemma er_expr {S R} `{Erasure S R} : Er (decode_expr : M R _ _) decode_expr.
  Proof.
    unfold decode_expr. apply (er_fuel (fun n => expr_loop n [] false) (fun n => expr_loop n [] false)). intros n. generalize (@nil instr) as acc, false as b.
    induction n as [|n IH]; intros acc b; cbn [expr_loop]; [erase|]. er_step; [erase|]. destruct a as [i| |]; erase.
  Qed.
  Hint Resolve er_expr : er.
  Lemma er_expr_only {S R} `{Erasure S R} : Er (decode_expr_only : M R _ _) decode_expr_only.
  Proof. er_def @decode_expr_only. Qed.
End Instr.
#[export] Hint Resolve er_expr er_expr_only : er.

Section Sections.
  Context {env : Env}.
  Lemma er_decode_section_custom {S R} `{Erasure S R} : Er (decode_section_custom : M R _ _) (decode_section_custom ). Proof. er_def @decode_section_custom. Qed.
  Hint Resolve er_decode_section_custom : er.
  Lemma er_decode_type_section {S R} `{Erasure S R} : Er (decode_type_section : M R _ _) (decode_type_section ). Proof. er_def @decode_type_section. Qed.
  Hint Resolve er_decode_type_section : er.
  Lemma er_parse_import {S R} `{Erasure S R} : Er (parse_import : M R _ _) (parse_import ). Proof. er_def @parse_import. Qed.
  Hint Resolve er_parse_import : er.
  Lemma er_decode_import_section {S R} `{Erasure S R} : Er (decode_import_section : M R _ _) (decode_import_section ). Proof. er_def @decode_import_section. Qed.
  Hint Resolve er_decode_import_section : er.
  Lemma er_decode_function_section {S R} `{Erasure S R} : Er (decode_function_section : M R _ _) (decode_function_section ). Proof. er_def @decode_function_section. Qed.
  Hint Resolve er_decode_function_section : er.
  Lemma er_decode_table {S R} `{Erasure S R} : Er (decode_table : M R _ _) (decode_table ). Proof. er_def @decode_table. Qed.
  Hint Resolve er_decode_table : er.
  Lemma er_decode_table_section {S R} `{Erasure S R} : Er (decode_table_section : M R _ _) (decode_table_section ). Proof. er_def @decode_table_section. Qed.
  Hint Resolve er_decode_table_section : er.
  Lemma er_decode_memory_section {S R} `{Erasure S R} : Er (decode_memory_section : M R _ _) (decode_memory_section ). Proof. er_def @decode_memory_section. Qed.
  Hint Resolve er_decode_memory_section : er.
  Lemma er_decode_tag_section {S R} `{Erasure S R} : Er (decode_tag_section : M R _ _) (decode_tag_section ). Proof. er_def @decode_tag_section. Qed.
  Hint Resolve er_decode_tag_section : er.
  Lemma er_parse_global {S R} `{Erasure S R} : Er (parse_global : M R _ _) (parse_global ). Proof. er_def @parse_global. Qed.
  Hint Resolve er_parse_global : er.
  Lemma er_decode_global_section {S R} `{Erasure S R} : Er (decode_global_section : M R _ _) (decode_global_section ). Proof. er_def @decode_global_section. Qed.
  Hint Resolve er_decode_global_section : er.
  Lemma er_decode_start_section {S R} `{Erasure S R} : Er (decode_start_section : M R _ _) (decode_start_section ). Proof. er_def @decode_start_section. Qed.
  Hint Resolve er_decode_start_section : er.
  Lemma er_parse_elemkind {S R} `{Erasure S R} : Er (parse_elemkind : M R _ _) (parse_elemkind ). Proof. er_def @parse_elemkind. Qed.
  Hint Resolve er_parse_elemkind : er.
  Lemma er_parse_elem {S R} `{Erasure S R} : Er (parse_elem : M R _ _) (parse_elem ). Proof. er_def @parse_elem. Qed.
  Hint Resolve er_parse_elem : er.
  Lemma er_decode_element_section {S R} `{Erasure S R} : Er (decode_element_section : M R _ _) (decode_element_section ). Proof. er_def @decode_element_section. Qed.
  Hint Resolve er_decode_element_section : er.
  Lemma er_decode_datacount_section {S R} `{Erasure S R} : Er (decode_datacount_section : M R _ _) (decode_datacount_section ). Proof. er_def @decode_datacount_section. Qed.
  Hint Resolve er_decode_datacount_section : er.
  Lemma er_parse_data {S R} `{Erasure S R} : Er (parse_data : M R _ _) (parse_data ). Proof. er_def @parse_data. Qed.
  Hint Resolve er_parse_data : er.
  Lemma er_decode_data_section {S R} `{Erasure S R} : Er (decode_data_section : M R _ _) (decode_data_section ). Proof. er_def @decode_data_section. Qed.
  Hint Resolve er_decode_data_section : er.
  Lemma er_export {S R} `{Erasure S R} : Er (parse_export : M R _ _) parse_export.
  Proof. unfold parse_export. do 3 (er_step; [erase|]). destruct (externidx_from a0 a1); erase. Qed.
  Hint Resolve er_export : er.
  Lemma er_export_section {S R} `{Erasure S R} : Er (decode_export_section : M R _ _) decode_export_section. Proof. er_def @decode_export_section. Qed.
  Lemma er_code_local {S R} `{Erasure S R} m n : Er (parse_code_local m n : M R _ _) (parse_code_local m n). Proof. er_def @parse_code_local. Qed.
  Hint Resolve er_export_section er_code_local : er.
  Lemma er_code {S R} `{Erasure S R} : Er (parse_code : M R _ _) parse_code.
  Proof.
    unfold parse_code. er_step; [erase|]. er_step.
    - er_step. er_step; [er_step; apply er_list_st; intros; erase|]. erase.
    - destruct a0 as [[l [e b]] n]. erase.
  Qed.
  Hint Resolve er_code : er.
  Lemma er_code_section {S R} `{Erasure S R} : Er (decode_code_section : M R _ _) decode_code_section. Proof. er_def @decode_code_section. Qed.
  Hint Resolve er_code_section : er.
  Lemma er_fill_codes {S R} `{Erasure S R} codes : forall i fs b, Er (fill_codes i codes fs b : M R _ _) (fill_codes i codes fs b).
  Proof. induction codes as [|c codes IH]; intros; cbn [fill_codes]; erase. Qed.
  Hint Resolve er_fill_codes : er.
  Lemma er_decode_section {S R} `{Erasure S R} kind s : Er (decode_section kind s : M R _ _) (decode_section kind s).
  Proof. unfold decode_section. cbv zeta. destruct kind; erase. Qed.
  Hint Resolve er_decode_section : er.
  Lemma er_validate {S R} `{Erasure S R} m h : Er (validate_section_kind_expected m h : M R _ _) (validate_section_kind_expected m h).
  Proof. er_def @validate_section_kind_expected. Qed.
  Hint Resolve er_validate : er.
  Lemma er_preamble {S R} `{Erasure S R} : Er (parse_preamble : M R _ _) parse_preamble. Proof. er_def @parse_preamble. Qed.
  Lemma er_section_step {S R} `{Erasure S R} h s : Er (section_step h s : M R _ _) (section_step h s).
  Proof. er_def @section_step. Qed.
  Lemma er_read_section_id {S R} `{Erasure S R} : Er (read_section_id : M R _ _) read_section_id.
  Proof. intros s. unfold read_section_id. rewrite (er_read_byte s). destruct (read_byte s) as [[b|[]|p|] s']; reflexivity. Qed.
  Hint Resolve er_preamble er_section_step er_read_section_id : er.
  Lemma er_header {S R} `{Erasure S R} : Er (decode_section_header : M R _ _) decode_section_header.
  Proof. er_def @decode_section_header. Qed.
  Hint Resolve er_header : er.
  Lemma er_section_loop {S R} `{Erasure S R} s : Er (section_loop' s : M R _ _) (section_loop' s).
  Proof.
    unfold section_loop'. apply (er_fuel (fun n => section_loop n s) (fun n => section_loop n s)). intros n. revert s.
    induction n as [|n IH]; intros s; cbn [section_loop]; erase.
  Qed.
  Hint Resolve er_section_loop : er.
  Theorem er_decode_module {S R} `{Erasure S R} : Er (decode_module : M R _ _) decode_module.
  Proof. unfold decode_module, final_checks. erase. Qed.
End Sections.
