(** Every fault is caused by the stop of the input, or is there whatever follows. *)
From Verif Require Import Model.Prelude Model.Io Model.Ast Model.Errors Model.Display.
From Verif Require Import Spec.Lang Spec.Types Spec.Instr Spec.Module Spec.Streams Spec.Leb Spec.Faults Spec.Causes.
From Coq Require Import Lia ZifyBool ZifyNat ZifyN.

Definition Settled {E} (n : E -> node) (F : faulty E) : Prop :=
  forall bs stop e, F bs stop e ->
    io_cause (n e) (io stop) \/ (negative_blocktype (n e) /\ cut_blocktype bs) \/
    ((forall rest stop', F (bs ++ rest) stop' e) /\ forall k, io_cause (n e) k -> k = UnexpectedEof).

(** the same after the byte [b] *)
Definition Settled1 {E} (b : byte) (n : E -> node) (F : faulty E) : Prop :=
  forall bs stop e, F bs stop e ->
    io_cause (n e) (io stop) \/ (negative_blocktype (n e) /\ cut_blocktype (b :: bs)) \/
    ((forall rest stop', F (bs ++ rest) stop' e) /\ forall k, io_cause (n e) k -> k = UnexpectedEof).

Definition same_root {E E'} (n : E -> node) (n' : E' -> node) (f : E -> E') : Prop := forall e, innermost (n' (f e)) = innermost (n e).

Lemma cut_app pre bs : cut_blocktype bs -> cut_blocktype (pre ++ bs).
Proof. intros (p & b & t & -> & H). exists (pre ++ p), b, t. rewrite <- app_assoc. auto. Qed.
Lemma cut_cons a bs : cut_blocktype bs -> cut_blocktype (a :: bs).
Proof. exact (cut_app [a] bs). Qed.
Section Comb.
  Lemma st_nothing {E} (n : E -> node) : Settled n nothing.
  Proof. intros bs stop e []. Qed.
  Lemma st_wrong {E} (n : E -> node) e0 : (forall k, ~ io_cause (n e0) k) -> Settled n (wrong e0).
  Proof. intros HN bs stop e He. unfold wrong in *. rewrite He. right. right. split; [intros; reflexivity|]. intros k Hk. exfalso. exact (HN _ Hk). Qed.
  Lemma st_at {E E'} (n : E -> node) (n' : E' -> node) f F : Settled n F -> same_root n n' f -> Settled n' (at_ f F).
  Proof.
    intros HF HR bs stop e (e' & He & ->). unfold io_cause, negative_blocktype. rewrite HR. destruct (HF _ _ _ He) as [H1|[[H1 H1']|[H1 H2]]]; [left; exact H1|right; left; split; [exact H1|exact H1']|right; right].
    split; [|intros k Hk; rewrite HR in Hk; exact (H2 _ Hk)]. intros rest stop'. exists e'. auto.
  Qed.
  Lemma st_after {A E} (n : E -> node) (X : lang A) (K : A -> faulty E) : (forall a, Settled n (K a)) -> Settled n (after_ X K).
  Proof.
    intros HK bs stop e (a & pre & rest & -> & HX & He). destruct (HK _ _ _ _ He) as [H1|[[H1 H1']|[H1 H2]]]; [left; exact H1|right; left; split; [exact H1|apply cut_app; exact H1']|right; right].
    split; [|exact H2]. intros rest' stop'. exists a, pre, (rest ++ rest'). rewrite <- app_assoc. auto.
  Qed.
  Lemma st_or {E} (n : E -> node) (F1 F2 : faulty E) : Settled n F1 -> Settled n F2 -> Settled n (fun bs stop e => F1 bs stop e \/ F2 bs stop e).
  Proof.
    intros H1 H2 bs stop e [He|He]; [destruct (H1 _ _ _ He) as [Hx|[Hx|[Hx Hy]]]|destruct (H2 _ _ _ He) as [Hx|[Hx|[Hx Hy]]]]; auto; right; right; split; auto.
  Qed.
  Lemma st_field {A E E'} (n : E -> node) (n' : E' -> node) f F (X : lang A) (K : A -> faulty E') :
    Settled n F -> same_root n n' f -> (forall a, Settled n' (K a)) -> Settled n' (field f F X K).
  Proof. intros HF HR HK. apply st_or; [eapply st_at; eassumption|apply st_after, HK]. Qed.
  Lemma st_weaken {E} b (n : E -> node) F : Settled n F -> Settled1 b n F.
  Proof. intros HF bs stop e He. destruct (HF _ _ _ He) as [H1|[[H1 H2]|H1]]; [left; exact H1|right; left; split; [exact H1|apply cut_cons; exact H2]|right; right; exact H1]. Qed.
  Lemma st_byte1 {E} (n : E -> node) f (K : byte -> faulty E) : (forall e, innermost (n (f e)) = Io e) -> (forall b, Settled1 b n (K b)) -> Settled n (byte_ f K).
  Proof.
    intros HR HK [|b bs] stop e He; cbn in He; [subst e; left; apply HR|]. exact (HK b bs stop e He).
  Qed.
  Lemma st_byte {E} (n : E -> node) f (K : byte -> faulty E) : (forall e, innermost (n (f e)) = Io e) -> (forall b, Settled n (K b)) -> Settled n (byte_ f K).
  Proof. intros HR HK. apply st_byte1; [exact HR|]. intros b. apply st_weaken, HK. Qed.
  Lemma st_peek {E} (n : E -> node) f (K : byte -> faulty E) : (forall e, innermost (n (f e)) = Io e) -> (forall b, Settled n (K b)) -> Settled n (peek f K).
  Proof.
    intros HR HK [|b bs] stop e He; cbn in He; [subst e; left; apply HR|]. exact (HK b (b :: bs) stop e He).
  Qed.
  Lemma st_bytes n : Settled Io (Fbytes n).
  Proof. intros bs stop e [_ ->]. left. reflexivity. Qed.
  Lemma st_leb {E} (n : E -> node) k fits misfit too_long f : (forall e, innermost (n (f e)) = Io e) ->
    (forall x, ~ io_cause (n misfit) x) -> (forall x, ~ io_cause (n too_long) x) -> Settled n (Fleb k fits misfit too_long f).
  Proof.
    intros Hf H1 H2 bs stop e [cs b rest stop0 Hc Hl Hb Hfit|cs rest stop0 Hc Hl|cs stop0 Hc Hl].
    - right. right. split; [|intros x Hx; exfalso; exact (H1 _ Hx)]. intros rest' stop'. rewrite <- app_assoc. cbn [app]. constructor; assumption.
    - right. right. split; [|intros x Hx; exfalso; exact (H2 _ Hx)]. intros rest' stop'. rewrite <- app_assoc. constructor; assumption.
    - left. apply Hf.
  Qed.
  Lemma st_nth {A E} (n : E -> node) (X : lang A) F m : Settled n F -> Settled (n_list n) (Fnth X F m).
  Proof.
    intros HF bs stop e (xs & w & rest & e' & -> & HX & Hl & He & ->). destruct (HF _ _ _ He) as [H1|[[H1 H1']|[H1 H2]]]; [left; exact H1|right; left; split; [exact H1|apply cut_app; exact H1']|right; right].
    split; [|exact H2]. intros rest' stop'. exists xs, w, (rest ++ rest'), e'. rewrite <- app_assoc. auto 6.
  Qed.
End Comb.
Ltac leaf := let H := fresh in intros ? H; discriminate H.
Lemma st_u32 : Settled n_u32 Fu32. Proof. apply st_leb; [reflexivity|leaf|leaf]. Qed.
Lemma st_u64 : Settled n_u64 Fu64. Proof. apply st_leb; [reflexivity|leaf|leaf]. Qed.
Lemma st_i32 : Settled n_i32 Fi32. Proof. apply st_leb; [reflexivity|leaf|leaf]. Qed.
Lemma st_i64 : Settled n_i64 Fi64. Proof. apply st_leb; [reflexivity|leaf|leaf]. Qed.
Lemma st_s33 : Settled n_s33 Fs33. Proof. apply st_leb; [reflexivity|leaf|leaf]. Qed.
Lemma st_list {A E} (n : E -> node) (X : lang A) F : Settled n F -> Settled (n_list n) (Flist X F).
Proof. intros HF. eapply st_field; [apply st_u32|intros e; reflexivity|intros m; apply st_nth; exact HF]. Qed.
Ltac cases := repeat match goal with |- Settled _ (match ?x with _ => _ end) => destruct x end.
Create HintDb st discriminated.
#[export] Hint Resolve st_u32 st_u64 st_i32 st_i64 st_s33 st_bytes st_nothing : st.
(** one step *)
Ltac st1 := first
  [ solve [simple eapply st_bytes | eauto 1 with st nocore]
  | apply st_nothing
  | apply st_wrong; leaf
  | apply st_list
  | match goal with
    | |- Settled _ (field _ _ _ _) => eapply st_field
    | |- Settled _ (at_ _ _) => eapply st_at
    | |- same_root _ _ _ => intros ?e; reflexivity
    | |- forall _, Settled _ _ => intros ?a
    | |- Settled _ (byte_ _ _) => apply st_byte; [reflexivity|intros ?b]
    | |- Settled _ (peek _ _) => apply st_peek; [reflexivity|intros ?b]
    | |- Settled _ (match ?x with _ => _ end) => destruct x
    | |- Settled _ (let _ := _ in _) => cbv zeta
    end ].
Ltac st := repeat st1.

(** ** Names *)
Lemma st_byte_vector : Settled n_byte_vector Fbyte_vector.
Proof. unfold Fbyte_vector. st. Qed.
Lemma st_name : Settled n_name Fname.
Proof.
  unfold Fname. eapply st_field; [apply st_byte_vector|intros e; reflexivity|]. intros s bs stop e [Hu ->].
  right. right. split; [auto|leaf].
Qed.
#[export] Hint Resolve st_byte_vector st_name : st.
(** ** Types *)
Lemma st_heaptype : Settled n_heaptype Fheaptype.
Proof. unfold Fheaptype, Ftypeidx33. st. Qed.
#[export] Hint Resolve st_heaptype : st.
Lemma st_reftype : Settled n_reftype Freftype.
Proof. unfold Freftype. st. Qed.
#[export] Hint Resolve st_reftype : st.
Lemma st_valtype : Settled n_valtype Fvaltype.
Proof. unfold Fvaltype. st. Qed.
#[export] Hint Resolve st_valtype : st.
Lemma st_resulttype : Settled n_resulttype Fresulttype.
Proof. unfold Fresulttype. st. Qed.
#[export] Hint Resolve st_resulttype : st.
Lemma st_globaltype : Settled n_globaltype Fglobaltype.
Proof. unfold Fglobaltype, Fmut. st. Qed.
Lemma st_storagetype : Settled n_storagetype Fstoragetype.
Proof. unfold Fstoragetype. st. Qed.
#[export] Hint Resolve st_globaltype st_storagetype : st.
Lemma st_fieldtype : Settled n_fieldtype Ffieldtype.
Proof. unfold Ffieldtype, Fmut. st. Qed.
#[export] Hint Resolve st_fieldtype : st.
Lemma st_comptype : Settled n_comptype Fcomptype.
Proof. unfold Fcomptype. st. Qed.
#[export] Hint Resolve st_comptype : st.
Lemma st_limits : Settled n_limits Flimits.
Proof. unfold Flimits. st. Qed.
#[export] Hint Resolve st_limits : st.
Lemma st_memtype : Settled n_memtype Fmemtype.
Proof. unfold Fmemtype. st. Qed.
Lemma st_tabletype : Settled n_tabletype Ftabletype.
Proof. unfold Ftabletype. st. Qed.
Lemma st_tagtype : Settled n_tagtype Ftagtype.
Proof. unfold Ftagtype. st. Qed.
#[export] Hint Resolve st_memtype st_tabletype st_tagtype : st.
Lemma st_externtype : Settled n_externtype Fexterntype.
Proof. unfold Fexterntype. st. Qed.
#[export] Hint Resolve st_externtype : st.
Lemma st_unread {E} (n : E -> node) (F : faulty E) b : Settled n F -> Settled1 b n (fun rest => F (b :: rest)).
Proof. intros HF bs stop e He. exact (HF (b :: bs) stop e He). Qed.
Lemma st_subtype : Settled n_subtype Fsubtype.
Proof.
  assert (HS : Settled n_subtype (byte_ SubT_Io (fun b => match b with
     | x4f | x50 => field SubT_DecodeSupertypes (Flist Bidx (at_ TypeIdxE Fu32)) (Blist Bidx) (fun _ => at_ SubT_DecodeCompType Fcomptype)
     | b => fun rest => at_ SubT_DecodeCompType Fcomptype (b :: rest) end))).
  { apply st_byte1; [reflexivity|]. intros b.
    assert (H1 : Settled n_subtype (field SubT_DecodeSupertypes (Flist Bidx (at_ TypeIdxE Fu32)) (Blist Bidx) (fun _ => at_ SubT_DecodeCompType Fcomptype))).
    { eapply st_field; [apply st_list with (n := n_typeidx); st|st|st]. }
    assert (H2 : forall b, Settled1 b n_subtype (fun rest => at_ SubT_DecodeCompType Fcomptype (b :: rest))).
    { intros b'. apply st_unread. st. }
    destruct b; first [apply st_weaken; exact H1|apply H2]. }
  intros [|b bs] stop e He; [cbn in He; subst e; left; reflexivity|]. destruct b; match type of He with _ ?x _ _ => exact (HS x stop e He) end.
Qed.
#[export] Hint Resolve st_subtype : st.
Lemma st_rectype : Settled n_rectype Frectype.
Proof.
  assert (HS : Settled n_rectype (byte_ Rec_Io (fun b => match b with
     | x4e => at_ Rec_DecodeSubtypes (Flist Bsubtype Fsubtype)
     | b => fun rest => at_ Rec_DecodeSubtype Fsubtype (b :: rest) end))).
  { apply st_byte1; [reflexivity|]. intros b.
    assert (H1 : Settled n_rectype (at_ Rec_DecodeSubtypes (Flist Bsubtype Fsubtype))) by st.
    assert (H2 : forall b, Settled1 b n_rectype (fun rest => at_ Rec_DecodeSubtype Fsubtype (b :: rest))).
    { intros b'. apply st_unread. st. }
    destruct b; first [apply st_weaken; exact H1|apply H2]. }
  intros [|b bs] stop e He; [cbn in He; subst e; left; reflexivity|]. destruct b; match type of He with _ ?x _ _ => exact (HS x stop e He) end.
Qed.
#[export] Hint Resolve st_rectype : st.

(** ** Instructions *)
Lemma st_memarg : Settled n_memarg Fmemarg.
Proof.
  unfold Fmemarg. eapply st_field; [apply st_u32|st|]. intros n. destruct (n <? 2 ^ 6)%N; [st|]. destruct (n <? 2 ^ 7)%N; [|st].
  eapply st_field; [apply st_u32|st|st].
Qed.
#[export] Hint Resolve st_memarg : st.
Lemma st_ref b x F : b = x63 \/ b = x64 -> x = (-29)%Z \/ x = (-28)%Z ->
  (forall rest stop e, F (b :: rest) stop e <-> (exists e', Fvaltype (b :: rest) stop e') /\ e = BT_NegativeTypeIndex x) ->
  Settled1 b n_blocktype (fun rest => F (b :: rest)).
Proof.
  intros Hb Hx HF bs stop e He. apply HF in He as [[e' He] ->].
  assert (HX : Fheaptype bs stop = Fheaptype bs stop) by reflexivity.
  assert (HV : forall r s, (exists e', Fheaptype r s e') -> exists e', Fvaltype (b :: r) s e').
  { intros r s [e0 H0]. exists (VTE_DecodeRefType (RT_DecodeHeapType e0)). destruct Hb as [->| ->]; exists (RT_DecodeHeapType e0); (split; [exists e0; auto|reflexivity]). }
  assert (Hh : exists e0, Fheaptype bs stop e0).
  { destruct Hb as [->| ->]; destruct He as (e1 & (e0 & He & _) & _); exists e0; exact He. }
  clear He e'. assert (Hneg : negative_blocktype (n_blocktype (BT_NegativeTypeIndex x))) by (destruct Hx as [->| ->]; [left|right]; reflexivity).
  assert (Hgo : (Forall continues bs /\ length bs < 5) \/ (forall r s, exists e0, Fheaptype (bs ++ r) s e0)).
  { destruct Hh as [e0 Hh]. destruct bs as [|c bs]; [left; split; [constructor|cbn; lia]|].
    assert (HG : Ftypeidx33 HT_DecodeTypeIndex HT_NegativeTypeIndex (c :: bs) stop e0 ->
       (Forall continues (c :: bs) /\ length (c :: bs) < 5) \/ forall r s, exists e0, Ftypeidx33 HT_DecodeTypeIndex HT_NegativeTypeIndex ((c :: bs) ++ r) s e0).
    { intros [(e1 & H1 & ->)|(a & pre & rest & E1 & HU & Ha)].
      - remember (c :: bs) as w eqn:Ew. clear Ew. destruct H1 as [cs b0 rest stop0 Hc Hl Hb0 Hf|cs rest stop0 Hc Hl|cs stop0 Hc Hl].
        + right. intros r s. eexists. left. eexists. split; [|reflexivity]. rewrite <- app_assoc. cbn [app]. apply Fleb_misfit; eassumption.
        + right. intros r s. eexists. left. eexists. split; [|reflexivity]. rewrite <- app_assoc. apply Fleb_long; eassumption.
        + left. auto.
      - right. intros r s. eexists. right. exists a, pre, (rest ++ r). rewrite E1, <- app_assoc. split; [reflexivity|]. split; [exact HU|].
        destruct (a <? 0)%Z; [|destruct Ha]. reflexivity. }
    destruct c; first [exact (HG Hh) | destruct Hh]. }
  destruct Hgo as [[Hc Hl]|Hs].
  - right. left. split; [exact Hneg|]. exists [], b, bs. auto.
  - right. right. split; [|leaf]. intros r s. apply HF. split; [|reflexivity]. apply HV, Hs.
Qed.
Lemma st_peek_byte {E} (n : E -> node) f (K : byte -> faulty E) : (forall e, innermost (n (f e)) = Io e) -> (forall b, Settled1 b n (fun rest => K b (b :: rest))) -> Settled n (peek f K).
Proof.
  intros HR HK [|b bs] stop e He; cbn in He; [subst e; left; apply HR|]. exact (HK b bs stop e He).
Qed.
Lemma st_blocktype : Settled n_blocktype Fblocktype.
Proof.
  unfold Fblocktype. apply st_peek_byte; [reflexivity|]. intros b.
  assert (H1 : Settled n_blocktype (Ftypeidx33 BT_DecodeIndex BT_NegativeTypeIndex)) by (unfold Ftypeidx33; st).
  destruct b; cbv iota beta.
  all: first [apply st_weaken, st_nothing|apply st_unread; exact H1|idtac].
  - refine (st_ref x63 (-29)%Z (fun bs stop e => (exists e', Fvaltype bs stop e') /\ e = BT_NegativeTypeIndex (-29)%Z) _ _ _); auto. reflexivity.
  - refine (st_ref x64 (-28)%Z (fun bs stop e => (exists e', Fvaltype bs stop e') /\ e = BT_NegativeTypeIndex (-28)%Z) _ _ _); auto. reflexivity.
Qed.
#[export] Hint Resolve st_blocktype : st.
Lemma st_catch : Settled n_catch Fcatch.
Proof.
  unfold Fcatch. cbv zeta. apply st_byte; [reflexivity|]. intros b.
  assert (H1 : Settled n_catch (at_ (fun e => Catch_DecodeLabelIdx (LabelIdxE e)) Fu32)) by st.
  destruct b; first [apply st_wrong; leaf|exact H1|eapply st_field; [apply st_u32|st|intros _; exact H1]].
Qed.
#[export] Hint Resolve st_catch : st.
Lemma st_br_on_cast : Settled n_instr Fbr_on_cast.
Proof.
  unfold Fbr_on_cast. apply st_byte; [reflexivity|]. intros b.
  assert (H1 : Settled n_instr (field (fun e => PE_Control (Ctl_LabelIdx (LabelIdxE e))) Fu32 Bidx (fun _ =>
        field (fun e => PE_Control (Ctl_HeapType e)) Fheaptype Bheaptype (fun _ =>
        at_ (fun e => PE_Control (Ctl_HeapType e)) Fheaptype)))) by st.
  destruct b; first [apply st_wrong; leaf|exact H1].
Qed.
#[export] Hint Resolve st_br_on_cast : st.
Lemma st_fb n : Settled n_instr (Ffb n).
Proof.
  unfold Ffb, e_aggtype.
  assert (HD : Settled n_instr (if assigned ops_fb n then nothing else wrong (PE_InvalidMarkerByteAfterFB n))) by st.
  repeat first [exact HD | match goal with |- Settled _ (match ?x with _ => _ end) => destruct x end | solve [st]].
Qed.
Lemma st_fc n : Settled n_instr (Ffc n).
Proof.
  unfold Ffc, e_data, e_mem, e_elem, e_table.
  assert (HD : Settled n_instr (if assigned ops_fc n then nothing else wrong (PE_InvalidMarkerByteAfterFC n))) by st.
  repeat first [exact HD | match goal with |- Settled _ (match ?x with _ => _ end) => destruct x end | solve [st]].
Qed.
Lemma st_fd n : Settled n_instr (Ffd n).
Proof. unfold Ffd. st. Qed.
#[export] Hint Resolve st_fb st_fc st_fd : st.
Lemma st_labels : Settled (n_list n_labelidx) (Flist Bidx (at_ LabelIdxE Fu32)).
Proof. apply st_list. st. Qed.
#[export] Hint Resolve st_labels : st.
Lemma st_op b : Settled n_instr (Fop b).
Proof. destruct b; cbv beta iota delta [Fop]; unfold e_label, e_func, e_type, e_table, e_mem; st. Qed.
Lemma st_catches : Settled (n_list n_catch) (Flist Bcatch Fcatch).
Proof. st. Qed.
Lemma st_instr : Settled n_instr Finstr.
Proof.
  intros bs stop e He. induction He as [stop|b rest stop e Hb He|b rest stop e Hb He|bt w rest stop e Hw He|o h is w rest stop e Ho Hw He IH|h is w rest stop Ho Hw].
  - left. reflexivity.
  - destruct (st_op b _ _ _ He) as [H1|[[H1 H1']|[H1 H2]]]; [left; exact H1|right; left; split; [exact H1|apply cut_cons; exact H1']|right; right]. split; [|exact H2].
    intros rest' stop'. cbn [app]. apply Fi_op; auto.
  - destruct (st_blocktype _ _ _ He) as [H1|[[H1 H1']|[H1 H2]]]; [left; exact H1|right; left; split; [exact H1|apply cut_cons; exact H1']|right; right]. split; [|exact H2].
    intros rest' stop'. cbn [app]. apply Fi_blocktype; auto.
  - destruct (st_catches _ _ _ He) as [H1|[[H1 H1']|[H1 H2]]]; [left; exact H1|right; left; split; [exact H1|apply cut_cons, cut_app; exact H1']|right; right]. split; [|exact H2].
    intros rest' stop'. cbn [app]. rewrite <- app_assoc. eapply Fi_catches; eauto.
  - destruct IH as [H1|[[H1 H1']|[H1 H2]]]; [left; exact H1|right; left; split; [exact H1|apply cut_app, cut_app; exact H1']|right; right]. split; [|exact H2].
    intros rest' stop'. rewrite <- !app_assoc. eapply Fi_body; eauto.
  - right. right. split; [|leaf]. intros rest' stop'. rewrite <- !app_assoc. cbn [app]. eapply Fi_else; eauto.
Qed.
Lemma st_expr : Settled n_expr Fexpr.
Proof.
  intros bs stop e [is w rest stop0 e0 Hw He|is w rest stop0 Hw].
  - destruct (st_instr _ _ _ He) as [H1|[[H1 H1']|[H1 H2]]]; [left; exact H1|right; left; split; [exact H1|apply cut_app; exact H1']|right; right]. split; [|exact H2].
    intros rest' stop'. rewrite <- app_assoc. econstructor; eauto.
  - right. right. split; [|leaf]. intros rest' stop'. rewrite <- app_assoc. cbn [app]. econstructor; eauto.
Qed.
#[export] Hint Resolve st_expr : st.

(** ** Sections *)
Lemma st_import : Settled n_import Fimport.
Proof. unfold Fimport. st. Qed.
Lemma st_table : Settled n_table Ftable.
Proof.
  assert (HS : Settled n_table (byte_ Tbl_Io (fun b => match b with
     | x40 => byte_ Tbl_Io (fun b =>
          match b with
          | x00 => field Tbl_DecodeTableType Ftabletype Btabletype (fun _ => at_ Tbl_DecodeExpression Fexpr)
          | _ => wrong (Tbl_UnexpectedMarkerByte b)
          end)
     | b => fun rest => at_ Tbl_DecodeTableType Ftabletype (b :: rest) end))).
  { apply st_byte1; [reflexivity|]. intros b.
    assert (H1 : Settled n_table (byte_ Tbl_Io (fun b =>
          match b with
          | x00 => field Tbl_DecodeTableType Ftabletype Btabletype (fun _ => at_ Tbl_DecodeExpression Fexpr)
          | _ => wrong (Tbl_UnexpectedMarkerByte b)
          end))) by st.
    assert (H2 : forall b, Settled1 b n_table (fun rest => at_ Tbl_DecodeTableType Ftabletype (b :: rest))).
    { intros b'. apply st_unread. st. }
    destruct b; first [apply st_weaken; exact H1|apply H2]. }
  intros [|b bs] stop e He; [cbn in He; subst e; left; reflexivity|]. destruct b; match type of He with _ ?x _ _ => exact (HS x stop e He) end.
Qed.
Lemma st_global : Settled n_global Fglobal.
Proof. unfold Fglobal. st. Qed.
Lemma st_export : Settled n_export Fexport.
Proof. unfold Fexport. st. Qed.
Lemma st_elemkind : Settled n_elemkind Felemkind.
Proof. unfold Felemkind. st. Qed.
#[export] Hint Resolve st_import st_table st_global st_export st_elemkind : st.
Lemma st_elem : Settled n_elem Felem.
Proof.
  unfold Felem. cbv zeta. eapply st_field; [apply st_u32|st|]. intros n.
  assert (H1 : Settled n_elem (at_ El_DecodeFuncIdxVector (Flist Bidx (at_ FuncIdxE Fu32)))).
  { eapply st_at; [apply st_list with (n := n_funcidx); st|st]. }
  assert (H2 : Settled n_elem (at_ El_DecodeInit (Flist Bexpr Fexpr))) by st.
  assert (H3 : Settled n_elem (field El_DecodeElementKind Felemkind Belemkind (fun _ => at_ El_DecodeFuncIdxVector (Flist Bidx (at_ FuncIdxE Fu32))))).
  { eapply st_field; [st|st|intros _; exact H1]. }
  assert (H4 : Settled n_elem (field El_DecodeReferenceType Freftype Breftype (fun _ => at_ El_DecodeInit (Flist Bexpr Fexpr)))).
  { eapply st_field; [st|st|intros _; exact H2]. }
  assert (HW : Settled n_elem (wrong (El_InvalidBitfield n))) by st.
  repeat first [exact HW | exact H1 | exact H2 | exact H3 | exact H4
    | match goal with
      | |- Settled _ (match ?x with _ => _ end) => destruct x
      | |- Settled _ (field _ _ _ _) => eapply st_field; [solve [st]|solve [st]|intros ?a]
      end].
Qed.
Lemma st_data : Settled n_data Fdata.
Proof.
  unfold Fdata. cbv zeta. eapply st_field; [apply st_u32|st|]. intros n.
  assert (HW : Settled n_data (wrong (Dat_InvalidBitfield n))) by st.
  repeat first [exact HW
    | match goal with
      | |- Settled _ (match ?x with _ => _ end) => destruct x
      end | solve [st]].
Qed.
Lemma st_locals total : Settled n_locals (Flocals total).
Proof. unfold Flocals. st. Qed.
Lemma st_locals_list : Settled (n_list n_locals) Flocals_list.
Proof.
  unfold Flocals_list. eapply st_field; [apply st_u32|st|]. intros n bs stop e (locs & w & rest & e' & -> & Hw & Hl & Hc & He & ->).
  destruct (st_locals _ _ _ _ He) as [H1|[[H1 H1']|[H1 H2]]]; [left; exact H1|right; left; split; [exact H1|apply cut_app; exact H1']|right; right]. split; [|exact H2].
  intros rest' stop'. exists locs, w, (rest ++ rest'), e'. rewrite <- app_assoc. auto 7.
Qed.
#[export] Hint Resolve st_locals_list : st.
Lemma st_func : Settled n_code Ffunc.
Proof. unfold Ffunc. st. Qed.
Lemma io_cause_inj n k k' : io_cause n k -> io_cause n k' -> k = k'.
Proof. unfold io_cause. intros H1 H2. rewrite H1 in H2. injection H2 as H2. exact H2. Qed.
Lemma st_fenced {E} (n : E -> node) F m : Settled n F ->
  Settled n (fun rest stop e => let '(bs', stop') := fenced m rest stop in F bs' stop' e).
Proof.
  intros HF rest stop e. unfold fenced. destruct (N.leb_spec m (N.of_nat (length rest))) as [Hm|Hm]; intros He.
  - destruct (HF _ _ _ He) as [H1|[H1|[H1 H2]]].
    + right. right. split; [|intros k Hk; exact (io_cause_inj _ _ _ Hk H1)]. intros rest' stop'. rewrite app_length.
      replace (m <=? N.of_nat (length rest + length rest'))%N with true by lia. rewrite firstn_app.
      replace (N.to_nat m - length rest) with 0 by lia. cbn [firstn]. rewrite app_nil_r. exact He.
    + right. right. split; [|intros k Hk; exfalso; destruct H1 as [[H1|H1] _]; unfold io_cause in Hk; rewrite H1 in Hk; discriminate Hk]. intros rest' stop'. rewrite app_length.
      replace (m <=? N.of_nat (length rest + length rest'))%N with true by lia. rewrite firstn_app.
      replace (N.to_nat m - length rest) with 0 by lia. cbn [firstn]. rewrite app_nil_r. exact He.
    + right. right. split; [|exact H2]. intros rest' stop'. rewrite app_length.
      replace (m <=? N.of_nat (length rest + length rest'))%N with true by lia. rewrite firstn_app.
      replace (N.to_nat m - length rest) with 0 by lia. cbn [firstn]. rewrite app_nil_r. exact He.
  - destruct (HF _ _ _ He) as [H1|[H1|[H1 H2]]]; [auto|auto|]. right. right. split; [|exact H2]. intros rest' stop'.
    destruct (N.leb_spec m (N.of_nat (length (rest ++ rest')))); [|apply H1].
    rewrite firstn_app, (firstn_all2 rest) by lia. apply H1.
Qed.
Lemma st_code : Settled n_code Fcode.
Proof.
  unfold Fcode. eapply st_field; [apply st_u32|st|]. intros m. apply st_or; [apply (st_fenced n_code), st_func|].
  intros bs stop e (f & w & rest & -> & Hw & Hl & ->). right. right. split; [|leaf].
  intros rest' stop'. exists f, w, (rest ++ rest'). rewrite <- app_assoc. auto.
Qed.
#[export] Hint Resolve st_elem st_data st_code : st.
Lemma st_contents k : Settled n_module (Fcontents k).
Proof.
  destruct k; unfold Fcontents; try solve [st].
  - eapply st_field; [apply st_name|st|]. intros a bs stop e (x & -> & ->). left. reflexivity.
  - eapply st_at; [apply st_list with (n := n_typeidx); st|st].
Qed.

(** ** Whole inputs *)
From Verif Require Import Spec.Layout Spec.Diagnosis.

Definition stable (bs : list byte) (e : DecodeModuleError) : Prop :=
  (forall rest stop', diagnosis (bs ++ rest) stop' e) /\ forall k, io_cause (n_module e) k -> k = UnexpectedEof.
(** the input stops between two sections, or at the end of the input inside a
    custom section that has a name *)
Inductive at_end (bs : list byte) (stop : ending) : DecodeModuleError -> Prop :=
| ae_sections (xs : list (section * N)) w e : Bseq Bsection xs w -> beginning (map fst xs) ->
    bs = preamble ++ w -> stop = Ends \/ stop = Fails UnexpectedEof -> incomplete (map fst xs) e -> at_end bs stop e
| ae_custom (xs : list (section * N)) w nb n rest c : Bseq Bsection xs w -> beginning (map fst xs) ->
    bs = preamble ++ w ++ id_of SK_Custom :: nb ++ rest -> Bu32 n nb -> Bcustom c rest -> (N.of_nat (length rest) < n)%N -> stop = Ends ->
    at_end bs stop (DM_SectionSizeMismatch SK_Custom n (N.of_nat (length rest))).

Lemma wrong_settled cs k n rest stop e : wrong_section cs k n rest stop e ->
  io_cause (n_module e) (io stop) \/ (negative_blocktype (n_module e) /\ cut_blocktype rest) \/
  (exists c, k = SK_Custom /\ Bcustom c rest /\ (N.of_nat (length rest) < n)%N /\ stop = Ends /\ e = DM_SectionSizeMismatch SK_Custom n (N.of_nat (length rest))) \/
  ((forall rest' stop', wrong_section cs k n (rest ++ rest') stop' e) /\ forall k, io_cause (n_module e) k -> k = UnexpectedEof).
Proof.
  intros [e0 HM|bs' stop' e0 HM HF HC|x q rest' e0 HM Hk HX Hr Hl Hm|x q rest' Hk Hx HX Hr Hl HB|c Hk HC Hl Hst].
  - right. right. right. split; [intros; apply ws_misplaced; exact HM|]. inversion HM; subst; leaf.
  - assert (HC' : (fun rest stop e => let '(bs', stop') := fenced n rest stop in Fcontents k bs' stop' e) rest stop e0) by (cbn beta; rewrite HF; exact HC).
    destruct (st_fenced n_module (Fcontents k) n (st_contents k) _ _ _ HC') as [H1|[H1|[H1 H2]]]; [auto|auto|]. right. right. right.
    split; [|exact H2]. intros rest' stop2. specialize (H1 rest' stop2). cbn beta in H1. destruct (fenced n (rest ++ rest') stop2) as [b s] eqn:Ef. eapply ws_contents; eauto.
  - right. right. right. split; [|inversion Hm; subst; leaf]. intros r2 s2. subst rest. rewrite <- app_assoc. eapply ws_mismatch; eauto.
  - right. right. right. split; [|leaf]. intros r2 s2. subst rest. rewrite <- app_assoc. eapply ws_size; eauto.
  - right. right. left. eauto 10.
Qed.
Lemma diagnosis_settled bs stop e : diagnosis bs stop e ->
  io_cause (n_module e) (io stop) \/ (negative_blocktype (n_module e) /\ cut_blocktype bs) \/ at_end bs stop e \/ stable bs e.
Proof.
  intros [Hl|Hl HN|xs w k Hq HB Hbs Hst Hk|xs w b rest Hq HB Hbs HN|xs w k rest e1 Hq HB Hbs He|xs w k nb n rest e1 Hq HB Hbs HU HW|xs w e1 Hq HB Hbs Hst He].
  - left. reflexivity.
  - right. right. right. split; [|leaf]. intros rest stop'. assert (Hf : firstn 8 (bs ++ rest) = firstn 8 bs) by (rewrite firstn_app; replace (8 - length bs) with 0 by lia; cbn [firstn]; apply app_nil_r).
    rewrite <- Hf. apply dg_preamble; [rewrite app_length; lia|rewrite Hf; exact HN].
  - left. subst stop. reflexivity.
  - right. right. right. split; [|leaf]. intros r s. subst bs. rewrite <- !app_assoc. cbn [app]. eapply dg_id; eauto.
  - destruct He as [cs b rest' Hr Hc Hn Hb Hf|cs rest' Hr Hc Hn|Hc Hn].
    + right. right. right. split; [|leaf]. intros r s. subst bs. rewrite <- !app_assoc. cbn [app]. eapply dg_size; eauto. eapply bs_large; eauto. subst rest. rewrite <- app_assoc. reflexivity.
    + right. right. right. split; [|leaf]. intros r s. subst bs. rewrite <- !app_assoc. cbn [app]. eapply dg_size; eauto. apply (bs_long _ _ cs (rest' ++ r)); auto. subst rest. rewrite <- app_assoc. reflexivity.
    + left. destruct stop; reflexivity.
  - destruct (wrong_settled _ _ _ _ _ _ HW) as [H1|[[H1 H2]|[(c & -> & HC & Hl & Hst & ->)|[H1 H2]]]]; [auto|right; left; split; [exact H1|]; subst bs; apply cut_app, cut_app, cut_cons, cut_app; exact H2| |].
    + right. right. left. eapply ae_custom; eauto.
    + right. right. right. split; [|exact H2]. intros r s. subst bs. rewrite <- !app_assoc. cbn [app]. rewrite <- !app_assoc. eapply dg_section; eauto.
  - right. right. left. eapply ae_sections; eauto.
Qed.
