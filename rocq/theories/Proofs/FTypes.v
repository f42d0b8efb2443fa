(** The errors of vectors, names, types and immediates are their faults. *)
From Verif Require Import Model.Prelude Model.Io Model.Ast Model.Errors Model.Integer Model.Helpers Model.Types Model.Instr.
From Verif Require Import Proofs.Machine Proofs.Reads Proofs.Parses Proofs.Leb Proofs.Loop Proofs.GHelpers Proofs.GTypes Proofs.GInstr Proofs.Utf8 Proofs.FinalInt Proofs.Blames.
From Verif Require Import Spec.Lang Spec.Types Spec.Instr Spec.Streams Spec.Leb Spec.Faults.
From Coq Require Import Lia ZifyBool ZifyNat ZifyN.

Create HintDb blames.
#[export] Hint Resolve blames_u32 blames_u64 blames_i32 blames_i64 blames_s33 : blames.

Section Lists.
  Context {env : Env} {R C : Type} `{HL : Lawful R C}.

  Definition Fnth_st {St T E} (X : St -> lang (T * St)) (F : St -> faulty E) (i : N) (n : nat) (st : St) : faulty (DecodeListError E) :=
    fun bs stop e => exists xs w rest st' e', bs = w ++ rest /\ Bseq_st X st xs w st' /\ length xs < n /\ F st' rest stop e' /\
      e = ParseElement (i + N.of_nat (length xs))%N e'.
  Lemma blames_list_loop {St E T} (f : St -> M R E (T * St)) X F n s :
    (forall st, Parses (f st) (X st)) -> (forall st, Blames (f st) (F st)) ->
    Blames (iterM (list_step f) n s) (Fnth_st X F (fst (fst s)) n (snd s)).
  Proof.
    intros HX HF. revert s; induction n as [|n IH]; intros s; cbn [iterM].
    - eapply blames_ext; [apply blames_ret|]. intros bs stop e. split; [intros []|]. intros (? & ? & ? & ? & ? & _ & _ & ? & _). lia.
    - eapply blames_ext.
      { eapply blames_bind with (G := fun s' bs => exists x st', X (snd s) (x, st') bs /\ s' = ((fst (fst s) + 1)%N, x :: snd (fst s), st'))
          (F := at_ (ParseElement (fst (fst s))) (F (snd s))).
        - destruct s as [[i items] st]. unfold list_step. eapply parses_ext.
          { eapply parses_bind_pair; [apply parses_map_err, HX|]. intros x st' _. apply parses_ret. }
          intros s' bs. unfold g_bind, g_ret. split.
          + intros ([x st'] & bs1 & bs2 & -> & HXx & -> & ->). rewrite app_nil_r. eauto.
          + intros (x & st' & HXx & ->). exists (x, st'), bs, []. rewrite app_nil_r. auto.
        - destruct s as [[i items] st]. unfold list_step. apply blames_pure; [apply blames_map_err, HF|]. intros [x st']. discriminate.
        - intros s1 _. apply IH. }
      intros bs stop e. unfold at_, after_, Fnth_st. split.
      + intros [(e' & He & ->)|(s1 & pre & rest & -> & (x & st' & HXx & ->) & xs & w & rest' & st2 & e' & -> & Hq & Hl & He & ->)].
        * exists [], [], bs, (snd s), e'. split; [reflexivity|]. split; [constructor|]. split; [cbn; lia|]. split; [assumption|]. f_equal. cbn. lia.
        * cbn in *. exists (x :: xs), (pre ++ w), rest', st2, e'. split; [apply app_assoc|]. split; [econstructor; eauto|]. split; [cbn; lia|].
          split; [assumption|]. f_equal. cbn [length]. lia.
      + intros (xs & w & rest & st2 & e' & -> & Hq & Hl & He & ->). destruct Hq as [st|st x st1 xs b1 b2 st2 HXx Hq].
        * left. exists e'. split; [assumption|]. f_equal. cbn. lia.
        * right. eexists _, b1, (b2 ++ rest). split; [rewrite app_assoc; reflexivity|]. split; [eauto|]. cbn in *.
          exists xs, b2, rest, st2, e'. split; [reflexivity|]. split; [assumption|]. split; [lia|]. split; [assumption|]. f_equal. lia.
  Qed.
  Lemma blames_list_st {St E T} (f : St -> M R E (T * St)) X F st :
    (forall st, Parses (f st) (X st)) -> (forall st, Blames (f st) (F st)) ->
    Blames (decode_list_st f st) (field DecodeLength Fu32 Bu32 (fun n => Fnth_st X F 0 (N.to_nat n) st)).
  Proof.
    intros HX HF. unfold decode_list_st. apply blames_field; [apply parses_u32|apply blames_u32|]. intros n _.
    eapply blames_ext.
    { eapply blames_bind with (K := fun _ => Fnth_st X F 0 (N.to_nat n) st); [apply parses_alloc|apply blames_alloc|]. intros [] _.
      apply blames_pure; [|intros [[? ?] ?]; discriminate].
      apply blames_eqv with (q := iterM (list_step f) (N.to_nat n) (0%N, [], st)); [intros; apply loopN_iter|].
      exact (blames_list_loop f X F (N.to_nat n) (0%N, [], st) HX HF). }
    intros bs stop e. unfold after_, g_ret, nothing. cbn [fst snd]. split.
    - intros [[]|([] & pre & rest & -> & [_ ->] & He)]. exact He.
    - intros He. right. exists tt, [], bs. auto.
  Qed.
  Lemma blames_list {E T} (p : M R E T) X F : Parses p X -> Blames p F -> Blames (decode_list p) (Flist X F).
  Proof.
    intros HX HF. eapply blames_ext.
    { apply (blames_list_st _ (fun (_ : unit) y bs => X (fst y) bs) (fun _ => F)).
      - intros []. eapply parses_ext.
        { eapply parses_bind; [exact HX|]. intros. apply parses_ret. }
        intros [x []] bs. unfold g_bind, g_ret. cbn. split.
        + intros (a & bs1 & bs2 & -> & Ha & [= ->] & ->). rewrite app_nil_r. assumption.
        + intros Ha. exists x, bs, []. rewrite app_nil_r. auto.
      - intros []. apply blames_pure; [exact HF|discriminate]. }
    intros bs stop e. unfold Flist, field, after_, Fnth_st, Fnth. split; (intros [HD|(n & pre & rest & -> & Hn & HK)]; [left; exact HD|right]);
      exists n, pre, rest; (split; [reflexivity|]); (split; [assumption|]).
    - destruct HK as (xs & w & rest' & st' & e' & -> & Hq & Hl & He & ->). exists xs, w, rest', e'. apply Bseq_st_unit in Hq.
      split; [reflexivity|]. split; [assumption|]. split; [lia|]. split; [assumption|]. reflexivity.
    - destruct HK as (xs & w & rest' & e' & -> & Hq & Hl & He & ->). exists xs, w, rest', tt, e'.
      split; [reflexivity|]. split; [apply Bseq_st_unit; assumption|]. split; [lia|]. split; [assumption|]. reflexivity.
  Qed.
  Lemma blames_byte_vector : Blames (decode_byte_vector : M R _ _) Fbyte_vector.
  Proof.
    unfold decode_byte_vector, Fbyte_vector. apply blames_field; [apply parses_u32|apply blames_u32|]. intros n _. eapply blames_ext.
    { eapply blames_bind with (K := fun _ => at_ BV_ReadElements (Fbytes n)); [apply parses_alloc|apply blames_alloc|]. intros [] _. apply blames_map_err, blames_read_exact. }
    intros bs stop e. unfold after_, g_ret, nothing. split.
    - intros [[]|([] & pre & rest & -> & [_ ->] & He)]. exact He.
    - intros He. right. exists tt, [], bs. auto.
  Qed.
  Lemma blames_name : Blames (decode_name : M R _ _) Fname.
  Proof.
    unfold decode_name, Fname. apply blames_field; [apply parses_byte_vector|apply blames_byte_vector|]. intros s _.
    destruct (from_utf8 s) eqn:E.
    - eapply blames_ext; [apply blames_ret|]. intros bs stop e. split; [intros []|]. intros [Hn _]. apply Hn, from_utf8_iff, E.
    - eapply blames_ext; [apply blames_throw|]. intros bs stop e. unfold wrong. split; [|tauto]. intros ->. split; [|reflexivity].
      intros Hu. apply from_utf8_iff in Hu. congruence.
  Qed.
  Lemma blames_peek {E B} (f : io_error -> E) (q : byte -> M R E B) (K : byte -> faulty E) :
    (forall b, Blames (q b) (fun bs stop e => K b (b :: bs) stop e)) -> Blames (bind (map_err f read_byte) q) (peek f K).
  Proof.
    intros Hq. eapply blames_ext; [apply blames_byte; exact Hq|]. intros [|b bs] stop e; reflexivity.
  Qed.
  Lemma blames_idx {E E'} (g : E' -> E) (f : DecodeU32Error -> E') : Blames (map_err g (map_err f decode_u32) : M R E N) (at_ (fun e => g (f e)) Fu32).
  Proof. apply blames_at2. apply blames_map_err, blames_map_err, blames_u32. Qed.
End Lists.
#[export] Hint Resolve blames_byte_vector blames_name : blames.

Section Types.
  Context {env : Env} {R C : Type} `{HL : Lawful R C}.
  Lemma blames_typeidx : Blames (decode_typeidx : M R _ _) (at_ TypeIdxE Fu32). Proof. apply blames_map_err, blames_u32. Qed.
  Lemma blames_funcidx : Blames (decode_funcidx : M R _ _) (at_ FuncIdxE Fu32). Proof. apply blames_map_err, blames_u32. Qed.
  Lemma blames_labelidx : Blames (decode_labelidx : M R _ _) (at_ LabelIdxE Fu32). Proof. apply blames_map_err, blames_u32. Qed.
  Lemma blames_s33_idx {E B} (f : DecodeS33Error -> E) neg (mk : N -> B) :
    Blames (x <- map_err f decode_s33 ;; if (x <? 0)%Z then throw (neg x) else x <- u32_try_from_unwrap x ;; ret (mk x) : M R E B) (Ftypeidx33 f neg).
  Proof.
    unfold Ftypeidx33. apply blames_field; [apply parses_s33|apply blames_s33|]. intros x _.
    destruct (x <? 0)%Z; [apply blames_throw|]. unfold u32_try_from_unwrap.
    destruct ((0 <=? x) && (x <? 2 ^ 32))%Z; [apply blames_ret|]. split; [discriminate|intros ? ? ? ? _ []].
  Qed.
  Lemma blames_typeidx_in {E} (g : _ -> E) : Blames (map_err g decode_typeidx : M R _ _) (at_ (fun e => g (TypeIdxE e)) Fu32).
  Proof. apply blames_idx. Qed.
End Types.

(** reduce what is known of a constant byte *)
Ltac tables := repeat match goal with
  | |- context [absheaptype_from_marker ?b] => const (absheaptype_from_marker b)
  | |- context [mut_from_marker ?b] => const (mut_from_marker b)
  | |- context [packtype_from_marker ?b] => const (packtype_from_marker b)
  end.
Ltac known := cbn [switch pmatch]; byte_cmp; tables; cbv beta iota.
Section Types2.
  Context {env : Env}.
  Lemma blames_heaptype {R C : Type} `{Lawful R C} : Blames (decode_heaptype : M R _ _) Fheaptype.
  Proof.
    unfold decode_heaptype, Fheaptype. apply blames_peek. intros b.
    destruct b; known; first [apply blames_ret | apply (blames_chain _ _ (Ftypeidx33 HT_DecodeTypeIndex HT_NegativeTypeIndex)), blames_s33_idx].
  Qed.

  Lemma blames_reftype {R C : Type} `{Lawful R C} : Blames (decode_reftype : M R _ _) Freftype.
  Proof.
    unfold decode_reftype, Freftype. apply blames_byte. intros b.
    assert (HA : forall m, Blames (aht <- with_chain m (map_err RT_InvalidMarkerByte decode_absheaptype) ;; ret (mkRefType true (Ht aht)) : M R _ _)
      (match absheaptype_from_marker m with Some _ => nothing | None => wrong (RT_InvalidMarkerByte (AHT_InvalidMarkerByte (InvalidAbsHeapTypeMarker m))) end)).
    { clear b. intros m. apply blames_pure; [|discriminate]. eapply blames_ext.
      { apply blames_chain, blames_map_err. unfold decode_absheaptype. apply blames_byte with (K := fun m => match absheaptype_from_marker m with
          Some _ => nothing | None => wrong (AHT_InvalidMarkerByte (InvalidAbsHeapTypeMarker m)) end).
        intros b. destruct (absheaptype_from_marker b); [apply blames_ret|apply blames_throw]. }
      intros bs stop e. unfold at_, byte_. destruct (absheaptype_from_marker m); unfold nothing, wrong; [split; [intros (e' & [] & _)|intros []]|].
      split; [intros (e' & -> & ->); reflexivity|intros ->; eauto]. }
    destruct b; lazymatch goal with
      | |- Blames _ (at_ _ _) => known; apply blames_last, blames_heaptype
      | |- context [with_chain ?m _] => specialize (HA m); cbn [switch pmatch]; byte_cmp; revert HA; tables; cbv beta iota; intros HA; exact HA
      end.
  Qed.
  Lemma blames_valtype {R C : Type} `{Lawful R C} : Blames (decode_valtype : M R _ _) Fvaltype.
  Proof.
    unfold decode_valtype, Fvaltype. apply blames_peek. intros b.
    destruct b; known; first [apply blames_ret | apply (blames_chain _ _ (at_ VTE_DecodeRefType Freftype)), blames_last].
    all: apply (blames_reftype).
  Qed.
  Lemma blames_result_type {R C : Type} `{Lawful R C} : Blames (decode_result_type : M R _ _) Fresulttype.
  Proof. apply blames_map_err, blames_list; [apply parses_valtype|apply blames_valtype]. Qed.
  Lemma blames_mut {R C : Type} `{Lawful R C} {E A} (f : _ -> E) (g : _ -> A) b :
    Blames (match mut_from_marker b with Some m => ret (g m) | None => throw (f (InvalidMutabilityByte b)) end : M R E A) (Fmut f b).
  Proof. destruct b; known; first [apply blames_ret | apply blames_throw]. Qed.
  Lemma blames_globaltype {R C : Type} `{Lawful R C} : Blames (decode_globaltype : M R _ _) Fglobaltype.
  Proof.
    apply blames_field; [apply parses_valtype|apply blames_valtype|]. intros t _. apply blames_byte. intros b.
    apply (blames_mut GT_InvalidMutability (fun m => mkGlobalType m t)).
  Qed.
  Lemma blames_storagetype {R C : Type} `{Lawful R C} : Blames (decode_storagetype : M R _ _) Fstoragetype.
  Proof.
    unfold decode_storagetype, Fstoragetype. apply blames_peek. intros b.
    destruct b; known; first [apply blames_ret | apply (blames_chain _ _ (at_ (ST_DecodeValTypeOrPackType _) Fvaltype)), blames_last, blames_valtype].
  Qed.
  Lemma blames_fieldtype {R C : Type} `{Lawful R C} : Blames (decode_fieldtype : M R _ _) Ffieldtype.
  Proof.
    apply blames_field; [apply parses_storagetype|apply blames_storagetype|]. intros t _. apply blames_byte. intros b.
    apply (blames_mut FT_DecodeMutability (fun m => mkFieldType m t)).
  Qed.
  Lemma blames_comptype {R C : Type} `{Lawful R C} : Blames (decode_comptype : M R _ _) Fcomptype.
  Proof.
    unfold decode_comptype, Fcomptype. apply blames_byte. intros b.
    destruct b; known; try apply blames_throw.
    - apply blames_last, blames_fieldtype.
    - apply blames_last, blames_list; [apply parses_fieldtype|apply blames_fieldtype].
    - apply blames_field; [apply parses_resulttype|apply blames_result_type|]. intros ps _. apply blames_last, blames_result_type.
  Qed.
  Lemma blames_subtype {R C : Type} `{Lawful R C} : Blames (decode_subtype : M R _ _) Fsubtype.
  Proof.
    unfold decode_subtype. eapply blames_ext.
    { apply blames_byte with (K := fun b bs stop e => Fsubtype (b :: bs) stop e). intros b. unfold Fsubtype.
      destruct b; known; try (apply (blames_chain _ _ (at_ SubT_DecodeCompType Fcomptype)), blames_last, blames_comptype);
        (eapply blames_field; [apply parses_list, parses_typeidx|apply blames_list; [apply parses_typeidx|apply blames_typeidx]|]; intros; apply blames_last, blames_comptype). }
    intros [|b bs] stop e; reflexivity.
  Qed.
  Lemma blames_rectype {R C : Type} `{Lawful R C} : Blames (decode_rectype : M R _ _) Frectype.
  Proof.
    unfold decode_rectype. eapply blames_ext.
    { apply blames_byte with (K := fun b bs stop e => Frectype (b :: bs) stop e). intros b. unfold Frectype.
      destruct b; known; try (apply (blames_chain _ _ (at_ Rec_DecodeSubtype Fsubtype)), blames_last, blames_subtype).
      apply blames_map_err, blames_list; [apply parses_subtype|apply blames_subtype]. }
    intros [|b bs] stop e; reflexivity.
  Qed.
  Lemma blames_limits {R C : Type} `{Lawful R C} : Blames (parse_limits : M R _ _) Flimits.
  Proof.
    unfold parse_limits, Flimits. apply blames_byte. intros b.
    assert (Hret : forall {E A B} (a : A) (q : A -> M R E B) F, Blames (q a) F -> Blames (bind (ret a) q) F).
    { intros E A B a q F HB. eapply blames_eqv; [|exact HB]. reflexivity. }
    assert (Hthrow : forall {E A B} (e : E) (q : A -> M R E B), Blames (bind (throw e) q) (wrong e)).
    { intros E A B e q. eapply blames_eqv; [|apply blames_throw]. reflexivity. }
    destruct b; known; try apply Hthrow; apply Hret; cbv beta iota.
    - apply blames_pure; [apply blames_map_err, blames_u64|]. discriminate.
    - apply blames_field; [apply parses_u64|apply blames_u64|]. intros n _. apply blames_pure; [apply blames_last, blames_u64|]. discriminate.
    - apply blames_pure; [apply blames_map_err, blames_u64|]. discriminate.
    - apply blames_field; [apply parses_u64|apply blames_u64|]. intros n _. apply blames_pure; [apply blames_last, blames_u64|]. discriminate.
  Qed.
  Lemma blames_memtype {R C : Type} `{Lawful R C} : Blames (parse_memtype : M R _ _) Fmemtype.
  Proof. apply blames_last, blames_limits. Qed.
  Lemma blames_tabletype {R C : Type} `{Lawful R C} : Blames (decode_tabletype : M R _ _) Ftabletype.
  Proof. apply blames_field; [apply parses_reftype|apply blames_reftype|]. intros t _. apply blames_last, blames_limits. Qed.
  Lemma blames_last_idx {R C : Type} `{Lawful R C} {E E' A} (g : E' -> E) (f : DecodeU32Error -> E') (h : N -> A) :
    Blames (bind (map_err g (map_err f decode_u32)) (fun x => ret (h x)) : M R E A) (at_ (fun e => g (f e)) Fu32).
  Proof. apply blames_pure; [apply blames_idx|discriminate]. Qed.
  Lemma blames_tagtype {R C : Type} `{Lawful R C} : Blames (decode_tagtype : M R _ _) Ftagtype.
  Proof.
    unfold decode_tagtype, Ftagtype. apply blames_byte. intros b.
    destruct b; known; try apply blames_throw. apply blames_last_idx.
  Qed.
  Lemma blames_externtype {R C : Type} `{Lawful R C} : Blames (decode_externtype : M R _ _) Fexterntype.
  Proof.
    unfold decode_externtype, Fexterntype. apply blames_byte. intros b.
    destruct b; known; try apply blames_throw.
    - apply blames_last_idx.
    - apply blames_last, blames_tabletype.
    - apply blames_last, blames_memtype.
    - apply blames_last, blames_globaltype.
    - apply blames_last, blames_tagtype.
  Qed.
End Types2.
