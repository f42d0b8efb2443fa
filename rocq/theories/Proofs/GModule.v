(** Grammar of modules (src/decode/module.rs) *)
From Verif Require Import Model.Prelude Model.Io Model.Ast Model.Errors Model.Integer Model.Helpers Model.Types Model.Instr Model.Sections Model.Module.
From Verif Require Import Proofs.Machine Proofs.Reads Proofs.Parses Proofs.Leb Proofs.GHelpers Proofs.GTypes Proofs.GInstr Proofs.GPrefix Proofs.GControl Proofs.GSections.
From Verif Require Import Spec.Lang Spec.Types Spec.Instr Spec.Module.
From Coq Require Import Lia ZifyBool ZifyNat ZifyN.
Local Open Scope N_scope.

(** a parser run inside a size fence that it must use up *)
Record Fenced {R C E A} `{Lawful R C} (n : N) (p : M (Take R) E A) (G : lang A) : Prop := {
  f_sound : forall r a t, p (mkTake n r) = (Ok a, t) -> t_limit t = 0 ->
    exists bs, bsteps (abs r) bs (abs (t_inner t)) /\ lenN bs = n /\ G a bs;
  f_complete : forall r a bs c', G a bs -> lenN bs = n -> bsteps (abs r) bs c' ->
    (exists t, p (mkTake n r) = (Ok a, t) /\ t_limit t = 0 /\ abs (t_inner t) = c') \/ gave_up (fst (p (mkTake n r)))
}.

(** ** pure view of what a section does to the decoder state *)
Definition fill (fs : list Func) (cs : list (list ValType * Expr)) : list Func :=
  map (fun '(f, (ls, e)) => mkFunc (f_type f) (f_locals f ++ ls) e) (combine fs cs).
Definition code_mentions (cs : list (list ValType * Expr)) : bool :=
  existsb (fun c => existsb instruction_contains_data_index (snd c)) cs.
Definition apply_section (x : section) (s : st) : option st :=
  let m := st_module s in
  match x with
  | SCustom c => Some (on_module (set_customs (custom_sections m ++ [c])) s)
  | SType l => Some (on_module (set_types l) s)
  | SImport l => Some (on_module (set_imports l) s)
  | SFunction l => Some (on_module (set_funcs (funcs m ++ map (fun t => mkFunc t [] []) l)) s)
  | STable l => Some (on_module (set_tables l) s)
  | SMemory l => Some (on_module (set_mems l) s)
  | SGlobal l => Some (on_module (set_globals l) s)
  | SExport l => Some (on_module (set_exports l) s)
  | SStart x => Some (on_module (set_start (Some x)) s)
  | SElement l => Some (on_module (set_elems l) s)
  | SDataCount n => Some (on_module (set_data_count (Some n)) s)
  | SCode l =>
      if lenN l =? lenN (funcs m)
      then Some (mkSt (set_funcs (fill (funcs m) l) m) true (orb (st_data_idx s) (code_mentions l)))
      else None
  | SData l =>
      match data_count m with
      | Some n => if lenN l =? n then Some (on_module (set_datas l) s) else None
      | None => Some (on_module (set_datas l) s)
      end
  | STag l => Some (on_module (set_tags l) s)
  end.
Definition Gsec (k : SectionKind) (s : st) : lang st := fun s' bs =>
  exists x, kind_of x = k /\ Bcontents x bs /\ apply_section x s = Some s'.

Lemma fill_codes_pure {env : Env} {R C} `{Lawful R C} codes : forall done todo d,
  length codes = length todo ->
  Parses (fill_codes (length done) codes (done ++ todo) d : M R _ _)
    (g_ret (done ++ map (fun '(f, c) => mkFunc (f_type f) (f_locals f ++ expand_locals (c_locals c)) (c_expr c)) (combine todo codes),
            orb d (existsb c_data_index codes))).
Proof.
  induction codes as [|c codes IH]; intros done [|f todo] d Hl; try discriminate; cbn [fill_codes].
  - cbn. rewrite Bool.orb_false_r. apply parses_ret.
  - eapply parses_ext.
    { parses_step; [parses|]. 
      replace (nth_error (done ++ f :: todo) (length done)) with (Some f)
        by (rewrite nth_error_app2, Nat.sub_diag by lia; reflexivity).
      replace (set_nth (length done) (mkFunc (f_type f) (f_locals f ++ expand_locals (c_locals c)) (c_expr c)) (done ++ f :: todo))
        with ((done ++ [mkFunc (f_type f) (f_locals f ++ expand_locals (c_locals c)) (c_expr c)]) ++ todo).
      2: { rewrite <- app_assoc. cbn. clear. induction done as [|g done IHd]; cbn; [reflexivity|]. f_equal. exact IHd. }
      replace (S (length done)) with (length (done ++ [mkFunc (f_type f) (f_locals f ++ expand_locals (c_locals c)) (c_expr c)]))
        by (rewrite app_length; cbn; lia).
      apply IH. cbn in Hl. lia. }
    intros x bs. unfold g_bind, g_ret. cbn [combine map existsb]. split.
    + intros ([] & b1 & b2 & -> & [_ ->] & -> & ->). split; [|reflexivity]. rewrite <- app_assoc. cbn.
      destruct (c_data_index c), d; reflexivity.
    + intros [-> ->]. exists tt, [], []. split; [reflexivity|]. split; [auto|]. split; [|reflexivity].
      rewrite <- app_assoc. cbn. destruct (c_data_index c), d; reflexivity.
Qed.

Lemma list_code cs bs : Blist Gcode cs bs -> Blist Bcode (map code_fn cs) bs.
Proof.
  inversion 1 as [? b1 b2 Hn Hq]; subst. constructor; [rewrite map_length; assumption|].
  clear -Hq. induction Hq; cbn; constructor; [apply Gcode_Bcode|]; assumption.
Qed.
Lemma list_code_inv fs bs : Blist Bcode fs bs -> exists cs, Blist Gcode cs bs /\ fs = map code_fn cs.
Proof.
  inversion 1 as [? b1 b2 Hn Hq]; subst.
  assert (exists cs, Bseq Gcode cs b2 /\ fs = map code_fn cs) as (cs & Hc & ->).
  { clear -Hq. induction Hq as [|f fs b1 b2 Hf _ (cs & IH & ->)]; [exists []; split; [constructor|reflexivity]|].
    apply Bcode_Gcode in Hf as (c & Hc & <-). exists (c :: cs). split; [constructor; assumption|reflexivity]. }
  exists cs. split; [|reflexivity]. constructor; [|assumption]. rewrite map_length in Hn. assumption.
Qed.
Lemma Gcode_flag c bs : Gcode c bs -> c_data_index c = existsb instruction_contains_data_index (c_expr c).
Proof. intros (b1 & b2 & b3 & _ & _ & _ & _ & _ & _ & E). exact E. Qed.
Lemma flags cs bs : Blist Gcode cs bs -> existsb c_data_index cs = code_mentions (map code_fn cs).
Proof.
  inversion 1 as [? b1 b2 Hn Hq]; subst. clear -Hq. induction Hq as [|c cs b1 b2 Hc _ IH]; [reflexivity|].
  unfold code_mentions in *. cbn [existsb map]. rewrite IH, (Gcode_flag _ _ Hc). reflexivity.
Qed.
Lemma fill_map fs cs : fill fs (map code_fn cs) =
  map (fun '(f, c) => mkFunc (f_type f) (f_locals f ++ expand_locals (c_locals c)) (c_expr c)) (combine fs cs).
Proof.
  unfold fill. revert cs; induction fs as [|f fs IH]; intros [|c cs]; cbn; try reflexivity. f_equal. apply IH.
Qed.

Section Sec.
  Context {env : Env} {R C : Type} `{Lawful R C}.
  Hint Resolve parses_import parses_global parses_table parses_export parses_elem parses_data parses_code parses_funcidx : parses.

  Lemma parses_section k s : k <> SK_Custom -> Parses (decode_section k s : M R _ _) (Gsec k s).
  Proof.
    intros Hk. unfold decode_section, decode_type_section, decode_import_section, decode_function_section, decode_table_section, decode_memory_section, decode_global_section, decode_export_section, decode_element_section, decode_tag_section, decode_start_section, decode_datacount_section.
    destruct k; [congruence|..];
    try (eapply parses_ext; [parses; eapply parses_list; parses|]; intros s' bs; rewrite g_bind_ret; split;
      [intros (l & -> & Hl); eexists; split; [|split; [econstructor; exact Hl|reflexivity]]; reflexivity
      |intros (x & Ek & Hx & Ha); inversion Hx; subst; try discriminate; cbn in Ha; injection Ha as <-; eexists; split; [reflexivity|assumption]]).
    - (* code *)
      unfold decode_code_section. eapply parses_ext.
      { eapply parses_bind with (K := fun codes => if lenN codes =? lenN (funcs (st_module s)) then
           g_ret (mkSt (set_funcs (fill (funcs (st_module s)) (map code_fn codes)) (st_module s)) true (orb (st_data_idx s) (existsb c_data_index codes))) else g_fail).
        - eapply parses_map_err, parses_map_err, parses_list, parses_code.
        - intros codes _. destruct (N.eqb_spec (lenN codes) (lenN (funcs (st_module s)))) as [E|E]; cbn [negb]; [|apply parses_throw].
          eapply parses_ext.
          { eapply parses_bind_pair; [apply (fill_codes_pure codes [] (funcs (st_module s))); unfold lenN in E; lia|].
            intros fs d _. apply parses_ret. }
          intros s' bs. rewrite g_bind_ret. cbn [app]. rewrite fill_map. split.
          + intros ([fs d] & -> & [[= -> ->] ->]). split; reflexivity.
          + intros [-> ->]. eexists (_, _). split; [reflexivity|]. split; reflexivity. }
      intros s' bs. split.
      + intros (codes & b1 & b2 & -> & Hc & Hk2). pose proof (flags _ _ Hc) as Hf.
        destruct (N.eqb_spec (lenN codes) (lenN (funcs (st_module s)))) as [E|E]; [|destruct Hk2]. destruct Hk2 as [-> ->].
        rewrite app_nil_r. exists (SCode (map code_fn codes)). split; [reflexivity|]. split; [constructor; apply list_code; assumption|].
        cbn. unfold lenN in *. rewrite map_length, E, N.eqb_refl, <- Hf. reflexivity.
      + intros (x & Ek & Hx & Ha). inversion Hx; subst; try discriminate.
        match goal with HL : Blist Bcode _ _ |- _ => apply list_code_inv in HL as (cs & Hc & ->) end. cbn in Ha.
        unfold lenN in *. rewrite map_length in Ha. destruct (N.eqb_spec (N.of_nat (length cs)) (N.of_nat (length (funcs (st_module s))))) as [E|E]; [|discriminate].
        injection Ha as <-. exists cs, bs, []. rewrite app_nil_r. split; [reflexivity|]. split; [assumption|].
        unfold lenN. rewrite E, N.eqb_refl, (flags _ _ Hc). split; reflexivity.
    - (* data *)
      unfold decode_data_section. eapply parses_ext.
      { eapply parses_bind with (K := fun l => match apply_section (SData l) s with Some s' => g_ret s' | None => g_fail end).
        - eapply parses_map_err, parses_map_err, parses_list, parses_data.
        - intros l _. cbn [apply_section]. destruct (data_count (st_module s)) as [n|]; [|apply parses_ret].
          destruct (lenN l =? n); cbn [negb]; parses. }
      intros s' bs. split.
      + intros (l & b1 & b2 & -> & Hl & Hk2). destruct (apply_section (SData l) s) as [s1|] eqn:E; [|destruct Hk2].
        destruct Hk2 as [-> ->]. rewrite app_nil_r. exists (SData l). split; [reflexivity|]. split; [constructor; assumption|exact E].
      + intros (x & Ek & Hx & Ha). inversion Hx; subst; try discriminate. exists l, bs, []. rewrite app_nil_r.
        split; [reflexivity|]. split; [assumption|]. rewrite Ha. split; reflexivity.
  Qed.
End Sec.

Lemma bsteps_longest {C} `{Machine C} (c : C) bs1 c1 bs2 c2 :
  bsteps c bs1 c1 -> (forall b c', next c1 <> (AByte b, c')) -> bsteps c bs2 c2 -> (length bs2 <= length bs1)%nat.
Proof.
  intros Hs; revert bs2; induction Hs as [c|c b c1 bs c3 Hn Hs IH]; intros bs2 H1 Hs2.
  - inversion Hs2; subst; [auto|]. exfalso. eapply H1; eassumption.
  - inversion Hs2; subst; [cbn; apply Nat.le_0_l|]. rewrite Hn in *.
    match goal with E : (_, _) = (_, _) |- _ => injection E as <- <- end. cbn [length]. apply le_n_S. eapply IH; eassumption.
Qed.
Lemma bsteps_maximal {C} `{Machine C} (c : C) bs1 c1 bs2 c2 :
  bsteps c bs1 c1 -> (forall b c', next c1 <> (AByte b, c')) ->
  bsteps c bs2 c2 -> (forall b c', next c2 <> (AByte b, c')) -> c1 = c2 /\ bs1 = bs2.
Proof.
  intros Hs; revert bs2; induction Hs as [c|c b c1 bs c3 Hn Hs IH]; intros bs2 H1 Hs2 H2.
  - inversion Hs2; subst; [auto|]. exfalso. eapply H1; eassumption.
  - inversion Hs2; subst; [exfalso; eapply H2; eassumption|]. rewrite Hn in *.
    match goal with E : (_, _) = (_, _) |- _ => injection E as <- <- end.
    edestruct IH as [-> ->]; eauto.
Qed.

Section FencedLemmas.
  Context {env : Env} {R C : Type} `{Lawful R C}.
  Lemma fenced_parses {E A} n (p : M (Take R) E A) G : Parses p G -> Fenced n p G.
  Proof.
    intros [S K]. split.
    - intros r a t Hp Ht. destruct (S _ _ _ Hp) as (bs & Hb & HG). apply bsteps_take_inv in Hb as (H2 & H3 & H4).
      change (t_limit (abs t)) with (t_limit t) in H3. change (t_limit (abs (mkTake n r))) with n in H2, H3.
      exists bs. split; [exact H4|]. split; [lia|exact HG].
    - intros r a bs c' HG Hl Hb. assert (Hle : lenN bs <= n) by lia.
      pose proof (bsteps_take _ _ _ n Hle Hb) as Hb'.
      destruct (K (mkTake n r) _ _ _ HG Hb') as [(t & -> & Ha)|Hg]; [left|right; exact Hg].
      exists t. split; [reflexivity|]. injection Ha as E1 E2. split; [lia|exact E2].
  Qed.
  Lemma fenced_custom n : Fenced n (decode_section_custom : M (Take R) _ _) Bcustom.
  Proof.
    pose proof (parses_map_err Cust_DecodeName _ _ (parses_name (R := Take R))) as [S K].
    unfold decode_section_custom. split.
    - intros r a t Hp Ht. unfold bind at 1 in Hp.
      destruct (map_err Cust_DecodeName decode_name (mkTake n r)) as [[nm|e|pn|] t1] eqn:E1; try discriminate.
      destruct (S _ _ _ E1) as (b1 & Hb1 & HN). unfold bind, map_err in Hp.
      destruct (read_to_end t1) as [[l|e|pn|] t2] eqn:E2; try discriminate. injection Hp as <- <-.
      apply read_to_end_spec in E2 as (b2 & c1 & Hb2 & [[_ [([= ->] & Hn)|(k & _ & ? & _)]]|[_ ?]]); [|discriminate..].
      pose proof (bsteps_app _ _ _ _ _ Hb1 Hb2) as Hb. apply bsteps_take_inv in Hb as (H2 & H3 & H4).
      change (t_limit (abs (mkTake n r))) with n in H2, H3.
      cbn [next take_machine] in Hn. destruct (N.eqb_spec (t_limit c1) 0) as [E|E].
      + injection Hn as ->. exists (b1 ++ b2). split; [exact H4|]. split; [lia|]. constructor. exact HN.
      + exfalso. destruct (next (t_inner c1)) as [[b| |k] c2]; try discriminate. injection Hn as Hn _. lia.
    - intros r a bs c' HG Hl Hb. inversion HG as [nm l b1 HN]; subst. unfold bind at 1 3.
      assert (Hle : lenN (b1 ++ l) <= lenN (b1 ++ l)) by lia.
      pose proof (bsteps_take _ _ _ _ Hle Hb) as Hb'. apply bsteps_app_inv in Hb' as (c1 & Hb1 & Hb2).
      destruct (K (mkTake (lenN (b1 ++ l)) r) _ _ _ HN Hb1) as [(t & -> & Ha)|Hg].
      2: { right. destruct (map_err Cust_DecodeName decode_name _) as [[x|e|pn|] t]; cbn in *; auto; contradiction. }
      subst c1. unfold bind, map_err.
      destruct (read_to_end t) as [x t2] eqn:E2. apply read_to_end_spec in E2 as (b2 & c1 & Hb3 & [[_ Hx]|[_ ->]]); [left|right; exact I].
      assert (c1 = mkTake (lenN (b1 ++ l) - lenN (b1 ++ l)) c' /\ b2 = l) as [-> ->].
      { eapply bsteps_maximal; [exact Hb3| |exact Hb2|]; [|rewrite N.sub_diag]; intros b c2 Hn; [|discriminate Hn].
        destruct Hx as [(_ & Hx)|(k & _ & _ & Hx)]; rewrite Hn in Hx; discriminate. }
      destruct Hx as [(-> & Hn)|(k & _ & _ & Hn)]; rewrite N.sub_diag in Hn; cbn in Hn; [|discriminate].
      injection Hn as Ha2 Ha3. exists t2. auto.
  Qed.
End FencedLemmas.

(** the order check, purely *)
Definition order_ok (m : Module_) (k : SectionKind) : bool :=
  match last_opt (parsed_section_kinds m) with
  | None => true
  | Some prev => orb (sk_eqb k SK_Custom) (sk_ltb prev k)
  end.
Lemma validate_pure {R} (m : Module_) h (r : R) :
  if order_ok m (sh_kind h) then validate_section_kind_expected m h r = (Ok tt, r)
  else exists e, validate_section_kind_expected m h r = (Err e, r).
Proof.
  unfold order_ok, validate_section_kind_expected. destruct (last_opt (parsed_section_kinds m)) as [p|]; [|reflexivity].
  destruct (sk_eqb (sh_kind h) SK_Custom); cbn [orb]; [reflexivity|]. unfold sk_ltb, sk_eqb.
  destruct (N.ltb_spec (sk_rank p) (sk_rank (sh_kind h))) as [E|E].
  - destruct (N.ltb_spec (sk_rank (sh_kind h)) (sk_rank p)) as [E2|_]; [lia|].
    destruct (N.eqb_spec (sk_rank (sh_kind h)) (sk_rank p)) as [E3|_]; [lia|]. reflexivity.
  - destruct (N.ltb_spec (sk_rank (sh_kind h)) (sk_rank p)) as [E2|E2]; [eexists; reflexivity|].
    destruct (N.eqb_spec (sk_rank (sh_kind h)) (sk_rank p)) as [_|E3]; [eexists; reflexivity|lia].
Qed.

(** what completing a section records *)
Definition finish (h : SectionHeader) (s : st) : st :=
  let s := on_module (fun m => set_headers (section_headers m ++ [h]) m) s in
  if sk_eqb (sh_kind h) SK_Custom then s
  else on_module (fun m => set_kinds (parsed_section_kinds m ++ [sh_kind h]) m) s.
Definition apply_one (x : section * N) (s : st) : option st :=
  if order_ok (st_module s) (kind_of (fst x))
  then option_map (finish (mkHeader (kind_of (fst x)) (snd x))) (apply_section (fst x) s)
  else None.
Fixpoint apply_all (xs : list (section * N)) (s : st) : option st :=
  match xs with
  | [] => Some s
  | x :: xs' => match apply_one x s with Some s' => apply_all xs' s' | None => None end
  end.
Definition Gstep (h : SectionHeader) (s : st) : lang st := fun s' bs =>
  exists x, kind_of x = sh_kind h /\ sh_size h = lenN bs /\ Bcontents x bs /\ apply_one (x, sh_size h) s = Some s'.

Section Step.
  Context {env : Env} {R C : Type} `{Lawful R C}.
  Lemma fenced_section n k s : Fenced n (decode_section k s : M (Take R) _ _) (Gsec k s).
  Proof.
    destruct k; try (apply fenced_parses, parses_section; discriminate).
    destruct (fenced_custom (R := R) n) as [S K]. unfold decode_section. split.
    - intros r a t Hp Ht. unfold bind, map_err in Hp.
      destruct (decode_section_custom (mkTake n r)) as [[c|e|pn|] t1] eqn:E; try discriminate. injection Hp as <- <-.
      destruct (S _ _ _ E Ht) as (bs & Hb & Hl & HC). exists bs. split; [assumption|]. split; [assumption|].
      exists (SCustom c). split; [reflexivity|]. split; [constructor; assumption|reflexivity].
    - intros r a bs c' (x & Ek & HC & Ha) Hl Hb. inversion HC; subst; try discriminate. injection Ha as <-.
      unfold bind, map_err. match goal with HC : Bcustom _ _ |- _ => destruct (K _ _ _ _ HC eq_refl Hb) as [(t & -> & Ht & Ha)|Hg] end.
      + left. exists t. auto.
      + right. destruct (decode_section_custom _) as [[c1|e|pn|] t1]; cbn in *; auto; contradiction.
  Qed.

  Lemma parses_section_step h s : Parses (section_step h s : M R _ _) (Gstep h s).
  Proof.
    destruct h as [hk hs]. destruct (fenced_section hs hk s) as [S K]. 
    unfold section_step, with_take. cbn [sh_kind sh_size]. split.
    - intros r s' r' Hr. unfold bind in Hr.
      pose proof (validate_pure (st_module s) (mkHeader hk hs) (mkTake hs r)) as HV; cbn [sh_kind] in HV.
      destruct (order_ok (st_module s) hk) eqn:EO; [cbn [sh_kind sh_size] in *; rewrite HV in Hr|destruct HV as (e & HV); rewrite HV in Hr; discriminate].
      destruct (decode_section hk s (mkTake hs r)) as [[s1|e|pn|] t] eqn:E; try discriminate.
      destruct (N.eqb_spec (t_limit t) 0) as [El|El]; cbn [negb] in Hr.
      2: { unfold sub_u64 in Hr. destruct (_ <=? _); discriminate. }
      destruct (S _ _ _ E El) as (bs & Hb & Hl & x & Hk & HC & Ha). unfold alloc in Hr. destruct (_ <=? alloc_limit) in Hr; [|discriminate]. injection Hr as <- <-.
      exists bs. split; [exact Hb|]. exists x. split; [exact Hk|]. split; [cbn; lia|]. split; [exact HC|].
      unfold apply_one. cbn [fst snd]. rewrite Hk, EO, Ha. reflexivity.
    - intros r s' bs c' (x & Hk & Hsz & HC & Ha) Hb. cbn [sh_kind sh_size] in *. unfold apply_one in Ha. cbn [fst snd] in Ha. rewrite Hk in Ha.
      destruct (order_ok (st_module s) hk) eqn:EO; [|discriminate].
      destruct (apply_section x s) as [s1|] eqn:Es; [|discriminate]. injection Ha as <-.
      pose proof (validate_pure (st_module s) (mkHeader hk hs) (mkTake hs r)) as HV; cbn [sh_kind] in HV. rewrite EO in HV.
      unfold bind. rewrite HV.
      destruct (K r s1 bs c') as [(t & -> & Ht & Hc)|Hg]; [exists x; auto|lia|assumption| |].
      + rewrite Ht. cbn [negb N.eqb]. unfold alloc. destruct (_ <=? alloc_limit); [left|right; exact I]. cbn. eexists. split; [reflexivity|exact Hc].
      + right. destruct (decode_section hk s _) as [[s2|e|pn|] t]; cbn in *; auto; contradiction.
  Qed.

  Lemma section_marker b k : section_from_marker b = Some k <-> b = id_of k.
  Proof.
    split; [|intros ->; destruct k; reflexivity].
    unfold section_from_marker. intros HK. cbn [assocN] in HK.
    repeat match type of HK with
    | context [N.eqb (b2n b) ?n] => let E := fresh "E" in destruct (N.eqb_spec (b2n b) n) as [E|E]; [byte_known E; injection HK as <-; reflexivity|]
    end. discriminate.
  Qed.

  (** end of input, as the section loop sees it *)
  Definition at_end (c c' : C) : Prop := next c = (AEof, c') \/ next c = (AErr UnexpectedEof, c').

  Lemma section_loop_sound n : forall s (r : R) s' r', section_loop n s r = (Ok s', r') ->
    exists xs bs c1, bsteps (abs r) bs c1 /\ at_end c1 (abs r') /\ Bseq Bsection xs bs /\ apply_all xs s = Some s'.
  Proof.
    induction n as [|n IH]; intros s r s' r' Hr; [discriminate|]. cbn [section_loop] in Hr.
    unfold bind at 1, map_err in Hr. unfold decode_section_header in Hr. unfold bind at 1, read_section_id in Hr.
    destruct (read_byte r) as [y r1] eqn:Eb. pose proof (read_byte_spec _ _ _ Eb) as Hspec.
    destruct y as [id|k|pn|]; [| |discriminate|discriminate].
    - destruct (section_from_marker id) as [kd|] eqn:Em; [|discriminate]. apply section_marker in Em. subst id.
      unfold bind at 1 in Hr. unfold map_err in Hr. destruct (decode_u32 r1) as [[sz|e|pn|] r2] eqn:Eu; try discriminate.
      cbn [ret] in Hr. unfold bind in Hr.
      destruct (section_step (mkHeader kd sz) s r2) as [[s1|e|pn|] r3] eqn:Es; try discriminate.
      destruct (p_sound _ _ parses_u32 _ _ _ Eu) as (b1 & Hb1 & HU).
      destruct (p_sound _ _ (parses_section_step _ _) _ _ _ Es) as (b2 & Hb2 & x & Hk & Hsz & HC & Ha).
      apply IH in Hr as (xs & b3 & c1 & Hb3 & He & Hq & Hall). cbn [sh_kind sh_size] in *.
      destruct (next (abs r)) as [[b| |k] c2] eqn:En; try discriminate. injection Hspec as <- <-.
      exists ((x, sz) :: xs), ((id_of kd :: b1 ++ b2) ++ b3), c1. split.
      { cbn. econstructor; [exact En|]. eapply bsteps_app; [|exact Hb3]. eapply bsteps_app; eassumption. }
      split; [exact He|]. split.
      { constructor; [|exact Hq]. subst sz kd. constructor; assumption. }
      cbn. rewrite Ha. exact Hall.
    - destruct k; try discriminate. cbn in Hr. injection Hr as <- <-.
      exists [], [], (abs r). split; [constructor|]. split; [|split; [constructor|reflexivity]]. red.
      destruct (next (abs r)) as [[b| |k] c2]; try discriminate; injection Hspec as Hs; subst; auto.
  Qed.
  Lemma gave_up_bind {E A B} (p : M R E A) (q : A -> M R E B) (r : R) : gave_up (fst (p r)) -> gave_up (fst (bind p q r)).
  Proof. unfold bind. destruct (p r) as [[a|e|pn|] r1]; cbn; auto; contradiction. Qed.
  Lemma gave_up_map_err {E E' A} (f : E -> E') (p : M R E A) r : gave_up (fst (p r)) -> gave_up (fst (map_err f p r)).
  Proof. unfold map_err. destruct (p r) as [[a|e|pn|] r1]; cbn; auto; contradiction. Qed.

  Lemma section_loop_complete n : forall s (r : R) s' xs bs c1 c2,
    Bseq Bsection xs bs -> apply_all xs s = Some s' -> bsteps (abs r) bs c1 -> at_end c1 c2 ->
    (exists r', section_loop n s r = (Ok s', r') /\ abs r' = c2) \/ gave_up (fst (section_loop n s r)).
  Proof.
    induction n as [|n IH]; intros s r s' xs bs c1 c2 Hq Hall Hb He; [right; exact I|]. cbn [section_loop].
    unfold bind, map_err, decode_section_header, read_section_id, bind, map_err.
    destruct (read_byte r) as [y r1] eqn:Eb. pose proof (read_byte_spec _ _ _ Eb) as Hspec.
    inversion Hq as [|[x sz] xs' b1 b2 Hx Hq']; subst.
    - apply bsteps_nil_inv in Hb as ->. injection Hall as <-. left.
      destruct He as [He|He]; rewrite He in Hspec; injection Hspec as -> Ha; exists r1; (split; [reflexivity|exact Ha]).
    - inversion Hx as [? b3 b4 HU HC]; subst. cbn [app] in Hb. rewrite <- !app_assoc in Hb.
      apply bsteps_cons_inv in Hb as (c3 & Hn & Hb). rewrite Hn in Hspec. injection Hspec as -> <-.
      rewrite (proj2 (section_marker _ _) eq_refl).
      apply bsteps_app_inv in Hb as (c4 & Hb3 & Hb). apply bsteps_app_inv in Hb as (c5 & Hb4 & Hb).
      cbn [apply_all] in Hall. destruct (apply_one _ s) as [s1|] eqn:Ea; [|discriminate].
      destruct (p_complete _ _ parses_u32 _ _ _ _ HU Hb3) as [(r2 & -> & <-)|Hg].
      2: { right. destruct (decode_u32 r1) as [[a|e|pn|] r2]; cbn in *; auto; contradiction. }
      cbn [ret].
      edestruct (p_complete _ _ (parses_section_step (mkHeader (kind_of x) (N.of_nat (length b4))) s) r2 s1 b4 c5) as [(r3 & -> & <-)|Hg]; [|exact Hb4| |].
      + exists x. cbn. auto.
      + eapply IH; eauto.
      + right. destruct (section_step _ s r2) as [[a|e|pn|] r3]; cbn in *; auto; contradiction.
  Qed.
End Step.

Definition final_ok (s : st) : bool :=
  let m := st_module s in
  negb (negb (lenN (funcs m) =? 0) && negb (st_code s))
  && match data_count m with Some n => n =? lenN (datas m) | None => true end
  && negb (st_data_idx s && match data_count m with None => true | Some _ => false end).
(** sections in order [xs] make up module [m], according to the decoder *)
Definition assemble (xs : list (section * N)) : option Module_ :=
  match apply_all xs (mkSt default_module false false) with
  | Some s => if final_ok s then Some (st_module s) else None
  | None => None
  end.

Lemma bytes_eqb_eq a b : bytes_eqb a b = true <-> a = b.
Proof.
  revert b; induction a as [|x a IH]; intros [|y b]; cbn; try (split; congruence).
  rewrite Bool.andb_true_iff, IH. split.
  - intros [E ->]. apply Byte.byte_dec_bl in E as ->. reflexivity.
  - intros [= -> ->]. split; [apply Byte.byte_dec_lb; reflexivity|reflexivity].
Qed.
Lemma final_pure {R} s (r : R) :
  if final_ok s then final_checks s r = (Ok (st_module s), r) else exists e, final_checks s r = (Err e, r).
Proof.
  unfold final_ok, final_checks. destruct (negb (lenN (funcs (st_module s)) =? 0) && negb (st_code s))%bool; cbn [negb andb]; [eexists; reflexivity|].
  destruct (data_count (st_module s)) as [n|].
  - destruct (n =? lenN (datas (st_module s))); cbn [negb andb]; [|eexists; reflexivity].
    rewrite Bool.andb_false_r. reflexivity.
  - rewrite Bool.andb_true_r. destruct (st_data_idx s); cbn; [eexists|]; reflexivity.
Qed.

Section Top.
  Context {env : Env} {R C : Type} `{Lawful R C}.
  Lemma parses_preamble : Parses (parse_preamble : M R _ _) (fun _ bs => bs = magic ++ version1).
  Proof.
    unfold parse_preamble. eapply parses_ext; [parses|]. intros [] bs. split.
    - intros (l & b1 & b2 & -> & [-> _] & Hk). destruct (bytes_eqb l EXPECTED_PREAMBLE) eqn:E; cbn in Hk; [|destruct Hk].
      destruct Hk as [_ ->]. rewrite app_nil_r. apply bytes_eqb_eq in E. exact E.
    - intros ->. exists (magic ++ version1), (magic ++ version1), []. split; [reflexivity|]. split; [split; reflexivity|]. split; reflexivity.
  Qed.

  Lemma decode_sound (r : R) m r' : decode_module r = (Ok m, r') ->
    exists xs bs c1, bsteps (abs r) (magic ++ version1 ++ bs) c1 /\ at_end c1 (abs r') /\
      Bseq Bsection xs bs /\ assemble xs = Some m.
  Proof.
    unfold decode_module. unfold bind at 1. intros Hr.
    destruct (map_err DM_ParsePreamble parse_preamble r) as [[u|e|pn|] r1] eqn:E1; try discriminate.
    destruct (p_sound _ _ (parses_map_err DM_ParsePreamble _ _ parses_preamble) _ _ _ E1) as (b0 & Hb0 & ->).
    unfold bind in Hr. unfold section_loop' in Hr.
    destruct (section_loop _ _ r1) as [[s|e|pn|] r2] eqn:E2; try discriminate.
    apply section_loop_sound in E2 as (xs & bs & c1 & Hb & He & Hq & Hall).
    pose proof (final_pure s r2) as HF. destruct (final_ok s) eqn:EF; [|destruct HF as (e & HF)]; rewrite HF in Hr; [|discriminate].
    injection Hr as <- <-. exists xs, bs, c1. split; [rewrite app_assoc; eapply bsteps_app; eassumption|].
    split; [assumption|]. split; [assumption|]. unfold assemble. rewrite Hall, EF. reflexivity.
  Qed.
  Lemma decode_complete (r : R) m xs bs c1 c2 :
    Bseq Bsection xs bs -> assemble xs = Some m -> bsteps (abs r) (magic ++ version1 ++ bs) c1 -> at_end c1 c2 ->
    (exists r', decode_module r = (Ok m, r') /\ abs r' = c2) \/ gave_up (fst (decode_module r)).
  Proof.
    intros Hq Ha Hb He. rewrite app_assoc in Hb. apply bsteps_app_inv in Hb as (c0 & Hb0 & Hb).
    unfold decode_module.
    destruct (p_complete _ _ (parses_map_err DM_ParsePreamble _ _ parses_preamble) r tt _ _ eq_refl Hb0) as [(r1 & E1 & <-)|Hg].
    2: { right. apply gave_up_bind. exact Hg. }
    unfold bind at 1 3. rewrite E1. unfold assemble in Ha.
    destruct (apply_all xs _) as [s|] eqn:Eall; [|discriminate]. destruct (final_ok s) eqn:EF; [|discriminate]. injection Ha as <-.
    unfold section_loop'. unfold bind at 1 2.
    destruct (section_loop_complete (S (budget r1)) _ _ _ _ _ _ _ Hq Eall Hb He) as [(r2 & E2 & Hc)|Hg].
    - rewrite E2. left. pose proof (final_pure s r2) as HF. rewrite EF in HF. rewrite HF. eauto.
    - right. destruct (section_loop _ _ r1) as [[s'|e|pn|] r2]; cbn in *; auto; contradiction.
  Qed.
End Top.
