(** [module_eq] decides [equal]: modules. *)
From Verif Require Import Model.Prelude Model.Ast Model.Eq Spec.Equal Proofs.Equal.
From Coq Require Import Bool Lia ZifyN ZifyNat ZifyBool Strings.Byte.
#[local] Arguments instr_eq : simpl never.
#[local] Arguments expr_eq : simpl never.

Lemma func_agree f : Agree func_eq func_rest (fun f => expr_floats (f_body f)) f.
Proof.
  apply (agree_part _ _ _ (fun a b => (f_type a =? f_type b)%N && vec_eq valtype_eq (f_locals a) (f_locals b)) f_body _ _ _ f (expr_agree _)); [|reflexivity|].
  - intros g. unfold func_eq. apply andb_true_iff.
  - intros g. rewrite andb_true_iff, N.eqb_eq, (vec_dec _ valtype_dec _ _). unfold func_rest. split; [intros E; injection E; auto|intros [[-> ->] ->]; reflexivity].
Qed.
Lemma table_agree t : Agree table_eq table_rest (fun t => expr_floats (t_init t)) t.
Proof.
  apply (agree_part _ _ _ (fun a b => tabletype_eq (t_type a) (t_type b)) t_init _ _ _ t (expr_agree _)); [|reflexivity|].
  - intros g. apply andb_true_iff.
  - intros g. rewrite (tabletype_dec _ _). unfold table_rest. split; [intros E; injection E; auto|intros [-> ->]; reflexivity].
Qed.
Lemma global_agree t : Agree global_eq global_rest (fun t => expr_floats (g_init t)) t.
Proof.
  apply (agree_part _ _ _ (fun a b => globaltype_eq (g_type a) (g_type b)) g_init _ _ _ t (expr_agree _)); [|reflexivity|].
  - intros g. apply andb_true_iff.
  - intros g. rewrite (globaltype_dec _ _). unfold global_rest. split; [intros E; injection E; auto|intros [-> ->]; reflexivity].
Qed.
Lemma datamode_agree d : Agree datamode_eq (fun d => match d with DM_Active x o => DM_Active x (expr_rest o) | k => k end) (fun d => match d with DM_Active _ o => expr_floats o | _ => [] end) d.
Proof.
  destruct d as [|x o].
  - split; intros [|y p]; try discriminate; try reflexivity; intros _ _; (split; [first [discriminate|split; [reflexivity|apply Forall2_nil]]|intros [E _]; first [discriminate E|reflexivity]]).
  - destruct (expr_agree o) as [HL HE]. split; intros [|y p]; try discriminate.
    + intros E. injection E as _ E. exact (HL _ E).
    + intros _ _. split; [discriminate|intros [E _]; discriminate E].
    + intros R R'. unfold datamode_eq. rewrite andb_true_iff, N.eqb_eq, (HE _ R R'). split; [intros [-> [-> F]]; split; [reflexivity|exact F]|intros [E F]; injection E as -> E; auto].
Qed.
Lemma elemmode_agree d : Agree elemmode_eq (fun d => match d with EM_Active x o => EM_Active x (expr_rest o) | k => k end) (fun d => match d with EM_Active _ o => expr_floats o | _ => [] end) d.
Proof.
  destruct d as [|x o|].
  1,3: split; intros [|y p|]; try discriminate; try reflexivity; intros _ _; (split; [first [discriminate|split; [reflexivity|apply Forall2_nil]]|intros [E _]; first [discriminate E|reflexivity]]).
  destruct (expr_agree o) as [HL HE]. split; intros [|y p|]; try discriminate.
  - intros E. injection E as _ E. exact (HL _ E).
  - intros _ _. split; [discriminate|intros [E _]; discriminate E].
  - intros R R'. unfold elemmode_eq. rewrite andb_true_iff, N.eqb_eq, (HE _ R R'). split; [intros [-> [-> F]]; split; [reflexivity|exact F]|intros [E F]; injection E as -> E; auto].
  - intros _ _. split; [discriminate|intros [E _]; discriminate E].
Qed.
Lemma data_agree d : Agree data_eq data_rest (fun d => match d_mode d with DM_Active _ o => expr_floats o | _ => [] end) d.
Proof.
  apply (agree_part _ _ _ (fun a b => bytes_eq (d_init a) (d_init b)) d_mode _ _ _ d (datamode_agree _)); [|reflexivity|].
  - intros g. apply andb_true_iff.
  - intros g. rewrite (bytes_dec _ _). destruct d as [i []], g as [i' []]; unfold data_rest; cbn [d_init d_mode]; (split; [intros E; injection E; intros; split; congruence|intros [-> E]; congruence]).
Qed.
Lemma elem_agree e : Agree elem_eq elem_rest (fun e => flat_map expr_floats (e_init e) ++ match e_mode e with EM_Active _ o => expr_floats o | _ => [] end) e.
Proof.
  apply (agree_part _ _ _ (fun a b => reftype_eq (e_type a) (e_type b)) (fun e => (e_init e, e_mode e)) _ _ _ e
    (agree_pair (vec_eq expr_eq) (map expr_rest) (flat_map expr_floats) _ _ _ (e_init e, e_mode e) (agree_vec _ _ _ _ (proj2 (Forall_forall _ _) (fun x _ => expr_agree x))) (elemmode_agree _))); [|reflexivity|].
  - intros g. unfold elem_eq, pair_eq. cbn [fst snd]. rewrite !andb_true_iff. tauto.
  - intros g. rewrite (reftype_dec _ _). destruct e as [t l []], g as [t' l' []]; unfold elem_rest; cbn [e_type e_init e_mode fst snd]; (split; [intros E; injection E; intros; split; congruence|intros [-> E]; congruence]).
Qed.

Lemma all_agree {A} (eq : A -> A -> bool) rest fl (H : forall a, Agree eq rest fl a) l : Agree (vec_eq eq) (map rest) (flat_map fl) l.
Proof. apply agree_vec. apply Forall_forall. intros a _. apply H. Qed.
Definition module_part (m : Module_) := (funcs m, (tables m, (globals m, (elems m, datas m)))).
Definition module_data (m m' : Module_) : bool :=
  bytes_eq (version m) (version m') && vec_eq kind_eq (parsed_section_kinds m) (parsed_section_kinds m')
  && vec_eq header_eq (section_headers m) (section_headers m') && vec_eq custom_eq (custom_sections m) (custom_sections m')
  && vec_eq rectype_eq (types m) (types m') && vec_eq memtype_eq (mems m) (mems m')
  && option_eq N.eqb (data_count m) (data_count m') && option_eq N.eqb (start m) (start m')
  && vec_eq import_eq (imports m) (imports m') && vec_eq export_eq (exports m) (exports m') && vec_eq tagtype_eq (tags m) (tags m').
Lemma module_agree m : Agree module_eq module_rest module_floats m.
Proof.
  apply (agree_part _ _ _ module_data module_part _ _ _ m
    (agree_pair _ _ _ _ _ _ (module_part m) (all_agree _ _ _ func_agree _) (agree_pair _ _ _ _ _ _ _ (all_agree _ _ _ table_agree _)
      (agree_pair _ _ _ _ _ _ _ (all_agree _ _ _ global_agree _) (agree_pair _ _ _ _ _ _ _ (all_agree _ _ _ elem_agree _) (all_agree _ _ _ data_agree _)))))); [|reflexivity|].
  - intros g. unfold module_eq, module_data, module_part, pair_eq. cbn [fst snd]. rewrite !andb_true_iff. tauto.
  - intros g. unfold module_data. rewrite !andb_true_iff.
    rewrite (bytes_dec _ _), (vec_dec _ kind_dec _ _), (vec_dec _ header_dec _ _), (vec_dec _ custom_dec _ _), (vec_dec _ rectype_dec _ _), (vec_dec _ memtype_dec _ _),
      !(option_dec _ N_dec _ _), (vec_dec _ import_dec _ _), (vec_dec _ export_dec _ _), (vec_dec _ tagtype_dec _ _).
    unfold module_rest, module_part. cbn [fst snd]. split.
    + intros E. injection E as E1 E2 E3 E4 E5 E6 E7 E8 E9 E10 E11 E12 E13 E14 E15 E16.
      split; [|rewrite E6, E7, E9, E10, E12; reflexivity]. rewrite E1, E2, E3, E4, E5, E8, E11, E13, E14, E15, E16.
      repeat (split; [|reflexivity]). reflexivity.
    + intros [[[[[[[[[[[-> ->] ->] ->] ->] ->] ->] ->] ->] ->] ->] E]. injection E as -> -> -> -> ->. reflexivity.
Qed.

(** ** the constants of a decoded module are in range *)
From Verif Require Import Spec.Lang Spec.Types Spec.Instr Spec.Module Spec.Encode.
Lemma every_Forall {A} (P : A -> Prop) l : every P l <-> Forall P l.
Proof. induction l as [|a l IH]; cbn; [split; [constructor|auto]|]. rewrite IH. split; [intros [H1 H2]; constructor; assumption|inversion 1; auto]. Qed.
Lemma Forall_flat_map {A B} (P : B -> Prop) (f : A -> list B) l : Forall (fun a => Forall P (f a)) l -> Forall P (flat_map f l).
Proof. induction 1; cbn; [constructor|]. apply Forall_app. auto. Qed.
Lemma fit_floats i : fit_instr i -> Forall in_range (instr_floats i).
Proof.
  assert (HL : forall l, Forall (fun i => fit_instr i -> Forall in_range (instr_floats i)) l -> every fit_instr l -> Forall in_range (flat_map instr_floats l)).
  { intros l IH HE. apply every_Forall in HE. apply Forall_flat_map. rewrite Forall_forall in *. auto. }
  induction i as [i Hi|t l IH|t l IH|t l o IH IHo|t c l IH] using instr_nested_ind; cbn [fit_instr instr_floats].
  - destruct i; try discriminate Hi; cbn; intros HF; try constructor; [exact HF|constructor|exact HF|constructor].
  - intros [_ HE]. exact (HL l IH HE).
  - intros [_ HE]. exact (HL l IH HE).
  - intros [_ [HE HO]]. destruct o as [l'|]; [|exact (HL l IH HE)]. apply Forall_app. split; [exact (HL l IH HE)|exact (HL l' (IHo l' eq_refl) HO)].
  - intros [_ [_ HE]]. exact (HL l IH HE).
Qed.
Lemma fit_expr_floats e : fit_expr e -> Forall in_range (expr_floats e).
Proof. intros H. apply Forall_flat_map. eapply Forall_impl; [|exact H]. exact fit_floats. Qed.

Lemma section_there m k ks : In k ks -> forall cs,
  match k with
  | SK_Table => In (STable (tables m)) (sections_from m ks cs)
  | SK_Global => In (SGlobal (globals m)) (sections_from m ks cs)
  | SK_Element => In (SElement (elems m)) (sections_from m ks cs)
  | SK_Code => In (SCode (map (fun f => (f_locals f, f_body f)) (funcs m))) (sections_from m ks cs)
  | SK_Data => In (SData (datas m)) (sections_from m ks cs)
  | _ => True
  end.
Proof.
  induction ks as [|k' ks IH]; intros HI; [destruct HI|]. intros cs. destruct HI as [->|HI].
  - destruct k; cbn [sections_from]; auto; left; reflexivity.
  - specialize (IH HI). destruct k'; cbn [sections_from]; try (specialize (IH cs); destruct k; auto; right; exact IH).
    + destruct cs as [|c cs]; [specialize (IH []); destruct k; auto|specialize (IH cs); destruct k; auto; right; exact IH].
    + specialize (IH cs). destruct (start m); destruct k; auto; right; exact IH.
    + specialize (IH cs). destruct (data_count m); destruct k; auto; right; exact IH.
Qed.
Lemma representable_floats m : representable m -> Forall in_range (module_floats m).
Proof.
  intros HR. pose proof (r_fits m HR) as HF. rewrite Forall_forall in HF.
  assert (HS : forall s, In s (sections m) -> fit_contents s) by (intros s Hs; apply (HF s Hs)).
  unfold module_floats. rewrite !Forall_app. repeat split; apply Forall_flat_map; apply Forall_forall; intros x Hx.
  - assert (HI : In SK_Code (kinds_of m)) by (apply (r_functions m HR); intros E; rewrite E in Hx; exact Hx).
    destruct (HS _ (section_there m SK_Code _ HI (custom_sections m))) as [_ HA]. rewrite Forall_forall in HA.
    apply fit_expr_floats. specialize (HA (f_locals x, f_body x) (in_map (fun f => (f_locals f, f_body f)) _ _ Hx)). apply HA.
  - assert (HI : In SK_Table (kinds_of m)) by (apply (r_tables m HR); intros E; rewrite E in Hx; exact Hx).
    destruct (HS _ (section_there m SK_Table _ HI (custom_sections m))) as [_ HA]. rewrite Forall_forall in HA. apply fit_expr_floats. apply (HA x Hx).
  - assert (HI : In SK_Global (kinds_of m)) by (apply (r_globals m HR); intros E; rewrite E in Hx; exact Hx).
    destruct (HS _ (section_there m SK_Global _ HI (custom_sections m))) as [_ HA]. rewrite Forall_forall in HA. apply fit_expr_floats. apply (HA x Hx).
  - assert (HI : In SK_Element (kinds_of m)) by (apply (r_elems m HR); intros E; rewrite E in Hx; exact Hx).
    destruct (HS _ (section_there m SK_Element _ HI (custom_sections m))) as [_ HA]. rewrite Forall_forall in HA. destruct (HA x Hx) as [_ [[_ HE] HM]].
    apply Forall_app. split; [apply Forall_flat_map; eapply Forall_impl; [|exact HE]; exact fit_expr_floats|].
    destruct (e_mode x); try constructor. apply fit_expr_floats, HM.
  - assert (HI : In SK_Data (kinds_of m)) by (apply (r_datas m HR); intros E; rewrite E in Hx; exact Hx).
    destruct (HS _ (section_there m SK_Data _ HI (custom_sections m))) as [_ HA]. rewrite Forall_forall in HA. destruct (HA x Hx) as [_ HM].
    destruct (d_mode x); try constructor. apply fit_expr_floats, HM.
Qed.
Theorem equal_iff m m' : representable m -> representable m' -> (module_eq m m' = true <-> equal m m').
Proof. intros R R'. apply (ag_eq _ _ _ _ (module_agree m)); apply representable_floats; assumption. Qed.

(** ** nothing is lost *)
Definition Det {A} (rest : A -> A) (fl : A -> list float) (a : A) : Prop := forall b, rest a = rest b -> fl a = fl b -> a = b.
Lemma app_split {A} (l1 l1' l2 l2' : list A) : length l1 = length l1' -> l1 ++ l2 = l1' ++ l2' -> l1 = l1' /\ l2 = l2'.
Proof.
  revert l1'. induction l1 as [|a l1 IH]; intros [|b l1'] HL E; try discriminate HL; [auto|]. cbn in E. injection E as -> E. injection HL as HL.
  destruct (IH _ HL E) as [-> ->]. auto.
Qed.
Lemma det_vec {A} rest fl (l : list A) : (forall a b, rest a = rest b -> length (fl a) = length (fl b)) -> Forall (Det rest fl) l -> Det (map rest) (flat_map fl) l.
Proof.
  intros HL. induction 1 as [|a l Ha _ IH]; intros [|b l'] E F; cbn in *; try discriminate E; [reflexivity|]. injection E as E1 E2.
  destruct (app_split _ _ _ _ (HL _ _ E1) F) as [F1 F2]. rewrite (Ha b E1 F1), (IH l' E2 F2). reflexivity.
Qed.
Lemma instr_det i : Det instr_rest instr_floats i.
Proof.
  assert (HI : forall a b, instr_rest a = instr_rest b -> length (instr_floats a) = length (instr_floats b)) by (intros a b; apply (ag_len _ _ _ _ (instr_agree a))).
  assert (HX : forall l l' : list instr, map instr_rest l = map instr_rest l' -> length (flat_map instr_floats l) = length (flat_map instr_floats l')) by (intros l l'; apply (ag_len _ _ _ _ (expr_agree l))).
  induction i as [i Hi|t l IH|t l IH|t l o IH IHo|t c l IH] using instr_nested_ind; try apply (det_vec _ _ _ HI) in IH; intros j E F.
  - assert (Hj : nested j = false) by (rewrite <- (rest_nested j), <- E, rest_nested; exact Hi).
    apply same_instr; [exact Hi|rewrite <- (rest_disc i), E; apply rest_disc|].
    assert (Ef : map field_rest (fields i) = map field_rest (fields j)) by (rewrite <- !rest_fields, E; reflexivity).
    rewrite (floats_fields i Hi), (floats_fields j Hj) in F. refine (det_vec field_rest field_floats (fields i) (fun a b => ag_len _ _ _ _ (field_agree a) b) _ _ Ef F).
    apply Forall_forall. intros f _ g Eg Fg. destruct f, g; cbn in *; try discriminate Eg; try exact Eg; injection Fg as ->; reflexivity.
  - destruct j; try discriminate E. cbn in E, F. injection E as -> E. rewrite (IH _ E F). reflexivity.
  - destruct j; try discriminate E. cbn in E, F. injection E as -> E. rewrite (IH _ E F). reflexivity.
  - destruct j; try discriminate E. cbn in E, F. injection E as -> E Eo. destruct o as [l1|], o0 as [l2|]; try discriminate Eo.
    + injection Eo as Eo. destruct (app_split _ _ _ _ (HX _ _ E) F) as [F1 F2]. rewrite (IH _ E F1). rewrite (det_vec _ _ _ HI (IHo l1 eq_refl) l2 Eo F2). reflexivity.
    + rewrite (IH _ E F). reflexivity.
  - destruct j; try discriminate E. cbn in E, F. injection E as -> -> E. rewrite (IH _ E F). reflexivity.
Qed.
Lemma expr_det e : Det expr_rest expr_floats e.
Proof. apply det_vec; [intros a b; apply (ag_len _ _ _ _ (instr_agree a))|]. apply Forall_forall. intros i _. apply instr_det. Qed.
Lemma all_det {A} (eq : A -> A -> bool) rest fl (H : forall a, Agree eq rest fl a) (D : forall a, Det rest fl a) l : Det (map rest) (flat_map fl) l.
Proof. apply det_vec; [intros a b; apply (ag_len _ _ _ _ (H a))|]. apply Forall_forall. intros a _. apply D. Qed.
Lemma func_det f : Det func_rest (fun f => expr_floats (f_body f)) f.
Proof. intros [t' l' b'] E F. destruct f as [t l b]. cbn in F. unfold func_rest in E. cbn [f_type f_locals f_body] in E. injection E as -> -> E. rewrite (expr_det _ _ E F). reflexivity. Qed.
Lemma table_det f : Det table_rest (fun f => expr_floats (t_init f)) f.
Proof. intros [t' b'] E F. destruct f as [t b]. cbn in F. unfold table_rest in E. cbn [t_type t_init] in E. injection E as -> E. rewrite (expr_det _ _ E F). reflexivity. Qed.
Lemma global_det f : Det global_rest (fun f => expr_floats (g_init f)) f.
Proof. intros [t' b'] E F. destruct f as [t b]. cbn in F. unfold global_rest in E. cbn [g_type g_init] in E. injection E as -> E. rewrite (expr_det _ _ E F). reflexivity. Qed.
Lemma data_det f : Det data_rest (fun d => match d_mode d with DM_Active _ o => expr_floats o | _ => [] end) f.
Proof.
  intros [i' m'] E F. destruct f as [i m]. unfold data_rest in E. cbn [d_init d_mode] in *. destruct m as [|x o], m' as [|x' o']; try discriminate E; injection E as ->; [reflexivity|].
  subst. match goal with H : expr_rest _ = expr_rest _ |- _ => rewrite (expr_det _ _ H F) end. reflexivity.
Qed.
Lemma elem_det f : Det elem_rest (fun e => flat_map expr_floats (e_init e) ++ match e_mode e with EM_Active _ o => expr_floats o | _ => [] end) f.
Proof.
  intros [t' l' m'] E F. destruct f as [t l m]. unfold elem_rest in E. cbn [e_type e_init e_mode] in *.
  assert (El : map expr_rest l = map expr_rest l') by (injection E; auto).
  destruct (app_split _ _ _ _ (ag_len _ _ _ _ (all_agree _ _ _ expr_agree l) l' El) F) as [F1 F2].
  rewrite (all_det _ _ _ expr_agree expr_det l l' El F1).
  destruct m as [|x o|], m' as [|x' o'|]; try discriminate E; injection E; intros; subst; try reflexivity.
  match goal with H : expr_rest _ = expr_rest _ |- _ => rewrite (expr_det _ _ H F2) end. reflexivity.
Qed.
Lemma module_det m : Det module_rest module_floats m.
Proof.
  intros m' E F. unfold module_floats in F. destruct m as [a1 a2 a3 a4 a5 a6 a7 a8 a9 a10 a11 a12 a13 a14 a15 a16], m' as [b1 b2 b3 b4 b5 b6 b7 b8 b9 b10 b11 b12 b13 b14 b15 b16]. unfold module_rest in E. cbn [Ast.version parsed_section_kinds section_headers custom_sections types funcs tables mems globals elems data_count datas start imports exports tags] in *.
  injection E as -> -> -> -> -> E6 E7 -> E9 E10 -> E12 -> -> -> ->.
  destruct (app_split _ _ _ _ (ag_len _ _ _ _ (all_agree _ _ _ func_agree _) _ E6) F) as [F1 F']. clear F.
  destruct (app_split _ _ _ _ (ag_len _ _ _ _ (all_agree _ _ _ table_agree _) _ E7) F') as [F2 F]. clear F'.
  destruct (app_split _ _ _ _ (ag_len _ _ _ _ (all_agree _ _ _ global_agree _) _ E9) F) as [F3 F']. clear F.
  destruct (app_split _ _ _ _ (ag_len _ _ _ _ (all_agree _ _ _ elem_agree _) _ E10) F') as [F4 F5]. clear F'.
  rewrite (all_det _ _ _ func_agree func_det _ _ E6 F1), (all_det _ _ _ table_agree table_det _ _ E7 F2), (all_det _ _ _ global_agree global_det _ _ E9 F3),
    (all_det _ _ _ elem_agree elem_det _ _ E10 F4), (all_det _ _ _ data_agree data_det _ _ E12 F5). reflexivity.
Qed.
(** numbers other than zero have one representation *)
Lemma same_number_eq c c' : in_range c -> in_range c' -> same_number c c' -> float_value c <> Finite 0 -> c = c'.
Proof.
  intros R R' HS HZ. destruct c as [a|a], c' as [b|b]; try (destruct HS as [HS _]; discriminate HS); cbn in R, R'.
  - pose proof (proj2 (same_single a b R R') HS) as HE. unfold f32_eq, float_eq in HE. rewrite !andb_true_iff, orb_true_iff, N.eqb_eq in HE. destruct HE as [_ [->|HE]]; [reflexivity|].
    exfalso. apply HZ. apply andb_true_iff in HE as [HE _]. unfold is_zero in HE. rewrite andb_true_iff, !N.eqb_eq in HE. destruct HE as [EX EF].
    cbn [float_value]. rewrite value_eq by lia. rewrite EX, EF. cbn. destruct (sign 23 8 a); reflexivity.
  - pose proof (proj2 (same_double a b R R') HS) as HE. unfold f64_eq, float_eq in HE. rewrite !andb_true_iff, orb_true_iff, N.eqb_eq in HE. destruct HE as [_ [->|HE]]; [reflexivity|].
    exfalso. apply HZ. apply andb_true_iff in HE as [HE _]. unfold is_zero in HE. rewrite andb_true_iff, !N.eqb_eq in HE. destruct HE as [EX EF].
    cbn [float_value]. rewrite value_eq by lia. rewrite EX, EF. cbn. destruct (sign 52 11 a); reflexivity.
Qed.
