(** C64: every part of a module comes from its own section. *)
From Verif Require Import Model.Prelude Model.Ast Spec.Lang Spec.Types Spec.Instr Spec.Module Spec.Layout Spec.Locality.
From Verif Require Import Proofs.GAssemble Proofs.Unamb Proofs.Modules.
From Coq Require Import Lia.

(** ** sections of one kind *)
Definition of_kind (k : SectionKind) (cs : list section) : list section := filter (fun s => if kind_dec (kind_of s) k then true else false) cs.
Definition Matches (xs : list (section * N)) (ps : list (SectionKind * list byte)) : Prop :=
  Forall2 (fun y p => kind_of (fst y) = fst p /\ snd y = N.of_nat (length (snd p)) /\ Bcontents (fst y) (snd p)) xs ps.
Lemma matches_kind k xs ps : Matches xs ps -> Forall2 Bcontents (of_kind k (map fst xs)) (payloads k ps).
Proof.
  induction 1 as [|[s n] [k' p] xs ps (Hk & _ & HC) _ IH]; [constructor|]. unfold of_kind, payloads in *. cbn in Hk, HC |- *.
  rewrite Hk. destruct (kind_dec k' k); [|exact IH]. cbn. constructor; assumption.
Qed.
Lemma of_kind_all k cs : Forall (fun s => kind_of s = k) (of_kind k cs).
Proof. apply Forall_forall. intros s Hs. apply filter_In in Hs as [_ Hs]. destruct (kind_dec (kind_of s) k); [assumption|discriminate]. Qed.
Lemma same_contents k ys ys' l : Forall (fun s => kind_of s = k) ys -> Forall (fun s => kind_of s = k) ys' ->
  Forall2 Bcontents ys l -> Forall2 Bcontents ys' l -> ys = ys'.
Proof.
  intros H H' H2. revert ys' H'. induction H2 as [|y p ys l HC _ IH]; intros ys' H' H2'; inversion H2'; subst; [reflexivity|].
  inversion H; inversion H'; subst. f_equal; [eapply contents_unamb; [|eassumption..]; congruence|auto].
Qed.
Lemma same_of_kind k xs xs' ps ps' : Matches xs ps -> Matches xs' ps' -> payloads k ps = payloads k ps' -> of_kind k (map fst xs) = of_kind k (map fst xs').
Proof.
  intros H H' E. apply (same_contents k _ _ (payloads k ps)); [apply of_kind_all..|apply matches_kind; exact H|]. rewrite E. apply matches_kind. exact H'.
Qed.
(** [f] only looks at sections of kind [k] *)
Definition Only {A} (k : SectionKind) (f : section -> list A) : Prop := forall s, kind_of s <> k -> f s = [].
Lemma the_of_kind {A} k (f : section -> list A) cs : Only k f -> the f cs = the f (of_kind k cs).
Proof.
  intros Hf. unfold the, of_kind. induction cs as [|s cs IH]; [reflexivity|]. cbn [flat_map filter]. destruct (kind_dec (kind_of s) k) as [E|E].
  - cbn [flat_map]. rewrite IH. reflexivity.
  - rewrite (Hf s E), IH. reflexivity.
Qed.
Lemma the_same {A} k (f : section -> list A) cs cs' : Only k f -> of_kind k cs = of_kind k cs' -> the f cs = the f cs'.
Proof. intros Hf E. rewrite (the_of_kind k f cs Hf), (the_of_kind k f cs' Hf), E. reflexivity. Qed.
Ltac just := let s := fresh in let H := fresh in intros s H; destruct s; try reflexivity; destruct (H eq_refl).

(** ** the functions of a module *)
Lemma types_of ss : length (the get_function (map fst ss)) = length (the get_code (map fst ss)) -> map f_type (funcs (module_of ss)) = the get_function (map fst ss).
Proof.
  cbn [funcs module_of]. generalize (the get_function (map fst ss)), (the get_code (map fst ss)). intros l. induction l as [|x l IH]; intros [|[ls e] l'] E; try discriminate E; [reflexivity|].
  cbn. f_equal. apply IH. injection E as E. exact E.
Qed.
Lemma bodies_of ss : length (the get_function (map fst ss)) = length (the get_code (map fst ss)) -> map (fun f => (f_locals f, f_body f)) (funcs (module_of ss)) = the get_code (map fst ss).
Proof.
  cbn [funcs module_of]. generalize (the get_function (map fst ss)), (the get_code (map fst ss)). intros l. induction l as [|x l IH]; intros [|[ls e] l'] E; try discriminate E; [reflexivity|].
  cbn. f_equal. apply IH. injection E as E. exact E.
Qed.
Lemma funcs_len ss : length (the get_function (map fst ss)) = length (the get_code (map fst ss)) ->
  length (funcs (module_of ss)) = length (the get_function (map fst ss)) /\ length (funcs (module_of ss)) = length (the get_code (map fst ss)).
Proof. intros E. rewrite <- (types_of ss E) at 1. rewrite <- (bodies_of ss E), !map_length. auto. Qed.
Lemma funcs_mention ss : length (the get_function (map fst ss)) = length (the get_code (map fst ss)) ->
  ((forall f i, In f (funcs (module_of ss)) -> In i (f_body f) -> ~ mentions_data i) <-> (forall ls e i, In (ls, e) (the get_code (map fst ss)) -> In i e -> ~ mentions_data i)).
Proof.
  intros E. rewrite <- (bodies_of ss E). split.
  - intros H ls e i Hi. apply in_map_iff in Hi as (f & Ef & Hf). injection Ef as <- <-. exact (H f i Hf).
  - intros H f i Hf. apply (H (f_locals f) (f_body f) i). apply in_map_iff. exists f. auto.
Qed.

Lemma agree_of k ss ss' : Module_conds (map fst ss) -> Module_conds (map fst ss') -> of_kind k (map fst ss) = of_kind k (map fst ss') -> agree k (module_of ss) (module_of ss').
Proof.
  intros C C' E. destruct k; cbn [agree];
    try (unfold module_of; cbn [custom_sections types tables mems globals elems datas imports exports tags]; eapply the_same; [|exact E]; just).
  - rewrite (types_of _ (mc_len _ C)), (types_of _ (mc_len _ C')). eapply the_same; [|exact E]. just.
  - unfold module_of; cbn [start]. f_equal. eapply the_same; [|exact E]. just.
  - unfold module_of; cbn [data_count]. f_equal. eapply the_same; [|exact E]. just.
  - rewrite (bodies_of _ (mc_len _ C)), (bodies_of _ (mc_len _ C')). eapply the_same; [|exact E]. just.
Qed.
Lemma sections_in m w ps : Bmodule m (preamble ++ w) -> parts ps w -> exists ss, Matches ss ps /\ Module_conds (map fst ss) /\ m = module_of ss.
Proof.
  intros HB Hp. remember (preamble ++ w) as q eqn:Eq. destruct HB as [ss w' cs Hq H1 H2 H3 H4].
  change (magic ++ version1 ++ w') with (preamble ++ w') in Eq. apply app_inv_head in Eq. subst w'.
  destruct (sections_parts _ _ Hq) as (ps' & Hp' & HM). rewrite (parts_unamb _ _ _ Hp Hp'). exists ss. split; [exact HM|]. split; [|reflexivity]. constructor; assumption.
Qed.
Theorem own m m' w w' ps ps' k : Bmodule m (preamble ++ w) -> Bmodule m' (preamble ++ w') -> parts ps w -> parts ps' w' ->
  payloads k ps = payloads k ps' -> agree k m m'.
Proof.
  intros HB HB' Hp Hp' E.
  destruct (sections_in _ _ _ HB Hp) as (ss & HM & HC & ->), (sections_in _ _ _ HB' Hp') as (ss' & HM' & HC' & ->).
  apply agree_of; [assumption..|]. exact (same_of_kind _ _ _ _ _ HM HM' E).
Qed.

(** ** replacing a section *)
Lemma of_kind_app k l l' : of_kind k (l ++ l') = of_kind k l ++ of_kind k l'.
Proof. apply filter_app. Qed.
Lemma of_kind_none k l : k <> SK_Custom -> ~ In k (map kind_of (non_custom l)) -> of_kind k l = [].
Proof.
  intros Hk. induction l as [|s l IH]; [reflexivity|]. unfold of_kind, non_custom in *. cbn [filter]. intros H. destruct (kind_dec (kind_of s) k) as [E|E].
  - exfalso. apply H. destruct s; cbn in E |- *; auto. destruct (Hk (eq_sym E)).
  - apply IH. intros Hi. apply H. destruct (negb (is_custom s)); [right|]; exact Hi.
Qed.
Lemma kinds_app l l' : map kind_of (non_custom (l ++ l')) = map kind_of (non_custom l) ++ map kind_of (non_custom l').
Proof. unfold non_custom. rewrite filter_app, map_app. reflexivity. Qed.
Lemma kinds_cons s l : kind_of s <> SK_Custom -> map kind_of (non_custom (s :: l)) = kind_of s :: map kind_of (non_custom l).
Proof. intros H. destruct s; [destruct (H eq_refl)|reflexivity..]. Qed.
Lemma order_nodup : NoDup section_order.
Proof. repeat constructor; cbn; intuition discriminate. Qed.
Lemma of_kind_one s l l' : kind_of s <> SK_Custom -> subseq (map kind_of (non_custom (l ++ s :: l'))) section_order -> of_kind (kind_of s) (l ++ s :: l') = [s].
Proof.
  intros Hs Ho. apply subseq_nodup in Ho; [|exact order_nodup]. rewrite kinds_app, (kinds_cons s l' Hs) in Ho. apply NoDup_remove_2 in Ho.
  rewrite of_kind_app. rewrite (of_kind_none _ l Hs) by (intros Hi; apply Ho; apply in_or_app; auto). unfold of_kind at 1. cbn [filter app].
  destruct (kind_dec (kind_of s) (kind_of s)) as [_|E]; [|destruct (E eq_refl)]. f_equal. apply (of_kind_none _ l' Hs). intros Hi. apply Ho. apply in_or_app. auto.
Qed.
Lemma of_kind_other k s l l' : kind_of s <> k -> of_kind k (l ++ s :: l') = of_kind k (l ++ l').
Proof. intros H. rewrite !of_kind_app. unfold of_kind at 2. cbn [filter]. destruct (kind_dec (kind_of s) k); [contradiction|reflexivity]. Qed.
Lemma matches_split xs a x b : Matches xs (a ++ x :: b) -> exists s1 y s2, xs = s1 ++ y :: s2 /\ Matches s1 a /\ Matches s2 b /\ kind_of (fst y) = fst x /\ Bcontents (fst y) (snd x).
Proof.
  intros H. apply Forall2_app_inv_r in H as (s1 & r & H1 & H2 & ->). inversion H2 as [|y ? s2 ? (Hk & _ & HC) H2']; subst. exists s1, y, s2. auto.
Qed.
Lemma hd_none {A} (l : list A) : hd_error l = None <-> l = []. Proof. destruct l; split; intros; try discriminate; reflexivity. Qed.
Lemma get_none cs : the get_datacount cs = [] <-> hd_error (the get_datacount cs) = None. Proof. rewrite hd_none. reflexivity. Qed.

Section Change.
  Variables (xs ys zs : list section) (k : SectionKind).
  Hypotheses (Hsame : forall j, j <> k -> of_kind j zs = of_kind j xs) (Hnew : of_kind k zs = of_kind k ys).
  Lemma kept {A} j (f : section -> list A) : Only j f -> j <> k -> the f zs = the f xs.
  Proof. intros Hf Hj. exact (the_same j f _ _ Hf (Hsame j Hj)). Qed.
  Lemma taken {A} (f : section -> list A) : Only k f -> the f zs = the f ys.
  Proof. intros Hf. exact (the_same k f _ _ Hf Hnew). Qed.
End Change.
Lemma only_function : Only SK_Function get_function. Proof. just. Qed.
Lemma only_code : Only SK_Code get_code. Proof. just. Qed.
Lemma only_datacount : Only SK_DataCount get_datacount. Proof. just. Qed.
Lemma only_data : Only SK_Data get_data. Proof. just. Qed.

Section Conds.
  Variables (xs zs : list (section * N)) (k : SectionKind).
  Hypotheses (Hk : k <> SK_Custom) (Hx : Module_conds (map fst xs)) (Ho : subseq (map kind_of (non_custom (map fst zs))) section_order)
    (Hsame : forall j, j <> k -> of_kind j (map fst zs) = of_kind j (map fst xs)).
  Let Lx := mc_len _ Hx.
  Let Cx := mc_count _ Hx.
  Let Mx := mc_mention _ Hx.
  Let kf (H : SK_Function <> k) := kept _ _ k Hsame _ _ only_function H.
  Let kc (H : SK_Code <> k) := kept _ _ k Hsame _ _ only_code H.
  Let kn (H : SK_DataCount <> k) := kept _ _ k Hsame _ _ only_datacount H.
  Let kd (H : SK_Data <> k) := kept _ _ k Hsame _ _ only_data H.
  Lemma count_none ss : data_count (module_of ss) = None <-> the get_datacount (map fst ss) = [].
  Proof. exact (hd_none _). Qed.
  Lemma unrelated : k <> SK_Function -> k <> SK_Code -> k <> SK_DataCount -> k <> SK_Data -> Module_conds (map fst zs).
  Proof.
    intros H1 H2 H3 H4. constructor; [exact Ho|..]; rewrite ?(kf (not_eq_sym H1)), ?(kc (not_eq_sym H2)), ?(kn (not_eq_sym H3)), ?(kd (not_eq_sym H4)); assumption.
  Qed.

  Lemma swap_conds ys sy : Module_conds (map fst ys) -> of_kind k (map fst zs) = of_kind k (map fst ys) -> of_kind k (map fst ys) = [sy] ->
    (Module_conds (map fst zs) <-> compatible k (module_of xs) (module_of ys)).
  Proof.
    intros Hy Hnew Hone. pose proof (mc_len _ Hy) as Ly. pose proof (mc_count _ Hy) as Cy.
    destruct (funcs_len xs Lx) as [Fx Gx], (funcs_len ys Ly) as [Fy Gy].
    pose proof unrelated as U. destruct k; cbn [compatible]; try (split; [exact (fun _ => I)|intros _; apply U; discriminate]).
    - pose proof (taken _ _ _ Hnew _ only_function) as E1. pose proof (kc ltac:(discriminate)) as E2. pose proof (kn ltac:(discriminate)) as E3. pose proof (kd ltac:(discriminate)) as E4. split.
      + intros Hz. pose proof (mc_len _ Hz) as Lz. rewrite E1, E2 in Lz. congruence.
      + intros E. constructor; [exact Ho|rewrite E1, E2; congruence|rewrite E3, E4; exact Cx|rewrite E3, E2; exact Mx].
    - pose proof (taken _ _ _ Hnew _ only_datacount) as E3. pose proof (kf ltac:(discriminate)) as E1. pose proof (kc ltac:(discriminate)) as E2. pose proof (kd ltac:(discriminate)) as E4.
      assert (K : exists n, the get_datacount (map fst ys) = [n]).
      { rewrite (the_of_kind SK_DataCount _ _ only_datacount), Hone. pose proof (of_kind_all SK_DataCount (map fst ys)) as HA. rewrite Hone in HA. inversion HA as [|? ? HA' _]; subst. destruct sy; try discriminate HA'. eexists. reflexivity. }
      destruct K as [n K]. pose proof (Cy n) as Cn. rewrite K in Cn. specialize (Cn (or_introl eq_refl)). cbn [datas module_of]. split.
      + intros Hz. pose proof (mc_count _ Hz n) as Cz. rewrite E3, K, E4 in Cz. specialize (Cz (or_introl eq_refl)). lia.
      + intros E. constructor; [exact Ho|rewrite E1, E2; exact Lx| |].
        * rewrite E3, K, E4. intros n' [<-|[]]. rewrite <- E. exact Cn.
        * rewrite E3, K. discriminate.
    - pose proof (taken _ _ _ Hnew _ only_code) as E2. pose proof (kf ltac:(discriminate)) as E1. pose proof (kn ltac:(discriminate)) as E3. pose proof (kd ltac:(discriminate)) as E4. rewrite count_none, (funcs_mention ys Ly). split.
      + intros Hz. pose proof (mc_len _ Hz) as Lz. pose proof (mc_mention _ Hz) as Mz. rewrite E1, E2 in Lz. rewrite E3, E2 in Mz. split; [congruence|exact Mz].
      + intros [E M]. constructor; [exact Ho|rewrite E1, E2; congruence|rewrite E3, E4; exact Cx|rewrite E3, E2; exact M].
    - pose proof (taken _ _ _ Hnew _ only_data) as E4. pose proof (kf ltac:(discriminate)) as E1. pose proof (kc ltac:(discriminate)) as E2. pose proof (kn ltac:(discriminate)) as E3. rewrite count_none. cbn [datas module_of]. split.
      + intros Hz. pose proof (mc_count _ Hz) as Cz. rewrite E3, E4 in Cz. pose proof Cx as Cn. clear -Cz Cn. destruct (the get_datacount (map fst xs)) as [|n l]; [left; reflexivity|right].
        specialize (Cz n (or_introl eq_refl)). specialize (Cn n (or_introl eq_refl)). lia.
      + intros E. constructor; [exact Ho|rewrite E1, E2; exact Lx| |rewrite E3, E2; exact Mx].
        rewrite E3, E4. destruct E as [E|E]; [rewrite E; intros n []|]. intros n Hn. rewrite E. exact (Cx n Hn).
  Qed.

  Lemma drop_conds : of_kind k (map fst zs) = [] -> (Module_conds (map fst zs) <-> dispensable k (module_of xs)).
  Proof.
    intros Hnew. assert (Hnew' : of_kind k (map fst zs) = of_kind k []) by exact Hnew.
    destruct (funcs_len xs Lx) as [Fx Gx].
    pose proof unrelated as U. destruct k; cbn [dispensable]; try (split; [exact (fun _ => I)|intros _; apply U; discriminate]).
    - pose proof (taken _ _ _ Hnew' _ only_function) as E1. pose proof (kc ltac:(discriminate)) as E2. pose proof (kn ltac:(discriminate)) as E3. pose proof (kd ltac:(discriminate)) as E4. split.
      + intros Hz. pose proof (mc_len _ Hz) as Lz. rewrite E1, E2 in Lz. apply length_zero_iff_nil. rewrite Gx, <- Lz. reflexivity.
      + intros E. rewrite E in Gx. constructor; [exact Ho|rewrite E1, E2; exact Gx|rewrite E3, E4; exact Cx|rewrite E3, E2; exact Mx].
    - pose proof (taken _ _ _ Hnew' _ only_datacount) as E3. pose proof (kf ltac:(discriminate)) as E1. pose proof (kc ltac:(discriminate)) as E2. pose proof (kd ltac:(discriminate)) as E4. rewrite (funcs_mention xs Lx). split.
      + intros Hz. pose proof (mc_mention _ Hz) as Mz. rewrite E3, E2 in Mz. exact (Mz eq_refl).
      + intros E. constructor; [exact Ho|rewrite E1, E2; exact Lx| |]; rewrite E3; [intros n []|]. rewrite E2. intros _. exact E.
    - pose proof (taken _ _ _ Hnew' _ only_code) as E2. pose proof (kf ltac:(discriminate)) as E1. pose proof (kn ltac:(discriminate)) as E3. pose proof (kd ltac:(discriminate)) as E4. split.
      + intros Hz. pose proof (mc_len _ Hz) as Lz. rewrite E1, E2 in Lz. apply length_zero_iff_nil. rewrite Fx, Lz. reflexivity.
      + intros E. rewrite E in Fx. constructor; [exact Ho|rewrite E1, E2; symmetry; exact Fx|rewrite E3, E4; exact Cx|]. rewrite E2. intros _ ls e i [].
    - pose proof (taken _ _ _ Hnew' _ only_data) as E4. pose proof (kf ltac:(discriminate)) as E1. pose proof (kc ltac:(discriminate)) as E2. pose proof (kn ltac:(discriminate)) as E3. rewrite count_none. cbn [datas module_of]. split.
      + intros Hz. pose proof (mc_count _ Hz) as Cz. rewrite E3, E4 in Cz. pose proof Cx as Cn. clear -Cz Cn. destruct (the get_datacount (map fst xs)) as [|n l]; [left; reflexivity|right].
        specialize (Cz n (or_introl eq_refl)). specialize (Cn n (or_introl eq_refl)). cbn in Cz. apply length_zero_iff_nil. lia.
      + intros E. constructor; [exact Ho|rewrite E1, E2; exact Lx| |rewrite E3, E2; exact Mx].
        rewrite E3, E4. destruct E as [E|E]; [rewrite E; intros n []|]. intros n Hn. rewrite (Cx n Hn), E. reflexivity.
  Qed.
End Conds.
Lemma subseq_trans {A} (l3 : list A) : forall l1 l2, subseq l1 l2 -> subseq l2 l3 -> subseq l1 l3.
Proof.
  induction l3 as [|x l3 IH]; intros l1 l2 H H'.
  - inversion H'; subst. inversion H; subst. constructor.
  - inversion H' as [|? ? ? H2|? ? ? H2]; subst; [apply subseq_skip; eauto|]. inversion H; subst; [apply subseq_skip|apply subseq_take]; eauto.
Qed.
Lemma subseq_refl {A} (l : list A) : subseq l l. Proof. induction l; [apply subseq_nil|apply subseq_take; assumption]. Qed.
Lemma subseq_less {A} (l : list A) x l' : subseq (l ++ l') (l ++ x :: l').
Proof. induction l; cbn; [apply subseq_skip, subseq_refl|apply subseq_take; assumption]. Qed.

Theorem swap m m' w w' w'' a b a' b' k p p' : k <> SK_Custom ->
  Bmodule m (preamble ++ w) -> parts (a ++ (k, p) :: b) w -> Bmodule m' (preamble ++ w') -> parts (a' ++ (k, p') :: b') w' -> parts (a ++ (k, p') :: b) w'' ->
  ((exists m'', Bmodule m'' (preamble ++ w'')) <-> compatible k m m').
Proof.
  intros Hk HB Hp HB' Hp' Hp''.
  destruct (sections_in _ _ _ HB Hp) as (ss & HM & HC & ->), (sections_in _ _ _ HB' Hp') as (ss' & HM' & HC' & ->).
  destruct (matches_split _ _ _ _ HM) as (s1 & [s n] & s2 & -> & H1 & H2 & K & HB1), (matches_split _ _ _ _ HM') as (t1 & [t n'] & t2 & -> & _ & _ & K' & HB2).
  cbn [fst snd] in K, K', HB1, HB2.
  set (zs := s1 ++ (t, N.of_nat (length p')) :: s2). assert (HZ : Matches zs (a ++ (k, p') :: b)) by (apply Forall2_app; [exact H1|constructor; [cbn; auto|exact H2]]).
  pose proof (parts_sections _ _ _ Hp'' HZ) as Hq. pose proof (mc_order _ HC) as O. pose proof (mc_order _ HC') as O'.
  pose proof HC as HC0. pose proof HC' as HC0'. rewrite map_app in O, O'. cbn [map fst] in O, O'.
  assert (Oz : subseq (map kind_of (non_custom (map fst zs))) section_order).
  { unfold zs. rewrite map_app. cbn [map fst]. rewrite kinds_app, kinds_cons in O |- * by congruence. rewrite K'. rewrite K in O. exact O. }
  assert (S : Module_conds (map fst zs) <-> compatible k (module_of (s1 ++ (s, n) :: s2)) (module_of (t1 ++ (t, n') :: t2))).
  { apply (swap_conds _ _ _ Hk HC0 Oz) with (sy := t); [|exact HC0'| |].
    - intros j Hj. unfold zs. rewrite !map_app. cbn [map fst]. rewrite !of_kind_other by congruence. reflexivity.
    - unfold zs in *. rewrite !map_app in *. cbn [map fst] in *. rewrite <- K'. rewrite !of_kind_one by (assumption || congruence). reflexivity.
    - rewrite !map_app. cbn [map fst]. rewrite <- K'. apply of_kind_one; [congruence|exact O']. }
  rewrite <- S. split.
  - intros [m'' HB'']. apply (Bmodule_sections _ _ _ Hq) in HB'' as [HZ' _]. exact HZ'.
  - intros HZ'. exists (module_of zs). apply (Bmodule_sections _ _ _ Hq). auto.
Qed.
Theorem drop m w w'' a b k p : k <> SK_Custom ->
  Bmodule m (preamble ++ w) -> parts (a ++ (k, p) :: b) w -> parts (a ++ b) w'' ->
  ((exists m'', Bmodule m'' (preamble ++ w'')) <-> dispensable k m).
Proof.
  intros Hk HB Hp Hp''. destruct (sections_in _ _ _ HB Hp) as (ss & HM & HC & ->).
  destruct (matches_split _ _ _ _ HM) as (s1 & [s n] & s2 & -> & H1 & H2 & K & HB1). cbn [fst snd] in K, HB1.
  set (zs := s1 ++ s2). assert (HZ : Matches zs (a ++ b)) by (apply Forall2_app; assumption).
  pose proof (parts_sections _ _ _ Hp'' HZ) as Hq. pose proof (mc_order _ HC) as O. rewrite map_app in O. cbn [map fst] in O.
  assert (Oz : subseq (map kind_of (non_custom (map fst zs))) section_order).
  { unfold zs. rewrite map_app. eapply subseq_trans; [|exact O]. rewrite !kinds_app, kinds_cons by congruence. apply subseq_less. }
  assert (S : Module_conds (map fst zs) <-> dispensable k (module_of (s1 ++ (s, n) :: s2))).
  { apply (drop_conds _ _ _ Hk HC Oz).
    - intros j Hj. unfold zs. rewrite !map_app. cbn [map fst]. rewrite !of_kind_other by congruence. reflexivity.
    - unfold zs. rewrite map_app. pose proof O as O1. apply subseq_nodup in O1; [|exact order_nodup]. rewrite kinds_app, kinds_cons in O1 by congruence. apply NoDup_remove_2 in O1.
      apply of_kind_none; [exact Hk|]. rewrite kinds_app, <- K. exact O1. }
  rewrite <- S. split.
  - intros [m'' HB'']. apply (Bmodule_sections _ _ _ Hq) in HB'' as [HZ' _]. exact HZ'.
  - intros HZ'. exists (module_of zs). apply (Bmodule_sections _ _ _ Hq). auto.
Qed.
Theorem absent m w ps k : Bmodule m (preamble ++ w) -> parts ps w -> payloads k ps = [] -> lacks k m.
Proof.
  intros HB Hp E. destruct (sections_in _ _ _ HB Hp) as (ss & HM & HC & ->). apply (matches_kind k) in HM. rewrite E in HM. inversion HM as [E'|]. symmetry in E'.
  assert (T : forall A (f : section -> list A), Only k f -> the f (map fst ss) = []) by (intros A f Hf; rewrite (the_of_kind k f _ Hf), E'; reflexivity).
  destruct k; cbn [lacks]; unfold module_of; cbn [custom_sections types imports funcs tables mems tags globals exports start elems data_count datas];
    try (apply T; just).
  - rewrite (T _ get_function) by just. reflexivity.
  - rewrite (T _ get_start) by just. reflexivity.
  - rewrite (T _ get_datacount) by just. reflexivity.
  - rewrite (T _ get_code) by just. destruct (the get_function (map fst ss)); reflexivity.
Qed.
Lemma payloads_swap j k a b p p' : j <> k -> payloads j (a ++ (k, p) :: b) = payloads j (a ++ (k, p') :: b).
Proof. intros H. unfold payloads. rewrite !filter_app, !map_app. cbn [filter fst]. destruct (kind_dec k j); [congruence|reflexivity]. Qed.
Lemma payloads_drop j k a b p : j <> k -> payloads j (a ++ (k, p) :: b) = payloads j (a ++ b).
Proof. intros H. unfold payloads. rewrite !filter_app, !map_app. cbn [filter fst]. destruct (kind_dec k j); [congruence|reflexivity]. Qed.
Lemma f2_length {A B} (P : A -> B -> Prop) l l' : Forall2 P l l' -> length l = length l'. Proof. induction 1; cbn; congruence. Qed.
(** a section that is not custom is the only one of its kind *)
Lemma payloads_one m w a b k p : k <> SK_Custom -> Bmodule m (preamble ++ w) -> parts (a ++ (k, p) :: b) w -> payloads k (a ++ (k, p) :: b) = [p] /\ payloads k (a ++ b) = [].
Proof.
  intros Hk HB Hp. destruct (sections_in _ _ _ HB Hp) as (ss & HM & HC & ->). pose proof (f2_length _ _ _ (matches_kind k _ _ HM)) as L.
  destruct (matches_split _ _ _ _ HM) as (s1 & [s n] & s2 & -> & _ & _ & K & _). cbn [fst] in K. pose proof (mc_order _ HC) as O. rewrite map_app in O, L. cbn [map fst] in O, L.
  rewrite <- K in L at 1. rewrite of_kind_one in L by (assumption || congruence).
  revert L. unfold payloads. rewrite !filter_app, !map_app. cbn [filter fst]. destruct (kind_dec k k) as [_|E]; [|destruct (E eq_refl)]. cbn [map snd].
  set (f := filter _). rewrite app_length. cbn [length]. intros L. assert (La : length (map snd (f a)) = 0) by lia. assert (Lb : length (map snd (f b)) = 0) by lia.
  apply length_zero_iff_nil in La, Lb. rewrite La, Lb. auto.
Qed.
