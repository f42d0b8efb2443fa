(** C67: the order of section kinds.  [section_order] is in Spec/Module.v,
    [precedes] in Spec/Diagnosis.v, [parts] in Spec/Layout.v. *)
From Verif Require Import Model.Prelude Model.Io Model.Ast Model.Errors Model.Module Model.Eq Model.Order.
From Verif Require Import Spec.Lang Spec.Types Spec.Instr Spec.Module Spec.Streams Spec.Layout Spec.Diagnosis Spec.Resources Spec.Locality.
From Verif Require Import Proofs.Machine Proofs.GAssemble Proofs.Unamb Proofs.Modules Proofs.Shortest Proofs.ShortModule Proofs.Diag.
From Verif Require Import Properties.Samples Properties.Modules Properties.Diagnosis Properties.Locality.
From Coq Require Import Lia Sorted.

(** [<] is the order in which the sections of a module come; a custom section
    counts as smaller than the others *)
Theorem C67_order a b : kind_lt a b = true <-> (a = SK_Custom /\ b <> SK_Custom) \/ precedes a b.
Proof.
  split.
  - destruct a, b; intros H; try discriminate H; try (left; split; [reflexivity|discriminate]); right; unfold precedes, section_order;
    match goal with |- exists l1 l2 l3, ?L = l1 ++ ?a :: l2 ++ ?b :: l3 =>
      let rec from L b := match L with b :: ?t => constr:((@nil SectionKind, t)) | ?x :: ?t => let r := from t b in match r with (?u, ?v) => constr:((x :: u, v)) end end in
      let r := from L a in match r with (?u, ?v) => let s := from v b in match s with (?w, ?z) => exists u, w, z; reflexivity end end end.
  - intros [[-> H]|(l1 & l2 & l3 & E)]; [destruct b; (reflexivity || destruct (H eq_refl))|].
    assert (K : ksorted (l1 ++ a :: l2 ++ b :: l3)) by (rewrite <- E; exact order_sorted).
    clear E. induction l1 as [|x l1 IH]; cbn [app] in K; inversion K as [|? ? HS HF]; subst; [|exact (IH HS)].
    rewrite Forall_forall in HF. specialize (HF b ltac:(apply in_or_app; right; left; reflexivity)).
    unfold kind_lt, kind_partial_cmp. unfold klt in HF. apply N.compare_lt_iff in HF. rewrite HF. reflexivity.
Qed.
Lemma rank_inj a b : sk_rank a = sk_rank b -> a = b.
Proof. destruct a, b; intros H; (reflexivity || discriminate H). Qed.
Lemma lt_iff a b : kind_lt a b = true <-> (sk_rank a < sk_rank b)%N.
Proof. unfold kind_lt, kind_partial_cmp. rewrite <- N.compare_lt_iff. destruct (N.compare _ _); split; intros H; (reflexivity || discriminate H). Qed.
(** the comparison operators agree with each other and with [==], and form a total order *)
Theorem C67_lawful :
  (forall a b, kind_eq a b = true <-> a = b) /\
  (forall a b, kind_le a b = true <-> kind_lt a b = true \/ a = b) /\
  (forall a b, kind_gt a b = kind_lt b a) /\ (forall a b, kind_ge a b = kind_le b a) /\
  (forall a, kind_lt a a = false) /\
  (forall a b c, kind_lt a b = true -> kind_lt b c = true -> kind_lt a c = true) /\
  (forall a b, kind_lt a b = true \/ a = b \/ kind_lt b a = true).
Proof.
  split; [|split; [|split; [|split; [|split; [|split]]]]].
  - intros a b. split; [destruct a, b; intros H; (reflexivity || discriminate H)|intros ->; destruct b; reflexivity].
  - intros a b. split; [destruct a, b; intros H; (discriminate H || auto)|intros [H| ->]; [|destruct b; reflexivity]]. destruct a, b; (reflexivity || discriminate H).
  - intros a b. destruct a, b; reflexivity.
  - intros a b. destruct a, b; reflexivity.
  - intros a. destruct a; reflexivity.
  - intros a b c. rewrite !lt_iff. lia.
  - intros a b. rewrite !lt_iff. destruct (N.lt_total (sk_rank a) (sk_rank b)) as [H|[H|H]]; auto. right. left. apply rank_inj. exact H.
Qed.
(** in a decoded module the sections that are not custom come in strictly ascending order *)
Theorem C67_ascending env (evs : list event) m : fst (@decode_module env _ _ evs) = Ok m ->
  StronglySorted (fun a b => kind_lt a b = true) (parsed_section_kinds m).
Proof.
  intros Hd. destruct (C20_order _ _ _ Hd) as (H & _ & E). rewrite <- E in H. apply subseq_sorted in H; [|exact order_sorted].
  clear E Hd. induction H as [|a l _ IH HF]; constructor; [exact IH|]. eapply Forall_impl; [|exact HF]. intros b Hb. apply lt_iff. exact Hb.
Qed.
(** and every strictly ascending list of kinds is that of some module *)
Definition least (k : SectionKind) : section * list byte :=
  match k with
  | SK_Custom => (SCustom (mkCustom [] []), [x00])
  | SK_Type => (SType [], [x00]) | SK_Import => (SImport [], [x00]) | SK_Function => (SFunction [], [x00])
  | SK_Table => (STable [], [x00]) | SK_Memory => (SMemory [], [x00]) | SK_Tag => (STag [], [x00])
  | SK_Global => (SGlobal [], [x00]) | SK_Export => (SExport [], [x00]) | SK_Start => (SStart 0%N, [x00])
  | SK_Element => (SElement [], [x00]) | SK_DataCount => (SDataCount 0%N, [x00]) | SK_Code => (SCode [], [x00]) | SK_Data => (SData [], [x00])
  end.
Lemma least_kind k : kind_of (fst (least k)) = k. Proof. destruct k; reflexivity. Qed.
Lemma least_length k : length (snd (least k)) = 1. Proof. destruct k; reflexivity. Qed.
Lemma least_ok k : k <> SK_Custom -> Bcontents (fst (least k)) (snd (least k)).
Proof.
  assert (L : forall A (X : lang A), Blist X [] [x00]) by (intros A X; apply (Blist_intro X [] [x00] []); [apply u32_small; reflexivity|constructor]).
  assert (U : Bu32 0%N [x00]) by (apply u32_small; reflexivity).
  destruct k; intros H; try (destruct (H eq_refl)); constructor; (apply L || exact U).
Qed.
Lemma least_nil {A} (f : section -> list A) ks : (forall k, f (fst (least k)) = []) -> the f (map fst (map least ks)) = [].
Proof. intros H. induction ks as [|k ks IH]; [reflexivity|]. unfold the in *. cbn [map flat_map]. rewrite H, IH. reflexivity. Qed.
Theorem C67_every env ks : ~ In SK_Custom ks -> StronglySorted (fun a b => kind_lt a b = true) ks ->
  let bs := preamble ++ file (map (fun k => (k, snd (least k))) ks) in
  sufficient env (length bs) -> exists m, fst (@decode_module env _ _ bs) = Ok m /\ parsed_section_kinds m = ks.
Proof.
  intros HN HS bs HR. set (ss := map (fun k => (fst (least k), 1%N)) ks).
  assert (EK : map kind_of (non_custom (map fst ss)) = ks).
  { unfold ss. clear -HN. induction ks as [|k ks IH]; [reflexivity|]. cbn [map]. cbn [In] in HN. assert (E : is_custom (fst (least k)) = false) by (destruct k; (reflexivity || (exfalso; apply HN; left; reflexivity))).
    unfold non_custom in *. cbn [filter fst]. rewrite E. cbn [negb map]. rewrite least_kind. f_equal. apply IH. intros H. apply HN. right. exact H. }
  assert (HP : parts (map (fun k => (k, snd (least k))) ks) (file (map (fun k => (k, snd (least k))) ks))).
  { apply file_parts. apply Forall_forall. intros p Hp. apply in_map_iff in Hp as (k & <- & _). cbn [snd]. rewrite least_length. lia. }
  assert (HM : Bseq Bsection ss (file (map (fun k => (k, snd (least k))) ks))).
  { apply (parts_sections _ _ _ HP). unfold ss. clear -HN. induction ks as [|k ks IH]; [constructor|]. cbn [map]. constructor; [|apply IH; intros H; apply HN; right; exact H].
    cbn [fst snd]. rewrite least_kind, least_length. split; [reflexivity|]. split; [reflexivity|]. apply least_ok. intros ->. apply HN. left. reflexivity. }
  assert (HF : map fst ss = map fst (map least ks)) by (unfold ss; rewrite !map_map; reflexivity).
  exists (module_of ss). split; [|exact EK]. apply (C02_complete_slice _ _ _ HR). apply (Bmodule_sections _ _ _ HM). split; [|reflexivity]. constructor.
  - rewrite EK. apply sorted_subseq; [exact order_sorted| |].
    + clear -HS. induction HS as [|a l _ IH HF]; constructor; [exact IH|]. eapply Forall_impl; [|exact HF]. intros b Hb. apply lt_iff. exact Hb.
    + intros k Hk. apply order_complete. intros ->. exact (HN Hk).
  - rewrite HF. rewrite (least_nil get_function), (least_nil get_code) by (intros []; reflexivity). reflexivity.
  - rewrite HF. intros n Hn. rewrite (least_nil get_data) by (intros []; reflexivity). unfold the in Hn. apply in_flat_map in Hn as (s & Hs & Hn).
    apply in_map_iff in Hs as (q & <- & Hq). apply in_map_iff in Hq as (k & <- & _). destruct k; cbn in Hn; (destruct Hn as [<-|[]]; reflexivity) || destruct Hn.
  - rewrite HF. rewrite (least_nil get_code) by (intros []; reflexivity). intros _ ls e i [].
Qed.
(** a section that comes too early or twice is reported with kinds in this order *)
Theorem C67_errors env (evs : list event) :
  (forall current previous, fst (@decode_module env _ _ evs) = Err (DM_SectionOutOfOrder current previous) -> kind_lt current previous = true /\ current <> SK_Custom) /\
  (forall k, fst (@decode_module env _ _ evs) = Err (DM_DuplicateSection k) -> k <> SK_Custom).
Proof.
  destruct (content evs) as [bs stop] eqn:Hc. split.
  - intros k p Hd. apply (C50_sound _ _ _ _ _ Hc), after_section in Hd. destruct Hd as [(xs & k' & n & rest & HA & HW)|(xs & _ & _ & HI)]; [|inversion HI].
    wrong HW. match goal with H : precedes _ _ |- _ => rename H into HP end. split; [apply C67_order; right; exact HP|]. apply precedes_iff in HP as [H _]. exact H.
  - intros k Hd. apply (C50_sound _ _ _ _ _ Hc), after_section in Hd. destruct Hd as [(xs & k' & n & rest & HA & HW)|(xs & _ & _ & HI)]; [|inversion HI].
    wrong HW. match goal with H : last_kind _ = Some _ |- _ => rename H into HL end. unfold last_kind in HL.
    set (l := rev (map kind_of (non_custom (map fst xs)))) in HL. assert (HI : In k l) by (destruct l; [discriminate HL|injection HL as <-; left; reflexivity]).
    unfold l in HI. apply in_rev in HI. exact (kinds_not_custom _ _ HI).
Qed.

Example C67_ex : kind_lt SK_DataCount SK_Code = true /\ kind_lt SK_Memory SK_Tag = true /\ kind_lt SK_Tag SK_Global = true /\ precedes SK_Tag SK_Global.
Proof. repeat (split; [reflexivity|]). exists [SK_Type; SK_Import; SK_Function; SK_Table; SK_Memory], []. eexists. reflexivity. Qed.
Example C67_ex_all : exists m, fst (@decode_module roomy _ _ (preamble ++ file (map (fun k => (k, snd (least k))) section_order))) = Ok m /\ parsed_section_kinds m = section_order.
Proof.
  apply C67_every; [cbn; intuition discriminate| |apply roomy_ok; vm_compute; repeat constructor].
  unfold section_order. repeat (constructor; [|repeat constructor]). constructor.
Qed.
Example C67_ex_early : fst (@decode_module roomy _ _ (preamble ++ file [(SK_Global, [x00]); (SK_Tag, [x00])])) = Err (DM_SectionOutOfOrder SK_Tag SK_Global).
Proof. vm_compute. reflexivity. Qed.

Print Assumptions C67_order.
Print Assumptions C67_lawful.
Print Assumptions C67_ascending.
Print Assumptions C67_every.
Print Assumptions C67_errors.
