(** The decoder's incremental assembly of a module agrees with the
    specification's declarative one. *)
From Verif Require Import Model.Prelude Model.Io Model.Ast Model.Errors Model.Integer Model.Helpers Model.Types Model.Instr Model.Sections Model.Module.
From Verif Require Import Proofs.Machine Proofs.Parses Proofs.GControl Proofs.GModule.
From Verif Require Import Spec.Lang Spec.Types Spec.Instr Spec.Module.
From Coq Require Import Lia ZifyBool ZifyNat ZifyN Sorting.Sorted.
Local Open Scope N_scope.

Definition klt (a b : SectionKind) : Prop := sk_rank a < sk_rank b.
Notation ksorted := (StronglySorted klt).

Lemma rank_inj a b : sk_rank a = sk_rank b -> a = b.
Proof. destruct a, b; cbn; congruence. Qed.
Lemma ksorted_app l1 l2 : ksorted (l1 ++ l2) <-> ksorted l1 /\ ksorted l2 /\ (forall a b, In a l1 -> In b l2 -> klt a b).
Proof.
  induction l1 as [|x l1 IH]; cbn [app].
  - split; [intros HS; split; [constructor|split; [assumption|intros ? ? []]]|tauto].
  - split.
    + inversion 1 as [|? ? HS HF]; subst. apply IH in HS as (H1 & H2 & H3). rewrite Forall_app in HF. destruct HF as [HF1 HF2].
      split; [constructor; assumption|]. split; [assumption|]. intros a b [<-|Ha] Hb; [|auto]. rewrite Forall_forall in HF2. auto.
    + intros (H1 & H2 & H3). inversion H1; subst. constructor.
      * apply IH. split; [assumption|]. split; [assumption|]. intros; apply H3; cbn; auto.
      * apply Forall_app. split; [assumption|]. apply Forall_forall. intros; apply H3; cbn; auto.
Qed.
Lemma subseq_nil_l {A} (l : list A) : subseq [] l.
Proof. induction l; constructor; assumption. Qed.
Lemma subseq_In {A} (l L : list A) : subseq l L -> forall x, In x l -> In x L.
Proof. induction 1; cbn; intuition. Qed.
Lemma subseq_sorted l L : subseq l L -> ksorted L -> ksorted l.
Proof.
  induction 1 as [|x l1 l2 Hs IH|x l1 l2 Hs IH]; [auto|..]; inversion 1 as [|? ? HS HF]; subst; [auto|].
  constructor; [auto|]. rewrite Forall_forall in *. intros y Hy. apply HF. eapply subseq_In; eauto.
Qed.
Lemma sorted_subseq L : ksorted L -> forall l, ksorted l -> (forall k, In k l -> In k L) -> subseq l L.
Proof.
  induction 1 as [|x L HS IH HF]; intros l Hl Hin.
  - destruct l as [|k l]; [constructor|]. destruct (Hin k); cbn; auto.
  - destruct Hl as [|k l Hl Hk]; [apply subseq_nil_l|]. rewrite Forall_forall in HF, Hk.
    assert (Hrest : forall j, In j l -> In j L).
    { intros j Hj. destruct (Hin j) as [->|]; [cbn; auto| |assumption]. exfalso. specialize (Hk _ Hj).
      destruct (Hin k) as [->|HkL]; [cbn; auto|red in Hk; lia|]. specialize (HF _ HkL). red in HF, Hk. lia. }
    destruct (Hin k) as [->|HkL]; [cbn; auto| |].
    + apply subseq_take. apply IH; assumption.
    + apply subseq_skip. apply IH; [constructor; [assumption|apply Forall_forall; assumption]|]. intros j [<-|Hj]; auto.
Qed.
Lemma order_sorted : ksorted section_order.
Proof. unfold section_order. repeat (constructor; [|repeat constructor]). constructor. Qed.
Lemma order_complete k : k <> SK_Custom -> In k section_order.
Proof. destruct k; cbn; intuition. Qed.

Definition kinds (cs : list section) : list SectionKind := map kind_of (non_custom cs).
Lemma kinds_not_custom cs k : In k (kinds cs) -> k <> SK_Custom.
Proof.
  unfold kinds, non_custom. rewrite in_map_iff. intros (x & <- & Hx). apply filter_In in Hx as [_ Hx]. destruct x; cbn in *; congruence.
Qed.
Lemma order_iff cs : subseq (kinds cs) section_order <-> ksorted (kinds cs).
Proof.
  split; [intros HS; eapply subseq_sorted; [exact HS|exact order_sorted]|].
  intros HS. apply sorted_subseq; [exact order_sorted|assumption|]. intros k Hk. apply order_complete. eapply kinds_not_custom; eauto.
Qed.
Lemma kinds_app a b : kinds (a ++ b) = kinds a ++ kinds b.
Proof. unfold kinds, non_custom. rewrite filter_app, map_app. reflexivity. Qed.
Lemma the_app {A} (f : section -> list A) a b : the f (a ++ b) = the f a ++ the f b.
Proof. apply flat_map_app. Qed.
(** a section kind not present contributes nothing *)
Lemma the_nil {A} (f : section -> list A) k cs : (forall x, kind_of x <> k -> f x = []) -> k <> SK_Custom -> ~ In k (kinds cs) -> the f cs = [].
Proof.
  intros Hf Hk. induction cs as [|x cs IH]; [reflexivity|]. cbn [the flat_map]. intros Hn.
  assert (Hx : kind_of x <> k).
  { intros E. apply Hn. unfold kinds, non_custom. cbn. destruct x; cbn in *; try (left; assumption). congruence. }
  rewrite (Hf x Hx). apply IH. intros HI. apply Hn. destruct x; cbn; auto.
Qed.

Definition has (k : SectionKind) (cs : list section) : bool := existsb (fun x => sk_eqb (kind_of x) k) cs.
Lemma has_iff k cs : k <> SK_Custom -> (has k cs = true <-> In k (kinds cs)).
Proof.
  intros Hk. unfold has, kinds, non_custom. rewrite existsb_exists, in_map_iff. split.
  - intros (x & Hx & E). apply N.eqb_eq, rank_inj in E. exists x. split; [assumption|]. apply filter_In. split; [assumption|].
    destruct x; cbn in *; congruence.
  - intros (x & E & Hx). apply filter_In in Hx as [Hx _]. exists x. split; [assumption|]. rewrite E. apply N.eqb_refl.
Qed.
Lemma has_app k a b : has k (a ++ b) = orb (has k a) (has k b).
Proof. apply existsb_app. Qed.

Definition merge (xs : list TypeIdx) (cs : list (list ValType * Expr)) : list Func :=
  map (fun '(x, (ls, e)) => mkFunc x ls e) (combine xs cs).
Definition stubs (xs : list TypeIdx) : list Func := map (fun t => mkFunc t [] []) xs.
Lemma fill_stubs xs cs : fill (stubs xs) cs = merge xs cs.
Proof. unfold fill, stubs, merge. revert cs; induction xs as [|x xs IH]; intros [|[ls e] cs]; cbn; try reflexivity. f_equal. apply IH. Qed.

(** decoder state after the sections [xs] *)
Record Inv (xs : list (section * N)) (s : st) : Prop := {
  inv_module : st_module s = set_funcs (if has SK_Code (map fst xs) then merge (the get_function (map fst xs)) (the get_code (map fst xs))
                                          else stubs (the get_function (map fst xs))) (module_of xs);
  inv_code : st_code s = has SK_Code (map fst xs);
  inv_data : st_data_idx s = code_mentions (the get_code (map fst xs))
}.
(** what the decoder has checked so far *)
Record Ok_so_far (cs : list section) : Prop := {
  ok_order : ksorted (kinds cs);
  ok_len : has SK_Code cs = true -> length (the get_function cs) = length (the get_code cs);
  ok_count : has SK_Data cs = true -> forall n, In n (the get_datacount cs) -> n = lenN (the get_data cs)
}.

Lemma last_opt_snoc {A} (l : list A) x : last_opt (l ++ [x]) = Some x.
Proof. unfold last_opt. rewrite rev_app_distr. reflexivity. Qed.
Lemma order_ok_iff m k : ksorted (parsed_section_kinds m) -> k <> SK_Custom ->
  (order_ok m k = true <-> forall j, In j (parsed_section_kinds m) -> klt j k).
Proof.
  intros HS Hk. unfold order_ok. destruct (parsed_section_kinds m) as [|p ps _] using rev_ind.
  - cbn. split; [intros _ ? []|reflexivity].
  - rewrite last_opt_snoc. assert (sk_eqb k SK_Custom = false) as -> by (apply N.eqb_neq; intros E; apply rank_inj in E; congruence).
    cbn [orb]. unfold sk_ltb. rewrite N.ltb_lt. apply ksorted_app in HS as (_ & _ & HS). split.
    + intros E j Hj. apply in_app_iff in Hj as [Hj|[<-|[]]]; [|assumption]. specialize (HS _ p Hj (or_introl eq_refl)). red in HS |- *. lia.
    + intros HA. apply HA. apply in_app_iff. right. left. reflexivity.
Qed.

Lemma datacount_unique cs : ksorted (kinds cs) -> forall n, In n (the get_datacount cs) -> the get_datacount cs = [n].
Proof.
  intros HS n Hn. apply in_flat_map in Hn as (x & Hx & Hn). apply in_split in Hx as (a & b & ->).
  destruct x; cbn in Hn; try contradiction. destruct Hn as [->|[]].
  rewrite kinds_app in HS. cbn in HS. apply ksorted_app in HS as (_ & HS & Hab). inversion HS as [|? ? _ HF]; subst. rewrite Forall_forall in HF.
  change (SDataCount n :: b) with ([SDataCount n] ++ b). rewrite !the_app.
  rewrite (the_nil get_datacount SK_DataCount a), (the_nil get_datacount SK_DataCount b); try reflexivity; try discriminate.
  - intros [] E; cbn in *; congruence.
  - intros HI. specialize (HF _ HI). red in HF. cbn in HF. lia.
  - intros [] E; cbn in *; congruence.
  - intros HI. specialize (Hab _ SK_DataCount HI (or_introl eq_refl)). red in Hab. cbn in Hab. lia.
Qed.
Lemma length_merge xs cs : length xs = length cs -> length (merge xs cs) = length xs.
Proof. intros E. unfold merge. rewrite map_length, combine_length. lia. Qed.

Ltac nil_of f k := 
  match goal with Hlt : forall j, In j (kinds ?cs) -> klt j _ |- _ =>
    rewrite (the_nil f k cs) by (first [discriminate | intros [] ?; cbn in *; congruence | intros HI; specialize (Hlt _ HI); red in Hlt; cbn in Hlt; lia])
  end.

Lemma module_ext (a b : Module_) :
  version a = version b ->
  parsed_section_kinds a = parsed_section_kinds b ->
  section_headers a = section_headers b ->
  custom_sections a = custom_sections b ->
  types a = types b ->
  funcs a = funcs b ->
  tables a = tables b ->
  mems a = mems b ->
  globals a = globals b ->
  elems a = elems b ->
  data_count a = data_count b ->
  datas a = datas b ->
  start a = start b ->
  imports a = imports b ->
  exports a = exports b ->
  tags a = tags b -> a = b.
Proof. destruct a, b. cbn. intros. subst. reflexivity. Qed.

Definition funcs_of (cs : list section) : list Func :=
  if has SK_Code cs then merge (the get_function cs) (the get_code cs) else stubs (the get_function cs).
Ltac fields := cbn [finish on_module st_module st_code st_data_idx sh_kind kind_of sk_eqb sk_rank N.eqb Pos.eqb
  set_headers set_kinds set_customs set_types set_funcs set_tables set_mems set_globals set_elems set_data_count set_datas set_start set_imports set_exports set_tags
  version parsed_section_kinds section_headers custom_sections types funcs tables mems globals elems data_count datas start imports exports tags].
(** fields of the module after one more section *)
Lemma module_of_snoc xs x n :
  module_of (xs ++ [(x, n)]) = mkModule version1 (kinds (map fst xs) ++ kinds [x])
    (section_headers (module_of xs) ++ [mkHeader (kind_of x) n])
    (the get_custom (map fst xs) ++ get_custom x) (the get_type (map fst xs) ++ get_type x)
    (merge (the get_function (map fst xs) ++ get_function x) (the get_code (map fst xs) ++ get_code x))
    (the get_table (map fst xs) ++ get_table x) (the get_memory (map fst xs) ++ get_memory x)
    (the get_global (map fst xs) ++ get_global x) (the get_element (map fst xs) ++ get_element x)
    (hd_error (the get_datacount (map fst xs) ++ get_datacount x)) (the get_data (map fst xs) ++ get_data x)
    (hd_error (the get_start (map fst xs) ++ get_start x)) (the get_import (map fst xs) ++ get_import x)
    (the get_export (map fst xs) ++ get_export x) (the get_tag (map fst xs) ++ get_tag x).
Proof.
  unfold module_of. rewrite !map_app. cbn [map fst]. rewrite !the_app. cbn [the flat_map]. rewrite !app_nil_r.
  rewrite <- kinds_app. reflexivity.
Qed.

Lemma the_one A (f : section -> list A) x : the f [x] = f x. 
Proof. cbn. apply app_nil_r. Qed.
Ltac get_simpl := cbn [get_custom get_type get_import get_function get_table get_memory get_tag get_global get_export get_start get_element
   get_datacount get_code get_data has existsb kind_of sk_eqb sk_rank N.eqb Pos.eqb orb kinds non_custom filter map is_custom negb]; rewrite ?app_nil_r, ?Bool.orb_false_r.
Ltac get_simpl_in H := cbn [get_custom get_type get_import get_function get_table get_memory get_tag get_global get_export get_start get_element
   get_datacount get_code get_data has existsb kind_of sk_eqb sk_rank N.eqb Pos.eqb orb kinds non_custom filter map is_custom negb] in H; rewrite ?app_nil_r, ?Bool.orb_false_r in H.
Ltac nils :=
  lazymatch goal with
  | |- context [SType _] => nil_of get_type SK_Type
  | |- context [SImport _] => nil_of get_import SK_Import
  | |- context [STable _] => nil_of get_table SK_Table
  | |- context [SMemory _] => nil_of get_memory SK_Memory
  | |- context [STag _] => nil_of get_tag SK_Tag
  | |- context [SGlobal _] => nil_of get_global SK_Global
  | |- context [SExport _] => nil_of get_export SK_Export
  | |- context [SStart _] => nil_of get_start SK_Start
  | |- context [SElement _] => nil_of get_element SK_Element
  | |- context [SDataCount _] => nil_of get_datacount SK_DataCount
  | |- context [SData _] => nil_of get_data SK_Data
  | |- context [SCustom _] => idtac
  end.
Ltac mod_case := constructor;
    [ subst; rewrite module_of_snoc, map_app; cbn [map fst]; rewrite has_app, !the_app, !the_one; nils; fields; get_simpl; reflexivity
    | rewrite map_app; cbn [map fst]; rewrite has_app; fields; get_simpl; assumption
    | rewrite map_app; cbn [map fst]; rewrite the_app, the_one; fields; get_simpl; assumption ].
(** a section kind that may not precede the current one has not been seen *)
Ltac no_kind Hlt :=
  match goal with |- has ?k ?cs = false => destruct (has k cs) eqn:Ehas; [exfalso|reflexivity];
    apply has_iff in Ehas; [specialize (Hlt _ Ehas); red in Hlt; cbn in Hlt; lia|discriminate] end.
Lemma step_sound xs s x n s' : Inv xs s -> Ok_so_far (map fst xs) -> apply_one (x, n) s = Some s' ->
  Inv (xs ++ [(x, n)]) s' /\ Ok_so_far (map fst xs ++ [x]).
Proof.
  intros [Hm Hc Hd] [Ho Hl Hn] Ha. unfold apply_one in Ha. cbn [fst snd] in Ha.
  destruct (order_ok (st_module s) (kind_of x)) eqn:EO; [|discriminate].
  destruct (apply_section x s) as [s1|] eqn:Es; [|discriminate]. injection Ha as <-.
  assert (Hk : parsed_section_kinds (st_module s) = kinds (map fst xs)) by (rewrite Hm; reflexivity).
  destruct s as [m sc sd]. cbn [st_module st_code st_data_idx] in *.
  assert (Hord : ksorted (kinds (map fst xs ++ [x])) ).
  { rewrite kinds_app. apply ksorted_app. split; [assumption|]. split; [destruct x; repeat constructor|].
    assert (Hx : forall b, In b (kinds [x]) -> b = kind_of x /\ b <> SK_Custom).
    { intros b Hb. split; [|eapply kinds_not_custom; eauto]. destruct x; cbn in Hb; intuition. }
    intros a b Ha Hb. destruct (Hx b Hb) as [-> Hnc]. rewrite <- Hk in Ha. eapply order_ok_iff; eauto. rewrite Hk. assumption. }
  destruct x; try (rewrite order_ok_iff, Hk in EO; [rename EO into Hlt|rewrite Hk; assumption|discriminate]).
  all: cbn [apply_section st_module] in Es.
  all: split; [|constructor; [exact Hord| |]; intros Hhas; rewrite has_app in Hhas; rewrite !the_app, !the_one; get_simpl_in Hhas; get_simpl; try (solve [auto])].
  all: try (injection Es as <-; mod_case).
  all: try (cbn [app]; apply Hn; exact Hhas).
  - (* function *)
    assert (Hno : has SK_Code (map fst xs) = false) by (no_kind Hlt).
    injection Es as <-. constructor.
    + subst. rewrite module_of_snoc, map_app. cbn [map fst]. rewrite has_app, !the_app, !the_one. fields. get_simpl. rewrite Hno.
      unfold stubs. rewrite map_app. reflexivity.
    + rewrite map_app; cbn [map fst]; rewrite has_app; fields; get_simpl; assumption.
    + rewrite map_app; cbn [map fst]; rewrite the_app, the_one; fields; get_simpl; assumption.
  - assert (Hno : has SK_Code (map fst xs) = false) by (no_kind Hlt). congruence.
  - assert (Hno : has SK_Data (map fst xs) = false) by (no_kind Hlt). congruence.
  - (* code *)
    assert (Hno : has SK_Code (map fst xs) = false) by (no_kind Hlt).
    destruct (N.eqb_spec (lenN cs) (lenN (funcs m))) as [E|E]; [|discriminate]. injection Es as <-.
    assert (Hcode : the get_code (map fst xs) = []) by (nil_of get_code SK_Code; reflexivity).
    constructor.
    + subst. rewrite module_of_snoc, map_app. cbn [map fst]. rewrite has_app, !the_app, !the_one. fields. get_simpl. rewrite Hno, Hcode.
      cbn [orb app]. rewrite fill_stubs. reflexivity.
    + rewrite map_app; cbn [map fst]; rewrite has_app; fields; get_simpl. rewrite Hno. reflexivity.
    + rewrite map_app; cbn [map fst]; rewrite the_app, the_one; fields; get_simpl. rewrite Hd, Hcode. reflexivity.
  - assert (Hno : has SK_Code (map fst xs) = false) by (no_kind Hlt).
    assert (Hcode : the get_code (map fst xs) = []) by (nil_of get_code SK_Code; reflexivity).
    rewrite Hcode. destruct (N.eqb_spec (lenN cs) (lenN (funcs m))) as [E|E]; [|discriminate].
    rewrite Hm in E. cbn [funcs set_funcs] in E. rewrite Hno in E. unfold lenN, stubs in E. rewrite map_length in E. cbn. lia.
  - (* data *)
    assert (Hs1 : s1 = mkSt (set_datas ds m) sc sd).
    { destruct (data_count m) as [k|]; [destruct (lenN ds =? k); [|discriminate]|]; injection Es as <-; reflexivity. }
    clear Es. subst s1. mod_case.
  - intros k Hin. assert (Hdat : the get_data (map fst xs) = []) by (nil_of get_data SK_Data; reflexivity). rewrite Hdat. cbn [app].
    assert (Hdc : data_count m = Some k).
    { rewrite Hm. cbn. rewrite (datacount_unique _ Ho _ Hin). reflexivity. }
    rewrite Hdc in Es. destruct (N.eqb_spec (lenN ds) k) as [->|]; [reflexivity|discriminate].
Qed.

Lemma step_complete xs s x n : Inv xs s -> Ok_so_far (map fst xs) -> Ok_so_far (map fst xs ++ [x]) ->
  exists s', apply_one (x, n) s = Some s'.
Proof.
  intros [Hm Hc Hd] [Ho Hl Hn] [Ho' Hl' Hn']. unfold apply_one. cbn [fst snd].
  assert (Hk : parsed_section_kinds (st_module s) = kinds (map fst xs)) by (rewrite Hm; reflexivity).
  assert (EO : order_ok (st_module s) (kind_of x) = true).
  { destruct (is_custom x) eqn:Ec.
    - destruct x; try discriminate. unfold order_ok. destruct (last_opt _); reflexivity.
    - apply order_ok_iff; [rewrite Hk; assumption|destruct x; discriminate|]. rewrite Hk. intros j Hj.
      rewrite kinds_app in Ho'. apply ksorted_app in Ho' as (_ & _ & Ho'). apply Ho'; [assumption|]. destruct x; try discriminate; left; reflexivity. }
  rewrite EO. assert (exists s1, apply_section x s = Some s1) as [s1 ->]; [|eexists; reflexivity].
  destruct x; cbn [apply_section]; eauto.
  - rewrite order_ok_iff, Hk in EO; [rename EO into Hlt|rewrite Hk; assumption|discriminate].
    assert (Hno : has SK_Code (map fst xs) = false) by (no_kind Hlt).
    assert (Hcode : the get_code (map fst xs) = []) by (nil_of get_code SK_Code; reflexivity).
    rewrite has_app in Hl'. specialize (Hl' ltac:(apply Bool.orb_true_r)). rewrite !the_app, !the_one in Hl'. get_simpl_in Hl'. rewrite Hcode in Hl'. cbn [app] in Hl'.
    rewrite Hm. cbn [funcs set_funcs]. rewrite Hno. unfold lenN, stubs. rewrite map_length, Hl', N.eqb_refl. eauto.
  - rewrite order_ok_iff, Hk in EO; [rename EO into Hlt|rewrite Hk; assumption|discriminate].
    assert (Hdat : the get_data (map fst xs) = []) by (nil_of get_data SK_Data; reflexivity).
    rewrite has_app in Hn'. specialize (Hn' ltac:(apply Bool.orb_true_r)). rewrite !the_app, !the_one in Hn'. get_simpl_in Hn'.
    destruct (data_count (st_module s)) as [k|] eqn:Ek; [|eauto].
    rewrite Hm in Ek. cbn in Ek. specialize (Hn' k). rewrite Hdat in Hn'. cbn [app] in Hn'.
    destruct (the get_datacount (map fst xs)) as [|k' l]; [discriminate|]. injection Ek as ->. rewrite Hn', N.eqb_refl; [eauto|left; reflexivity].
Qed.

Lemma Ok_prefix a b : Ok_so_far (a ++ b) -> Ok_so_far a.
Proof.
  intros [Ho Hl Hn]. rewrite kinds_app in Ho. apply ksorted_app in Ho as (Ho1 & Ho2 & Ho3).
  assert (Hb : forall k j, has k a = true -> k <> SK_Custom -> sk_rank j <= sk_rank k -> ~ In j (kinds b)).
  { intros k j Hk Hnc Hr HI. apply has_iff in Hk; [|assumption]. specialize (Ho3 _ _ Hk HI). red in Ho3. lia. }
  constructor; [assumption| |].
  - intros Hk. rewrite has_app, Hk in Hl. specialize (Hl eq_refl). rewrite !the_app in Hl.
    rewrite (the_nil get_function SK_Function b), (the_nil get_code SK_Code b), !app_nil_r in Hl; try discriminate; try (intros [] ?; cbn in *; congruence); try assumption;
    apply (Hb SK_Code); try assumption; try discriminate; cbn; lia.
  - intros Hk. rewrite has_app, Hk in Hn. specialize (Hn eq_refl). rewrite !the_app in Hn.
    rewrite (the_nil get_datacount SK_DataCount b), (the_nil get_data SK_Data b), !app_nil_r in Hn; try discriminate; try (intros [] ?; cbn in *; congruence); try assumption;
    apply (Hb SK_Data); try assumption; try discriminate; cbn; lia.
Qed.

Lemma apply_all_app xs ys s : apply_all (xs ++ ys) s = match apply_all xs s with Some s' => apply_all ys s' | None => None end.
Proof. revert s; induction xs as [|x xs IH]; intros s; cbn; [reflexivity|]. destruct (apply_one x s); [apply IH|reflexivity]. Qed.
Lemma inv_init : Inv [] (mkSt default_module false false).
Proof. constructor; reflexivity. Qed.
Lemma ok_init : Ok_so_far [].
Proof. constructor; [constructor|discriminate|discriminate]. Qed.
Lemma apply_all_sound xs s : apply_all xs (mkSt default_module false false) = Some s -> Inv xs s /\ Ok_so_far (map fst xs).
Proof.
  revert s. induction xs as [|[x n] xs IH] using rev_ind; intros s.
  - cbn. intros [= <-]. split; [apply inv_init|apply ok_init].
  - rewrite apply_all_app. destruct (apply_all xs _) as [s1|]; [|discriminate]. cbn.
    destruct (apply_one (x, n) s1) as [s2|] eqn:E; [|discriminate]. intros [= <-]. destruct (IH _ eq_refl) as [HI HO].
    rewrite map_app. eapply step_sound; eauto.
Qed.
Lemma apply_all_complete xs : Ok_so_far (map fst xs) -> exists s, apply_all xs (mkSt default_module false false) = Some s.
Proof.
  induction xs as [|[x n] xs IH] using rev_ind; intros HO; [eexists; reflexivity|].
  rewrite map_app in HO. destruct (IH (Ok_prefix _ _ HO)) as [s Hs]. rewrite apply_all_app, Hs. cbn.
  destruct (apply_all_sound _ _ Hs) as [HI HO1]. destruct (step_complete _ _ x n HI HO1 HO) as [s' ->]. eauto.
Qed.

(** ** the conditions of the module production *)
Record Module_conds (cs : list section) : Prop := {
  mc_order : subseq (map kind_of (non_custom cs)) section_order;
  mc_len : length (the get_function cs) = length (the get_code cs);
  mc_count : forall n, In n (the get_datacount cs) -> n = N.of_nat (length (the get_data cs));
  mc_mention : the get_datacount cs = [] -> forall ls e i, In (ls, e) (the get_code cs) -> In i e -> ~ mentions_data i
}.
Lemma mentions_iff l : code_mentions l = true <-> exists ls e i, In (ls, e) l /\ In i e /\ mentions_data i.
Proof.
  unfold code_mentions. rewrite existsb_exists. split.
  - intros ([ls e] & Hin & He). apply existsb_exists in He as (i & Hi & Hm). apply contains_data_iff in Hm. exists ls, e, i. auto.
  - intros (ls & e & i & Hin & Hi & Hm). exists (ls, e). split; [assumption|]. apply existsb_exists. exists i. split; [assumption|]. apply contains_data_iff. assumption.
Qed.
Lemma hd_error_nil {A} (l : list A) : hd_error l = None <-> l = [].
Proof. destruct l; cbn; split; congruence. Qed.

Lemma no_code cs : has SK_Code cs = false -> the get_code cs = [].
Proof.
  intros E. apply (the_nil get_code SK_Code); [intros [] ?; cbn in *; congruence|discriminate|].
  intros HI. apply has_iff in HI; [congruence|discriminate].
Qed.

Theorem assemble_iff xs m : assemble xs = Some m <-> Module_conds (map fst xs) /\ m = module_of xs.
Proof.
  unfold assemble. split.
  - destruct (apply_all xs _) as [s|] eqn:E; [|discriminate]. destruct (final_ok s) eqn:EF; [|discriminate]. intros [= <-].
    apply apply_all_sound in E as [[Hm Hc Hd] [Ho Hl Hn]].
    unfold final_ok in EF. apply Bool.andb_true_iff in EF as [EF E3]. apply Bool.andb_true_iff in EF as [E1 E2].
    rewrite Hm, Hc in E1. cbn [funcs set_funcs] in E1.
    assert (Hlen : length (the get_function (map fst xs)) = length (the get_code (map fst xs))).
    { destruct (has SK_Code (map fst xs)) eqn:EC; [apply Hl; reflexivity|]. rewrite (no_code _ EC).
      destruct (the get_function (map fst xs)); [reflexivity|discriminate]. }
    split.
    + constructor.
      * apply order_iff. assumption.
      * assumption.
      * intros n Hin. rewrite Hm in E2. cbn [data_count set_funcs module_of datas] in E2. rewrite (datacount_unique _ Ho _ Hin) in E2. cbn in E2.
        apply N.eqb_eq in E2. exact E2.
      * intros Hnil ls e i H1 H2 H3. rewrite Hm in E3. cbn [data_count set_funcs module_of] in E3. rewrite Hnil in E3. cbn [hd_error] in E3.
        rewrite Bool.andb_true_r, Hd in E3. assert (code_mentions (the get_code (map fst xs)) = true) by (apply mentions_iff; eauto 7). rewrite H in E3. discriminate.
    + rewrite Hm. destruct (has SK_Code (map fst xs)) eqn:EC; [reflexivity|].
      assert (the get_function (map fst xs) = []) as Hfn by (rewrite (no_code _ EC) in Hlen; apply length_zero_iff_nil; exact Hlen).
      unfold module_of. rewrite Hfn. reflexivity.
  - intros [[Ho Hlen Hn Hmd] ->]. apply order_iff in Ho.
    destruct (apply_all_complete xs) as [s Hs]; [constructor; auto|]. rewrite Hs.
    apply apply_all_sound in Hs as [[Hm Hc Hd] _].
    assert (Hmod : st_module s = module_of xs).
    { rewrite Hm. destruct (has SK_Code (map fst xs)) eqn:EC; [reflexivity|].
      assert (the get_function (map fst xs) = []) as Hfn by (rewrite (no_code _ EC) in Hlen; apply length_zero_iff_nil; exact Hlen).
      unfold module_of. rewrite Hfn. reflexivity. }
    assert (final_ok s = true) as ->; [|rewrite Hmod; reflexivity].
    unfold final_ok. rewrite Hc, Hd. rewrite !Bool.andb_true_iff. split; [split|].
    + rewrite Hm. cbn [funcs set_funcs]. destruct (has SK_Code (map fst xs)) eqn:EC; cbn [negb]; [rewrite Bool.andb_false_r; reflexivity|].
      rewrite (no_code _ EC) in Hlen. apply length_zero_iff_nil in Hlen. rewrite Hlen. reflexivity.
    + rewrite Hmod. cbn [data_count module_of datas]. destruct (the get_datacount (map fst xs)) as [|k l]; [reflexivity|]. cbn.
      apply N.eqb_eq. apply Hn. left. reflexivity.
    + rewrite Hmod. cbn [data_count module_of]. destruct (the get_datacount (map fst xs)) as [|k l]; cbn; [|rewrite Bool.andb_false_r; reflexivity].
      rewrite Bool.andb_true_r. destruct (code_mentions (the get_code (map fst xs))) eqn:EM; [|reflexivity]. exfalso.
      apply mentions_iff in EM as (ls & e & i & H1 & H2 & H3). eapply Hmd; eauto.
Qed.

Lemma Bmodule_iff m bs : Bmodule m bs <->
  exists xs bs', bs = magic ++ version1 ++ bs' /\ Bseq Bsection xs bs' /\ assemble xs = Some m.
Proof.
  split.
  - inversion 1; subst. eexists _, _. split; [reflexivity|]. split; [eassumption|]. apply assemble_iff. split; [constructor; assumption|reflexivity].
  - intros (xs & bs' & -> & Hq & Ha). apply assemble_iff in Ha as [[H1 H2 H3 H4] ->]. constructor; assumption.
Qed.
