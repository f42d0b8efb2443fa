(** The encoder of Spec/Encode.v is right and shortest: sections and modules. *)
From Verif Require Import Model.Prelude Model.Ast.
From Verif Require Import Spec.Lang Spec.Types Spec.Instr Spec.Module Spec.Encode.
From Verif Require Import Proofs.Shortest Proofs.GAssemble Proofs.Diag.
From Coq Require Import Lia ZifyN ZifyNat ZifyBool.
#[local] Arguments enc_u : simpl never.
#[local] Arguments enc_s : simpl never.
#[local] Arguments enc_le : simpl never.
#[local] Arguments enc_list : simpl never.
#[local] Arguments fit_list : simpl never.
#[local] Arguments sized : simpl never.
#[local] Arguments enc_expr : simpl never.

Lemma short_import : Short enc_import fit_import Bimport.
Proof.
  split.
  - intros [a b c] (H1 & H2 & H3). unfold enc_import. cbn [im_module im_item im_type] in *. constructor; enc1.
  - intros a bs HB. destruct HB. use. split; [|split]; assumption.
  - intros a bs HB. destruct HB. use. unfold enc_import. cbn [im_module im_item im_type]. fin.
Qed.
Lemma short_global : Short enc_global fit_global Bglobal.
Proof.
  split.
  - intros [a b] (H1 & H2). constructor; enc1.
  - intros a bs HB. destruct HB. use. split; assumption.
  - intros a bs HB. destruct HB. use. unfold enc_global. cbn [g_type g_init]. fin.
Qed.
Lemma short_externidx : Short enc_externidx fit_externidx Bexternidx.
Proof.
  split.
  - intros [x|x|x|x|x] Hf; constructor; enc1.
  - intros a bs HB. destruct HB; use; assumption.
  - intros a bs HB. destruct HB; use; cbn [enc_externidx]; fin.
Qed.
#[export] Hint Resolve short_import short_global short_externidx : typeclass_instances.
Lemma short_export : Short enc_export fit_export Bexport.
Proof.
  split.
  - intros [a b] (H1 & H2). constructor; enc1.
  - intros a bs HB. destruct HB. use. split; assumption.
  - intros a bs HB. destruct HB. use. unfold enc_export. cbn [ex_name ex_idx]. fin.
Qed.
#[export] Hint Resolve short_export : typeclass_instances.
Lemma short_table : Short enc_table fit_table Btable.
Proof.
  assert (HL : forall t e, fit_tabletype t -> fit_expr e -> Btable (mkTable t e) (x40 :: x00 :: enc_tabletype t ++ enc_expr e)) by (intros; constructor; enc1).
  split.
  - intros [t e] [H1 H2]. unfold enc_table. cbn [t_type t_init] in *. specialize (HL t e H1 H2).
    destruct e as [|[] [|? ?]]; try exact HL. destruct (heaptype_eq_dec h (ht (tt_reftype t))) as [->|]; [|exact HL]. constructor. enc1.
  - intros a bs HB. destruct HB; use; (split; [assumption|]); [|assumption]. cbn [t_init]. repeat constructor. apply H.
  - intros a bs HB. destruct HB as [t bs HB|t e b1 b2 H1 H2]; use; unfold enc_table; cbn [t_type t_init].
    + destruct (heaptype_eq_dec _ _) as [_|N]; [assumption|congruence].
    + assert (length (x40 :: x00 :: enc_tabletype t ++ enc_expr e) <= length (x40 :: x00 :: b1 ++ b2)) by fin.
      destruct e as [|[] [|? ?]]; try assumption. destruct (heaptype_eq_dec h (ht (tt_reftype t))) as [->|]; [|assumption]. fin.
Qed.
#[export] Hint Resolve short_table : typeclass_instances.

(** ** Element segments *)
Lemma shorter_le a b : length (shorter a b) <= length a /\ length (shorter a b) <= length b.
Proof. unfold shorter. destruct (Nat.leb_spec (length a) (length b)); lia. Qed.
Lemma shorter_either (P : list byte -> Prop) a b : P a -> P b -> P (shorter a b).
Proof. unfold shorter. destruct (length a <=? length b); auto. Qed.
Lemma only_ref_funcs_some es : forall ys, only_ref_funcs es = Some ys -> es = ref_funcs ys.
Proof.
  induction es as [|e es IH]; intros ys HE; [injection HE as <-; reflexivity|].
  destruct e as [|[] [|? ?]]; cbn in HE; try discriminate HE. destruct (only_ref_funcs es) as [ys'|]; [|discriminate HE]. injection HE as <-. cbn. f_equal. apply IH. reflexivity.
Qed.
Lemma only_ref_funcs_of ys : only_ref_funcs (ref_funcs ys) = Some ys.
Proof. induction ys as [|y ys IH]; [reflexivity|]. unfold ref_funcs in *. cbn. rewrite IH. reflexivity. Qed.
Lemma fit_ref_funcs ys : fit_list fit_expr (ref_funcs ys) <-> fit_list fit_u32 ys.
Proof.
  unfold fit_list, ref_funcs. rewrite map_length. split; intros [H1 H2]; (split; [exact H1|]); clear H1.
  - induction ys as [|y ys IH]; constructor; inversion H2 as [|? ? H3 H4]; subst; [inversion H3; subst; assumption|auto].
  - induction H2; cbn; constructor; [repeat constructor; assumption|assumption].
Qed.
Lemma u32_small (n : N) b : val b = n -> (n < 128)%N -> Bu32 n [b].
Proof. intros <- Hn. apply (Bu_last 32); [exact Hn|change (2 ^ 32)%N with 4294967296%N; lia]. Qed.
Lemma cons_app {A} (x : A) l : x :: l = [x] ++ l. Proof. reflexivity. Qed.
Lemma enc_elem_ok e : fit_elem e -> Belem e (enc_elem e).
Proof.
  destruct e as [rt es md]. intros (H1 & H2 & H3). cbn [e_type e_init e_mode] in *.
  unfold enc_elem. cbn [e_type e_init e_mode].
  match goal with |- Belem _ (shorter _ (shorter _ ?l)) => assert (HL : Belem (mkElem rt es md) l) end.
  { destruct md as [|x o|]; [|destruct H3|]; rewrite cons_app; constructor; first [apply u32_small; [reflexivity|lia]|enc1]. }
  apply shorter_either; [|apply shorter_either; [|exact HL]].
  - destruct (only_ref_funcs es) as [ys|] eqn:Ey; [|exact HL]. apply only_ref_funcs_some in Ey as ->. apply fit_ref_funcs in H2.
    destruct rt as [[|] [[]|]]; try exact HL.
    + destruct md as [|x o|]; [|destruct H3|]; rewrite cons_app.
      * change (x00 :: enc_list enc_u ys) with ([x00] ++ enc_list enc_u ys). constructor; first [apply u32_small; [reflexivity|lia]|enc1|constructor].
      * apply Belem_2; first [apply u32_small; [reflexivity|lia]|enc1|constructor].
      * change (x00 :: enc_list enc_u ys) with ([x00] ++ enc_list enc_u ys). constructor; first [apply u32_small; [reflexivity|lia]|enc1|constructor].
    + destruct md as [|[|p] o|]; try exact HL. destruct H3. rewrite cons_app. apply Belem_0; first [apply u32_small; [reflexivity|lia]|enc1].
  - destruct rt as [[|] [[]|]]; try exact HL. destruct md as [|[|p] o|]; try exact HL. destruct H3. rewrite cons_app. apply Belem_4; first [apply u32_small; [reflexivity|lia]|enc1].
Qed.
Lemma u32_pos n bs : Bu32 n bs -> 1 <= length bs.
Proof. intros HB. destruct HB; cbn; lia. Qed.
Lemma ref_one t : 1 <= length (enc_reftype t).
Proof. destruct t as [[|] [t|x]]; cbn [enc_reftype length]; try lia. rewrite abs_len. lia. Qed.
Ltac fins := rewrite ?app_length; cbn [length]; rewrite ?app_length; cbn [length]; lia.
Lemma enc_elem_min e bs : Belem e bs -> length (enc_elem e) <= length bs.
Proof.
  intros HB. unfold enc_elem. cbv zeta.
  match goal with |- length (shorter ?a (shorter ?b ?c)) <= _ => pose proof (shorter_le a (shorter b c)) as [L1 L2]; pose proof (shorter_le b c) as [L3 L4] end.
  destruct HB as [e ys b b1 b2 Hb H1 H2|rt ys b b1 b2 Hb H1 H2|x e rt ys b b1 b2 b3 b4 Hb H1 H2 H3 H4|rt ys b b1 b2 Hb H1 H2
    |e es b b1 b2 Hb H1 H2|rt es b b1 b2 Hb H1 H2|x e rt es b b1 b2 b3 b4 Hb H1 H2 H3 H4|rt es b b1 b2 Hb H1 H2]; apply u32_pos in Hb; cbn [e_type e_init e_mode] in *; rewrite ?only_ref_funcs_of in *.
  - use. eapply Nat.le_trans; [exact L1|]. clear L1 L2 L3 L4; fins.
  - destruct H1. use. eapply Nat.le_trans; [exact L1|]. clear L1 L2 L3 L4; fins.
  - destruct H3. use. eapply Nat.le_trans; [exact L1|]. clear L1 L2 L3 L4; fins.
  - destruct H1. use. eapply Nat.le_trans; [exact L1|]. clear L1 L2 L3 L4; fins.
  - use. eapply Nat.le_trans; [exact L2|]. eapply Nat.le_trans; [exact L3|]. clear L1 L2 L3 L4; fins.
  - use. eapply Nat.le_trans; [exact L2|]. eapply Nat.le_trans; [exact L4|]. clear L1 L2 L3 L4; fins.
  - use. eapply Nat.le_trans; [exact L2|]. eapply Nat.le_trans; [exact L4|]. clear L1 L2 L3 L4; fins.
  - use. eapply Nat.le_trans; [exact L2|]. eapply Nat.le_trans; [exact L4|]. clear L1 L2 L3 L4; fins.
Qed.
Lemma short_elem : Short enc_elem fit_elem Belem.
Proof.
  split; [exact enc_elem_ok| |exact enc_elem_min].
  intros e bs HB. destruct HB; try match goal with H : Belemkind _ _ |- _ => destruct H end; use; unfold fit_elem; cbn [e_type e_init e_mode]; rewrite ?fit_ref_funcs;
    (split; [first [assumption|exact I]|split; [assumption|]]); first [exact I|split; [first [assumption|unfold fit_u32; lia]|assumption]].
Qed.
#[export] Hint Resolve short_elem : typeclass_instances.

(** ** Functions *)
Definition rep (g : N * ValType) : list ValType := repeat (snd g) (N.to_nat (fst g)).
Definition enc_group (g : N * ValType) : list byte := let '(n, t) := g in enc_u n ++ enc_valtype t.
Lemma runs_rep l : concat (map rep (runs l)) = l.
Proof.
  induction l as [|t l IH]; [reflexivity|]. cbn [runs]. destruct (runs l) as [|[n t'] g]; cbn [map concat] in *; [rewrite <- IH; reflexivity|].
  destruct (valtype_eq_dec t t') as [->|Ht]; cbn [map concat]; rewrite <- IH; unfold rep; cbn [fst snd].
  - rewrite N2Nat.inj_succ. reflexivity.
  - reflexivity.
Qed.
Lemma runs_count l : Forall (fun g => (fst g <= N.of_nat (length l))%N) (runs l).
Proof.
  induction l as [|t l IH]; [constructor|]. cbn [runs length].
  assert (IH' : Forall (fun g => (fst g <= N.of_nat (S (length l)))%N) (runs l)) by (eapply Forall_impl; [|exact IH]; cbn; intros; lia).
  destruct (runs l) as [|[n t'] g]; [repeat constructor; cbn; lia|]. inversion IH as [|? ? H1 H2]; inversion IH' as [|? ? H3 H4]; subst. cbn [fst] in *.
  destruct (valtype_eq_dec t t'); constructor; cbn [fst]; [lia|assumption|lia|assumption].
Qed.
Lemma runs_types P l : Forall P l -> Forall (fun g => P (snd g)) (runs l).
Proof.
  induction 1 as [|t l Ht _ IH]; [constructor|]. cbn [runs]. destruct (runs l) as [|[n t'] g]; [repeat constructor; exact Ht|].
  destruct (valtype_eq_dec t t') as [->|]; inversion IH; subst; constructor; auto.
Qed.
Lemma runs_number l : length (runs l) <= length l.
Proof. induction l as [|t l IH]; [cbn; lia|]. cbn [runs length]. destruct (runs l) as [|[n t'] g]; [cbn; lia|]. destruct (valtype_eq_dec t t'); cbn [length] in *; lia. Qed.
Lemma runs_repeat t l n : runs (repeat t (S n) ++ l) =
  match runs l with (k, t') :: g => if valtype_eq_dec t t' then (N.of_nat (S n) + k, t')%N :: g else (N.of_nat (S n), t) :: (k, t') :: g | [] => [(N.of_nat (S n), t)] end.
Proof.
  induction n as [|n IH].
  - cbn [repeat app runs]. destruct (runs l) as [|[k t'] g]; [reflexivity|]. destruct (valtype_eq_dec t t') as [->|]; [|reflexivity]. f_equal; f_equal; lia.
  - change (repeat t (S (S n)) ++ l) with (t :: (repeat t (S n) ++ l)). cbn [runs]. rewrite IH. destruct (runs l) as [|[k t'] g].
    + destruct (valtype_eq_dec t t); [|congruence]. f_equal; f_equal; lia.
    + destruct (valtype_eq_dec t t') as [->|].
      * destruct (valtype_eq_dec t' t'); [|congruence]. f_equal; f_equal; lia.
      * destruct (valtype_eq_dec t t); [|congruence]. f_equal; f_equal; lia.
Qed.
Lemma runs_cheapest locs bs : Bseq Blocals locs bs -> (N.of_nat (length (concat locs)) < 2 ^ 32)%N ->
  length (runs (concat locs)) <= length locs /\ length (flat_map enc_group (runs (concat locs))) <= length bs.
Proof.
  induction 1 as [|x xs b1 b2 HX _ IH]; intros Hl; [cbn; lia|]. destruct HX as [n t b3 b4 H1 H2]. cbn [concat] in *.
  rewrite app_length, repeat_length in Hl. destruct IH as [IH1 IH2]; [lia|]. use.
  destruct (N.to_nat n) as [|k] eqn:Ek; [cbn [repeat app]; cbn [length]; rewrite app_length; lia|].
  replace n with (N.of_nat (S k)) in * by lia. rewrite runs_repeat. pose proof (runs_count (concat xs)) as Hc.
  destruct (runs (concat xs)) as [|[m t'] g]; [cbn [length flat_map enc_group]; rewrite !app_length; cbn [length] in *; lia|].
  inversion Hc as [|? ? Hm _]; subst. cbn [fst] in Hm.
  destruct (valtype_eq_dec t t') as [->|]; cbn [length flat_map enc_group] in *; rewrite !app_length in *; [|lia].
  pose proof (enc_u_sub (N.of_nat (S k)) m) as HS. assert (length (enc_u (N.of_nat (S k) + m)) <= length (enc_u (N.of_nat (S k))) + length (enc_u m)) by (apply HS; lia). lia.
Qed.
Lemma short_func : Short enc_func fit_func Bfunc.
Proof.
  split.
  - intros [l e] (H1 & H2 & H3). cbn [fst snd] in *. rewrite <- (runs_rep l) at 1. unfold enc_func, enc_list. cbn [fst snd]. constructor; [|enc1|rewrite runs_rep; exact H1].
    constructor; [rewrite map_length; enc1; unfold fit_u32; pose proof (runs_number l); lia|].
    pose proof (runs_count l) as Hc. pose proof (runs_types _ _ H2) as Ht. induction (runs l) as [|[n t] g IH]; cbn [map flat_map]; [constructor|].
    inversion Hc; inversion Ht; subst; cbn [fst snd] in *. constructor; [|auto]. unfold rep; cbn [fst snd]. constructor; [enc1; unfold fit_u32; lia|enc1].
  - intros a bs HB. destruct HB as [locs e b1 b2 HL HE Hn]. use. split; [exact Hn|split; [|assumption]]. cbn [fst]. destruct HL as [locs b3 b4 _ HL]. clear -HL.
    induction HL as [|x xs b1 b2 HX _ IH]; cbn [concat]; [constructor|]. apply Forall_app. split; [|exact IH]. destruct HX as [n t b3 b4 _ HT]. use.
    apply Forall_forall. intros t' HI. apply repeat_spec in HI as ->. assumption.
  - intros a bs HB. destruct HB as [locs e b1 b2 HL HE Hn]. use. destruct HL as [locs b3 b4 HU HL]. destruct (runs_cheapest _ _ HL Hn) as [R1 R2]. use.
    unfold enc_func, enc_list. cbn [fst snd]. fold enc_group.
    assert (length (enc_u (N.of_nat (length (runs (concat locs))))) <= length (enc_u (N.of_nat (length locs)))) by (apply enc_u_mono; [lia|unfold fit_u32 in *; lia]).
    change (fun '(n, t) => enc_u n ++ enc_valtype t) with enc_group. rewrite !app_length. lia.
Qed.
#[export] Hint Resolve short_func : typeclass_instances.
Lemma sized_min n m : n <= m -> (N.of_nat m < 2 ^ 32)%N -> length (enc_u (N.of_nat n)) <= length (enc_u (N.of_nat m)).
Proof. intros H1 H2. apply enc_u_mono; lia. Qed.
Lemma short_code : Short enc_code fit_code Bcode.
Proof.
  split.
  - intros f [H1 H2]. constructor; [enc1; exact H2|enc1].
  - intros a bs HB. destruct HB as [f b1 b2 HU HF]. use. split; [assumption|]. unfold fit_size, fit_u32 in *. lia.
  - intros a bs HB. destruct HB as [f b1 b2 HU HF]. use. unfold enc_code, sized. rewrite !app_length.
    pose proof (sized_min (length (enc_func f)) (length b2)) as HM. unfold fit_u32 in *. specialize (HM ltac:(assumption) ltac:(assumption)). lia.
Qed.
Lemma short_data : Short enc_data fit_data Bdata.
Proof.
  split.
  - intros [bb [|x o]] (H1 & H2); unfold enc_data; cbn [d_init d_mode] in *.
    + rewrite cons_app. constructor; first [apply u32_small; [reflexivity|lia]|enc1].
    + destruct H2. destruct x as [|p]; rewrite cons_app; constructor; first [apply u32_small; [reflexivity|lia]|enc1].
  - intros a bs HB. destruct HB; use; (split; [assumption|]); cbn [d_mode]; first [exact I|split; [first [assumption|unfold fit_u32; lia]|assumption]].
  - intros a bs HB. destruct HB as [e bb b b1 b2 Hb H1 H2|bb b b1 Hb H1|x e bb b b1 b2 b3 Hb H1 H2 H3]; apply u32_pos in Hb; use; unfold enc_data; cbn [d_init d_mode]; [fins|fins|].
    destruct x; fins.
Qed.
Lemma short_custom : Short enc_custom fit_custom Bcustom.
Proof.
  split.
  - intros [nm c] Hf. constructor. enc1.
  - intros a bs HB. destruct HB. use. assumption.
  - intros a bs HB. destruct HB. use. unfold enc_custom. cbn [cs_name cs_contents]. fin.
Qed.
#[export] Hint Resolve short_code short_data short_custom : typeclass_instances.
Lemma short_contents : Short enc_contents fit_contents Bcontents.
Proof.
  split.
  - intros [] Hf; constructor; enc1.
  - intros a bs HB. destruct HB; use; assumption.
  - intros a bs HB. destruct HB; use; assumption.
Qed.
#[export] Hint Resolve short_contents : typeclass_instances.
(** a section with the size of its shortest contents *)
Definition resize (s : section) : section * N := (s, N.of_nat (length (enc_contents s))).
Lemma enc_section_ok s : fit_section s -> Bsection (resize s) (enc_section s).
Proof. intros [H1 H2]. constructor; [enc1; exact H2|enc1]. Qed.
Lemma section_fit s n bs : Bsection (s, n) bs -> fit_section s /\ length (enc_section s) <= length bs.
Proof.
  intros HB. inversion HB as [? b1 b2 HU HC]; subst. use. unfold fit_section, fit_size, enc_section, sized, fit_u32 in *. split; [split; [assumption|lia]|].
  pose proof (sized_min (length (enc_contents s)) (length b2)) as HM. specialize (HM ltac:(assumption) ltac:(assumption)). cbn [length]. rewrite !app_length. lia.
Qed.
Lemma enc_sections_ok ss : Forall fit_section ss -> Bseq Bsection (map resize ss) (flat_map enc_section ss).
Proof. induction 1; cbn [map flat_map]; constructor; [apply enc_section_ok|]; assumption. Qed.
Lemma sections_fit xs bs : Bseq Bsection xs bs -> Forall fit_section (map fst xs) /\ length (flat_map enc_section (map fst xs)) <= length bs.
Proof.
  induction 1 as [|[s n] xs b1 b2 HX _ [IH1 IH2]]; cbn [map flat_map fst]; [split; [constructor|cbn; lia]|]. apply section_fit in HX as [H1 H2].
  split; [constructor; assumption|]. rewrite !app_length. lia.
Qed.

(** ** Modules *)
Definition agrees (m : Module_) (s : section) : Prop :=
  match s with
  | SCustom _ => True
  | SType l => types m = l | SImport l => imports m = l | SFunction l => map f_type (funcs m) = l | STable l => tables m = l | SMemory l => mems m = l
  | STag l => tags m = l | SGlobal l => globals m = l | SExport l => exports m = l | SStart x => start m = Some x | SElement l => elems m = l
  | SDataCount n => data_count m = Some n | SCode l => map (fun f => (f_locals f, f_body f)) (funcs m) = l | SData l => datas m = l
  end.
Lemma sections_from_agrees m cs : Forall (agrees m) cs -> sections_from m (map kind_of cs) (the get_custom cs) = cs.
Proof.
  induction 1 as [|s cs Hs _ IH]; [reflexivity|]. unfold the in *. destruct s; cbn [map kind_of sections_from flat_map get_custom app agrees] in *;
    rewrite ?Hs, IH; reflexivity.
Qed.
Lemma sections_agree m ks : forall cs, length (filter (fun k => negb (not_custom k)) ks) = length cs ->
  (In SK_Start ks -> start m <> None) -> (In SK_DataCount ks -> data_count m <> None) ->
  Forall (agrees m) (sections_from m ks cs) /\ map kind_of (sections_from m ks cs) = ks /\ the get_custom (sections_from m ks cs) = cs.
Proof.
  induction ks as [|k ks IH]; intros cs Hc Hs Hd.
  - destruct cs; [|discriminate Hc]. cbn. auto.
  - assert (Hs' : In SK_Start ks -> start m <> None) by (intros HI; apply Hs; right; exact HI).
    assert (Hd' : In SK_DataCount ks -> data_count m <> None) by (intros HI; apply Hd; right; exact HI).
    destruct k; cbn [sections_from] in *.
    1: { destruct cs as [|c cs]; [discriminate Hc|]. cbn in Hc. injection Hc as Hc. destruct (IH cs Hc Hs' Hd') as (H1 & H2 & H3).
         split; [constructor; [exact I|exact H1]|]. split; [cbn; f_equal; exact H2|]. unfold the in *. cbn. f_equal. exact H3. }
    all: destruct (IH cs Hc Hs' Hd') as (H1 & H2 & H3); unfold the in *.
    all: try (split; [constructor; [reflexivity|exact H1]|]; split; [cbn; f_equal; exact H2|]; cbn; exact H3).
    + destruct (start m) as [x|] eqn:Ex; [|exfalso; apply Hs; [left; reflexivity|reflexivity]].
      split; [constructor; [exact Ex|exact H1]|]. split; [cbn; f_equal; exact H2|]. cbn. exact H3.
    + destruct (data_count m) as [x|] eqn:Ex; [|exfalso; apply Hd; [left; reflexivity|reflexivity]].
      split; [constructor; [exact Ex|exact H1]|]. split; [cbn; f_equal; exact H2|]. cbn. exact H3.
Qed.
Lemma kinds_filter cs : kinds cs = filter not_custom (map kind_of cs).
Proof. unfold kinds, non_custom. induction cs as [|s cs IH]; [reflexivity|]. destruct s; cbn in *; congruence. Qed.
Lemma kinds_In k cs : k <> SK_Custom -> In k (kinds cs) <-> In k (map kind_of cs).
Proof. intros Hk. rewrite kinds_filter, filter_In. destruct k; cbn; try tauto; congruence. Qed.
Lemma skind_dec (a b : SectionKind) : {a = b} + {a <> b}. Proof. decide equality. Qed.
Lemma the_field {A} (g : section -> list A) k m v cs :
  (forall y, kind_of y <> k -> g y = []) -> (forall y, kind_of y = k -> agrees m y -> g y = v) -> k <> SK_Custom ->
  ksorted (kinds cs) -> Forall (agrees m) cs -> (v <> [] -> In k (map kind_of cs)) -> the g cs = v.
Proof.
  intros H1 H2 Hk HS HA Hv. destruct (in_dec skind_dec k (kinds cs)) as [HI|HN].
  - apply (proj1 (kinds_In k cs Hk)) in HI. apply in_map_iff in HI as (x & Ex & Hx). rewrite (the_unique g k cs x H1 Hk HS Hx Ex).
    apply H2; [exact Ex|]. rewrite Forall_forall in HA. apply HA. exact Hx.
  - rewrite (the_nil g k cs H1 Hk HN). destruct v as [|a v]; [reflexivity|]. exfalso. apply HN. apply (proj2 (kinds_In k cs Hk)). apply Hv. discriminate.
Qed.
Definition as_list {A} (o : option A) : list A := match o with Some x => [x] | None => [] end.
Ltac field_of K := match goal with HA : Forall (agrees ?m) _ |- _ => eapply (the_field _ K m) end; [intros []; cbn; congruence|intros []; cbn; try congruence|discriminate|assumption|assumption|].
Lemma combine_map {A B C} (f : A -> B) (g : A -> C) l : combine (map f l) (map g l) = map (fun x => (f x, g x)) l.
Proof. induction l as [|x l IH]; cbn; [reflexivity|]. rewrite IH. reflexivity. Qed.
Lemma resize_fst cs : map fst (map resize cs) = cs.
Proof. rewrite map_map. apply map_id. Qed.
Definition header (x : section * N) : SectionHeader := let '(s, n) := x in mkHeader (kind_of s) n.
Lemma encoded m xs bs : representable m -> map fst xs = sections m -> Bseq Bsection xs bs -> Bmodule (with_headers (map header xs) m) (magic ++ version1 ++ bs).
Proof.
  intros HR EX HB. destruct (sections_agree m (kinds_of m) (custom_sections m) (r_customs m HR)) as (HA & HK & HC); [apply (r_start m HR)|apply (r_datacount m HR)|].
  fold (sections m) in HA, HK, HC.
  assert (HS : ksorted (kinds (sections m))) by (apply order_iff; rewrite kinds_filter, HK, <- (r_kinds m HR); apply (r_order m HR)).
  assert (F1 : the get_type (sections m) = types m) by (field_of SK_Type; rewrite HK; apply (r_types m HR)).
  assert (F2 : the get_import (sections m) = imports m) by (field_of SK_Import; rewrite HK; apply (r_imports m HR)).
  assert (F3 : the get_table (sections m) = tables m) by (field_of SK_Table; rewrite HK; apply (r_tables m HR)).
  assert (F4 : the get_memory (sections m) = mems m) by (field_of SK_Memory; rewrite HK; apply (r_mems m HR)).
  assert (F5 : the get_tag (sections m) = tags m) by (field_of SK_Tag; rewrite HK; apply (r_tags m HR)).
  assert (F6 : the get_global (sections m) = globals m) by (field_of SK_Global; rewrite HK; apply (r_globals m HR)).
  assert (F7 : the get_export (sections m) = exports m) by (field_of SK_Export; rewrite HK; apply (r_exports m HR)).
  assert (F8 : the get_element (sections m) = elems m) by (field_of SK_Element; rewrite HK; apply (r_elems m HR)).
  assert (F9 : the get_data (sections m) = datas m) by (field_of SK_Data; rewrite HK; apply (r_datas m HR)).
  assert (G1 : the get_start (sections m) = as_list (start m)).
  { field_of SK_Start; [intros _ ->; reflexivity|]. rewrite HK. intros Hn. apply (r_start m HR). destruct (start m); [discriminate|contradiction]. }
  assert (G2 : the get_datacount (sections m) = as_list (data_count m)).
  { field_of SK_DataCount; [intros _ ->; reflexivity|]. rewrite HK. intros Hn. apply (r_datacount m HR). destruct (data_count m); [discriminate|contradiction]. }
  assert (G3 : the get_function (sections m) = map f_type (funcs m)).
  { field_of SK_Function. rewrite HK. intros Hn. apply (r_functions m HR). intros E. rewrite E in Hn. contradiction. }
  assert (G4 : the get_code (sections m) = map (fun f => (f_locals f, f_body f)) (funcs m)).
  { field_of SK_Code. rewrite HK. intros Hn. apply (r_functions m HR). intros E. rewrite E in Hn. contradiction. }
  assert (EM : module_of xs = with_headers (map header xs) m).
  { unfold module_of, with_headers. rewrite EX, F1, F2, F3, F4, F5, F6, F7, F8, F9, G1, G2, G3, G4, HC, combine_map. fold (kinds (sections m)). rewrite kinds_filter, HK, <- (r_kinds m HR), (r_version m HR).
    assert (EF : map (fun x : Func => let '(x0, (ls, e)) := (f_type x, (f_locals x, f_body x)) in mkFunc x0 ls e) (funcs m) = funcs m).
    { rewrite <- (map_id (funcs m)) at 2. apply map_ext. intros []; reflexivity. }
    cbn in EF. f_equal; try (rewrite map_map; reflexivity); try exact EF; try reflexivity; [rewrite map_map; exact EF|destruct (data_count m); reflexivity|destruct (start m); reflexivity]. }
  rewrite <- EM. apply Bmodule_intro; rewrite ?EX.
  - exact HB.
  - apply order_iff. exact HS.
  - rewrite G3, G4, !map_length. reflexivity.
  - intros n Hn. rewrite G2 in Hn. rewrite F9. destruct (data_count m) as [k|] eqn:Ek; cbn in Hn; [|contradiction]. destruct Hn as [<-|[]]. apply (r_count m HR). exact Ek.
  - intros Hn ls e i HI Hi. rewrite G2 in Hn. rewrite G4 in HI. apply in_map_iff in HI as (f & Ef & Hf). injection Ef as <- <-.
    apply (r_mentions m HR) with (f := f); try assumption. destruct (data_count m); [discriminate|reflexivity].
Qed.
Lemma encode_ok m : representable m -> Bmodule (resized m) (encode m).
Proof.
  intros HR. pose proof (encoded m (map resize (sections m)) (flat_map enc_section (sections m)) HR (resize_fst _) (enc_sections_ok _ (r_fits m HR))) as HB.
  rewrite map_map in HB. exact HB.
Qed.
Lemma the_is {A} (g : section -> list A) k cs x : (forall y, kind_of y <> k -> g y = []) -> k <> SK_Custom -> ksorted (kinds cs) -> In x cs -> kind_of x = k -> the g cs = g x.
Proof. intros. eapply the_unique; eauto. Qed.
Lemma the_some {A} (g : section -> list A) k cs : (forall y, kind_of y <> k -> g y = []) -> the g cs <> [] -> In k (map kind_of cs).
Proof.
  intros Hg Hn. destruct (in_dec skind_dec k (map kind_of cs)) as [HI|HN]; [exact HI|]. exfalso. apply Hn. unfold the. clear Hn.
  induction cs as [|s cs IH]; [reflexivity|]. cbn in *. rewrite Hg, IH; tauto.
Qed.
Lemma split_map {A B C} (f : A -> B -> C) (p : C -> A) (q : C -> B) xs ys : (forall x y, p (f x y) = x) -> (forall x y, q (f x y) = y) -> length xs = length ys ->
  map p (map (fun '(x, y) => f x y) (combine xs ys)) = xs /\ map q (map (fun '(x, y) => f x y) (combine xs ys)) = ys.
Proof.
  intros Hp Hq. revert ys. induction xs as [|x xs IH]; intros [|y ys] HL; try discriminate HL; [auto|]. cbn in *. injection HL as HL. destruct (IH ys HL) as [-> ->]. rewrite Hp, Hq. auto.
Qed.
Lemma module_rep m bs : Bmodule m bs -> representable m /\
  exists xs w, bs = magic ++ version1 ++ w /\ Bseq Bsection xs w /\ map fst xs = sections m /\ map header xs = section_headers m.
Proof.
  intros HB. destruct HB as [ss bs cs HB HO HL HD HM].
  assert (HS : ksorted (kinds cs)) by (apply order_iff; exact HO).
  assert (HK : kinds_of (module_of ss) = map kind_of cs).
  { unfold kinds_of, module_of, cs. cbn [section_headers]. rewrite !map_map. apply map_ext. intros [s n]. reflexivity. }
  assert (HF : funcs (module_of ss) = map (fun '(x, y) => mkFunc x (fst y) (snd y)) (combine (the get_function cs) (the get_code cs))).
  { unfold module_of. cbn [funcs]. fold cs. apply map_ext. intros [x [ls e]]. reflexivity. }
  destruct (split_map (fun x y => mkFunc x (fst y) (snd y)) f_type (fun f => (f_locals f, f_body f)) (the get_function cs) (the get_code cs)) as [P1 P2];
    [reflexivity|intros x [ls e]; reflexivity|exact HL|]. rewrite <- HF in P1, P2.
  assert (HA : Forall (agrees (module_of ss)) cs).
  { apply Forall_forall. intros s Hs.
    assert (HU : forall A (g : section -> list A), (forall y, kind_of y <> kind_of s -> g y = []) -> kind_of s <> SK_Custom -> the g cs = g s) by (intros A g Hg Hc; eapply the_is; eauto).
    unfold cs in HU. destruct s; cbn [agrees]; [exact I|..]; rewrite ?P1, ?P2; unfold module_of; cbn [types imports tables mems tags globals exports start elems data_count datas];
      rewrite HU; try reflexivity; try discriminate; intros []; cbn; congruence. }
  assert (HX : sections (module_of ss) = cs).
  { unfold sections. rewrite HK. change (custom_sections (module_of ss)) with (the get_custom cs). apply sections_from_agrees. exact HA. }
  destruct (sections_fit _ _ HB) as [S1 S2]. fold cs in S1, S2. split.
  - split; rewrite ?HK, ?HX.
    + reflexivity.
    + unfold module_of. cbn [parsed_section_kinds]. fold cs. fold (kinds cs). apply kinds_filter.
    + exact HO.
    + change (custom_sections (module_of ss)) with (the get_custom cs). clear. unfold the. induction cs as [|s l IH]; [reflexivity|]. destruct s; cbn in *; congruence.
    + apply (the_some get_type). intros []; cbn; congruence.
    + apply (the_some get_import). intros []; cbn; congruence.
    + intros Hn. split.
      * apply (the_some get_function); [intros []; cbn; congruence|]. rewrite <- P1. destruct (funcs (module_of ss)); [contradiction|discriminate].
      * apply (the_some get_code); [intros []; cbn; congruence|]. rewrite <- P2. destruct (funcs (module_of ss)); [contradiction|discriminate].
    + apply (the_some get_table). intros []; cbn; congruence.
    + apply (the_some get_memory). intros []; cbn; congruence.
    + apply (the_some get_tag). intros []; cbn; congruence.
    + apply (the_some get_global). intros []; cbn; congruence.
    + apply (the_some get_export). intros []; cbn; congruence.
    + split.
      * intros Hn. apply (the_some get_start); [intros []; cbn; congruence|]. intros E. apply Hn. unfold module_of. cbn [start]. fold cs. rewrite E. reflexivity.
      * intros HI. apply in_map_iff in HI as (s & Es & Hs). rewrite Forall_forall in HA. specialize (HA s Hs). destruct s; try discriminate Es. cbn [agrees] in HA. rewrite HA. discriminate.
    + apply (the_some get_element). intros []; cbn; congruence.
    + split.
      * intros Hn. apply (the_some get_datacount); [intros []; cbn; congruence|]. intros E. apply Hn. unfold module_of. cbn [data_count]. fold cs. rewrite E. reflexivity.
      * intros HI. apply in_map_iff in HI as (s & Es & Hs). rewrite Forall_forall in HA. specialize (HA s Hs). destruct s; try discriminate Es. cbn [agrees] in HA. rewrite HA. discriminate.
    + apply (the_some get_data). intros []; cbn; congruence.
    + intros n Hn. apply (HD n). unfold module_of in Hn. cbn [data_count] in Hn. fold cs in Hn. destruct (the get_datacount cs) as [|k l]; [discriminate Hn|]. injection Hn as ->. left. reflexivity.
    + intros Hn f i Hf Hi. apply (HM) with (ls := f_locals f) (e := f_body f).
      * unfold module_of in Hn. cbn [data_count] in Hn. fold cs in Hn. destruct (the get_datacount cs); [reflexivity|discriminate Hn].
      * rewrite <- P2. apply in_map_iff. exists f. auto.
      * exact Hi.
    + exact S1.
  - exists ss, bs. split; [reflexivity|]. split; [exact HB|]. split; [symmetry; exact HX|reflexivity].
Qed.
Lemma encode_min m bs : Bmodule m bs -> length (encode m) <= length bs.
Proof.
  intros HB. apply module_rep in HB as (_ & xs & w & -> & HB & EX & _). destruct (sections_fit _ _ HB) as [_ S2]. rewrite EX in S2.
  unfold encode. rewrite !app_length. lia.
Qed.
(** the sizes that encodings of the contents can have *)
Lemma sizes_of xs w : Bseq Bsection xs w -> Forall2 can_take (map fst xs) (map header xs).
Proof.
  induction 1 as [|x xs b1 b2 HX _ IH]; cbn [map]; constructor; [|exact IH]. destruct HX as [s bs1 bs2 HU HC]. cbn. split; [reflexivity|].
  exists bs2. split; [exact HC|]. split; [reflexivity|]. exact (sh_fit _ _ _ short_u32 _ _ HU).
Qed.
Lemma of_sizes ss hs : Forall2 can_take ss hs -> exists xs w, Bseq Bsection xs w /\ map fst xs = ss /\ map header xs = hs.
Proof.
  induction 1 as [|s [k n] ss hs (Hk & b & HC & Hn & HL) _ (xs & w & HB & E1 & E2)]; [exists [], []; repeat constructor|]. cbn [sh_kind sh_size] in *. subst k n.
  exists ((s, N.of_nat (length b)) :: xs), ((id_of (kind_of s) :: enc_u (N.of_nat (length b)) ++ b) ++ w). split; [|cbn [map fst header]; rewrite E1, E2; split; reflexivity].
  constructor; [|exact HB]. constructor; [|exact HC]. exact (sh_enc _ _ _ short_u32 _ HL).
Qed.
Lemma with_same_headers m : with_headers (section_headers m) m = m.
Proof. destruct m. reflexivity. Qed.
Lemma can_take_min s h : can_take s h -> sh_kind h = kind_of s /\ (N.of_nat (length (enc_contents s)) <= sh_size h < 2 ^ 32)%N.
Proof.
  intros (Hk & b & HC & -> & HL). split; [exact Hk|]. split; [|exact HL]. pose proof (sh_min _ _ _ short_contents _ _ HC). lia.
Qed.

(** ** Equality up to sizes *)
Lemma same_sections m m' : with_headers [] m = with_headers [] m' -> forall ks cs, sections_from m ks cs = sections_from m' ks cs.
Proof.
  destruct m, m'. unfold with_headers. cbn. intros E. injection E as <- <- <- <- <- <- <- <- <- <- <- <- <- <- <-.
  induction ks as [|k ks IH]; intros cs; [reflexivity|]. destruct k; cbn; rewrite ?IH; try reflexivity. destruct cs; rewrite ?IH; reflexivity.
Qed.
Lemma same_sections' m m' : same_but_sizes m m' -> sections m = sections m'.
Proof. intros [Ek E]. unfold sections. rewrite Ek, (same_sections m m' E). f_equal. exact (f_equal custom_sections E). Qed.
Lemma same_rep m m' : same_but_sizes m m' -> representable m -> representable m'.
Proof.
  intros HS HR. pose proof (same_sections' _ _ HS) as ES. destruct HS as [Ek E].
  pose proof (f_equal version E) as E1. pose proof (f_equal parsed_section_kinds E) as E2. pose proof (f_equal custom_sections E) as E3.
  pose proof (f_equal types E) as E4. pose proof (f_equal funcs E) as E5. pose proof (f_equal tables E) as E6. pose proof (f_equal mems E) as E7.
  pose proof (f_equal globals E) as E8. pose proof (f_equal elems E) as E9. pose proof (f_equal data_count E) as E10. pose proof (f_equal datas E) as E11.
  pose proof (f_equal start E) as E12. pose proof (f_equal imports E) as E13. pose proof (f_equal exports E) as E14. pose proof (f_equal tags E) as E15.
  cbn [version parsed_section_kinds custom_sections types funcs tables mems globals elems data_count datas start imports exports tags with_headers] in E1, E2, E3, E4, E5, E6, E7, E8, E9, E10, E11, E12, E13, E14, E15.
  split; rewrite <- ?Ek.
  - rewrite <- E1. exact (r_version m HR).
  - rewrite <- E2. exact (r_kinds m HR).
  - rewrite <- E2. exact (r_order m HR).
  - rewrite <- E3. exact (r_customs m HR).
  - rewrite <- E4. exact (r_types m HR).
  - rewrite <- E13. exact (r_imports m HR).
  - rewrite <- E5. exact (r_functions m HR).
  - rewrite <- E6. exact (r_tables m HR).
  - rewrite <- E7. exact (r_mems m HR).
  - rewrite <- E15. exact (r_tags m HR).
  - rewrite <- E8. exact (r_globals m HR).
  - rewrite <- E14. exact (r_exports m HR).
  - rewrite <- E12. exact (r_start m HR).
  - rewrite <- E9. exact (r_elems m HR).
  - rewrite <- E10. exact (r_datacount m HR).
  - rewrite <- E11. exact (r_datas m HR).
  - rewrite <- E10, <- E11. exact (r_count m HR).
  - rewrite <- E10, <- E5. exact (r_mentions m HR).
  - rewrite <- ES. exact (r_fits m HR).
Qed.
Lemma same_sym m m' : same_but_sizes m m' -> same_but_sizes m' m.
Proof. intros [H1 H2]. split; congruence. Qed.
Lemma same_resized m : representable m -> same_but_sizes m (resized m).
Proof.
  intros HR. split; [|reflexivity]. unfold resized, kinds_of at 2. cbn [section_headers with_headers]. rewrite map_map. cbn.
  destruct (sections_agree m (kinds_of m) (custom_sections m) (r_customs m HR)) as (_ & HK & _); [apply (r_start m HR)|apply (r_datacount m HR)|].
  symmetry. exact HK.
Qed.
Lemma same_encode m m' : same_but_sizes m m' -> encode m = encode m'.
Proof. intros HS. unfold encode. rewrite (same_sections' _ _ HS). reflexivity. Qed.
Lemma same_resize m m' : same_but_sizes m m' -> resized m = resized m'.
Proof.
  intros HS. unfold resized. rewrite (same_sections' _ _ HS). destruct HS as [_ E]. exact (f_equal (with_headers _) E).
Qed.
