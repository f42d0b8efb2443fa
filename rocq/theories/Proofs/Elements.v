(** C66: every entry of a section stands for itself. *)
From Verif Require Import Model.Prelude Model.Ast Spec.Lang Spec.Types Spec.Instr Spec.Module Spec.Streams Spec.Layout Spec.Locality.
From Verif Require Import Proofs.Machine Proofs.Parses Proofs.Final Proofs.GSections Proofs.GModule Proofs.GAssemble Proofs.Unamb Proofs.Modules Proofs.Shortest Proofs.ShortModule Proofs.Locality.
From Verif Require Import Spec.Elements.
From Coq Require Import Lia.

(** ** entries and sections *)
Definition entries_of (s : section) : list entry :=
  match s with
  | SType l => map En_Type l | SImport l => map En_Import l | SFunction l => map En_Function l
  | STable l => map En_Table l | SMemory l => map En_Memory l | STag l => map En_Tag l
  | SGlobal l => map En_Global l | SExport l => map En_Export l | SElement l => map En_Element l
  | SCode l => map (fun c => En_Code (fst c) (snd c)) l | SData l => map En_Data l
  | SCustom _ | SStart _ | SDataCount _ => []
  end.
Lemma seq_items {A} (X : lang A) (f : A -> entry) k xs bs : (forall x b, X x b -> Bentry k (f x) b) -> Bseq X xs bs ->
  exists items, Forall2 (Bentry k) (map f xs) items /\ bs = concat items.
Proof.
  intros Hf H. induction H as [|x xs b1 b2 Hx _ (items & HF & ->)]; [exists []; split; [constructor|reflexivity]|].
  exists (b1 :: items). split; [constructor; auto|reflexivity].
Qed.
Lemma list_items {A} (X : lang A) (f : A -> entry) k xs bs : (forall x b, X x b -> Bentry k (f x) b) -> Blist X xs bs ->
  exists items, Forall2 (Bentry k) (map f xs) items /\ consists bs items.
Proof.
  intros Hf H. inversion H as [? b1 b2 HU HS]; subst. destruct (seq_items X f k _ _ Hf HS) as (items & HF & ->). exists items. split; [exact HF|].
  exists b1. split; [|reflexivity]. rewrite <- (f2_length _ _ _ HF), map_length. exact HU.
Qed.
Lemma items_seq {A} (X : lang A) (f : A -> entry) k es items : (forall e b, Bentry k e b -> exists x, e = f x /\ X x b) -> Forall2 (Bentry k) es items ->
  exists xs, es = map f xs /\ Bseq X xs (concat items).
Proof.
  intros Hf H. induction H as [|e b es items He _ (xs & -> & HS)]; [exists []; split; [reflexivity|constructor]|].
  destruct (Hf _ _ He) as (x & -> & Hx). exists (x :: xs). split; [reflexivity|]. constructor; assumption.
Qed.
Lemma items_list {A} (X : lang A) (f : A -> entry) k es items p : (forall e b, Bentry k e b -> exists x, e = f x /\ X x b) -> Forall2 (Bentry k) es items -> consists p items ->
  exists xs, es = map f xs /\ Blist X xs p.
Proof.
  intros Hf H (count & HU & ->). destruct (items_seq X f k _ _ Hf H) as (xs & -> & HS). exists xs. split; [reflexivity|]. constructor; [|exact HS].
  rewrite <- (f2_length _ _ _ H), map_length in HU. exact HU.
Qed.
Lemma contents_items s p : listed (kind_of s) -> Bcontents s p -> exists items, Forall2 (Bentry (kind_of s)) (entries_of s) items /\ consists p items.
Proof.
  intros HL HC. destruct HC; cbn [kind_of entries_of listed] in *; try destruct HL.
  all: match goal with H : Blist ?X _ _ |- exists _, Forall2 _ (map ?f _) _ /\ _ => refine (list_items X f _ _ _ _ H) end.
  all: try (intros; constructor; assumption).
  intros [ls e] b Hc. constructor. exact Hc.
Qed.
Ltac back := let H := fresh in intros ? ? H; inversion H; subst; eexists; split; [reflexivity|eassumption].
Lemma items_contents k es items p : listed k -> Forall2 (Bentry k) es items -> consists p items -> exists s, kind_of s = k /\ entries_of s = es /\ Bcontents s p.
Proof.
  intros HL HF HC. destruct k; try destruct HL.
  - destruct (items_list Brectype En_Type SK_Type _ _ _ ltac:(back) HF HC) as (xs & -> & H). exists (SType xs). repeat split. constructor. exact H.
  - destruct (items_list Bimport En_Import SK_Import _ _ _ ltac:(back) HF HC) as (xs & -> & H). exists (SImport xs). repeat split. constructor. exact H.
  - destruct (items_list Bidx En_Function SK_Function _ _ _ ltac:(back) HF HC) as (xs & -> & H). exists (SFunction xs). repeat split. constructor. exact H.
  - destruct (items_list Btable En_Table SK_Table _ _ _ ltac:(back) HF HC) as (xs & -> & H). exists (STable xs). repeat split. constructor. exact H.
  - destruct (items_list Bmemtype En_Memory SK_Memory _ _ _ ltac:(back) HF HC) as (xs & -> & H). exists (SMemory xs). repeat split. constructor. exact H.
  - destruct (items_list Btagtype En_Tag SK_Tag _ _ _ ltac:(back) HF HC) as (xs & -> & H). exists (STag xs). repeat split. constructor. exact H.
  - destruct (items_list Bglobal En_Global SK_Global _ _ _ ltac:(back) HF HC) as (xs & -> & H). exists (SGlobal xs). repeat split. constructor. exact H.
  - destruct (items_list Bexport En_Export SK_Export _ _ _ ltac:(back) HF HC) as (xs & -> & H). exists (SExport xs). repeat split. constructor. exact H.
  - destruct (items_list Belem En_Element SK_Element _ _ _ ltac:(back) HF HC) as (xs & -> & H). exists (SElement xs). repeat split. constructor. exact H.
  - destruct (items_list Bcode (fun c => En_Code (fst c) (snd c)) SK_Code _ _ _ ltac:(intros ? ? H; inversion H; subst; eexists (_, _); split; [reflexivity|eassumption]) HF HC) as (xs & -> & H).
    exists (SCode xs). repeat split. constructor. exact H.
  - destruct (items_list Bdata En_Data SK_Data _ _ _ ltac:(back) HF HC) as (xs & -> & H). exists (SData xs). repeat split. constructor. exact H.
Qed.

(** ** where an entry ends, and which one it is, is determined by its bytes *)
Lemma one_list {A} (X : lang A) x b : X x b -> Blist X [x] (x01 :: b).
Proof. intros H. rewrite <- (app_nil_r b). apply (Blist_intro X [x] [x01]); [apply u32_small; reflexivity|]. repeat constructor. exact H. Qed.
Lemma one_prefix {E A} (p : Env -> list byte -> res E (list A) * list byte) (X : lang A) : decodes p (Blist X) ->
  forall x x' b b' r r', X x b -> X x' b' -> b ++ r = b' ++ r' -> x = x' /\ b = b'.
Proof.
  intros HD x x' b b' r r' H H' Eq. apply one_list in H, H'.
  assert (Eq' : (x01 :: b) ++ r = (x01 :: b') ++ r') by (cbn [app]; rewrite Eq; reflexivity). destruct (decodes_prefix_free _ _ HD _ _ _ _ r r' Eq' H H') as [E1 E2]. injection E1 as ->. injection E2 as ->. auto.
Qed.
Lemma code_prefix c c' b b' r r' : Bcode c b -> Bcode c' b' -> b ++ r = b' ++ r' -> c = c' /\ b = b'.
Proof.
  intros H H' Eq. apply one_list in H, H'. apply list_code_inv in H as (g & H & Eg), H' as (g' & H' & Eg').
  assert (Eq' : (x01 :: b) ++ r = (x01 :: b') ++ r') by (cbn [app]; rewrite Eq; reflexivity). destruct (decodes_prefix_free _ _ D_code _ _ _ _ r r' Eq' H H') as [E1 E2]. subst g'. rewrite <- Eg' in Eg. injection Eg as ->. injection E2 as ->. auto.
Qed.
Lemma entry_prefix k e e' b b' r r' : Bentry k e b -> Bentry k e' b' -> b ++ r = b' ++ r' -> e = e' /\ b = b'.
Proof.
  intros H H' Eq. destruct H; inversion H'; subst.
  - destruct (one_prefix _ _ D_type _ _ _ _ _ _ H H0 Eq) as [-> ->]. auto.
  - destruct (one_prefix _ _ D_import _ _ _ _ _ _ H H0 Eq) as [-> ->]. auto.
  - destruct (one_prefix _ _ D_function _ _ _ _ _ _ H H0 Eq) as [-> ->]. auto.
  - destruct (one_prefix _ _ D_table _ _ _ _ _ _ H H0 Eq) as [-> ->]. auto.
  - destruct (one_prefix _ _ D_memory _ _ _ _ _ _ H H0 Eq) as [-> ->]. auto.
  - destruct (one_prefix _ _ D_tag _ _ _ _ _ _ H H0 Eq) as [-> ->]. auto.
  - destruct (one_prefix _ _ D_global _ _ _ _ _ _ H H0 Eq) as [-> ->]. auto.
  - destruct (one_prefix _ _ D_export _ _ _ _ _ _ H H0 Eq) as [-> ->]. auto.
  - destruct (one_prefix _ _ D_element _ _ _ _ _ _ H H0 Eq) as [-> ->]. auto.
  - destruct (code_prefix _ _ _ _ _ _ H H0 Eq) as [E1 ->]. injection E1 as -> ->. auto.
  - destruct (one_prefix _ _ D_data _ _ _ _ _ _ H H0 Eq) as [-> ->]. auto.
Qed.
Lemma items_unique k es es' items items' : Forall2 (Bentry k) es items -> Forall2 (Bentry k) es' items' -> length items = length items' -> concat items = concat items' -> items = items'.
Proof.
  intros H. revert es' items'. induction H as [|e b es items He _ IH]; intros es' [|b' items'] H' L Eq; try discriminate L; [reflexivity|].
  inversion H' as [|e' ? es2 ? He' H2]; subst. cbn [concat] in Eq. destruct (entry_prefix _ _ _ _ _ _ _ He He' Eq) as [_ ->]. apply app_inv_head in Eq. f_equal. eapply IH; [exact H2| |exact Eq]. cbn in L. congruence.
Qed.
Lemma consists_unique k es es' items items' p : Forall2 (Bentry k) es items -> Forall2 (Bentry k) es' items' -> consists p items -> consists p items' -> items = items'.
Proof.
  intros H H' (c & HU & ->) (c' & HU' & Eq).
  destruct (decodes_prefix_free _ _ D_datacount _ _ _ _ _ _ Eq HU HU') as [E1 ->]. apply app_inv_head in Eq. eapply items_unique; [eassumption..|lia|assumption].
Qed.

(** ** the entries of a module are those of its section *)
Lemma map_comp {A B C} (f : A -> B) (g : B -> C) l l' : map f l = l' -> map (fun x => g (f x)) l = map g l'.
Proof. intros <-. rewrite map_map. reflexivity. Qed.
Lemma module_entries k ss s : listed k -> Module_conds (map fst ss) -> of_kind k (map fst ss) = [s] -> entries k (module_of ss) = entries_of s.
Proof.
  intros HL HC H1. pose proof (of_kind_all k (map fst ss)) as HA. rewrite H1 in HA. inversion HA as [|? ? HK _]; subst.
  assert (T : forall A (f : section -> list A), Only (kind_of s) f -> the f (map fst ss) = f s).
  { intros A f Hf. rewrite (the_of_kind _ f _ Hf), H1. cbn [the flat_map]. unfold the. cbn [flat_map]. apply app_nil_r. }
  pose proof (types_of ss (mc_len _ HC)) as TF. pose proof (bodies_of ss (mc_len _ HC)) as TC.
  destruct s; cbn [kind_of listed entries entries_of] in *; try destruct HL; unfold module_of; cbn [types imports tables mems tags globals exports elems datas].
  all: try (f_equal; apply T; just).
  - rewrite (T _ get_function) in TF by just. exact (map_comp _ En_Function _ _ TF).
  - rewrite (T _ get_code) in TC by just. exact (map_comp _ (fun c => En_Code (fst c) (snd c)) _ _ TC).
Qed.
Lemma section_entries m w a b k p : listed k -> Bmodule m (preamble ++ w) -> parts (a ++ (k, p) :: b) w ->
  exists items, Forall2 (Bentry k) (entries k m) items /\ consists p items.
Proof.
  intros HL HB Hp. assert (Hk : k <> SK_Custom) by (intros ->; destruct HL).
  destruct (sections_in _ _ _ HB Hp) as (ss & HM & HC & ->). destruct (matches_split _ _ _ _ HM) as (s1 & [s n] & s2 & -> & _ & _ & K & HB1). cbn [fst snd] in K, HB1. subst k.
  pose proof (mc_order _ HC) as O. rewrite map_app in O. cbn [map fst] in O.
  rewrite (module_entries (kind_of s) _ s HL HC).
  - exact (contents_items s p HL HB1).
  - rewrite map_app. apply of_kind_one; assumption.
Qed.

(** ** putting other entries in their place *)
Section Put.
  Variables (xs zs : list (section * N)) (k : SectionKind) (t : section).
  Hypotheses (HL : listed k) (Hx : Module_conds (map fst xs)) (Ho : subseq (map kind_of (non_custom (map fst zs))) section_order)
    (Hsame : forall j, j <> k -> of_kind j (map fst zs) = of_kind j (map fst xs)) (Hnew : of_kind k (map fst zs) = [t]).
  Let Hk : k <> SK_Custom. Proof. intros ->. destruct HL. Qed.
  Let Lx := mc_len _ Hx.
  Let Cx := mc_count _ Hx.
  Let Mx := mc_mention _ Hx.
  Let kf (H : SK_Function <> k) := kept _ _ k Hsame _ _ only_function H.
  Let kc (H : SK_Code <> k) := kept _ _ k Hsame _ _ only_code H.
  Let kn (H : SK_DataCount <> k) := kept _ _ k Hsame _ _ only_datacount H.
  Let kd (H : SK_Data <> k) := kept _ _ k Hsame _ _ only_data H.
  Lemma put_the {A} (f : section -> list A) : Only k f -> the f (map fst zs) = f t.
  Proof. intros Hf. rewrite (the_of_kind _ f _ Hf), Hnew. unfold the. cbn [flat_map]. apply app_nil_r. Qed.
  Lemma put_kind : kind_of t = k.
  Proof. pose proof (of_kind_all k (map fst zs)) as HA. rewrite Hnew in HA. inversion HA. assumption. Qed.
  Lemma put_conds : Module_conds (map fst zs) <-> fits k (module_of xs) (entries_of t).
  Proof.
    pose proof put_kind as HT. pose proof (@put_the) as PT. destruct (funcs_len xs Lx) as [Fx Gx].
    pose proof (unrelated xs zs k Hx Ho Hsame) as U. destruct k; cbn [fits]; try destruct HL; try (split; [exact (fun _ => I)|intros _; apply U; discriminate]).
    - pose proof (PT _ _ only_function) as E1. pose proof (kc ltac:(discriminate)) as E2. pose proof (kn ltac:(discriminate)) as E3. pose proof (kd ltac:(discriminate)) as E4.
      destruct t; try discriminate HT. cbn [entries_of get_function] in *. rewrite map_length. split.
      + intros Hz. pose proof (mc_len _ Hz) as Lz. rewrite E1, E2 in Lz. congruence.
      + intros E. constructor; [exact Ho|rewrite E1, E2; congruence|rewrite E3, E4; exact Cx|rewrite E3, E2; exact Mx].
    - pose proof (PT _ _ only_code) as E2. pose proof (kf ltac:(discriminate)) as E1. pose proof (kn ltac:(discriminate)) as E3. pose proof (kd ltac:(discriminate)) as E4. rewrite count_none.
      destruct t; try discriminate HT. cbn [entries_of get_code] in *. rewrite map_length.
      assert (I1 : forall ls e, In (ls, e) cs <-> In (En_Code ls e) (map (fun c => En_Code (fst c) (snd c)) cs)).
      { intros ls e. split; [intros Hi; apply in_map_iff; exists (ls, e); auto|]. intros Hi. apply in_map_iff in Hi as ([ls' e'] & Eq & Hi). injection Eq as <- <-. exact Hi. }
      split.
      + intros Hz. pose proof (mc_len _ Hz) as Lz. pose proof (mc_mention _ Hz) as Mz. rewrite E1, E2 in Lz. rewrite E3, E2 in Mz. split; [congruence|].
        intros HD ls e i Hi. apply I1 in Hi. exact (Mz HD ls e i Hi).
      + intros [E M]. constructor; [exact Ho|rewrite E1, E2; congruence|rewrite E3, E4; exact Cx|rewrite E3, E2]. intros HD ls e i Hi. apply I1 in Hi. exact (M HD ls e i Hi).
    - pose proof (PT _ _ only_data) as E4. pose proof (kf ltac:(discriminate)) as E1. pose proof (kc ltac:(discriminate)) as E2. pose proof (kn ltac:(discriminate)) as E3. rewrite count_none. cbn [datas module_of].
      destruct t; try discriminate HT. cbn [entries_of get_data] in *. rewrite map_length. split.
      + intros Hz. pose proof (mc_count _ Hz) as Cz. rewrite E3, E4 in Cz. pose proof Cx as Cn. clear -Cz Cn. destruct (the get_datacount (map fst xs)) as [|n l]; [left; reflexivity|right].
        specialize (Cz n (or_introl eq_refl)). specialize (Cn n (or_introl eq_refl)). lia.
      + intros E. constructor; [exact Ho|rewrite E1, E2; exact Lx| |rewrite E3, E2; exact Mx].
        rewrite E3, E4. destruct E as [E|E]; [rewrite E; intros n []|]. intros n Hn. rewrite E. exact (Cx n Hn).
  Qed.
End Put.
Theorem put m w w'' a b k p p' es items : listed k ->
  Bmodule m (preamble ++ w) -> parts (a ++ (k, p) :: b) w -> Forall2 (Bentry k) es items -> consists p' items -> parts (a ++ (k, p') :: b) w'' ->
  ((exists m'', Bmodule m'' (preamble ++ w'')) <-> fits k m es).
Proof.
  intros HL HB Hp HF HI Hp''. assert (Hk : k <> SK_Custom) by (intros ->; destruct HL).
  destruct (sections_in _ _ _ HB Hp) as (ss & HM & HC & ->).
  destruct (matches_split _ _ _ _ HM) as (s1 & [s n] & s2 & -> & H1 & H2 & K & _). cbn [fst snd] in K.
  destruct (items_contents k es items p' HL HF HI) as (t & K' & <- & HB2).
  set (zs := s1 ++ (t, N.of_nat (length p')) :: s2). assert (HZ : Matches zs (a ++ (k, p') :: b)) by (apply Forall2_app; [exact H1|constructor; [cbn; auto|exact H2]]).
  pose proof (parts_sections _ _ _ Hp'' HZ) as Hq. pose proof (mc_order _ HC) as O. rewrite map_app in O. cbn [map fst] in O.
  assert (Oz : subseq (map kind_of (non_custom (map fst zs))) section_order).
  { unfold zs. rewrite map_app. cbn [map fst]. rewrite kinds_app, kinds_cons in O |- * by congruence. rewrite K'. rewrite K in O. exact O. }
  assert (S : Module_conds (map fst zs) <-> fits k (module_of (s1 ++ (s, n) :: s2)) (entries_of t)).
  { apply (put_conds _ _ _ _ HL HC Oz).
    - intros j Hj. unfold zs. rewrite !map_app. cbn [map fst]. rewrite !of_kind_other by congruence. reflexivity.
    - unfold zs in *. rewrite !map_app in *. cbn [map fst] in *. rewrite <- K'. apply of_kind_one; [congruence|exact Oz]. }
  rewrite <- S. split.
  - intros [m'' HB'']. apply (Bmodule_sections _ _ _ Hq) in HB'' as [HZ' _]. exact HZ'.
  - intros HZ'. exists (module_of zs). apply (Bmodule_sections _ _ _ Hq). auto.
Qed.
Lemma forall2_entries k l es items : Forall2 (Bentry k) l items -> Forall2 (Bentry k) es items -> es = l.
Proof.
  intros H. revert es. induction H as [|x b l bs Hx _ IH]; intros es H'; inversion H' as [|x' ? es' ? Hx' H2]; subst; [reflexivity|].
  f_equal; [|apply IH; exact H2]. refine (proj1 (entry_prefix _ _ _ _ _ [] [] Hx' Hx _)). reflexivity.
Qed.
Lemma section_unique m w a b k p : listed k -> Bmodule m (preamble ++ w) -> parts (a ++ (k, p) :: b) w ->
  exists items, consists p items /\ Forall2 (Bentry k) (entries k m) items /\
    forall es items', consists p items' -> Forall2 (Bentry k) es items' -> items' = items /\ es = entries k m.
Proof.
  intros HL HB Hp. destruct (section_entries _ _ _ _ _ _ HL HB Hp) as (items & HF & HI). exists items. split; [exact HI|]. split; [exact HF|].
  intros es items' HI' HF'. pose proof (consists_unique k _ _ _ _ _ HF' HF HI' HI) as ->. split; [reflexivity|]. exact (forall2_entries _ _ _ _ HF HF').
Qed.
Lemma forall2_nth k l its n x y : Forall2 (Bentry k) l its -> nth_error l n = Some x -> nth_error its n = Some y -> Bentry k x y.
Proof. intros H. revert n. induction H as [|x' y' l its Hx _ IH]; intros [|n] E1 E2; try discriminate E1; cbn in E1, E2; [congruence|eauto]. Qed.
Lemma forall2_set k l its n x y : Forall2 (Bentry k) l its -> Bentry k x y -> n < length l ->
  Forall2 (Bentry k) (firstn n l ++ x :: skipn (S n) l) (firstn n its ++ y :: skipn (S n) its).
Proof.
  intros H Hx. revert n. induction H as [|x' y' l its Hx' HT IH]; intros [|n] Hn; cbn [length] in Hn; try lia; cbn [firstn skipn app].
  - constructor; assumption.
  - constructor; [assumption|]. apply IH. lia.
Qed.
Lemma set_length {A} (l : list A) n x : n < length l -> length (firstn n l ++ x :: skipn (S n) l) = length l.
Proof. intros H. rewrite app_length, firstn_length. cbn [length]. rewrite skipn_length. lia. Qed.
Lemma entries_length k m : length (entries k m) = match k with
  | SK_Function | SK_Code => length (funcs m) | SK_Data => length (datas m) | _ => length (entries k m) end.
Proof. destruct k; cbn [entries]; rewrite ?map_length; reflexivity. Qed.
Lemma in_set {A} (l : list A) n x y : In y (firstn n l ++ x :: skipn (S n) l) -> y = x \/ In y l.
Proof.
  intros H. apply in_app_or in H as [H|[<-|H]]; [right|left; reflexivity|right].
  - rewrite <- (firstn_skipn n l). apply in_or_app. auto.
  - rewrite <- (firstn_skipn (S n) l). apply in_or_app. auto.
Qed.
(** bodies of a module without data count do not use data indices *)
Lemma module_mentions m w : Bmodule m (preamble ++ w) -> data_count m = None -> forall ls e i, In (En_Code ls e) (entries SK_Code m) -> In i e -> ~ mentions_data i.
Proof.
  intros HB HD ls e i Hi. remember (preamble ++ w) as q. destruct HB as [ss w' cs _ _ H2 _ H4]. apply count_none in HD. cbn [entries] in Hi.
  apply in_map_iff in Hi as (f & Ef & Hf). injection Ef as <- <-. exact (proj2 (funcs_mention ss H2) (H4 HD) f i Hf).
Qed.
