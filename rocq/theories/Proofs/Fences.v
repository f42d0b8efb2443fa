(** Section sizes are fences; custom sections are transparent to errors. *)
From Verif Require Import Model.Prelude Model.Io Model.Ast Model.Errors Model.Integer Model.Helpers Model.Types Model.Instr Model.Sections Model.Module.
From Verif Require Import Spec.Lang Spec.Types Spec.Instr Spec.Module Spec.Streams Spec.Leb Spec.Layout Spec.Faults Spec.Diagnosis.
From Verif Require Import Proofs.Machine Proofs.Reads Proofs.Safe Proofs.Parses Proofs.Leb Proofs.GModule Proofs.GAssemble Proofs.SafeWalk Proofs.Sim Proofs.Final Proofs.Diag Proofs.Components Proofs.Unamb Proofs.Modules Proofs.Reports.
From Coq Require Import Lia ZifyBool ZifyNat ZifyN.

Lemma fenced_exact p rest stop : fenced (N.of_nat (length p)) (p ++ rest) stop = (p, Ends).
Proof. unfold fenced. rewrite app_length. destruct (N.leb_spec (N.of_nat (length p)) (N.of_nat (length p + length rest))); [|lia]. rewrite Nnat.Nat2N.id, firstn_app, firstn_all, Nat.sub_diag. cbn. rewrite app_nil_r. reflexivity. Qed.
(** what is wrong with a section that is there entirely does not depend on what follows it *)
Lemma wrong_section_rest cs k p rest stop e : wrong_section cs k (N.of_nat (length p)) p Ends e -> wrong_section cs k (N.of_nat (length p)) (p ++ rest) stop e.
Proof.
  intros HW. remember (N.of_nat (length p)) as n eqn:En. destruct HW as [e HM|bs' stop' e HP HC He|x q rest' e HP Hkx HC Hp Hl HM|x q rest' Hk Hkx HC Hp Hl HB|c Hk HC Hl _]; [..|lia].
  - apply ws_misplaced. exact HM.
  - eapply ws_contents; [exact HP| |exact He]. subst n. rewrite fenced_exact. rewrite <- (app_nil_r p) in HC at 2. rewrite fenced_exact in HC. exact HC.
  - eapply (ws_mismatch _ _ _ _ _ x q (rest' ++ rest)); eauto. rewrite app_assoc, Hp. reflexivity.
  - eapply (ws_size _ _ _ _ _ x q (rest' ++ rest)); eauto. rewrite app_assoc, Hp. reflexivity.
Qed.
Lemma section_decided cs k p : beginning cs ->
  (exists x, kind_of x = k /\ Bcontents x p /\ beginning (cs ++ [x])) \/ (exists e, wrong_section cs k (N.of_nat (length p)) p Ends e).
Proof.
  intros HB. pose (xs := map (fun x => (x, 0%N)) cs). assert (Exs : map fst xs = cs) by (unfold xs; rewrite map_map; apply map_id). rewrite <- Exs in HB.
  destruct (beginning_state xs HB) as (s & _ & HI).
  pose (hs := length (section_headers (st_module s))). pose (env := bigenv (hs + S (length p))). assert (HSuf : sufficient env (hs + S (length p))) by apply bigenv_ok. destruct HSuf as [Hh Hst].
  pose proof (safe_section_step (mkHeader k (N.of_nat (length p))) s (plain p Ends)) as HSf. pose proof (budget_plain p Ends) as Hbp. cbn [budget event_reader] in HSf.
  assert (Hc : content (plain p Ends) = (p, Ends)) by (apply content_plain; discriminate). destruct (content_stream _ _ _ Hc) as (tl & Ha & HS).
  destruct (section_step (mkHeader k (N.of_nat (length p))) s (plain p Ends)) as [[s'|e|[]|] r'] eqn:Es; try (destruct HSf as [_ HSf]; unfold short in HSf; fold hs in HSf; clearbody env; (contradiction || lia)).
  - left. destruct (p_sound _ _ (parses_section_step _ _) _ _ _ Es) as (b & Hb & x & Hk & Hn & HC & Hx). cbn [sh_kind sh_size] in *.
    change (abs (plain p Ends)) with (events_abs (plain p Ends)) in Hb. rewrite Ha in Hb. apply (stream_bsteps _ _ HS) in Hb as (rest & Hp & _).
    assert (b = p) as -> by (subst p; unfold lenN in Hn; rewrite app_length in Hn; destruct rest; [rewrite app_nil_r; reflexivity|cbn in Hn; lia]).
    exists x. split; [exact Hk|]. split; [exact HC|]. rewrite <- Exs. apply (beginning_step xs s x (N.of_nat (length p)) HI HB). eauto.
  - right. exists e. rewrite <- Exs. eapply (step_backward p Ends tl HS (plain p Ends) Ha); eauto. rewrite Es. reflexivity.
Qed.

Section Fence.
  Context (xs : list (section * N)) (w : list byte) (Hq : Bseq Bsection xs w) (HB : beginning (map fst xs)).
  Context (k : SectionKind) (nb p : list byte) (HU : Bu32 (N.of_nat (length p)) nb).
  Lemma fence : (exists x, kind_of x = k /\ Bcontents x p /\ beginning (map fst xs ++ [x])) \/
    (exists e, forall env evs rest stop, content evs = (preamble ++ w ++ id_of k :: nb ++ p ++ rest, stop) ->
       sufficient env (length (preamble ++ w ++ id_of k :: nb ++ p ++ rest)) -> fst (@decode_module env _ _ evs) = Err e).
  Proof using Hq HB HU.
    destruct (section_decided (map fst xs) k p HB) as [Hx|[e HW]]; [left; exact Hx|right]. exists e. intros env evs rest stop Hc HS'.
    apply (diagnosis_exact env evs _ stop e HS' Hc). eapply (dg_section _ stop xs w k nb _ (p ++ rest)); eauto. apply wrong_section_rest. exact HW.
  Qed.
End Fence.
Lemma never_cut env (evs : list event) (xs : list (section * N)) w k nb n rest stop m : Bseq Bsection xs w -> Bu32 n nb -> (N.of_nat (length rest) < n)%N ->
  content evs = (preamble ++ w ++ id_of k :: nb ++ rest, stop) -> fst (@decode_module env _ _ evs) <> Ok m.
Proof.
  intros Hq HU Hl Hc Hd. destruct (module_sound _ _ Hd) as (bs & e & Hc' & _ & HM). rewrite Hc in Hc'. apply (f_equal fst) in Hc' as Hbs. cbn [fst] in Hbs. clear Hd Hc Hc'.
  destruct HM as [ys v cs Hys _ _ _ _]. rewrite preamble_eq, <- app_assoc in Hbs. apply app_inv_head, app_inv_head in Hbs. subst v.
  destruct (sections_split _ _ _ _ Hq Hys) as (zs & -> & Hz). remember (id_of k :: nb ++ rest) as v eqn:Ev. destruct Hz as [|[y ny] zs b1 b2 Hy Hz]; [discriminate|].
  inversion Hy as [s1 nb' p HU' HC]; subst. cbn in Ev. injection Ev as _ Ev. rewrite <- app_assoc in Ev.
  destruct (decodes_prefix_free _ _ decodes_u32 _ _ _ _ _ _ Ev HU' HU) as [En ->]. apply app_inv_head in Ev. subst rest. rewrite app_length in Hl. lia.
Qed.

(** ** Custom sections *)
Inductive trouble (cs : list section) (rest : list byte) (stop : ending) : DecodeModuleError -> Prop :=
| tr_read k : rest = [] -> stop = Fails k -> k <> UnexpectedEof -> trouble cs rest stop (DM_DecodeSectionHeader (Hdr_ReadSectionIdByte k))
| tr_id b rest' : rest = b :: rest' -> (forall k, b <> id_of k) -> trouble cs rest stop (DM_DecodeSectionHeader (Hdr_InvalidSectionId (InvalidSectionId b)))
| tr_size k rest' e : rest = id_of k :: rest' -> bad_size rest' stop e -> trouble cs rest stop (DM_DecodeSectionHeader (Hdr_DecodeSectionSize e))
| tr_section k nb n rest' e : rest = id_of k :: nb ++ rest' -> Bu32 n nb -> wrong_section cs k n rest' stop e -> trouble cs rest stop e
| tr_end e : rest = [] -> stop = Ends \/ stop = Fails UnexpectedEof -> incomplete cs e -> trouble cs rest stop e.
Lemma trouble_diagnosis xs w rest stop e : Bseq Bsection xs w -> beginning (map fst xs) -> trouble (map fst xs) rest stop e -> diagnosis (preamble ++ w ++ rest) stop e.
Proof.
  intros Hq HB [k -> -> Hk|b rest' -> Hb|k rest' e1 -> He|k nb n rest' e1 -> HU HW|e1 -> Hst He].
  - eapply dg_read; eauto. rewrite app_nil_r. reflexivity.
  - eapply dg_id; eauto.
  - eapply dg_size; eauto.
  - eapply dg_section; eauto.
  - eapply dg_end; eauto. rewrite app_nil_r. reflexivity.
Qed.
(** an error after the sections [xs] is found in what follows them *)
Lemma diagnosis_trouble bs stop e : diagnosis bs stop e ->
  (length bs < 8 \/ (8 <= length bs /\ firstn 8 bs <> preamble)) \/
  exists xs w rest, bs = preamble ++ w ++ rest /\ Bseq Bsection xs w /\ beginning (map fst xs) /\ trouble (map fst xs) rest stop e.
Proof.
  intros [Hl|Hl HN|xs w k Hq HB -> Hst Hk|xs w b rest Hq HB -> HN|xs w k rest e1 Hq HB -> He|xs w k nb n rest e1 Hq HB -> HU HW|xs w e1 Hq HB -> Hst He]; [left; auto..| | | | |]; right.
  - exists xs, w, []. rewrite app_nil_r. repeat split; auto; try apply HB. eapply tr_read; eauto.
  - exists xs, w, (b :: rest). repeat split; auto; try apply HB. eapply tr_id; eauto.
  - exists xs, w, (id_of k :: rest). repeat split; auto; try apply HB. eapply tr_size; eauto.
  - exists xs, w, (id_of k :: nb ++ rest). repeat split; auto; try apply HB. eapply tr_section; eauto.
  - exists xs, w, []. rewrite app_nil_r. repeat split; auto; try apply HB. eapply tr_end; eauto.
Qed.

(** ** nothing depends on custom sections but the module's list of them *)
Definition same_nc (cs cs' : list section) : Prop := non_custom cs = non_custom cs'.
Lemma the_nc {A} (f : section -> list A) cs : (forall c, f (SCustom c) = []) -> the f cs = the f (non_custom cs).
Proof. intros Hf. unfold the. induction cs as [|x cs IH]; [reflexivity|]. destruct x; cbn; rewrite ?Hf, IH; reflexivity. Qed.
Lemma the_same {A} (f : section -> list A) cs cs' : (forall c, f (SCustom c) = []) -> same_nc cs cs' -> the f cs = the f cs'.
Proof. intros Hf HE. rewrite (the_nc f cs Hf), (the_nc f cs' Hf), HE. reflexivity. Qed.
Lemma in_nc x cs : is_custom x = false -> In x cs <-> In x (non_custom cs).
Proof. intros Hx. unfold non_custom. rewrite filter_In, Hx. cbn. tauto. Qed.
Lemma in_same x cs cs' : is_custom x = false -> same_nc cs cs' -> In x cs -> In x cs'.
Proof. intros Hx HE HI. apply (proj2 (in_nc _ _ Hx)). rewrite <- HE. apply (proj1 (in_nc _ _ Hx)). exact HI. Qed.
Section Same.
  Context (cs cs' : list section) (HE : same_nc cs cs').
  Lemma same_sym : same_nc cs' cs. Proof using HE. symmetry. exact HE. Qed.
  Lemma same_function : the get_function cs = the get_function cs'. Proof using HE. apply the_same; auto. Qed.
  Lemma same_code : the get_code cs = the get_code cs'. Proof using HE. apply the_same; auto. Qed.
  Lemma same_data : the get_data cs = the get_data cs'. Proof using HE. apply the_same; auto. Qed.
  Lemma beginning_same : beginning cs -> beginning cs'.
  Proof using HE.
    intros [B1 B2 B3]. split.
    - rewrite <- HE. exact B1.
    - intros l Hl. rewrite <- same_function. apply B2. eapply in_same; [reflexivity|apply same_sym|exact Hl].
    - intros l n Hl Hn. eapply B3; (eapply in_same; [reflexivity|apply same_sym|eassumption]).
  Qed.
  Lemma last_same : last_kind cs = last_kind cs'.
  Proof using HE. unfold last_kind. rewrite HE. reflexivity. Qed.
  Lemma misplaced_same k e : misplaced cs k e -> misplaced cs' k e.
  Proof using HE. intros [p Hl Hp|Hl]; rewrite last_same in Hl; [apply mis_order|apply mis_twice]; assumption. Qed.
  Lemma mismatch_same x e : mismatch cs x e -> mismatch cs' x e.
  Proof using HE. intros [l Hl|l n Hn Hl]; [rewrite same_function in *; apply mm_code; exact Hl|]. apply mm_data; [eapply in_same; [reflexivity|exact HE|exact Hn]|exact Hl]. Qed.
  Lemma incomplete_same e : incomplete cs e -> incomplete cs' e.
  Proof using HE.
    assert (HN : forall x, is_custom x = false -> ~ In x cs -> ~ In x cs') by (intros x Hx HN HI; apply HN; eapply in_same; [exact Hx|apply same_sym|exact HI]).
    pose proof same_function as F1. pose proof same_code as F2. pose proof same_data as F3.
    intros [HC HF|n Hl Hn Hd|ls e1 i Hl HC H1 H2 H3]; rewrite ?F1, ?F2, ?F3.
    - apply inc_code; [|rewrite <- F1; exact HF]. intros l. apply (HN (SCode l) eq_refl), HC.
    - apply inc_data; [rewrite <- F1, <- F2; exact Hl| |rewrite <- F3; exact Hd]. eapply in_same; [reflexivity|exact HE|exact Hn].
    - rewrite F1, F2 in Hl. rewrite F2 in H1. eapply inc_index; eauto.
  Qed.
End Same.
Lemma same_app cs cs' l : same_nc cs cs' -> same_nc (cs ++ l) (cs' ++ l).
Proof. unfold same_nc, non_custom. intros HE. rewrite !filter_app, HE. reflexivity. Qed.
Lemma wrong_same cs cs' k n rest stop e : same_nc cs cs' -> wrong_section cs k n rest stop e -> wrong_section cs' k n rest stop e.
Proof.
  intros HE HW. assert (HP : (forall e', ~ misplaced cs k e') -> forall e', ~ misplaced cs' k e').
  { intros HP e' HM. eapply HP, misplaced_same; [apply same_sym; exact HE|exact HM]. }
  destruct HW as [e HM|bs' stop' e HM HC He|x q rest' e HM Hkx HC Hp Hl HX|x q rest' Hk Hkx HC Hp Hl HB|c Hk HC Hl Hst].
  - apply ws_misplaced. eapply misplaced_same; eassumption.
  - eapply ws_contents; eauto.
  - eapply ws_mismatch; eauto. eapply mismatch_same; eassumption.
  - eapply ws_size; eauto. eapply beginning_same; [apply same_app; exact HE|exact HB].
  - eapply ws_custom; eauto.
Qed.
Lemma trouble_same cs cs' rest stop e : same_nc cs cs' -> trouble cs rest stop e -> trouble cs' rest stop e.
Proof.
  intros HE [k E1 E2 Hk|b rest' E1 Hb|k rest' e1 E1 He|k nb n rest' e1 E1 HU HW|e1 E1 Hst He].
  - eapply tr_read; eauto.
  - eapply tr_id; eauto.
  - eapply tr_size; eauto.
  - eapply tr_section; eauto. eapply wrong_same; eassumption.
  - eapply tr_end; eauto. eapply incomplete_same; eassumption.
Qed.

Lemma errors_after env (evs : list event) xs w rest stop e : Bseq Bsection xs w -> beginning (map fst xs) -> content evs = (preamble ++ w ++ rest, stop) ->
  sufficient env (length (preamble ++ w ++ rest)) -> fst (@decode_module env _ _ evs) = Err e ->
  exists ys v rest', rest = v ++ rest' /\ Bseq Bsection ys v /\ beginning (map fst (xs ++ ys)) /\ trouble (map fst (xs ++ ys)) rest' stop e.
Proof.
  intros Hq HB Hc HSf Hd. destruct (content_stream _ _ _ Hc) as (tl & Ha & HS). destruct (beginning_state _ HB) as (s1 & Hs & HI).
  destruct (decode_forward evs xs w (map AByte rest ++ tl) s1) as [(n & r1 & Hr1 & E)|Hg]; auto.
  { change (abs evs) with (events_abs evs). rewrite Ha. replace (preamble ++ w ++ rest) with ((magic ++ version1 ++ w) ++ rest) by (rewrite preamble_eq, <- !app_assoc; reflexivity). rewrite map_app, <- app_assoc. apply bsteps_list. }
  2: { rewrite Hd in Hg. destruct Hg. }
  rewrite E in Hd. clear E. unfold bind in Hd. destruct (section_loop n s1 r1) as [x r2] eqn:El.
  assert (HX : (exists e, x = Err e) \/ (exists s, x = Ok s)) by (destruct x; [eauto|eauto|discriminate..]).
  destruct (loop_backward _ _ _ _ _ El HX) as (ys & v & s2 & r3 & Hb & Hy & Hap & He).
  rewrite Hr1 in Hb. apply (stream_bsteps _ _ HS) in Hb as (rest' & -> & Hr3). exists ys, v, rest'. split; [reflexivity|]. split; [exact Hy|].
  assert (Hs2 : apply_all (xs ++ ys) s0 = Some s2).
  { clear -Hs Hap. revert Hs. generalize s0. induction xs as [|y xs IH]; intros s Hs; cbn in *; [injection Hs as ->; exact Hap|]. destruct (apply_one y s); [apply IH; exact Hs|discriminate]. }
  apply state_beginning in Hs2 as [HI2 HB2]. split; [exact HB2|].
  destruct He as [e1 r' Hh|h r4 e1 r' Hh Hst|r' Hh].
  - injection Hd as <-. assert (Hx' : fst (decode_section_header r3) = Err e1) by (rewrite Hh; reflexivity).
    apply (header_errors _ _ _ HS r3 Hr3) in Hx'. destruct Hx' as [k E1 E2 E3|b rest'' E1 E2|k rest'' e' E1 E2].
    + eapply tr_read; eauto.
    + eapply tr_id; eauto.
    + eapply tr_size; eauto.
  - injection Hd as <-. destruct (header_some _ _ _ HS r3 Hr3 _ _ Hh) as (nb & rest'' & E1 & HU & Hr4). destruct h as [k m]. cbn [sh_kind sh_size] in *.
    eapply tr_section; eauto. eapply (step_backward rest'' stop tl HS r4 Hr4); eauto. rewrite Hst. reflexivity.
  - assert (Hx : fst (decode_section_header r3) = Ok None) by (rewrite Hh; reflexivity). apply (header_none _ _ _ HS r3 Hr3) in Hx as [-> Hst].
    eapply tr_end; eauto. apply (final_iff _ _ HI2 HB2 (R := list event) r'). exact Hd.
Qed.
Lemma beginning_or_not env (xs : list (section * N)) w : sufficient env (length w) -> Bseq Bsection xs w -> beginning (map fst xs) \/
  exists e, forall evs rest stop, content evs = (preamble ++ w ++ rest, stop) -> sufficient env (length (preamble ++ w ++ rest)) -> fst (@decode_module env _ _ evs) = Err e.
Proof.
  intros HS Hq.
  assert (HG : forall ys v xs' u, xs = xs' ++ ys -> w = u ++ v -> Bseq Bsection xs' u -> Bseq Bsection ys v -> beginning (map fst xs') -> beginning (map fst xs) \/
    exists e, forall evs rest stop, content evs = (preamble ++ w ++ rest, stop) -> sufficient env (length (preamble ++ w ++ rest)) -> fst (@decode_module env _ _ evs) = Err e).
  { induction ys as [|[x n] ys IH]; intros v xs' u Hxs Hw Hu Hv HB; [left; rewrite Hxs, app_nil_r; exact HB|].
    inversion Hv as [|? ? b1 b2 Hx Hv']; subst v. pose proof Hx as Hx'. inversion Hx' as [? nb p HU HC]; subst.
    destruct (fence xs' u Hu HB (kind_of x) nb p HU) as [(y & Hk & HY & HB')|[e He]].
    - assert (y = x) as -> by (eapply contents_unamb; eassumption).
      apply (IH b2 (xs' ++ [(x, N.of_nat (length p))]) (u ++ id_of (kind_of x) :: nb ++ p)).
      + rewrite <- app_assoc. reflexivity.
      + rewrite <- app_assoc. reflexivity.
      + apply sections_app; [exact Hu|]. rewrite <- (app_nil_r (id_of (kind_of x) :: nb ++ p)). constructor; [exact Hx|constructor].
      + exact Hv'.
      + rewrite map_app. exact HB'.
    - right. exists e. intros evs rest stop Hc HS'.
      assert (Eq : preamble ++ (u ++ (id_of (kind_of x) :: nb ++ p) ++ b2) ++ rest = preamble ++ u ++ id_of (kind_of x) :: nb ++ p ++ (b2 ++ rest)) by (rewrite <- !app_assoc; cbn [app]; rewrite <- !app_assoc; reflexivity).
      rewrite Eq in *. eapply (He env); eassumption. }
  apply (HG xs w [] []); auto; [constructor|]. split; [apply subseq_nil_l|intros l []|intros l n []].
Qed.

Theorem custom_errors env (evs evs' : list event) (xs : list (section * N)) w c n b rest stop e :
  Bseq Bsection xs w -> Bsection (SCustom c, n) b ->
  content evs = (preamble ++ w ++ rest, stop) -> content evs' = (preamble ++ w ++ b ++ rest, stop) ->
  sufficient env (length (preamble ++ w ++ b ++ rest)) ->
  fst (@decode_module env _ _ evs) = Err e <-> fst (@decode_module env _ _ evs') = Err e.
Proof.
  intros Hq Hb Hc Hc' HS'.
  assert (HS : sufficient env (length (preamble ++ w ++ rest))) by (eapply sufficient_le; [|exact HS']; rewrite !app_length; lia).
  assert (HSw : sufficient env (length w)) by (eapply sufficient_le; [|exact HS']; rewrite !app_length; lia).
  destruct (beginning_or_not env xs w HSw Hq) as [HB|[e0 He0]].
  2: { pose proof (He0 evs rest stop Hc HS) as E1. pose proof (He0 evs' (b ++ rest) stop Hc' HS') as E2. rewrite E1, E2. reflexivity. }
  assert (Hw' : Bseq Bsection (xs ++ [(SCustom c, n)]) (w ++ b)) by (apply sections_app; [exact Hq|]; rewrite <- (app_nil_r b); constructor; [exact Hb|constructor]).
  assert (Hsame : forall ys : list (section * N), same_nc (map fst ((xs ++ [(SCustom c, n)]) ++ ys)) (map fst (xs ++ ys))).
  { intros ys. unfold same_nc, non_custom. rewrite !map_app, !filter_app. cbn. rewrite app_nil_r. reflexivity. }
  assert (HB' : beginning (map fst (xs ++ [(SCustom c, n)]))).
  { eapply beginning_same; [|exact HB]. apply same_sym. specialize (Hsame []). rewrite !app_nil_r in Hsame. exact Hsame. }
  split; intros Hd.
  - destruct (errors_after env evs xs w rest stop e Hq HB Hc HS Hd) as (ys & v & rest' & -> & Hy & HBy & HT).
    apply (diagnosis_exact env evs' _ stop e HS' Hc').
    replace (preamble ++ w ++ b ++ v ++ rest') with (preamble ++ ((w ++ b) ++ v) ++ rest') by (rewrite <- !app_assoc; reflexivity).
    apply (trouble_diagnosis ((xs ++ [(SCustom c, n)]) ++ ys)).
    + apply sections_app; assumption.
    + eapply beginning_same; [apply same_sym, Hsame|exact HBy].
    + eapply trouble_same; [apply same_sym, Hsame|exact HT].
  - destruct (errors_after env evs' (xs ++ [(SCustom c, n)]) (w ++ b) rest stop e Hw' HB') as (ys & v & rest' & -> & Hy & HBy & HT).
    { rewrite <- app_assoc. exact Hc'. } { rewrite <- app_assoc. exact HS'. } { exact Hd. }
    apply (diagnosis_exact env evs _ stop e HS Hc).
    replace (preamble ++ w ++ v ++ rest') with (preamble ++ (w ++ v) ++ rest') by (rewrite <- !app_assoc; reflexivity).
    apply (trouble_diagnosis (xs ++ ys)).
    + apply sections_app; assumption.
    + eapply beginning_same; [apply Hsame|exact HBy].
    + eapply trouble_same; [apply Hsame|exact HT].
Qed.
