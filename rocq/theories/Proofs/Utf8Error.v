(** [utf8_error] finds the place that Spec/Utf8.v describes *)
From Verif Require Import Model.Prelude Model.Io Model.Helpers Model.Utf8 Proofs.Machine Proofs.Parses Proofs.Utf8.
From Verif Require Import Spec.Lang Spec.Utf8.
From Coq Require Import Lia ZifyBool ZifyNat ZifyN List.
Import ListNotations.
Ltac Zify.zify_post_hook ::= Z.div_mod_to_equations.
Local Open Scope N_scope.

Definition whole (p : list byte) : bool :=
  match p with
  | [b0] => b2n b0 <? 0x80
  | [b0; b1] => in_rng 0xC2 0xDF b0 && is_cont b1
  | [b0; b1; b2] => second_3 b0 b1 && is_cont b2
  | [b0; b1; b2; b3] => second_4 b0 b1 && is_cont b2 && is_cont b3
  | _ => false
  end.
Definition begins (p : list byte) : bool :=
  match p with
  | [] => true
  | [b0] => (b2n b0 <? 0x80) || in_rng 0xC2 0xDF b0 || in_rng 0xE0 0xEF b0 || in_rng 0xF0 0xF4 b0
  | [b0; b1] => in_rng 0xC2 0xDF b0 && is_cont b1 || second_3 b0 b1 || second_4 b0 b1
  | [b0; b1; b2] => second_3 b0 b1 && is_cont b2 || second_4 b0 b1 && is_cont b2
  | [b0; b1; b2; b3] => second_4 b0 b1 && is_cont b2 && is_cont b3
  | _ => false
  end.

Lemma second_3_lead b0 b1 : second_3 b0 b1 = true -> 0xE0 <= b2n b0 <= 0xEF /\ 0x80 <= b2n b1 <= 0xBF /\
  (b2n b0 = 0xE0 -> 0xA0 <= b2n b1) /\ (b2n b0 = 0xED -> b2n b1 <= 0x9F).
Proof. unfold second_3, in_rng. lia. Qed.
Lemma second_4_lead b0 b1 : second_4 b0 b1 = true -> 0xF0 <= b2n b0 <= 0xF4 /\ 0x80 <= b2n b1 <= 0xBF /\
  (b2n b0 = 0xF0 -> 0x90 <= b2n b1) /\ (b2n b0 = 0xF4 -> b2n b1 <= 0x8F).
Proof. unfold second_4, in_rng. lia. Qed.

Lemma whole_chars p : whole p = true -> whole_char p.
Proof.
  unfold whole_char. destruct p as [|b0 [|b1 [|b2 [|b3 [|b4 p]]]]]; try discriminate; cbn [whole]; intros H.
  - exists (b2n b0). split; [left; lia|]. unfold utf8_char. rewrite H. f_equal. symmetry. apply byte_of_b2n. reflexivity.
  - unfold is_cont, in_rng in H. apply utf8_char_2; lia.
  - apply andb_prop in H as [H H2]. apply second_3_lead in H. unfold is_cont, in_rng in H2. apply utf8_char_3; lia.
  - apply andb_prop in H as [H H3]. apply andb_prop in H as [H H2]. apply second_4_lead in H. unfold is_cont, in_rng in H2, H3. apply utf8_char_4; lia.
Qed.
Lemma whole_utf8_char c : scalar_value c -> whole (utf8_char c) = true.
Proof.
  intros Hc. unfold scalar_value in Hc. unfold utf8_char. change (2 ^ 6) with 64. change (2 ^ 12) with 4096. change (2 ^ 18) with 262144.
  destruct (N.ltb_spec c 0x80).
  { cbn [whole]. rewrite b2n_byte_of by lia. lia. }
  destruct (N.ltb_spec c 0x800).
  { cbn [whole]. unfold is_cont, in_rng. rewrite !b2n_byte_of by lia. lia. }
  destruct (N.ltb_spec c 0x10000).
  { cbn [whole]. unfold second_3, is_cont, in_rng. rewrite !b2n_byte_of by lia.
    set (x := 0xE0 + c / 4096). set (y := 0x80 + (c / 64) mod 64). set (z := 0x80 + c mod 64).
    assert (Hx : 0xE0 <= x <= 0xEF) by lia. assert (Hy : 0x80 <= y <= 0xBF) by lia. assert (Hz : 0x80 <= z <= 0xBF) by lia.
    assert (Hxa : x = 0xE0 -> 0xA0 <= y) by lia. assert (Hxb : x = 0xED -> y <= 0x9F) by lia. clearbody x y z. clear Hc. lia. }
  cbn [whole]. unfold second_4, is_cont, in_rng. rewrite !b2n_byte_of by lia.
  set (x := 0xF0 + c / 262144). set (y := 0x80 + (c / 4096) mod 64). set (z := 0x80 + (c / 64) mod 64). set (w := 0x80 + c mod 64).
  assert (Hx : 0xF0 <= x <= 0xF4) by lia. assert (Hy : 0x80 <= y <= 0xBF) by lia. assert (Hz : 0x80 <= z <= 0xBF) by lia.
  assert (Hw : 0x80 <= w <= 0xBF) by lia.
  assert (Hxa : x = 0xF0 -> 0x90 <= y) by lia. assert (Hxb : x = 0xF4 -> y <= 0x8F) by lia. clearbody x y z w. clear Hc. lia.
Qed.
Lemma whole_iff p : whole_char p <-> whole p = true.
Proof. split; [|apply whole_chars]. intros (c & Hc & <-). apply whole_utf8_char. exact Hc. Qed.

Lemma begins_more p w : whole (p ++ w) = true -> begins p = true.
Proof.
  pose proof (second_3_lead) as L3. pose proof (second_4_lead) as L4.
  destruct p as [|b0 [|b1 [|b2 [|b3 [|b4 p]]]]]; [reflexivity|..]; cbn [app].
  1-4: destruct w as [|c1 [|c2 [|c3 [|c4 w]]]]; cbn [app whole begins]; try discriminate; intros H;
    repeat match goal with H : (_ && _)%bool = true |- _ => apply andb_prop in H as [H ?] end;
    repeat match goal with H : ?a = true |- context [?a] => rewrite H end; rewrite ?orb_true_r; try reflexivity; clear L3 L4;
    repeat match goal with H : second_3 _ _ = true |- _ => apply second_3_lead in H | H : second_4 _ _ = true |- _ => apply second_4_lead in H end; unfold in_rng in *; lia.
  destruct w; cbn [app whole]; discriminate.
Qed.
Lemma cont_80 : is_cont x80 = true. Proof. reflexivity. Qed.
Lemma fill_3 b0 : in_rng 0xE0 0xEF b0 = true -> exists b1, second_3 b0 b1 = true.
Proof.
  intros H. destruct (N.eqb_spec (b2n b0) 0xE0) as [E|E].
  - exists xa0. unfold second_3, in_rng. rewrite E. reflexivity.
  - exists x80. unfold second_3, in_rng in *. change (b2n x80) with 128. lia.
Qed.
Lemma fill_4 b0 : in_rng 0xF0 0xF4 b0 = true -> exists b1, second_4 b0 b1 = true.
Proof.
  intros H. destruct (N.eqb_spec (b2n b0) 0xF0) as [E|E].
  - exists x90. unfold second_4, in_rng. rewrite E. reflexivity.
  - exists x80. unfold second_4, in_rng in *. change (b2n x80) with 128. lia.
Qed.
Lemma begins_fill p : begins p = true -> exists w, whole (p ++ w) = true.
Proof.
  destruct p as [|b0 [|b1 [|b2 [|b3 [|b4 p]]]]]; cbn [begins]; intros H; try discriminate.
  - exists [x00]. reflexivity.
  - apply orb_prop in H as [H|H]; [apply orb_prop in H as [H|H]; [apply orb_prop in H as [H|H]|]|].
    + exists []. exact H.
    + exists [x80]. cbn [app whole]. rewrite H. reflexivity.
    + destruct (fill_3 _ H) as [b1 E]. exists [b1; x80]. cbn [app whole]. rewrite E. reflexivity.
    + destruct (fill_4 _ H) as [b1 E]. exists [b1; x80; x80]. cbn [app whole]. rewrite E. reflexivity.
  - apply orb_prop in H as [H|H]; [apply orb_prop in H as [H|H]|].
    + exists []. exact H.
    + exists [x80]. cbn [app whole]. rewrite H. reflexivity.
    + exists [x80; x80]. cbn [app whole]. rewrite H. reflexivity.
  - apply orb_prop in H as [H|H].
    + exists []. exact H.
    + exists [x80]. cbn [app whole]. rewrite H. reflexivity.
  - exists []. exact H.
Qed.
Lemma starts_iff p : starts_char p <-> begins p = true.
Proof.
  split.
  - intros (c & w & Hc & E). apply (begins_more p w). rewrite <- E. apply whole_utf8_char, Hc.
  - intros H. apply begins_fill in H as [w H]. apply whole_iff in H as (c & Hc & E). exists c, w. split; assumption.
Qed.

(** one step of the validation *)
Lemma error_whole i p l : whole p = true -> utf8_error i (p ++ l) = utf8_error (i + len p) l.
Proof.
  destruct p as [|b0 [|b1 [|b2 [|b3 [|b4 p]]]]]; cbn [whole]; intros H; try discriminate; cbn [app utf8_error]; unfold len; cbn [length N.of_nat];
    repeat match goal with H : (_ && _)%bool = true |- _ => apply andb_prop in H as [H ?] end.
  - rewrite H. reflexivity.
  - replace (b2n b0 <? 128) with false by (unfold in_rng in H; lia). rewrite H, H0. reflexivity.
  - pose proof (second_3_lead _ _ H). replace (b2n b0 <? 128) with false by lia. replace (in_rng 194 223 b0) with false by (unfold in_rng; lia).
    replace (in_rng 224 239 b0) with true by (unfold in_rng; lia). rewrite H, H0. reflexivity.
  - pose proof (second_4_lead _ _ H). replace (b2n b0 <? 128) with false by lia. replace (in_rng 194 223 b0) with false by (unfold in_rng; lia).
    replace (in_rng 224 239 b0) with false by (unfold in_rng; lia). replace (in_rng 240 244 b0) with true by (unfold in_rng; lia). rewrite H, H0, H1. reflexivity.
Qed.
Lemma error_utf8 i v l : utf8 v -> utf8_error i (v ++ l) = utf8_error (i + len v) l.
Proof.
  intros (cs & Hf & ->). revert i. induction Hf as [|c cs Hc _ IH]; intros i; cbn [map concat app].
  - unfold len. cbn [length N.of_nat]. rewrite N.add_0_r. reflexivity.
  - rewrite <- app_assoc, (error_whole _ _ _ (whole_utf8_char c Hc)), IH. f_equal. unfold len. rewrite app_length. lia.
Qed.

(** the error at its place: what follows is no character *)
Lemma error_cut i p : p <> [] -> begins p = true -> whole p = false -> utf8_error i p = Some (i, None).
Proof.
  destruct p as [|b0 [|b1 [|b2 [|b3 [|b4 p]]]]]; cbn [whole begins]; intros Hn Hb Hw; try discriminate; try (contradiction Hn; reflexivity); cbn [utf8_error].
  - rewrite Hw in *. cbn [orb] in Hb. destruct (in_rng 194 223 b0); [reflexivity|]. destruct (in_rng 224 239 b0); [reflexivity|]. destruct (in_rng 240 244 b0); [reflexivity|discriminate].
  - rewrite Hw in Hb. cbn [orb] in Hb. apply orb_prop in Hb as [H|H].
    + pose proof (second_3_lead _ _ H). replace (b2n b0 <? 128) with false by lia. replace (in_rng 194 223 b0) with false by (unfold in_rng; lia).
      replace (in_rng 224 239 b0) with true by (unfold in_rng; lia). rewrite H. reflexivity.
    + pose proof (second_4_lead _ _ H). replace (b2n b0 <? 128) with false by lia. replace (in_rng 194 223 b0) with false by (unfold in_rng; lia).
      replace (in_rng 224 239 b0) with false by (unfold in_rng; lia). replace (in_rng 240 244 b0) with true by (unfold in_rng; lia). rewrite H. reflexivity.
  - rewrite Hw in Hb. cbn [orb] in Hb. apply andb_prop in Hb as [H H'].
    pose proof (second_4_lead _ _ H). replace (b2n b0 <? 128) with false by lia. replace (in_rng 194 223 b0) with false by (unfold in_rng; lia).
    replace (in_rng 224 239 b0) with false by (unfold in_rng; lia). replace (in_rng 240 244 b0) with true by (unfold in_rng; lia). rewrite H, H'. reflexivity.
  - congruence.
Qed.
Lemma error_none i b l : begins [b] = false -> utf8_error i (b :: l) = Some (i, Some 1).
Proof. cbn [begins utf8_error]. intros H. repeat (apply orb_false_elim in H as [H ?]). rewrite H, H0, H1, H2. reflexivity. Qed.
Lemma error_broken i p b l : p <> [] -> begins p = true -> whole p = false -> begins (p ++ [b]) = false ->
  utf8_error i (p ++ b :: l) = Some (i, Some (len p)).
Proof.
  destruct p as [|b0 [|b1 [|b2 [|b3 [|b4 p]]]]]; cbn [whole begins app]; intros Hn Hb Hw Hs; try discriminate; try (contradiction Hn; reflexivity); cbn [utf8_error]; unfold len; cbn [length N.of_nat].
  - apply orb_false_elim in Hs as [Hs H4]. apply orb_false_elim in Hs as [H2 H3]. rewrite Hw in *. cbn [orb] in Hb.
    destruct (in_rng 194 223 b0). { cbn [andb] in H2. rewrite H2. reflexivity. }
    destruct (in_rng 224 239 b0). { rewrite H3. reflexivity. }
    destruct (in_rng 240 244 b0); [rewrite H4; reflexivity|discriminate].
  - rewrite Hw in Hb. cbn [orb] in Hb. apply orb_false_elim in Hs as [H3 H4]. apply orb_prop in Hb as [H|H].
    + rewrite H in *. cbn [andb] in H3. pose proof (second_3_lead _ _ H). replace (b2n b0 <? 128) with false by lia. replace (in_rng 194 223 b0) with false by (unfold in_rng; lia).
      replace (in_rng 224 239 b0) with true by (unfold in_rng; lia). rewrite H3. reflexivity.
    + rewrite H in *. cbn [andb] in H4. pose proof (second_4_lead _ _ H). replace (b2n b0 <? 128) with false by lia. replace (in_rng 194 223 b0) with false by (unfold in_rng; lia).
      replace (in_rng 224 239 b0) with false by (unfold in_rng; lia). replace (in_rng 240 244 b0) with true by (unfold in_rng; lia). rewrite H4. reflexivity.
  - rewrite Hw in Hb. cbn [orb] in Hb. apply andb_prop in Hb as [H H']. rewrite H, H' in *. cbn [andb] in Hs.
    pose proof (second_4_lead _ _ H). replace (b2n b0 <? 128) with false by lia. replace (in_rng 194 223 b0) with false by (unfold in_rng; lia).
    replace (in_rng 224 239 b0) with false by (unfold in_rng; lia). replace (in_rng 240 244 b0) with true by (unfold in_rng; lia). rewrite Hs. reflexivity.
  - congruence.
Qed.

Lemma utf8_nil : utf8 [].
Proof. exists []. split; [constructor|reflexivity]. Qed.
(** every byte string starts with a character, or has an error at once *)
Inductive first_char : list byte -> Prop :=
| fc_nil : first_char []
| fc_whole p l : p <> [] -> whole p = true -> first_char (p ++ l)
| fc_cut p : p <> [] -> begins p = true -> whole p = false -> first_char p
| fc_none b l : begins [b] = false -> first_char (b :: l)
| fc_broken p b l : p <> [] -> begins p = true -> whole p = false -> begins (p ++ [b]) = false -> first_char (p ++ b :: l).
Lemma first_of_prefix n : forall (p l : list byte), (n + length p = 5)%nat -> begins p = true -> p <> [] -> first_char (p ++ l).
Proof.
  induction n as [|n IH]; intros p l Hn Hb Hp.
  - destruct p as [|b0 [|b1 [|b2 [|b3 [|b4 [|b5 p]]]]]]; cbn [length] in Hn; try lia. cbn in Hb. discriminate.
  - destruct (whole p) eqn:Hw; [apply fc_whole; assumption|]. destruct l as [|b l]; [rewrite app_nil_r; apply fc_cut; assumption|].
    destruct (begins (p ++ [b])) eqn:Hb'; [|apply fc_broken; assumption].
    replace (p ++ b :: l) with ((p ++ [b]) ++ l) by (rewrite <- app_assoc; reflexivity). apply IH; [rewrite app_length; cbn [length]; lia|assumption|].
    destruct p; discriminate.
Qed.
Lemma first_char_of l : first_char l.
Proof.
  destruct l as [|b l]; [constructor|]. destruct (begins [b]) eqn:Hb; [|apply fc_none, Hb].
  apply (first_of_prefix 4 [b] l); [reflexivity|assumption|discriminate].
Qed.

Lemma error_located l : match utf8_error 0 l with None => utf8 l | Some (v, k) => located l v k end.
Proof.
  enough (H : forall n v0 l, length l = n -> utf8 v0 -> match utf8_error (len v0) l with None => utf8 (v0 ++ l) | Some (v, k) => located (v0 ++ l) v k end)
    by exact (H _ [] l eq_refl utf8_nil).
  clear l. intros n. induction n as [n IH] using lt_wf_ind. intros v0 l Hn Hv.
  destruct (first_char_of l) as [|p l Hp Hw|p Hp Hb Hw|b l Hb|p b l Hp Hb Hw Hs].
  - cbn [utf8_error]. rewrite app_nil_r. exact Hv.
  - rewrite (error_whole _ _ _ Hw), app_assoc. replace (len v0 + len p) with (len (v0 ++ p)) by (unfold len; rewrite app_length; lia).
    eapply IH; [|reflexivity|].
    + rewrite <- Hn, app_length. destruct p; [contradiction|cbn [length]; lia].
    + apply whole_iff in Hw as (c & Hc & <-). destruct Hv as (cs & Hf & ->). exists (cs ++ [c]). split; [apply Forall_app; split; [assumption|constructor; [assumption|constructor]]|].
      rewrite map_app, concat_app. cbn. rewrite app_nil_r. reflexivity.
  - rewrite error_cut by assumption. apply cut_off; [assumption..|apply starts_iff; assumption|]. rewrite whole_iff. congruence.
  - rewrite error_none by assumption. apply no_start; [assumption|]. rewrite starts_iff. congruence.
  - rewrite error_broken by assumption. apply broken; [assumption..|apply starts_iff; assumption| |]; rewrite ?whole_iff, ?starts_iff; congruence.
Qed.
Lemma located_error l v k : located l v k -> utf8_error 0 l = Some (v, k).
Proof.
  intros [v0 p Hv Hp Hb Hw|v0 b rest Hv Hb|v0 p b rest Hv Hp Hb Hw Hs]; rewrite error_utf8 by assumption; rewrite N.add_0_l;
    rewrite ?whole_iff, ?starts_iff in *; rewrite ?not_true_iff_false in *.
  - apply error_cut; assumption.
  - apply error_none; assumption.
  - apply error_broken; assumption.
Qed.

(** ** what can follow *)
Lemma located_longest l v k p w : located l v k -> l = p ++ w -> utf8 p -> len p <= v.
Proof.
  intros Hl -> Hp. apply located_error in Hl. rewrite error_utf8, N.add_0_l in Hl by assumption.
  pose proof (error_located w) as Hw. destruct (N.le_gt_cases (len p) v) as [H|H]; [exact H|exfalso].
  assert (L : forall n i l v k, length l = n -> utf8_error i l = Some (v, k) -> i <= v).
  { clear. intros n. induction n as [n IH] using lt_wf_ind. intros i l v k Hn H.
    destruct (first_char_of l) as [|p l Hp Hw|p Hp Hb Hw|b l Hb|p b l Hp Hb Hw Hs].
    - discriminate H.
    - rewrite error_whole in H by assumption. assert (K : i + len p <= v); [|lia]. eapply IH; [|reflexivity|exact H]. rewrite <- Hn, app_length. destruct p; [contradiction|cbn [length]; lia].
    - rewrite error_cut in H by assumption. injection H as <- _. lia.
    - rewrite error_none in H by assumption. injection H as <- _. lia.
    - rewrite error_broken in H by assumption. injection H as <- _. lia. }
  pose proof (L _ _ _ _ _ eq_refl Hl). lia.
Qed.
Lemma utf8_app v w : utf8 v -> utf8 w -> utf8 (v ++ w).
Proof. intros (cs & Hf & ->) (ds & Hg & ->). exists (cs ++ ds). split; [apply Forall_app; auto|]. rewrite map_app, concat_app. reflexivity. Qed.
Lemma char_utf8 c : scalar_value c -> utf8 (utf8_char c).
Proof. intros Hc. exists [c]. split; [constructor; [assumption|constructor]|]. cbn. rewrite app_nil_r. reflexivity. Qed.
Lemma not_located_utf8 l : utf8 l -> forall v k, ~ located l v k.
Proof.
  intros Hu v k Hl. apply located_error in Hl. rewrite <- (app_nil_r l), error_utf8 in Hl by assumption. discriminate Hl.
Qed.
Lemma cut_off_completed l v : located l v None -> exists w, utf8 (l ++ w).
Proof.
  intros Hl. inversion Hl as [v0 p Hv Hp (c & w & Hc & E) _ El Ev|v0 b rest Hv Hb El Ev Ek|]; subst.
  exists w. rewrite <- app_assoc, <- E. apply utf8_app; [assumption|apply char_utf8; assumption].
Qed.
Lemma invalid_forever l v n w : located l v (Some n) -> located (l ++ w) v (Some n).
Proof.
  intros Hl. inversion Hl as [|v0 b rest Hv Hb|v0 p b rest Hv Hp Hb Hw Hs]; subst; rewrite <- ?app_assoc; cbn [app].
  - apply no_start; assumption.
  - apply broken; assumption.
Qed.
Lemma located_length l v k : located l v k -> v < len l /\ (k = None \/ k = Some 1 \/ k = Some 2 \/ k = Some 3).
Proof.
  intros Hl. inversion Hl as [v0 p Hv Hp (c & w & Hc & E) _|v0 b rest Hv Hb|v0 p b rest Hv Hp Hb Hw Hs]; subst; unfold len; rewrite ?app_length; cbn [length].
  - split; [destruct p; [contradiction|cbn [length]; lia]|auto].
  - split; [lia|auto].
  - split; [lia|right]. apply starts_iff in Hb. rewrite whole_iff in Hw.
    destruct p as [|b0 [|b1 [|b2 [|b3 [|b4 p]]]]]; cbn [length]; auto; [contradiction Hp; reflexivity| |discriminate Hb].
    cbn [begins whole] in *. congruence.
Qed.
