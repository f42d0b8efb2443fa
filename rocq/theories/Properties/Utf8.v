(** C70: an error says exactly where a name is not UTF-8, and how.  [located],
    [sentence], [carries], [reveals] are in Spec/Utf8.v, [utf8] in Spec/Lang.v.
    What std says is modelled by [utf8_error], [utf8_text], [utf8_debug] and
    [located_texts] (Model/Utf8.v). *)
From Verif Require Import Model.Prelude Model.Io Model.Ast Model.Errors Model.Display Model.Helpers Model.Module Model.Debug Model.DebugError Model.Utf8 Model.Cli.
From Verif Require Import Spec.Lang Spec.Module Spec.Streams Spec.Layout Spec.Faults Spec.Diagnosis Spec.Cli Spec.Debug Spec.Report Spec.Utf8.
From Verif Require Import Proofs.Machine Proofs.Decimal Proofs.Report Proofs.Pretty Proofs.Debug Proofs.Utf8 Proofs.Honest Proofs.Utf8Error Proofs.Utf8Module.
From Verif Require Import Properties.Samples Properties.Diagnosis Properties.Cli Properties.Debug.
From Coq Require Import Bool Lia ZifyN ZifyNat ZifyBool String Ascii.
Local Open Scope string_scope.

(** the place and the kind are those of the specification *)
Theorem C70_located bs v k : utf8_error 0 bs = Some (v, k) <-> located bs v k.
Proof.
  split; [|apply located_error]. intros E. pose proof (error_located bs) as H. rewrite E in H. exact H.
Qed.
(** a byte string is UTF-8, or has exactly one such place *)
Theorem C70_total bs : utf8 bs <-> ~ exists v k, located bs v k.
Proof.
  split.
  - intros Hu (v & k & Hl). exact (not_located_utf8 bs Hu v k Hl).
  - intros Hn. pose proof (error_located bs) as H. destruct (utf8_error 0 bs) as [[v k]|]; [destruct Hn; eauto|exact H].
Qed.
Theorem C70_unique bs v k v' k' : located bs v k -> located bs v' k' -> v = v' /\ k = k'.
Proof. intros H H'. apply located_error in H, H'. rewrite H in H'. injection H' as -> ->. auto. Qed.
(** the decoder refuses a name exactly when there is such a place *)
Theorem C70_refused bs : from_utf8 bs = false <-> exists v k, located bs v k.
Proof.
  rewrite <- not_true_iff_false, from_utf8_iff, C70_total. split; [|tauto].
  intros H. pose proof (error_located bs) as K. destruct (utf8_error 0 bs) as [[v k]|]; [eauto|]. destruct H. intros (v & k & Hl). exact (not_located_utf8 bs K v k Hl).
Qed.
(** what comes before the place is UTF-8, and no longer prefix is *)
Theorem C70_before bs v k : located bs v k -> exists p w, bs = (p ++ w)%list /\ len p = v /\ w <> [] /\ utf8 p /\
  forall p' w', bs = (p' ++ w')%list -> utf8 p' -> (len p' <= v)%N.
Proof.
  intros H. assert (K : forall p' w', bs = (p' ++ w')%list -> utf8 p' -> (len p' <= v)%N) by (intros p' w'; apply (located_longest bs v k p' w' H)).
  inversion H as [v0 p Hv Hp|v0 b rest Hv Hb|v0 p b rest Hv Hp]; subst.
  - exists v0, p. auto.
  - exists v0, (b :: rest). repeat (split; [auto; discriminate|]). exact K.
  - exists v0, (p ++ b :: rest)%list. split; [reflexivity|]. split; [reflexivity|]. split; [destruct p; discriminate|]. split; [assumption|exact K].
Qed.
(** bytes said to be "incomplete" can be continued to UTF-8; those said to be
    "invalid" cannot, and stay so *)
Theorem C70_incomplete bs v k : located bs v k -> (k = None <-> exists w, utf8 (bs ++ w)%list).
Proof.
  intros H. split.
  - intros ->. exact (cut_off_completed bs v H).
  - intros (w & Hw). destruct k as [n|]; [exfalso|reflexivity]. exact (not_located_utf8 _ Hw v (Some n) (invalid_forever bs v n w H)).
Qed.
Theorem C70_invalid bs v n w : located bs v (Some n) -> located (bs ++ w)%list v (Some n).
Proof. apply invalid_forever. Qed.
(** the numbers: an index into the bytes, and one to three bytes of them *)
Theorem C70_range bs v k : located bs v k -> (v < len bs)%N /\ (k = None \/ k = Some 1 \/ k = Some 2 \/ k = Some 3)%N /\
  forall n, k = Some n -> (v + n <= len bs)%N.
Proof.
  intros H. destruct (located_length bs v k H) as [H1 H2]. split; [exact H1|]. split; [exact H2|]. intros n ->.
  inversion H as [|v0 b rest Hv Hb|v0 p b rest Hv Hp]; subst; unfold len; rewrite ?app_length; cbn [List.length]; rewrite ?app_length; cbn [List.length]; lia.
Qed.

(** ** what is printed *)
Lemma numeral_no_blank s n : decimal s n -> Honest.lacks " " s = true.
Proof.
  assert (D : forall c d, is_digit c d -> negb (Ascii.eqb c " ") = true).
  { intros c d [Hd Hc]. rewrite negb_true_iff. apply Ascii.eqb_neq. intros ->. change (N_of_ascii " ") with 32%N in Hc. lia. }
  induction 1 as [c d Hc|s n c d Hs IH Hn Hc]; [cbn [Honest.lacks]; rewrite (D c d Hc); reflexivity|].
  rewrite Honest.lacks_app, IH. cbn [Honest.lacks]. rewrite (D c d Hc). reflexivity.
Qed.
(** the text names the place, and nothing else has that text *)
Theorem C70_text bs v k : sentence (utf8_text bs) v k <-> located bs v k.
Proof.
  assert (HI : forall bs' v' k', located bs' v' k' -> sentence (utf8_text bs') v' k').
  { intros bs' v' k' H. apply located_error in H. unfold utf8_text. rewrite H. destruct k' as [n|]; constructor; apply dec_ok. }
  split; [|apply HI]. intros HS. destruct (utf8_error 0 bs) as [[v' k']|] eqn:E.
  - pose proof (proj1 (C70_located bs v' k') E) as HL. unfold utf8_text in HS. rewrite E in HS. clear -HS HL.
    inversion HS as [v0 s Hs Es|v0 n s t Hs Ht Es]; subst; destruct k' as [n'|].
    + exfalso. cbn in Es. discriminate Es.
    + assert (E : s = dec v') by (cbn [append] in Es; congruence). subst s. rewrite (decimal_inj _ _ _ Hs (dec_ok v')). exact HL.
    + assert (Es' : t ++ String " " ("bytes from index " ++ s) = dec n' ++ String " " ("bytes from index " ++ dec v')) by (cbn [append] in Es |- *; congruence).
      apply Honest.cut_first in Es' as [E1 E2]; [|apply (numeral_no_blank t n Ht)|apply Honest.lacks_dec; reflexivity].
      assert (E3 : s = dec v') by (cbn [append] in E2; congruence). subst s t.
      rewrite (decimal_inj _ _ _ Hs (dec_ok v')), (decimal_inj _ _ _ Ht (dec_ok n')). exact HL.
    + exfalso. cbn in Es. discriminate Es.
  - exfalso. unfold utf8_text in HS. rewrite E in HS. inversion HS.
Qed.

(** ** in an error of [decode_module] *)
(** Wherever an error contains that bytes are not UTF-8, they are not; the place
    is defined.  If the error reaches it through its sources, the last text
    shown is the sentence about it. *)
Theorem C70_error (T : Texts) env (evs : list event) e bytes : fst (@decode_module env _ _ evs) = Err e -> carries (n_module e) bytes ->
  exists v k, located bytes v k /\ (reveals (n_module e) bytes -> exists l text, @shown (located_texts T) (n_module e) = (l ++ [text])%list /\ sentence text v k).
Proof.
  intros He Hc. destruct (content evs) as [bs stop] eqn:Ec. pose proof (error_not_utf8 bs stop e (C50_sound env evs bs stop e Ec He) bytes Hc) as Hn.
  destruct (utf8_error 0 bytes) as [[v k]|] eqn:E.
  - pose proof (proj1 (C70_located bytes v k) E) as HL. exists v, k. split; [exact HL|]. generalize (n_module e). clear -HL. intros n.
    induction n as [s|x|b|n IH|s n IH|s n IH]; cbn [reveals shown]; intros H; try destruct H; auto.
    + exists [], (utf8_text b). split; [reflexivity|]. apply C70_text. exact HL.
    + destruct (IH H) as (l & text & -> & HS). exists (s :: l)%list, text. auto.
  - destruct Hn. pose proof (error_located bytes) as H. rewrite E in H. exact H.
Qed.
(** and the DEBUG OUTPUT has the numbers *)
Theorem C70_debug (T : Texts) bs v k : located bs v k ->
  @debug_utf8_error (located_texts T) bs = DStruct "Utf8Error" [("valid_up_to", DAtom (dec v)); ("error_len", match k with None => DAtom "None" | Some n => DTuple "Some" [DAtom (dec n)] end)].
Proof. intros H. apply located_error in H. cbn [debug_utf8_error located_texts]. unfold utf8_debug. rewrite H. destruct k; reflexivity. Qed.
(** std's texts about UTF-8 are as the properties about printing require *)
Theorem C70_readable T : readable T -> readable (located_texts T).
Proof.
  intros [H1 H2 H3 H4 H5 H6 H7 H8 H9]. split; cbn [located_texts debug_f32 debug_f64 debug_str debug_io debug_utf8_error]; auto.
  intros bs. unfold utf8_debug. destruct (utf8_error 0 bs) as [[v k]|]; [|apply wf_token, tokenb_ok; reflexivity].
  apply wf_DStruct; [apply tokenb_ok; reflexivity|discriminate|]. constructor; [|constructor; [|constructor]]; cbn [fst snd]; (split; [apply tokenb_ok; reflexivity|]).
  - apply wf_token, token_dec.
  - destruct k as [n|]; [|apply wf_token, tokenb_ok; reflexivity]. apply wf_DTuple; [apply tokenb_ok; reflexivity|discriminate|]. constructor; [|constructor]. apply wf_token, token_dec.
Qed.
Theorem C70_one_liners T depth : one_liners T depth -> one_liners (located_texts T) depth.
Proof.
  intros [H1 H2]. split; [exact H1|]. intros bs. cbn [located_texts utf8_message]. unfold utf8_text.
  destruct (utf8_error 0 bs) as [[v [n|]]|]; repeat first [apply plain_app | apply dec_plain | solve [apply plainb_ok; reflexivity]].
Qed.

(** ** examples *)
(** an export named with a surrogate, cut off or not *)
Definition surrogate : list byte := (preamble ++ [x07; x09; x01; x05; x61; xc3; xa9; xed; xa0; x00; x00])%list.
Example C70_ex : exists e, fst (@decode_module roomy _ _ (byte_by_byte surrogate Ends)) = Err e /\ carries (n_module e) [x61; xc3; xa9; xed; xa0] /\
  reveals (n_module e) [x61; xc3; xa9; xed; xa0] /\ located [x61; xc3; xa9; xed; xa0] 3 (Some 1%N) /\
  @shown (located_texts sample_texts) (n_module e) =
    ["failed decoding Export section"; "failed parsing vector element at position 0"; "invalid utf-8 sequence of 1 bytes from index 3"].
Proof.
  eexists. split; [vm_compute; reflexivity|]. split; [vm_compute; reflexivity|]. split; [vm_compute; reflexivity|]. split; [apply C70_located; vm_compute; reflexivity|vm_compute; reflexivity].
Qed.
Example C70_ex_incomplete : located [x61; xf0; x9f; x92] 1 None. Proof. apply C70_located. vm_compute. reflexivity. Qed.
Example C70_ex_three : located [x61; xf0; x9f; x92; x62] 1 (Some 3%N). Proof. apply C70_located. vm_compute. reflexivity. Qed.
Example C70_ex_import : exists e, fst (@decode_module roomy _ _ (byte_by_byte (preamble ++ [x02; x06; x01; x01; xff; x00; x00; x00])%list Ends)) = Err e /\
  carries (n_module e) [xff] /\ ~ reveals (n_module e) [xff].
Proof. eexists. split; [vm_compute; reflexivity|]. split; [vm_compute; reflexivity|]. intros H. vm_compute in H. exact H. Qed.

Print Assumptions C70_located.
Print Assumptions C70_total.
Print Assumptions C70_unique.
Print Assumptions C70_refused.
Print Assumptions C70_before.
Print Assumptions C70_incomplete.
Print Assumptions C70_invalid.
Print Assumptions C70_range.
Print Assumptions C70_text.
Print Assumptions C70_error.
Print Assumptions C70_debug.
Print Assumptions C70_readable.
Print Assumptions C70_one_liners.
