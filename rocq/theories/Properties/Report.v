(** C65: reports are short, and safe to print on a terminal.  [plain_lines],
    [rows], [one_liners] are in Spec/Report.v, [causes] in Spec/Cli.v. *)
From Verif Require Import Model.Prelude Model.Io Model.Ast Model.Errors Model.Display Model.Module Model.Debug Model.Cli.
From Verif Require Import Spec.Lang Spec.Module Spec.Streams Spec.Layout Spec.Faults Spec.Diagnosis Spec.Cli Spec.Debug Spec.Report.
From Verif Require Import Proofs.Machine Proofs.Pretty Proofs.Report.
From Verif Require Import Properties.Samples Properties.Diagnosis Properties.Cli Properties.Debug.
From Coq Require Import Lia ZifyN ZifyNat ZifyBool String Ascii.
Local Open Scope string_scope.

(** whatever the input and however it is read, nothing but lines of printable
    characters is printed, with and without [--verbose] *)
Theorem C65_plain (T : Texts) depth env R (HR : Reader R) verbose (r : R) o : readable T -> one_liners T depth ->
  @cli_main T env R HR verbose (inr r) = Some o -> Forall plain_lines (out o ++ err o).
Proof.
  intros HT H1 Ho. unfold cli_main in Ho. destruct (fst (decode_module r)) as [m|e|p|]; try discriminate Ho; injection Ho as <-.
  - cbn [out err]. rewrite app_nil_r. destruct verbose; [|constructor]. constructor; [exact (module_lines T m HT)|constructor].
  - cbn [abort out err List.app]. assert (HC : Forall (fun c => plain_lines (e_display c)) (view (n_module e) :: sources (view (n_module e)))).
    { destruct (t_module e) as [[got ->]|Ht].
      - cbn [n_module n_preamble view sources e_display]. constructor; [|constructor]. cbn [e_display]. apply lines_app; [apply lit_lines; reflexivity|]. apply lines_app; [apply debug_bytes_lines|].
        apply lines_app; [apply lit_lines; reflexivity|apply debug_bytes_lines].
      - eapply Forall_impl; [|exact (proj2 (tidy_causes H1 _ _ _ Ht (sources_causes _)))]. intros c Hc. exact (plain_lines_of _ Hc). }
    inversion HC as [|? ? Hd Hs]; subst. constructor; [apply lines_app; [apply lit_lines; reflexivity|exact Hd]|]. apply Forall_app. split.
    + assert (HL : forall l i, Forall (fun c => plain_lines (e_display c)) l -> Forall plain_lines (cause_lines i l)).
      { induction l as [|c l IH]; intros i Hl; [constructor|]. inversion Hl; subst. cbn [cause_lines]. constructor; [|apply IH; assumption].
        apply lines_app; [apply lit_lines; reflexivity|]. apply lines_app; [apply plain_lines_of, dec_plain|]. apply lines_app; [apply lit_lines; reflexivity|assumption]. }
      destruct (sources (view (n_module e))) as [|c l]; [constructor|]. constructor; [apply lines_app; [exact nl_lines|apply lit_lines; reflexivity]|]. apply HL. exact Hs.
    + destruct verbose; [|constructor]. constructor; [|constructor]. apply lines_app; [exact nl_lines|]. apply lines_app; [apply lit_lines; reflexivity|].
      apply lines_app; [exact nl_lines|exact (error_lines T e HT)].
Qed.

(** an error has at most nine causes, and those of an I/O error *)
Theorem C65_causes (T : Texts) depth e cs : one_liners T depth -> causes (view (n_module e)) cs -> List.length cs <= 9 + depth.
Proof.
  intros HT Hc. destruct (t_module e) as [[got ->]|Ht].
  - inversion Hc as [? E|? ? ? E]; [subst; cbn; lia|discriminate E].
  - pose proof (proj1 (tidy_causes HT _ _ _ Ht Hc)). lia.
Qed.

(** without [--verbose], a report takes at most 19 rows, or 12 and those of the
    causes of an I/O error; a module takes none *)
Theorem C65_rows (T : Texts) depth env (evs : list event) o : one_liners T depth ->
  @cli_main T env _ _ false (inr evs) = Some o -> out o = [] /\ rows (err o) <= Nat.max 19 (12 + depth).
Proof.
  intros HT Ho. unfold cli_main in Ho. destruct (fst (decode_module evs)) as [m|e|p|] eqn:Ed; try discriminate Ho; injection Ho as <-.
  - cbn [out err]. split; [reflexivity|]. rewrite rows_nil. lia.
  - split; [reflexivity|]. cbn [abort err List.app]. destruct (t_module e) as [[got ->]|Ht].
    + assert (Hg : List.length got = 8).
      { destruct (content evs) as [bs stop] eqn:Hc. pose proof (C50_sound _ _ _ _ _ Hc Ed) as HD. remember (DM_ParsePreamble (Pre_Unexpected got)) as e eqn:Ee. destruct HD as [|H1 _| | | | xs w k nb n rest e _ _ _ _ Hw|xs w e _ _ _ _ Hi]; try discriminate Ee.
        - assert (E : got = firstn 8 bs) by congruence. rewrite E, firstn_length. lia.
        - exfalso. destruct Hw as [e Hm|bs' stop' e _ _ HF|x q rest' e _ _ _ _ _ Hm| |]; try discriminate Ee.
          + destruct Hm; discriminate Ee.
          + destruct k; cbn [Fcontents] in HF; unfold field, at_, after_ in HF; repeat match goal with H : _ \/ _ |- _ => destruct H as [H|H] | H : exists _, _ |- _ => destruct H | H : _ /\ _ |- _ => destruct H end; subst; discriminate.
          + destruct Hm; discriminate Ee.
        - exfalso. destruct Hi; discriminate Ee. }
      cbn [n_module n_preamble view sources e_display List.app]. rewrite rows_cons, rows_nil, !feeds_app, !feeds_bytes, Hg.
      rewrite (feeds_plain "ERROR: "), (feeds_plain "unexpected preamble: expected "), (feeds_plain "; got ") by (apply plainb_ok; reflexivity). cbn [List.length]. lia.
    + destruct (tidy_causes HT _ _ _ Ht (sources_causes _)) as [Hl Hp]. inversion Hp as [|? ? Hd Hs]; subst. rewrite app_nil_r, rows_cons, feeds_plain by (apply plain_app; [apply plainb_ok; reflexivity|exact Hd]).
      destruct (sources (view (n_module e))) as [|c l] eqn:Es; [rewrite rows_nil; lia|]. rewrite rows_cons, (rows_cause_lines _ Hs), feeds_app, feeds_nl, feeds_plain by (apply plainb_ok; reflexivity). lia.
Qed.

(** ** both bounds are met *)
Lemma sample_one_liners : one_liners sample_texts 0.
Proof.
  split.
  - intros e cs Hc. inversion Hc as [? E|? ? ? E]; [subst|discriminate E]. split; [cbn; lia|]. constructor; [apply plainb_ok; reflexivity|constructor].
  - intros bs. apply plainb_ok. reflexivity.
Qed.
(** a field type, with an index that is too long, in a list of recursive types *)
Definition deepest : list byte := (preamble ++ [x01; x0c; x01; x4e; x01; x5f; x01; x63; x80; x80; x80; x80; x80; x00])%list.
Example C65_deepest : exists lines, @cli_main sample_texts roomy _ _ false (inr deepest) = Some (mkOutcome 1 [] lines) /\ rows lines = 12 /\ List.length lines = 11.
Proof. eexists. split; [vm_compute; reflexivity|]. split; vm_compute; reflexivity. Qed.
Example C65_longest : exists lines, @cli_main sample_texts roomy _ _ false (inr (xff :: preamble)) = Some (mkOutcome 1 [] lines) /\ rows lines = 19.
Proof. eexists. split; [vm_compute; reflexivity|]. vm_compute; reflexivity. Qed.
(** a module with an escape sequence in a name: it is printed escaped *)
Definition bell : list byte := (preamble ++ [x07; x08; x01; x04; x1b; x5b; x33; x6d; x00; x00])%list.
Example C65_escape : exists text, @cli_main sample_texts roomy _ _ true (inr bell) = Some (mkOutcome 0 [text] []) /\
  plain_lines text /\ ~ In (ascii_of_nat 27) (list_ascii_of_string text).
Proof.
  assert (E : exists text, @cli_main sample_texts roomy _ _ true (inr bell) = Some (mkOutcome 0 [text] [])) by (eexists; vm_compute; reflexivity).
  destruct E as [text E]. exists text. split; [exact E|]. pose proof (C65_plain _ _ _ _ _ _ _ _ sample_readable sample_one_liners E) as H.
  cbn [out err List.app] in H. inversion H as [|? ? H1 _]; subst. split; [exact H1|]. intros Hi. unfold plain_lines in H1. rewrite Forall_forall in H1.
  destruct (H1 _ Hi) as [[K _]|K]; [apply K; reflexivity|discriminate K].
Qed.

Print Assumptions C65_plain.
Print Assumptions C65_causes.
Print Assumptions C65_rows.
