(** C62: what the tool does if it cannot print.  [Stream], [complete], [died] are
    in Spec/Print.v. *)
From Verif Require Import Model.Prelude Model.Io Model.Ast Model.Errors Model.Display Model.Module Model.Debug Model.Cli Model.Override Model.Print.
From Verif Require Import Spec.Lang Spec.Module Spec.Streams Spec.Layout Spec.Debug Spec.Calls Spec.Faults Spec.Own Spec.Print.
From Verif Require Import Proofs.Machine Proofs.Final Proofs.Pretty Properties.Samples Properties.Modules Properties.Universal Properties.Debug Properties.Own.
From Coq Require Import Bool Lia String Ascii Strings.Byte.
Local Open Scope string_scope.

Lemma content_never (evs : list event) bs stop : content evs = (bs, stop) -> stop <> Fails Interrupted.
Proof.
  intros Hc ->. revert bs Hc. induction evs as [|[b d| |[]] evs IH]; intros bs Hc; cbn [content] in Hc; try discriminate Hc; [destruct (content evs) as [l s]; injection Hc as <- ->|]; eauto.
Qed.
Section Print.
  Context {W V : Type} `{HW : Stream W} `{HV : Stream V} (panic_text : string).
  Notation process := (process W V).

  Lemma noise_received (v : V) : exists noise, at_most noise (panic_text ++ nl) /\ received (snd (put v (panic_text ++ nl))) = received v ++ noise.
  Proof.
    destruct (put v (panic_text ++ nl)) as [[] v'] eqn:E; cbn [snd].
    - exists (panic_text ++ nl). split; [exists ""; symmetry; apply sapp_nil|exact (put_all _ _ _ E)].
    - destruct (put_part _ _ _ E) as (a & c & q & Es & Er). exists a. split; [exists (String c q); exact Es|exact Er].
  Qed.
  (** the lines [l] are printed to stderr, and then [k]; or not all of them *)
  Definition Lines (l : list string) (w : W) (v : V) (k : V -> process) (p : process) : Prop :=
    (exists v', received v' = received v ++ printed l /\ p = k v') \/
    (status p = 101%N /\ received (stdout p) = received w /\ exists a noise, cut a (printed l) /\ at_most noise (panic_text ++ nl) /\ received (stderr p) = received v ++ a ++ noise).
  Lemma lines_nil w v k : Lines [] w v k (k v).
  Proof. left. exists v. split; [symmetry; apply sapp_nil|reflexivity]. Qed.
  Lemma lines_cons s l w v k (k' : W -> V -> process) : (forall v', Lines l w v' k (k' w v')) -> Lines (s :: l) w v k (eprintln panic_text s w v k').
  Proof.
    intros HL. unfold eprintln. change (printed (s :: l)) with (s ++ nl ++ printed l) in *. destruct (put v (s ++ nl)) as [[] v'] eqn:E.
    - pose proof (put_all _ _ _ E) as Er. destruct (HL v') as [(v2 & E2 & Ek)|(Hs & Ho & a & noise & [c [b Ha]] & Hn & Ev)].
      + left. exists v2. split; [rewrite E2, Er; cbn [printed fold_right]; rewrite !sapp_assoc; reflexivity|exact Ek].
      + right. split; [exact Hs|]. split; [exact Ho|]. exists (s ++ nl ++ a), noise. split; [|split; [exact Hn|]].
        * exists c, b. cbn [printed fold_right]. change (fold_right (fun s text => s ++ nl ++ text) "" l) with (printed l). rewrite Ha, !sapp_assoc. reflexivity.
        * rewrite Ev, Er, !sapp_assoc. reflexivity.
    - right. unfold panicked. cbn [status stdout stderr]. split; [reflexivity|]. split; [reflexivity|].
      destruct (put_part _ _ _ E) as (a & c & q & Es & Er), (noise_received v') as (noise & Hn & Ev). exists a, noise. split; [|split; [exact Hn|]].
      + exists c, (q ++ printed l). cbn [printed fold_right]. change (fold_right (fun s text => s ++ nl ++ text) "" l) with (printed l). rewrite sapp_assoc, Es, <- !sapp_assoc. reflexivity.
      + rewrite Ev, Er, sapp_assoc. reflexivity.
  Qed.
  Lemma lines_causes l : forall i w v k k' l', (forall v', Lines l' w v' k (k' w v')) -> Lines (cause_lines i l ++ l')%list w v k (print_causes panic_text i l w v k').
  Proof.
    induction l as [|c l IH]; intros i w v k k' l' HL; [apply HL|]. cbn [cause_lines print_causes app]. apply lines_cons. intros v'. apply IH. exact HL.
  Qed.
  Lemma lines_abort verbose e dbg w v : Lines (err (abort verbose e dbg)) w v (fun v' => mkProcess 1 w v') (print_abort panic_text verbose e dbg w v).
  Proof.
    unfold abort, print_abort. cbn [err app]. apply lines_cons. intros v1.
    assert (HR : forall v, Lines (if verbose then [nl ++ "DEBUG OUTPUT:" ++ nl ++ dbg] else []) w v (fun v' => mkProcess 1 w v')
      (if verbose then eprintln panic_text (nl ++ "DEBUG OUTPUT:" ++ nl ++ dbg) w v (fun w v => mkProcess 1 w v) else mkProcess 1 w v)).
    { intros v2. destruct verbose; [|apply (lines_nil w v2 (fun v' => mkProcess 1 w v'))]. apply lines_cons. intros v3. apply (lines_nil w v3 (fun v' => mkProcess 1 w v')). }
    destruct (sources e) as [|c cs]; [apply HR|]. cbn [app]. apply lines_cons. intros v2.
    apply (lines_causes (c :: cs) 0 w v2 _ (fun w v => if verbose then eprintln panic_text (nl ++ "DEBUG OUTPUT:" ++ nl ++ dbg) w v (fun w v => mkProcess 1 w v) else mkProcess 1 w v)). exact HR.
  Qed.
  Lemma abort_truth verbose e dbg (w : W) (v : V) : complete w v (abort verbose e dbg) (print_abort panic_text verbose e dbg w v) \/ died panic_text w v (abort verbose e dbg) (print_abort panic_text verbose e dbg w v).
  Proof.
    destruct (lines_abort verbose e dbg w v) as [(v' & Ev & ->)|(Hs & Ho & a & noise & Ha & Hn & Ev)].
    - left. split; [reflexivity|]. split; [symmetry; apply sapp_nil|exact Ev].
    - right. split; [exact Hs|]. exists a, noise. split; [exact Hn|]. right. auto.
  Qed.

  Context {T : Texts}.
  (** whatever the streams: the tool does what C47, C58, C59 say, or it dies
      with status 101, having printed a part *)
  Theorem C62_truth env R (HR : Reader R) verbose (opened : (dyn_error * string) + R) (w : W) (v : V) p :
    print_main panic_text verbose opened w v = Some p ->
    exists o, @cli_main T env R HR verbose opened = Some o /\ (complete w v o p \/ died panic_text w v o p).
  Proof.
    unfold print_main, print_run, cli_main. destruct opened as [[e dbg]|r].
    - intros E. injection E as <-. eexists. split; [reflexivity|apply abort_truth].
    - destruct (fst (decode_module r)) as [m|e|x|]; intros E; try discriminate E.
      + injection E as <-. eexists. split; [reflexivity|]. destruct verbose; [|left; split; [reflexivity|split; symmetry; apply sapp_nil]].
        unfold println. destruct (put w (debug_module m ++ nl)) as [[] w'] eqn:E.
        * left. split; [reflexivity|]. split; [|symmetry; apply sapp_nil]. cbn [stdout out]. rewrite (put_all _ _ _ E). cbn [printed fold_right]. rewrite sapp_nil. reflexivity.
        * right. split; [reflexivity|]. destruct (put_part _ _ _ E) as (a & c & q & Es & Er), (noise_received v) as (noise & Hn & Ev). exists a, noise. split; [exact Hn|]. left.
          split; [|split; [exact Er|exact Ev]]. exists c, q. cbn [out printed fold_right]. rewrite sapp_nil. exact Es.
      + injection E as <-. eexists. split; [reflexivity|apply abort_truth].
  Qed.
  Theorem C62_total env R (HR : Reader R) verbose (opened : (dyn_error * string) + R) (w : W) (v : V) :
    @cli_main T env R HR verbose opened <> None -> exists p, @print_main W V _ _ panic_text T env R HR verbose opened w v = Some p.
  Proof.
    unfold print_main, print_run, cli_main. destruct opened as [[e dbg]|r]; [eauto|]. destruct (fst (decode_module r)) as [m|e|x|]; intros K; eauto; contradiction.
  Qed.
  Lemma abort_code verbose e dbg : exit_code (abort verbose e dbg) = 1%N. Proof. reflexivity. Qed.
  Lemma code_cases env R (HR : Reader R) verbose (opened : (dyn_error * string) + R) o : @cli_main T env R HR verbose opened = Some o ->
    exit_code o = 1%N /\ out o = [] \/ exit_code o = 0%N /\ err o = [] /\ exists r m, opened = inr r /\ fst (@decode_module env R HR r) = Ok m /\ out o = if verbose then [debug_module m] else [].
  Proof.
    unfold cli_main. destruct opened as [[e dbg]|r].
    - intros E. injection E as <-. left. split; reflexivity.
    - destruct (fst (decode_module r)) as [m|e|x|] eqn:Ed; intros E; try discriminate E; injection E as <-; [|left; split; reflexivity]. right. split; [reflexivity|]. split; [reflexivity|]. exists r, m. auto.
  Qed.
  (** the exit status can be trusted: 0 only if the input decodes and the whole
      text, if asked for, has been written *)
  Theorem C62_zero env R (HR : Reader R) verbose (opened : (dyn_error * string) + R) (w : W) (v : V) p :
    @print_main W V _ _ panic_text T env R HR verbose opened w v = Some p -> status p = 0%N ->
    exists r m, opened = inr r /\ fst (@decode_module env R HR r) = Ok m /\
      received (stdout p) = received w ++ (if verbose then debug_module m ++ nl else "") /\ received (stderr p) = received v.
  Proof.
    intros E Hs. apply C62_truth in E as (o & Eo & [(H1 & H2 & H3)|(H1 & _)]); [|congruence]. apply code_cases in Eo as [[Hc _]|(_ & He & r & m & -> & Hd & Ho)]; [congruence|].
    exists r, m. split; [reflexivity|]. split; [exact Hd|]. split; [rewrite H2, Ho; destruct verbose; cbn [printed fold_right]; rewrite ?sapp_nil; reflexivity|rewrite H3, He; apply sapp_nil].
  Qed.
  (** 1 only if it could not be opened or does not decode, and the report has been written *)
  Theorem C62_one env R (HR : Reader R) verbose (opened : (dyn_error * string) + R) (w : W) (v : V) p :
    @print_main W V _ _ panic_text T env R HR verbose opened w v = Some p -> status p = 1%N ->
    exists o, @cli_main T env R HR verbose opened = Some o /\ exit_code o = 1%N /\ received (stdout p) = received w /\ received (stderr p) = received v ++ printed (err o).
  Proof.
    intros E Hs. apply C62_truth in E as (o & Eo & [(H1 & H2 & H3)|(H1 & _)]); [|congruence]. exists o. split; [exact Eo|]. split; [congruence|].
    apply code_cases in Eo as [[_ Ho]|(Hc & _)]; [|congruence]. split; [rewrite H2, Ho; apply sapp_nil|exact H3].
  Qed.
  (** no other status but 101 *)
  Theorem C62_codes env R (HR : Reader R) verbose (opened : (dyn_error * string) + R) (w : W) (v : V) p :
    @print_main W V _ _ panic_text T env R HR verbose opened w v = Some p -> status p = 0%N \/ status p = 1%N \/ status p = 101%N.
  Proof.
    intros E. apply C62_truth in E as (o & Eo & [(H1 & _)|(H1 & _)]); [|auto]. apply code_cases in Eo as [[Hc _]|(Hc & _)]; rewrite H1, Hc; auto.
  Qed.
  (** streams that take everything *)
  Theorem C62_willing env R (HR : Reader R) verbose (opened : (dyn_error * string) + R) (w : W) (v : V) o : willing W -> willing V ->
    @cli_main T env R HR verbose opened = Some o -> exists p, @print_main W V _ _ panic_text T env R HR verbose opened w v = Some p /\ complete w v o p.
  Proof.
    intros HwW HwV Eo. destruct (C62_total env R HR verbose opened w v) as [p Ep]; [congruence|]. exists p. split; [exact Ep|].
    assert (H101 : status p <> 101%N).
    { assert (KE : forall s (w : W) (v : V) (k : W -> V -> process), (forall v', status (k w v') <> 101%N) -> status (eprintln panic_text s w v k) <> 101%N).
      { intros s w0 v0 k Hk. unfold eprintln. specialize (HwV v0 (s ++ nl)). destruct (put v0 (s ++ nl)) as [[] v']; [apply Hk|discriminate HwV]. }
      assert (KC : forall l i (w : W) (v : V) (k : W -> V -> process), (forall v', status (k w v') <> 101%N) -> status (print_causes panic_text i l w v k) <> 101%N).
      { induction l as [|c l IH]; intros i w0 v0 k Hk; [apply Hk|]. apply KE. intros v'. apply IH. exact Hk. }
      assert (KA : forall verbose e dbg (w : W) (v : V), status (print_abort panic_text verbose e dbg w v) <> 101%N).
      { intros vb e dbg w0 v0. assert (KR : forall v', status (if vb then eprintln panic_text (nl ++ "DEBUG OUTPUT:" ++ nl ++ dbg) w0 v' (fun w v => mkProcess 1 w v) else mkProcess 1 w0 v') <> 101%N).
        { intros v'. destruct vb; [apply KE; discriminate|discriminate]. }
        apply KE. intros v1. destruct (sources e); [apply KR|]. apply KE. intros v2. apply KC. exact KR. }
      revert Ep. unfold print_main, print_run. destruct opened as [[e dbg]|r]; [intros E; injection E as <-; apply KA|].
      destruct (fst (decode_module r)); intros E; try discriminate E; injection E as <-; [|apply KA]. destruct verbose; [|discriminate].
      unfold println. specialize (HwW w (debug_module a ++ nl)). destruct (put w (debug_module a ++ nl)) as [[] w']; [discriminate|discriminate HwW]. }
    apply C62_truth in Ep as (o' & Eo' & [Hc|(H1 & _)]); [|contradiction]. rewrite Eo in Eo'. injection Eo' as ->. exact Hc.
  Qed.
  (** nothing to print, nothing that can fail *)
  Theorem C62_quiet env R (HR : Reader R) (r : R) m (w : W) (v : V) : fst (@decode_module env R HR r) = Ok m ->
    @print_main W V _ _ panic_text T env R HR false (inr r) w v = Some (mkProcess 0 w v).
  Proof. intros E. unfold print_main, print_run. rewrite E. reflexivity. Qed.
  (** the input is opened through a [BufReader]: no difference (C60) *)
  Theorem C62_cli env {R} `{HR : Reader R} capacity (r : R) (evs : list event) bs stop verbose (w : W) (v : V) : well_behaved R -> finite R -> serves r bs stop -> content evs = (bs, stop) ->
    @print_main_own W V _ _ panic_text T env (Buffered R) buffered_own verbose (inr (mkBuffered capacity [] r)) w v = @print_main W V _ _ panic_text T env _ _ verbose (inr evs) w v.
  Proof.
    intros HB HF Hs Hc. unfold print_main_own, print_main. rewrite (C60_transparent env capacity r bs stop HB HF Hs), (C57_serves env r bs stop HB HF Hs).
    rewrite (C30_content env (byte_by_byte bs stop) evs); [reflexivity|]. rewrite Hc. apply content_plain. exact (content_never evs bs stop Hc).
  Qed.
End Print.

(** ** streams *)
#[export] Instance terminal_stream : Stream string.
Proof. refine {| received := fun s => s |}; [intros w s w' E; injection E as <-; reflexivity|discriminate]. Defined.
Lemma take_cut n s : Nat.leb (String.length s) n = false -> exists c q, s = take_chars n s ++ String c q.
Proof.
  revert s. induction n as [|n IH]; intros [|c s] H; cbn in *; try discriminate H; [exists c, s; reflexivity|]. destruct (IH s H) as (d & q & E). exists d, q. rewrite <- E. reflexivity.
Qed.
#[export] Instance device_stream : Stream device.
Proof.
  refine {| received := stored |}; unfold put, device_sink; intros w s w'; destruct (Nat.leb (String.length s) (room w)) eqn:L; intros E; try discriminate E; injection E as <-.
  - reflexivity.
  - destruct (take_cut _ _ L) as (c & q & Es). exists (take_chars (room w) s), c, q. split; [exact Es|reflexivity].
Defined.
Example C62_terminal : willing string. Proof. intros w s. reflexivity. Qed.

(** REFUTED: the exit status is 0 exactly if the input decodes.  A full disk (or
    a closed pipe) makes the tool panic. *)
Example C62_full : @print_main device string _ _ "thread 'main' panicked" sample_texts roomy _ _ true (inr preamble) (mkDevice 10 "") "" =
  Some (mkProcess 101 (mkDevice 0 "Module {
 ") ("thread 'main' panicked" ++ nl)).
Proof. vm_compute. reflexivity. Qed.
Example C62_full_quiet : @print_main device string _ _ "thread 'main' panicked" sample_texts roomy _ _ false (inr preamble) (mkDevice 10 "") "" =
  Some (mkProcess 0 (mkDevice 10 "") "").
Proof. vm_compute. reflexivity. Qed.
Example C62_error : @print_main device device _ _ "thread 'main' panicked" sample_texts roomy _ _ false (inr (preamble ++ [x05; x01; x01])%list) (mkDevice 10 "") (mkDevice 60 "") =
  Some (mkProcess 101 (mkDevice 10 "") (mkDevice 0 ("ERROR: failed decoding Memory section" ++ nl ++ nl ++ "Caused by:" ++ nl ++ "    0: fai"))).
Proof. vm_compute. reflexivity. Qed.

Print Assumptions C62_truth.
Print Assumptions C62_total.
Print Assumptions C62_zero.
Print Assumptions C62_one.
Print Assumptions C62_codes.
Print Assumptions C62_willing.
Print Assumptions C62_quiet.
Print Assumptions C62_cli.
