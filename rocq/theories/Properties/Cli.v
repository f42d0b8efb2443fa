(** The command-line tool.  [causes], [decimal], [reported], [shown] are in
    Spec/Cli.v. *)
From Verif Require Import Model.Prelude Model.Io Model.Ast Model.Errors Model.Display Model.Module Model.Cli.
From Verif Require Import Spec.Lang Spec.Module Spec.Streams Spec.Layout Spec.Faults Spec.Diagnosis Spec.Causes Spec.Cli.
From Verif Require Import Proofs.Machine Proofs.Final Proofs.Modules Proofs.Causes Proofs.Decimal.
From Verif Require Import Properties.Samples Properties.Modules Properties.Diagnosis.
From Coq Require Import Lia ZifyN ZifyNat ZifyBool String Ascii.
Local Open Scope string_scope.

(** ** what abort prints *)
Fixpoint size (e : dyn_error) : nat := match e with DynError _ None => 0 | DynError _ (Some c) => S (size c) end.
Lemma sources_causes e : causes e (sources e).
Proof.
  remember (size e) as n eqn:En. revert e En. induction n as [|n IH]; intros [d [c|]] En; cbn in En; try discriminate En; cbn [sources].
  - constructor. reflexivity.
  - eapply causes_some; [reflexivity|]. apply IH. congruence.
Qed.
Lemma causes_unique e l : causes e l -> l = sources e.
Proof. induction 1 as [[d s] Hs|[d s] c l Hs _ IH]; cbn in Hs; subst s; [reflexivity|]. cbn. rewrite <- IH. reflexivity. Qed.
Lemma cause_lines_length l : forall i, List.length (cause_lines i l) = List.length l.
Proof. induction l as [|c l IH]; intros i; cbn; [reflexivity|]. rewrite IH. reflexivity. Qed.
Lemma cause_lines_nth l : forall i j c, nth_error l j = Some c -> nth_error (cause_lines i l) j = Some ("    " ++ dec (i + N.of_nat j) ++ ": " ++ e_display c).
Proof.
  induction l as [|x l IH]; intros i [|j] c Hj; cbn [nth_error cause_lines] in *; try discriminate Hj.
  - injection Hj as ->. rewrite N.add_0_r. reflexivity.
  - rewrite (IH _ _ _ Hj). replace (i + N.of_nat (S j))%N with (i + 1 + N.of_nat j)%N by lia. reflexivity.
Qed.
Lemma abort_reported verbose e dbg : reported verbose e dbg (err (abort verbose e dbg)).
Proof.
  exists (sources e), (cause_lines 0 (sources e)). split; [apply sources_causes|]. split; [apply cause_lines_length|]. split.
  - intros i c Hi. exists (dec (N.of_nat i)). split; [apply dec_ok|]. exact (cause_lines_nth _ 0 i c Hi).
  - cbn [abort err app]. destruct (sources e); reflexivity.
Qed.

Section Cli.
  Context {T : Texts}.

  (** ** C47 *)

  (** a module is decoded silently, or printed, with exit status 0 *)
  Theorem C47_module env (evs : list event) bs stop m verbose : content evs = (bs, stop) -> stop = Ends \/ stop = Fails UnexpectedEof ->
    Bmodule m bs -> sufficient env (List.length bs) ->
    @cli_main T env _ _ verbose (inr evs) = Some (mkOutcome 0 (if verbose then [debug_module m] else []) []).
  Proof.
    intros Hc Hst HM HS. unfold cli_main. rewrite (module_complete evs bs stop m HS Hc Hst HM). reflexivity.
  Qed.
  (** anything else is reported on stderr, with exit status 1: the text of the
      diagnosis, then its causes *)
  Theorem C47_fault env (evs : list event) bs stop e verbose : content evs = (bs, stop) -> diagnosis bs stop e -> sufficient env (List.length bs) ->
    exists lines, @cli_main T env _ _ verbose (inr evs) = Some (mkOutcome 1 [] lines) /\ reported verbose (view (n_module e)) (debug_error e) lines.
  Proof.
    intros Hc HD HS. eexists. split; [|apply abort_reported]. unfold cli_main. rewrite (proj2 (C50_exact env evs bs stop e HS Hc) HD). reflexivity.
  Qed.
  (** so is a failure to open the input *)
  Theorem C47_open env verbose e dbg :
    exists lines, @cli_main T env (list event) _ verbose (inl (e, dbg)) = Some (mkOutcome 1 [] lines) /\ reported verbose e dbg lines.
  Proof. eexists. split; [reflexivity|apply abort_reported]. Qed.
  (** the exit status is 0 exactly for modules, whatever the resources *)
  Theorem C47_status env (evs : list event) bs stop verbose o : content evs = (bs, stop) -> @cli_main T env _ _ verbose (inr evs) = Some o ->
    (exit_code o = 0%N /\ err o = [] /\ (stop = Ends \/ stop = Fails UnexpectedEof) /\ exists m, Bmodule m bs /\ out o = if verbose then [debug_module m] else []) \/
    (exit_code o = 1%N /\ out o = [] /\ err o <> [] /\ ~ ((stop = Ends \/ stop = Fails UnexpectedEof) /\ exists m, Bmodule m bs)).
  Proof.
    intros Hc. unfold cli_main. destruct (fst (decode_module evs)) as [m|e|p|] eqn:Ed; intros Ho; try discriminate Ho; injection Ho as <-.
    - left. cbn [exit_code err out]. split; [reflexivity|]. split; [reflexivity|]. destruct (module_sound evs m Ed) as (b & s & Hc' & H1 & H2). rewrite Hc in Hc'. injection Hc' as <- <-. split; [|exists m]; auto.
    - right. cbn [abort exit_code err out]. split; [reflexivity|]. split; [reflexivity|]. split; [discriminate|].
      intros [Hst [m HM]]. exact (C48_error _ _ _ _ _ _ Hc Hst Ed HM).
  Qed.
  (** with the resources there is no other outcome *)
  Theorem C47_total env (evs : list event) bs stop verbose : content evs = (bs, stop) -> sufficient env (List.length bs) ->
    exists o, @cli_main T env _ _ verbose (inr evs) = Some o.
  Proof.
    intros Hc HS. unfold cli_main. destruct (fst (decode_module evs)) as [m|e|p|] eqn:Ed; eauto; exfalso.
    - assert (HS' : sufficient env (List.length (fst (content evs)))) by (rewrite Hc; exact HS). exact (C34_no_panic _ _ HS' _ Ed).
    - exact (C35_terminates _ _ Ed).
  Qed.
  (** the texts printed are those of the error's levels, up to the first level
      without a source *)
  Theorem C47_shown n cs : causes (view n) cs -> map e_display (view n :: cs) = shown n.
  Proof.
    intros Hc. rewrite (causes_unique _ _ Hc). clear Hc cs. induction n as [s|k|b|n IH|s n IH|s n IH]; cbn in *; try reflexivity; [exact IH|].
    rewrite IH. reflexivity.
  Qed.
  (** if no level is detached from its payload, the root cause is printed *)
  Theorem C47_root n k cs : linked n -> io_cause n k -> causes (view n) cs -> In (e_display (io_view k)) (map e_display (view n :: cs)).
  Proof.
    intros Hl Hk Hc. rewrite (C47_shown _ _ Hc). clear Hc cs. unfold io_cause in Hk. induction n as [s|k0|b|n IH|s n IH|s n IH]; cbn in *; try discriminate Hk.
    - injection Hk as ->. auto.
    - auto.
    - auto.
    - contradiction.
  Qed.
End Cli.

(** ** Concrete runs *)
(** placeholders for the texts that are not modelled *)
Definition some_texts : Texts :=
  {| io_view := fun _ => DynError "failed to fill whole buffer" None;
     utf8_message := fun _ => "invalid utf-8";
     debug_io := fun _ => DAtom "..."; debug_utf8_error := fun _ => DAtom "..."; debug_f32 := fun _ => "..."; debug_f64 := fun _ => "..."; debug_str := fun _ => "..." |}.
Example C47_ex_module verbose : @cli_main some_texts roomy _ _ verbose (inr kitchensink) = Some (mkOutcome 0 (if verbose then [@debug_module some_texts (module_in kitchensink)] else []) []).
Proof. destruct verbose; vm_compute; reflexivity. Qed.
(** a type section cut off: the root cause is printed *)
Example C47_ex_fault : @cli_main some_texts roomy _ _ false (inr (preamble ++ [x01; x03; x01; x5f; x01])%list) =
  Some (mkOutcome 1 []
    ["ERROR: failed decoding Type section"; nl ++ "Caused by:";
     "    0: failed parsing vector element at position 0"; "    1: failed decoding subtype"; "    2: failed decoding recursive subtype";
     "    3: failed decoding Field type list"; "    4: failed parsing vector element at position 0"; "    5: failed to fill whole buffer"]).
Proof. vm_compute. reflexivity. Qed.
(** REFUTED: the root cause is always printed.  A memory section cut off before
    the limits: the error holds an I/O error, which is not printed. *)
Example C47_hidden :
  let e := DM_DecodeMemorySection (MemSec_DecodeList (ParseElement 0%N (MemTypeE (Lim_ReadFlagByte UnexpectedEof)))) in
  fst (@decode_module roomy _ _ (preamble ++ [x05; x01; x01])%list) = Err e /\ io_cause (n_module e) UnexpectedEof /\
  @cli_main some_texts roomy _ _ false (inr (preamble ++ [x05; x01; x01])%list) =
  Some (mkOutcome 1 []
    ["ERROR: failed decoding Memory section"; nl ++ "Caused by:"; "    0: failed parsing vector element at position 0";
     "    1: failed decoding Memory type"; "    2: failed reading flag byte"]).
Proof. cbv zeta. split; [vm_compute; reflexivity|]. split; [reflexivity|vm_compute; reflexivity]. Qed.
Example C47_ex_open : @cli_main some_texts roomy (list byte) _ true (inl (DynError "No such file or directory (os error 2)" None, "Os {..}")) =
  Some (mkOutcome 1 [] ["ERROR: No such file or directory (os error 2)"; nl ++ "DEBUG OUTPUT:" ++ nl ++ "Os {..}"]).
Proof. reflexivity. Qed.
