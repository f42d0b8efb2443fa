(** C58, C59, C61: what [wadec --verbose] prints about a module, and about an error, and what [{:?}] prints.  [same_but_nans],
    [no_nans], [readable] are in Spec/Debug.v. *)
From Verif Require Import Model.Prelude Model.Io Model.Ast Model.Errors Model.Display Model.Module Model.Debug Model.Cli.
From Verif Require Import Spec.Lang Spec.Module Spec.Streams Spec.Layout Spec.Equal Spec.Debug.
From Verif Require Import Proofs.Machine Proofs.Decimal Proofs.Pretty Proofs.Debug Proofs.DebugError Proofs.Blank.
From Verif Require Import Properties.Samples.
From Coq Require Import Bool Lia ZifyN ZifyBool String Ascii Strings.Byte.
Local Open Scope string_scope.

(** two modules are printed alike exactly if they differ in NaNs at most *)
Theorem C58_exact (T : Texts) m m' : readable T -> (debug_module m = debug_module m' <-> same_but_nans m m').
Proof. intros HT. exact (debug_module_exact (p := true) HT m m'). Qed.
(** without NaNs, the text identifies the module *)
Theorem C58_identifies (T : Texts) m m' : readable T -> no_nans m -> debug_module m = debug_module m' -> m = m'.
Proof.
  intros HT HN E. apply (C58_exact T m m' HT) in E. unfold same_but_nans in E. rewrite (no_nans_id m HN) in E.
  rewrite E. apply no_nans_id. apply no_nans_plain. rewrite <- E. exact HN.
Qed.
(** for the tool: same output for two inputs that decode, whatever they are read from *)
Theorem C58_cli (T : Texts) env env' R (HR : Reader R) R' (HR' : Reader R') (r : R) (r' : R') m m' : readable T ->
  fst (@decode_module env R HR r) = Ok m -> fst (@decode_module env' R' HR' r') = Ok m' ->
  (@cli_main T env R HR true (inr r) = @cli_main T env' R' HR' true (inr r') <-> same_but_nans m m').
Proof.
  intros HT Hd Hd'. unfold cli_main. rewrite Hd, Hd', <- (C58_exact T m m' HT). generalize (debug_module m), (debug_module m'). intros. split; [intros E; injection E as E; exact E|intros ->; reflexivity].
Qed.
(** REFUTED: the text always identifies the module *)
Definition nan_module (bits : N) : Module_ :=
  mkModule [x01; x00; x00; x00] [] [] [] [] [] [] [] [mkGlobal (mkGlobalType Const (VT_Num Float32)) [I_F32Const bits]] [] None [] None [] [] [].
Theorem C58_nans (T : Texts) : readable T -> debug_module (nan_module 0x7FC00000) = debug_module (nan_module 0xFFA0002A) /\ nan_module 0x7FC00000 <> nan_module 0xFFA0002A.
Proof. intros HT. split; [apply (C58_exact T _ _ HT); reflexivity|discriminate]. Qed.

(** ** Texts in the style of Rust's: numerals for floats, a quoted string with escapes *)
Definition code (c : ascii) : ascii := let n := N_of_ascii c in ascii_of_N (if (n <? 32)%N then 48 + n else 80)%N.
Definition control (c : ascii) : bool := let n := N_of_ascii c in ((n <? 32) || (n =? 127))%N.
Definition escape (c : ascii) : string :=
  if Ascii.eqb c newline then "\n" else if Ascii.eqb c "\" then "\\" else if Ascii.eqb c """" then "\""" else
  if control c then String "\" (String "u" (String "{" (String (code c) "}"))) else String c "".
Definition quoted (s : rstring) : string := """" ++ strings (map (fun b => escape (ascii_of_byte b)) s) ++ """".
Definition sample_io (e : io_error) : dtree :=
  DStruct "Error" [("kind", match e with UnexpectedEof => DAtom "UnexpectedEof" | Interrupted => DAtom "Interrupted" | OtherKind n => DTuple "Other" [DAtom (dec n)] end)].
Definition sample_texts : Texts :=
  {| io_view := fun _ => DynError "failed to fill whole buffer" None;
     utf8_message := fun _ => "invalid utf-8";
     debug_io := sample_io;
     debug_utf8_error := fun _ => DStruct "Utf8Error" [("valid_up_to", DAtom "0"); ("error_len", DTuple "Some" [DAtom "1"])];
     debug_f32 := fun b => match value 23 8 b with NaN => "NaN" | _ => dec b end;
     debug_f64 := fun b => match value 52 11 b with NaN => "NaN" | _ => dec b end;
     debug_str := quoted |}.
Lemma code_inj c c' : control c = true -> control c' = true -> code c = code c' -> c = c'.
Proof.
  unfold control, code. cbv zeta. intros H H' E. apply (f_equal N_of_ascii) in E. pose proof (N_ascii_bounded c). pose proof (N_ascii_bounded c').
  assert (K : forall k, ((if (k <? 32) then 48 + k else 80) < 256)%N) by (clear; intros k; destruct (_ <? _)%N eqn:?; lia).
  rewrite (N_ascii_embedding _ (K _)), (N_ascii_embedding _ (K _)) in E.
  rewrite <- (ascii_N_embedding c), <- (ascii_N_embedding c'). f_equal. revert E H H'. destruct (N_of_ascii c <? 32)%N eqn:?, (N_of_ascii c' <? 32)%N eqn:?; cbn [orb]; intros; try lia.
Qed.
Lemma control_printable c : control c = false -> printable c.
Proof. unfold control, printable. cbv zeta. lia. Qed.
Lemma code_printable c : control c = true -> printable (code c) /\ code c <> """"%char /\ code c <> "\"%char.
Proof.
  unfold control, code, printable. cbv zeta. intros H. pose proof (N_ascii_bounded c) as K.
  assert (E : N_of_ascii (ascii_of_N (if (N_of_ascii c <? 32)%N then 48 + N_of_ascii c else 80)) = (if (N_of_ascii c <? 32) then 48 + N_of_ascii c else 80)%N) by (apply N_ascii_embedding; destruct (_ <? _)%N eqn:?; lia).
  revert E. generalize (ascii_of_N (if (N_of_ascii c <? 32)%N then 48 + N_of_ascii c else 80)). intros d E. rewrite E. split; [destruct (_ <? _)%N eqn:?; lia|].
  split; intros ->; [change (N_of_ascii """") with 34%N in E|change (N_of_ascii "\") with 92%N in E]; revert E; destruct (_ <? _)%N eqn:?; lia.
Qed.
Lemma escape_head c : exists c' s, escape c = String c' s /\ (c' = """"%char -> False).
Proof.
  unfold escape. destruct (Ascii.eqb_spec c newline); [do 2 eexists; split; [reflexivity|discriminate]|].
  destruct (Ascii.eqb_spec c "\"); [do 2 eexists; split; [reflexivity|discriminate]|]. destruct (Ascii.eqb_spec c """"); [do 2 eexists; split; [reflexivity|discriminate]|].
  destruct (control c); [do 2 eexists; split; [reflexivity|discriminate]|]. do 2 eexists. split; [reflexivity|exact n1].
Qed.
Lemma escape_inj c c' x y : escape c ++ x = escape c' ++ y -> c = c' /\ x = y.
Proof.
  unfold escape. destruct (Ascii.eqb_spec c newline) as [->|H1], (Ascii.eqb_spec c' newline) as [->|H1'];
    try destruct (Ascii.eqb_spec c "\") as [->|H2]; try destruct (Ascii.eqb_spec c' "\") as [->|H2'];
    try destruct (Ascii.eqb_spec c """") as [->|H3]; try destruct (Ascii.eqb_spec c' """") as [->|H3'];
    try destruct (control c) eqn:C; try destruct (control c') eqn:C';
    cbn [append]; intros E; injection E; intros; subst; try discriminate; try congruence; auto using code_inj.
Qed.
Lemma quoted_inj s s' : quoted s = quoted s' -> s = s'.
Proof.
  unfold quoted. intros E. apply (sapp_inj_l """") in E. revert s' E. induction s as [|b s IH]; intros [|b' s'] E; cbn [map strings fold_right] in E.
  - reflexivity.
  - exfalso. destruct (escape_head (ascii_of_byte b')) as (c & w & Ec & Hc). rewrite Ec in E. cbn [append] in E. injection E as E _. auto.
  - exfalso. destruct (escape_head (ascii_of_byte b)) as (c & w & Ec & Hc). rewrite Ec in E. cbn [append] in E. injection E as E _. auto.
  - rewrite <- !sapp_assoc in E. apply escape_inj in E as [E1 E]. apply (f_equal byte_of_ascii) in E1. rewrite !byte_of_ascii_of_byte in E1. rewrite E1, (IH _ E). reflexivity.
Qed.
Lemma escape_literal c s : literal_end s -> literal_end (escape c ++ s).
Proof.
  intros H. unfold escape. destruct (Ascii.eqb_spec c newline); [apply lit_escape; [apply control_printable; reflexivity|exact H]|].
  destruct (Ascii.eqb_spec c "\"); [apply lit_escape; [apply control_printable; reflexivity|exact H]|].
  destruct (Ascii.eqb_spec c """"); [apply lit_escape; [apply control_printable; reflexivity|exact H]|].
  destruct (control c) eqn:C.
  - destruct (code_printable c C) as (H1 & H2 & H3). cbn [append]. apply lit_escape; [apply control_printable; reflexivity|].
    apply lit_char; [discriminate|discriminate|apply control_printable; reflexivity|]. apply lit_char; [exact H2|exact H3|exact H1|].
    apply lit_char; [discriminate|discriminate|apply control_printable; reflexivity|exact H].
  - apply lit_char; [assumption|assumption|apply control_printable; exact C|exact H].
Qed.
Lemma quoted_literal s : literal (quoted s).
Proof.
  unfold quoted. constructor. induction s as [|b s IH]; [constructor|]. cbn [map strings fold_right]. rewrite <- sapp_assoc. apply escape_literal. exact IH.
Qed.
Lemma dec_not_nan n : dec n <> "NaN".
Proof.
  intros E. pose proof (dec_ok n) as H. rewrite E in H. remember "NaN" as s eqn:Es. destruct H as [c d H|s n c d _ _ [Hd Hc]]; [discriminate Es|].
  apply (last_char s c "Na" "N") in Es as [-> _]. change (N_of_ascii "N") with 78%N in Hc. lia.
Qed.
Lemma float_text m e can b b' : value m e can = NaN ->
  (match value m e b with NaN => "NaN" | _ => dec b end = match value m e b' with NaN => "NaN" | _ => dec b' end <->
   match value m e b with NaN => can | _ => b end = match value m e b' with NaN => can | _ => b' end).
Proof.
  intros Hc.
  destruct (value m e b) eqn:V, (value m e b') eqn:V'; split; intros E; try (apply dec_inj; exact E); try (rewrite E; reflexivity); try reflexivity;
    try (exfalso; first [exact (dec_not_nan _ E)|exact (dec_not_nan _ (eq_sym E))]); exfalso; congruence.
Qed.
Lemma token_dec n : token (dec n).
Proof. eapply numeral_token. apply dec_ok. Qed.
Lemma sample_readable : readable sample_texts.
Proof.
  assert (HN : token "NaN") by (apply tokenb_ok; reflexivity).
  split; cbn [debug_f32 debug_f64 debug_str debug_io debug_utf8_error sample_texts].
  - intros b b'. apply float_text. reflexivity.
  - intros b b'. apply float_text. reflexivity.
  - exact quoted_inj.
  - intros [| |n] [| |n'] E; try reflexivity; try discriminate E.
    assert (E' : dec n = dec n') by (unfold sample_io in E; revert E; generalize (dec n), (dec n'); intros x y E; injection E; auto).
    rewrite (dec_inj _ _ E'). reflexivity.
  - intros b. destruct (value 23 8 b); auto using token_dec.
  - intros b. destruct (value 52 11 b); auto using token_dec.
  - exact quoted_literal.
  - intros e. apply wf_DStruct; [apply tokenb_ok; reflexivity|discriminate|]. constructor; [|constructor]. cbn [fst snd].
    split; [apply tokenb_ok; reflexivity|]. destruct e; [apply wf_token; apply tokenb_ok; reflexivity..|].
    apply wf_DTuple; [apply tokenb_ok; reflexivity|discriminate|]. constructor; [|constructor]. apply wf_token, token_dec.
  - intros _. apply wf_DStruct; [apply tokenb_ok; reflexivity|discriminate|].
    constructor; [|constructor; [|constructor]]; cbn [fst snd]; (split; [apply tokenb_ok; reflexivity|]).
    + apply wf_token. apply tokenb_ok. reflexivity.
    + apply wf_DTuple; [apply tokenb_ok; reflexivity|discriminate|]. constructor; [|constructor]. apply wf_token. apply tokenb_ok. reflexivity.
Qed.
Example C58_kitchensink : no_nans (module_in kitchensink).
Proof.
  assert (H : forallb (fun c => match float_value c with NaN => false | _ => true end) (module_floats (module_in kitchensink)) = true) by (vm_compute; reflexivity).
  rewrite forallb_forall in H. apply Forall_forall. intros c Hc E. specialize (H c Hc). rewrite E in H. discriminate H.
Qed.
(** a module as it is printed *)
Example C58_ex : @cli_main sample_texts roomy _ _ true
    (inr (preamble ++ [x01; x04; x01; x60; x00; x00; x03; x02; x01; x00; x07; x05; x01; x01; x41; x00; x00; x0a; x06; x01; x04; x00; x41; x2a; x0b])%list) =
  Some (mkOutcome 0 ["Module {
    version: [
        1,
        0,
        0,
        0,
    ],
    parsed_section_kinds: [
        Type,
        Function,
        Export,
        Code,
    ],
    section_headers: [
        SectionHeader {
            kind: Type,
            size: 4,
        },
        SectionHeader {
            kind: Function,
            size: 2,
        },
        SectionHeader {
            kind: Export,
            size: 5,
        },
        SectionHeader {
            kind: Code,
            size: 6,
        },
    ],
    custom_sections: [],
    types: [
        RecType(
            [
                SubType {
                    is_final: true,
                    supertypes: [],
                    comptype: Func {
                        parameters: [],
                        results: [],
                    },
                },
            ],
        ),
    ],
    funcs: [
        Func {
            type: TypeIdx(
                0,
            ),
            locals: [],
            body: [
                I32Const(
                    42,
                ),
            ],
        },
    ],
    tables: [],
    mems: [],
    globals: [],
    elems: [],
    data_count: None,
    datas: [],
    start: None,
    imports: [],
    exports: [
        Export {
            name: ""A"",
            externidx: Func(
                FuncIdx(
                    0,
                ),
            ),
        },
    ],
    tags: [],
}"] []).
Proof. vm_compute. reflexivity. Qed.

Print Assumptions C58_exact.
Print Assumptions C58_identifies.
Print Assumptions C58_cli.
Print Assumptions C58_nans.

(** ** C59: errors *)
(** different errors have different texts *)
Theorem C59_exact (T : Texts) e e' : readable T -> (debug_error e = debug_error e' <-> e = e').
Proof. intros HT. exact (debug_error_exact HT e e'). Qed.
Lemma printed_app a b : printed (a ++ b)%list = printed a ++ printed b.
Proof. induction a as [|s a IH]; [reflexivity|]. cbn [app printed fold_right]. unfold printed in *. rewrite IH, !sapp_assoc. reflexivity. Qed.
(** what is printed before the debug output ends in a newline *)
Lemma abort_printed verbose e dbg : exists a, printed (err (abort verbose e dbg)) = a ++ nl ++ (if verbose then nl ++ "DEBUG OUTPUT:" ++ nl ++ dbg ++ nl else "").
Proof.
  assert (K : forall l s, exists a, printed (l ++ [s])%list = a ++ nl).
  { intros l s. exists (printed l ++ s). rewrite printed_app. cbn [printed fold_right]. rewrite !sapp_assoc, sapp_nil. reflexivity. }
  assert (K' : forall l s, exists a, printed (s :: l) = a ++ nl).
  { intros l s. destruct (rev l) as [|x l'] eqn:E.
    - apply (f_equal (@rev string)) in E. rewrite rev_involutive in E. subst l. apply (K [] s).
    - apply (f_equal (@rev string)) in E. rewrite rev_involutive in E. subst l. cbn [rev]. exact (K (s :: rev l')%list x). }
  unfold abort. cbn [err]. rewrite app_assoc, printed_app. set (l := match sources e with [] => [] | _ => _ end). destruct (K' l ("ERROR: " ++ e_display e)) as [a Ha].
  exists a. change ([?s] ++ l)%list with (s :: l). cbn [app]. rewrite Ha, <- sapp_assoc. f_equal. destruct verbose; [|reflexivity].
  unfold printed. cbn [fold_right]. rewrite <- !sapp_assoc. reflexivity.
Qed.
(** for the tool: two inputs that do not decode are told apart by what is
    printed to stderr, taken as one text, exactly if they fail with different errors *)
Theorem C59_cli (T : Texts) env env' R (HR : Reader R) R' (HR' : Reader R') (r : R) (r' : R') e e' o o' : readable T ->
  fst (@decode_module env R HR r) = Err e -> fst (@decode_module env' R' HR' r') = Err e' ->
  @cli_main T env R HR true (inr r) = Some o -> @cli_main T env' R' HR' true (inr r') = Some o' ->
  (printed (err o) = printed (err o') <-> e = e').
Proof.
  intros HT Hd Hd'. unfold cli_main. rewrite Hd, Hd'. intros Ho Ho'. injection Ho as <-. injection Ho' as <-. split; [|intros ->; reflexivity].
  destruct (abort_printed true (view (n_module e)) (debug_error e)) as [a ->], (abort_printed true (view (n_module e')) (debug_error e')) as [a' ->].
  intros E. assert (W : forall e, run true ("DEBUG OUTPUT:" ++ nl ++ debug_error e ++ nl) = Some true).
  { intros x. rewrite run_app. change (run true "DEBUG OUTPUT:") with (Some false). cbv iota beta. rewrite run_app. change (run false nl) with (Some true). cbv iota beta. exact (error_lines HT x). }
  apply (last_blank a _ a' _ (W e) (W e')) in E. apply (sapp_inj_l ("DEBUG OUTPUT:" ++ nl)) in E. apply sapp_inj_r in E.
  apply (proj1 (C59_exact T e e' HT)). exact E.
Qed.
(** with --verbose, the root cause that C47_hidden misses is there *)
Example C59_ex : @cli_main sample_texts roomy _ _ true (inr (preamble ++ [x05; x01; x01])%list) =
  Some (mkOutcome 1 []
    ["ERROR: failed decoding Memory section"; nl ++ "Caused by:"; "    0: failed parsing vector element at position 0";
     "    1: failed decoding Memory type"; "    2: failed reading flag byte";
     nl ++ "DEBUG OUTPUT:" ++ nl ++
"DecodeMemorySection(
    DecodeList(
        ParseElement {
            position: 0,
            source: DecodeMemoryTypeError::DecodeMemoryTypeError(
                ReadFlagByte(
                    Error {
                        kind: UnexpectedEof,
                    },
                ),
            ),
        },
    ),
)"]).
Proof. vm_compute. reflexivity. Qed.
(** REFUTED: without --verbose, different errors are told apart *)
Example C59_terse : let e k := DM_DecodeMemorySection (MemSec_DecodeList (ParseElement 0%N (MemTypeE (Lim_ReadFlagByte k)))) in
  forall T k, abort false (@view T (n_module (e k))) "" = abort false (@view T (n_module (e UnexpectedEof))) "".
Proof. intros e T k. reflexivity. Qed.
Print Assumptions C59_exact.
Print Assumptions C59_cli.

(** ** C61: [{:?}], as printed by [unwrap], [expect], [assert_eq!] *)
(** it tells as much as [{:#?}] does: two modules are printed alike exactly if
    they differ in NaNs at most, two errors exactly if they are the same *)
Theorem C61_module (T : Texts) m m' : readable T -> (compact_module m = compact_module m' <-> same_but_nans m m').
Proof. intros HT. exact (compact_module_exact (p := true) HT m m'). Qed.
Theorem C61_identifies (T : Texts) m m' : readable T -> no_nans m -> compact_module m = compact_module m' -> m = m'.
Proof. intros HT HN E. apply (C58_identifies T m m' HT HN). apply (C58_exact T m m' HT). apply (C61_module T m m' HT). exact E. Qed.
Theorem C61_error (T : Texts) e e' : readable T -> (compact_error e = compact_error e' <-> e = e').
Proof. intros HT. exact (compact_error_exact HT e e'). Qed.
(** a module is printed on one line, whatever names and numbers it contains *)
Theorem C61_line (T : Texts) m : readable T -> single_line (compact_module m).
Proof. intros HT. apply one_single. exact (module_line T m HT). Qed.
(** REFUTED: an error is printed on one line *)
Theorem C61_lines (T : Texts) : exists (bs : list byte) e, fst (@decode_module roomy _ _ bs) = Err e /\ ~ single_line (compact_error e).
Proof.
  exists (preamble ++ [x05; x01; x01])%list, (DM_DecodeMemorySection (MemSec_DecodeList (ParseElement 0%N (MemTypeE (Lim_ReadFlagByte UnexpectedEof))))).
  split; [vm_compute; reflexivity|]. intros H.
  eapply (H "DecodeMemorySection(DecodeList(ParseElement { position: 0, source: DecodeMemoryTypeError::DecodeMemoryTypeError(").
  reflexivity.
Qed.
(** the same module and the same error as in C58_ex and C59_ex *)
Example C61_ex : option_map (@compact_module sample_texts) (match fst (@decode_module roomy _ _
    (preamble ++ [x01; x04; x01; x60; x00; x00; x03; x02; x01; x00; x07; x05; x01; x01; x41; x00; x00; x0a; x06; x01; x04; x00; x41; x2a; x0b])%list) with Ok m => Some m | _ => None end) =
  Some ("Module { version: [1, 0, 0, 0], parsed_section_kinds: [Type, Function, Export, Code], " ++
    "section_headers: [SectionHeader { kind: Type, size: 4 }, SectionHeader { kind: Function, size: 2 }, SectionHeader { kind: Export, size: 5 }, SectionHeader { kind: Code, size: 6 }], " ++
    "custom_sections: [], types: [RecType([SubType { is_final: true, supertypes: [], comptype: Func { parameters: [], results: [] } }])], " ++
    "funcs: [Func { type: TypeIdx(0), locals: [], body: [I32Const(42)] }], tables: [], mems: [], globals: [], elems: [], data_count: None, datas: [], start: None, imports: [], " ++
    "exports: [Export { name: ""A"", externidx: Func(FuncIdx(0)) }], tags: [] }").
Proof. vm_compute. reflexivity. Qed.
Example C61_ex_error : match fst (@decode_module roomy _ _ (preamble ++ [x05; x01; x01])%list) with Err e => @compact_error sample_texts e | _ => "" end =
"DecodeMemorySection(DecodeList(ParseElement { position: 0, source: DecodeMemoryTypeError::DecodeMemoryTypeError(
    ReadFlagByte(
        Error {
            kind: UnexpectedEof,
        },
    ),
) }))".
Proof. vm_compute. reflexivity. Qed.
Print Assumptions C61_module.
Print Assumptions C61_identifies.
Print Assumptions C61_error.
Print Assumptions C61_line.
Print Assumptions C61_lines.
