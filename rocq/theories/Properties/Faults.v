(** C52: every component reports exactly its faults.  The faults [F...] are in
    Spec/Faults.v, where [reports] and [covers] are also defined. *)
From Verif Require Import Model.Prelude Model.Io Model.Ast Model.Errors Model.Integer Model.Helpers Model.Types Model.Instr Model.Sections Model.Module.
From Verif Require Import Spec.Lang Spec.Types Spec.Instr Spec.Module Spec.Streams Spec.Leb Spec.Faults.
From Verif Require Import Proofs.Machine Proofs.Safe Proofs.Parses Proofs.Leb Proofs.GHelpers Proofs.GTypes Proofs.GInstr Proofs.GControl Proofs.GSections Proofs.GModule
  Proofs.SafeWalk Proofs.Final Proofs.Components Proofs.Blames Proofs.FTypes Proofs.FInstr Proofs.FControl Proofs.FSections Proofs.Reports.
From Coq Require Import Lia.

Lemma delivers_events evs bs stop : content evs = (bs, stop) -> delivers (abs (evs : list event)) bs stop.
Proof. intros Hc. destruct (content_stream _ _ _ Hc) as (tl & Ha & HS). eapply stream_delivers; eauto. Qed.
Lemma no_give_up {E A} (p : Env -> M (list event) E A) m (Q : A -> Prop) : (forall env, Safe (@stack_limit env) (p env) m Q) ->
  forall env bs stop, sufficient env (length bs) -> ~ gave_up (fst (p env (byte_by_byte bs stop))).
Proof.
  intros HS env bs stop [Hh Hst] Hg. specialize (HS env (byte_by_byte bs stop)). pose proof (budget_plain bs stop) as Hb.
  change (budget (byte_by_byte bs stop)) with (events_budget (plain bs stop)) in HS.
  destruct (p env (byte_by_byte bs stop)) as [[a|e|[]|] r']; cbn in *; try contradiction; destruct HS as [_ HS]; try contradiction; unfold short in *; lia.
Qed.
Lemma answers {E A} (p : Env -> M (list event) E A) m (Q : A -> Prop) : (forall env, Safe (@stack_limit env) (p env) m Q) ->
  forall env bs stop, sufficient env (length bs) -> exists r', (exists a, p env (byte_by_byte bs stop) = (Ok a, r')) \/ exists e, p env (byte_by_byte bs stop) = (Err e, r').
Proof.
  intros HS env bs stop Hs. pose proof (no_give_up p m Q HS env bs stop Hs) as Hg. specialize (HS env (byte_by_byte bs stop)).
  destruct (p env (byte_by_byte bs stop)) as [[a|e|[]|] r']; cbn in *; eauto; exfalso; try (apply Hg; exact I); destruct HS; contradiction.
Qed.
Lemma reports_of {E A} (p : Env -> M (list event) E A) F m (Q : A -> Prop) :
  (forall env, Blames (p env) F) -> (forall env, Safe (@stack_limit env) (p env) m Q) -> reports p F.
Proof.
  intros HB HS. split.
  - intros env evs bs stop e evs' Hc He. eapply (b_sound _ _ (HB env)); [|exact He]. apply delivers_events. exact Hc.
  - intros env bs stop e Hst Hs He. assert (Hc : content (plain bs stop) = (bs, stop)) by (apply content_plain; exact Hst).
    destruct (b_complete _ _ (HB env) (byte_by_byte bs stop) bs stop e (delivers_events _ _ _ Hc) He) as [Hr|Hg]; [exact Hr|].
    exfalso. exact (no_give_up p m Q HS env bs stop Hs Hg).
Qed.
Lemma covers_of {E A} (p : Env -> M (list event) E A) G F m (Q : A -> Prop) :
  (forall env, Parses (p env) G) -> (forall env, Blames (p env) F) -> (forall env, Safe (@stack_limit env) (p env) m Q) -> covers G F.
Proof.
  intros HP HB HS.
  assert (HX : forall a pre rest stop, stop <> Fails Interrupted -> G a pre ->
    exists r', p (bigenv (length (pre ++ rest))) (byte_by_byte (pre ++ rest) stop) = (Ok a, r')).
  { intros a pre rest stop Hst HG. assert (Hc : content (plain (pre ++ rest) stop) = (pre ++ rest, stop)) by (apply content_plain; exact Hst).
    destruct (delivers_split _ _ _ _ (delivers_events _ _ _ Hc)) as (c & Hbs & _).
    destruct (p_complete _ _ (HP (bigenv (length (pre ++ rest)))) (byte_by_byte (pre ++ rest) stop) a pre c HG Hbs) as [(r' & Hr & _)|Hg]; [eauto|].
    exfalso. exact (no_give_up p m Q HS _ _ stop (bigenv_ok _) Hg). }
  destruct (reports_of p F m Q HB HS) as [RS RC]. split.
  - intros bs stop Hst. assert (Hc : content (plain bs stop) = (bs, stop)) by (apply content_plain; exact Hst).
    destruct (answers p m Q HS _ bs stop (bigenv_ok _)) as (r' & [[a Ep]|[e Ep]]); [left|right].
    + destruct (p_sound _ _ (HP _) _ _ _ Ep) as (pre & Hb & HG). destruct (delivers_steps _ _ _ _ _ (delivers_events _ _ _ Hc) Hb) as (rest & -> & _). eauto.
    + exists e. eapply RS; eauto.
  - intros a pre rest stop e Hst HG He. destruct (HX a pre rest stop Hst HG) as [r1 H1].
    destruct (RC (bigenv (length (pre ++ rest))) _ _ _ Hst (bigenv_ok _) He) as [r2 H2]. rewrite H1 in H2. discriminate H2.
  - intros bs stop e1 e2 Hst H1 H2. destruct (RC (bigenv (length bs)) _ _ _ Hst (bigenv_ok _) H1) as [r1 E1]. destruct (RC (bigenv (length bs)) _ _ _ Hst (bigenv_ok _) H2) as [r2 E2].
    rewrite E1 in E2. injection E2 as ->. reflexivity.
Qed.
Tactic Notation "exactly" uconstr(P) uconstr(B) uconstr(S) := split; [eapply reports_of; intros env; [apply B|apply S]|eapply covers_of; intros env; [apply P|apply B|apply S]].

Theorem C52_u32 : reports (fun env => decode_u32) Fu32 /\ covers Bu32 Fu32.
Proof. exactly parses_u32 blames_u32 safe_u32. Qed.
Theorem C52_u64 : reports (fun env => decode_u64) Fu64 /\ covers Bu64 Fu64.
Proof. exactly parses_u64 blames_u64 safe_u64. Qed.
Theorem C52_i32 : reports (fun env => decode_i32) Fi32 /\ covers Bi32 Fi32.
Proof. exactly parses_i32 blames_i32 safe_i32. Qed.
Theorem C52_i64 : reports (fun env => decode_i64) Fi64 /\ covers Bi64 Fi64.
Proof. exactly parses_i64 blames_i64 safe_i64. Qed.
Theorem C52_s33 : reports (fun env => decode_s33) Fs33 /\ covers Bs33 Fs33.
Proof. exactly parses_s33 blames_s33 safe_s33. Qed.
Theorem C52_byte_vector : reports (fun env => decode_byte_vector) Fbyte_vector /\ covers (Blist Bbyte) Fbyte_vector.
Proof. exactly parses_byte_vector blames_byte_vector safe_byte_vector. Qed.
Theorem C52_name : reports (fun env => decode_name) Fname /\ covers Bname Fname.
Proof. exactly parses_name blames_name safe_name. Qed.
Theorem C52_heaptype : reports (fun env => decode_heaptype) Fheaptype /\ covers Bheaptype Fheaptype.
Proof. exactly parses_heaptype blames_heaptype safe_heaptype. Qed.
Theorem C52_reftype : reports (fun env => decode_reftype) Freftype /\ covers Breftype Freftype.
Proof. exactly parses_reftype blames_reftype safe_reftype. Qed.
Theorem C52_valtype : reports (fun env => decode_valtype) Fvaltype /\ covers Bvaltype Fvaltype.
Proof. exactly parses_valtype blames_valtype safe_valtype. Qed.
Theorem C52_resulttype : reports (fun env => decode_result_type) Fresulttype /\ covers Bresulttype Fresulttype.
Proof. exactly parses_resulttype blames_result_type safe_result_type. Qed.
Theorem C52_globaltype : reports (fun env => decode_globaltype) Fglobaltype /\ covers Bglobaltype Fglobaltype.
Proof. exactly parses_globaltype blames_globaltype safe_globaltype. Qed.
Theorem C52_storagetype : reports (fun env => decode_storagetype) Fstoragetype /\ covers Bstoragetype Fstoragetype.
Proof. exactly parses_storagetype blames_storagetype safe_storagetype. Qed.
Theorem C52_fieldtype : reports (fun env => decode_fieldtype) Ffieldtype /\ covers Bfieldtype Ffieldtype.
Proof. exactly parses_fieldtype blames_fieldtype safe_fieldtype. Qed.
Theorem C52_comptype : reports (fun env => decode_comptype) Fcomptype /\ covers Bcomptype Fcomptype.
Proof. exactly parses_comptype blames_comptype safe_comptype. Qed.
Theorem C52_subtype : reports (fun env => decode_subtype) Fsubtype /\ covers Bsubtype Fsubtype.
Proof. exactly parses_subtype blames_subtype safe_subtype. Qed.
Theorem C52_rectype : reports (fun env => decode_rectype) Frectype /\ covers Brectype Frectype.
Proof. exactly parses_rectype blames_rectype safe_rectype. Qed.
Theorem C52_limits : reports (fun env => parse_limits) Flimits /\ covers Blimits Flimits.
Proof. exactly parses_limits blames_limits safe_limits. Qed.
Theorem C52_memtype : reports (fun env => parse_memtype) Fmemtype /\ covers Bmemtype Fmemtype.
Proof. exactly parses_memtype blames_memtype safe_memtype. Qed.
Theorem C52_tabletype : reports (fun env => decode_tabletype) Ftabletype /\ covers Btabletype Ftabletype.
Proof. exactly parses_tabletype blames_tabletype safe_tabletype. Qed.
Theorem C52_tagtype : reports (fun env => decode_tagtype) Ftagtype /\ covers Btagtype Ftagtype.
Proof. exactly parses_tagtype blames_tagtype safe_tagtype. Qed.
Theorem C52_externtype : reports (fun env => decode_externtype) Fexterntype /\ covers Bexterntype Fexterntype.
Proof. exactly parses_externtype blames_externtype safe_externtype. Qed.
Theorem C52_memarg : reports (fun env => decode_memarg) Fmemarg /\ covers Bmemarg Fmemarg.
Proof. exactly parses_memarg blames_memarg safe_memarg. Qed.
Theorem C52_blocktype : reports (fun env => decode_blocktype) Fblocktype /\ covers Bblocktype Fblocktype.
Proof. exactly parses_blocktype blames_blocktype safe_blocktype. Qed.
Theorem C52_catch : reports (fun env => decode_catch) Fcatch /\ covers Bcatch Fcatch.
Proof. exactly parses_catch blames_catch safe_catch. Qed.
Theorem C52_expr : reports (fun env => decode_expr_only) Fexpr /\ covers Bexpr Fexpr.
Proof. exactly parses_expr blames_expr_only safe_expr_only. Qed.
Theorem C52_import : reports (fun env => parse_import) Fimport /\ covers Bimport Fimport.
Proof. exactly parses_import blames_import safe_import. Qed.
Theorem C52_table : reports (fun env => decode_table) Ftable /\ covers Btable Ftable.
Proof. exactly parses_table blames_table safe_table. Qed.
Theorem C52_global : reports (fun env => parse_global) Fglobal /\ covers Bglobal Fglobal.
Proof. exactly parses_global blames_global safe_global. Qed.
Theorem C52_export : reports (fun env => parse_export) Fexport /\ covers Bexport Fexport.
Proof. exactly parses_export blames_export safe_export. Qed.
Theorem C52_elem : reports (fun env => parse_elem) Felem /\ covers Belem Felem.
Proof. exactly parses_elem blames_elem safe_elem. Qed.
Theorem C52_data : reports (fun env => parse_data) Fdata /\ covers Bdata Fdata.
Proof. exactly parses_data blames_data safe_data. Qed.
Lemma covers_ext {E A B} (G : lang A) (G' : lang B) (F : faulty E) : (forall w, (exists a, G a w) <-> exists b, G' b w) -> covers G F -> covers G' F.
Proof.
  intros HE [H1 H2 H3]. split.
  - intros bs stop Hst. destruct (H1 bs stop Hst) as [(a & pre & rest & -> & HG)|He]; [left|right; exact He].
    destruct (proj1 (HE pre) (ex_intro _ a HG)) as [b Hb]. eauto.
  - intros b pre rest stop e Hst HG. destruct (proj2 (HE pre) (ex_intro _ b HG)) as [a Ha]. exact (H2 a pre rest stop e Hst Ha).
  - exact H3.
Qed.
Lemma covers_at {E E' A} (G : lang A) (F : faulty E) (f : E -> E') : (forall x y, f x = f y -> x = y) -> covers G F -> covers G (at_ f F).
Proof.
  intros Hf [H1 H2 H3]. split.
  - intros bs stop Hst. destruct (H1 bs stop Hst) as [HG|[e He]]; [left; exact HG|right; exists (f e), e; auto].
  - intros a pre rest stop e Hst HG (e' & He & _). exact (H2 a pre rest stop e' Hst HG He).
  - intros bs stop e1 e2 Hst (x & Hx & ->) (y & Hy & ->). f_equal. eauto.
Qed.
Theorem C52_code : reports (fun env => parse_code) Fcode /\ covers Bcode Fcode.
Proof.
  split; [eapply reports_of; intros env; [apply blames_code|apply safe_code]|]. apply (covers_ext Gcode).
  - intros w. split; [intros [c Hc]; eexists; apply Gcode_Bcode; exact Hc|]. intros [f Hf]. destruct (Bcode_Gcode _ _ Hf) as (c & Hc & _). eauto.
  - eapply covers_of; intros env; [apply parses_code|apply blames_code|apply safe_code].
Qed.
(** an instruction, [end] or [else] *)
Theorem C52_instr : reports (fun env => @parse env _ _ (@stack_limit env)) Finstr /\
  covers (fun (_ : unit) w => (exists i : instr, Binstr i w) \/ w = [x0b] \/ w = [x05]) Finstr.
Proof.
  split; [eapply reports_of; intros env; [apply blames_parse|apply safe_parse, le_n]|]. apply (covers_ext Gpr).
  - intros w. split.
    + intros [[i| |] Hg]; exists tt; cbn in Hg; [left; eauto|auto|auto].
    + intros [_ [[i Hi]|[->| ->]]]; [exists (PR_Instr i)|exists PR_End|exists PR_Else]; cbn; auto.
  - eapply covers_of with (p := fun env => @parse env _ _ (@stack_limit env)); intros env; [apply parses_parse|apply blames_parse|apply safe_parse, le_n].
Qed.
(** the contents of a section; those of a custom section always end where the
    input ends, so a custom section only has the faults of its name (and a
    failing reader) *)
Definition contents_kind (k : SectionKind) : lang section := fun x w => kind_of x = k /\ Bcontents x w.
Lemma covers_list {E A} (p : Env -> M (list event) E A) G F :
  (forall env, Parses (p env) G) -> (forall env, Blames (p env) F) -> (forall env, Safe (@stack_limit env) (p env) 0 any) -> covers (Blist G) (Flist G F).
Proof.
  intros HP HB HS. eapply (covers_of (fun env => @decode_list env _ _ _ _ (p env))); intros env; [apply parses_list, HP|apply blames_list; [apply HP|apply HB]|apply safe_list, HS].
Qed.
Tactic Notation "kind" uconstr(L) uconstr(c) := apply (covers_ext L); [
  intros w; split; [intros [l Hl]; exists (c l); split; [reflexivity|constructor; exact Hl]|intros [x [Hx HC]]; destruct HC; try discriminate Hx; eauto]|].
Theorem C52_contents k : k <> SK_Custom -> covers (contents_kind k) (Fcontents k).
Proof.
  intros Hk. destruct k; try congruence; unfold Fcontents.
  all: match goal with |- covers _ (at_ ?f ?F) => apply (covers_at _ F f); [congruence|] end.
  - kind (Blist Brectype) SType. eapply covers_list with (p := fun env => decode_rectype); intros env; [apply parses_rectype|apply blames_rectype|apply safe_rectype].
  - kind (Blist Bimport) SImport. eapply covers_list with (p := fun env => parse_import); intros env; [apply parses_import|apply blames_import|apply safe_import].
  - kind (Blist Bidx) SFunction. eapply covers_list with (p := fun env => decode_typeidx); intros env; [apply parses_typeidx|apply blames_typeidx|apply safe_typeidx].
  - kind (Blist Btable) STable. eapply covers_list with (p := fun env => decode_table); intros env; [apply parses_table|apply blames_table|apply safe_table].
  - kind (Blist Bmemtype) SMemory. eapply covers_list with (p := fun env => parse_memtype); intros env; [apply parses_memtype|apply blames_memtype|apply safe_memtype].
  - kind (Blist Btagtype) STag. eapply covers_list with (p := fun env => decode_tagtype); intros env; [apply parses_tagtype|apply blames_tagtype|apply safe_tagtype].
  - kind (Blist Bglobal) SGlobal. eapply covers_list with (p := fun env => parse_global); intros env; [apply parses_global|apply blames_global|apply safe_global].
  - kind (Blist Bexport) SExport. eapply covers_list with (p := fun env => parse_export); intros env; [apply parses_export|apply blames_export|apply safe_export].
  - kind Bidx SStart. apply C52_u32.
  - kind (Blist Belem) SElement. eapply covers_list with (p := fun env => parse_elem); intros env; [apply parses_elem|apply blames_elem|apply safe_elem].
  - kind Bu32 SDataCount. apply C52_u32.
  - kind (Blist Bcode) SCode. apply (covers_ext (Blist Gcode)).
    + intros w. split; [intros [l Hl]; eexists; apply list_code; exact Hl|]. intros [l Hl]. destruct (list_code_inv _ _ Hl) as (cs & Hc & _). eauto.
    + eapply (covers_of (fun env => @decode_list env _ _ _ _ parse_code)); intros env; [apply parses_list, parses_code| |apply safe_list; eapply safe_any; apply safe_code].
      eapply blames_ext; [apply blames_list; [apply parses_code|apply blames_code]|].
      intros bs stop e. split; apply Flist_map.
      * intros c w HG. apply Gcode_Bcode in HG. eauto.
      * intros c w HG. apply Bcode_Gcode in HG as (c' & HG & _). eauto.
  - kind (Blist Bdata) SData. eapply covers_list with (p := fun env => parse_data); intros env; [apply parses_data|apply blames_data|apply safe_data].
Qed.
(** a case: an import of "a" "b" with the unknown kind 0x05, and one cut short *)
Example C52_ex : Fimport [x01; x61; x01; x62; x05] Ends (Imp_DecodeExternType (Ext_InvalidMarkerByte x05)) /\
  exists e, Fimport [x01; x61; x02; x62] Ends e.
Proof.
  split.
  - destruct (proj1 C52_import) as [HS _]. eapply (HS (bigenv 5)) with (evs := byte_by_byte [x01; x61; x01; x62; x05] Ends); [reflexivity|]. vm_compute. reflexivity.
  - destruct (proj1 C52_import) as [HS _]. eexists. eapply (HS (bigenv 4)) with (evs := byte_by_byte [x01; x61; x02; x62] Ends); [reflexivity|]. vm_compute. reflexivity.
Qed.
