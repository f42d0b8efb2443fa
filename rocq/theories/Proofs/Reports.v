(** Errors of [decode_module]: exactly which input gives which. *)
From Verif Require Import Model.Prelude Model.Io Model.Ast Model.Errors Model.Integer Model.Helpers Model.Types Model.Instr Model.Sections Model.Module.
From Verif Require Import Proofs.Machine Proofs.Reads Proofs.Parses Proofs.Safe Proofs.SafeWalk Proofs.Leb Proofs.GHelpers Proofs.GSections Proofs.GModule Proofs.GAssemble Proofs.Sim Proofs.Final Proofs.FinalInt Proofs.Diag Proofs.Modules Proofs.Blames Proofs.FSections.
From Verif Require Import Spec.Lang Spec.Types Spec.Instr Spec.Module Spec.Streams Spec.Leb Spec.Layout Spec.Faults Spec.Diagnosis.
From Coq Require Import Lia ZifyBool ZifyNat ZifyN Sorting.Sorted.

(** ** a stream of bytes and its stop *)
Definition Stops (stop : ending) (tl : list atom) : Prop :=
  match stop with Ends => tl = [] \/ exists tl', tl = AEof :: tl' | Fails k => k <> Interrupted /\ exists tl', tl = AErr k :: tl' end.
Definition stop_atom (stop : ending) : atom := match stop with Ends => AEof | Fails k => AErr k end.
Lemma stops_next stop tl : Stops stop tl -> exists tl', next tl = (stop_atom stop, tl').
Proof. destruct stop; cbn; [intros [->|[? ->]]; eexists; reflexivity|intros [_ [? ->]]; eexists; reflexivity]. Qed.
Lemma stops_not_byte stop tl b c : Stops stop tl -> next tl <> (AByte b, c).
Proof. intros HS. apply stops_next in HS as [tl' ->]. destruct stop; discriminate. Qed.
Lemma stream_bsteps stop tl : Stops stop tl -> forall rest bs c, bsteps (map AByte rest ++ tl) bs c -> exists rest', rest = bs ++ rest' /\ c = map AByte rest' ++ tl.
Proof.
  intros HS rest bs. revert rest; induction bs as [|b bs IH]; intros rest c Hb.
  - apply bsteps_nil_inv in Hb as ->. exists rest. auto.
  - apply bsteps_cons_inv in Hb as (c1 & Hn & Hb). destruct rest as [|b' rest].
    + exfalso. eapply stops_not_byte; eauto.
    + cbn in Hn. injection Hn as -> <-. destruct (IH _ _ Hb) as (rest' & -> & ->). exists rest'. auto.
Qed.
Lemma stream_next stop tl rest : Stops stop tl ->
  match rest with [] => exists tl', next (map AByte rest ++ tl) = (stop_atom stop, tl') | b :: rest' => next (map AByte rest ++ tl) = (AByte b, map AByte rest' ++ tl) end.
Proof. intros HS. destruct rest; [apply stops_next; exact HS|reflexivity]. Qed.
Lemma content_stream evs bs stop : content evs = (bs, stop) -> exists tl, events_abs evs = map AByte bs ++ tl /\ Stops stop tl.
Proof. intros E. destruct (events_content evs) as (tl & Ha & HE). rewrite E in *. exists tl. split; [exact Ha|exact HE]. Qed.
Lemma stream_content evs bs stop tl : events_abs evs = map AByte bs ++ tl -> Stops stop tl -> content evs = (bs, stop).
Proof.
  intros Ha HS. destruct (content evs) as [bs' stop'] eqn:E. destruct (content_stream _ _ _ E) as (tl' & Ha' & HS').
  rewrite Ha in Ha'. assert (Hq : tl = tl' /\ bs = bs').
  { eapply bsteps_maximal; [apply bsteps_list| |rewrite Ha'; apply bsteps_list|]; intros b c; eapply stops_not_byte; eauto. }
  destruct Hq as [-> ->]. f_equal. apply stops_next in HS as (t1 & E1). apply stops_next in HS' as (t2 & E2). rewrite E1 in E2.
  destruct stop, stop'; cbn in E2; congruence.
Qed.

(** ** the size field *)
Definition lead (k : nat) (cs t : list byte) : Prop :=
  Forall continues cs /\ (length cs = k \/ (length cs < k /\ match t with [] => True | b :: _ => ~ continues b end)).
Lemma lead_unique k cs : forall cs' t t', lead k cs t -> lead k cs' t' -> cs ++ t = cs' ++ t' -> cs = cs' /\ t = t'.
Proof.
  revert k; induction cs as [|b cs IH]; intros k [|b' cs'] t t' [H1 H2] [H3 H4] E; cbn in *.
  - auto.
  - subst t. apply Forall_inv in H3. destruct H2 as [H2|[_ H2]]; [lia|contradiction].
  - subst t'. apply Forall_inv in H1. destruct H4 as [H4|[_ H4]]; [lia|contradiction].
  - injection E as <- E. destruct (IH (k - 1) cs' t t'); [split; [eapply Forall_inv_tail; exact H1|]|split; [eapply Forall_inv_tail; exact H3|]|exact E|subst; auto].
    + destruct H2 as [H2|[H2 H2']]; [left; lia|right; split; [lia|exact H2']].
    + destruct H4 as [H4|[H4 H4']]; [left; lia|right; split; [lia|exact H4']].
Qed.
Lemma not_continues_iff b : ~ continues b <-> (b2n b < 128)%N.
Proof. rewrite continues_iff. lia. Qed.

Section Header.
  Context (rest : list byte) (stop : ending) (tl : list atom) (HS : Stops stop tl) (r : list event) (Hr : abs r = map AByte rest ++ tl).
  Lemma u32_errors e : fst (decode_u32 r) = Err e <-> bad_size rest stop e.
  Proof using HS Hr.
    destruct (decode_u32 r) as [x r'] eqn:E. apply decode_u32_spec in E as (cs & c1 & Hb & Hc & Hx). rewrite Hr in Hb.
    apply (stream_bsteps _ _ HS) in Hb as (t & Ht & ->). apply continues_all in Hc. cbn [fst].
    assert (HL : forall cs' t', lead 5 cs t -> rest = cs' ++ t' -> lead 5 cs' t' -> cs = cs' /\ t = t').
    { intros cs' t' H1 H2 H3. eapply lead_unique; eauto. congruence. }
    pose proof (stream_next _ _ t HS) as HN.
    destruct Hx as [(Hl & _ & ->)|[(Hl & b & Hn & Hb & ->)|[(Hl & Hn & ->)|(Hl & kk & Hn & ->)]]].
    - assert (Hlead : lead 5 cs t) by (split; auto). split.
      + intros [= <-]. eapply bs_long; eauto.
      + intros [cs' b rest' E1 E2 E3 E4 E5|cs' rest' E1 E2 E3|E1 E2]; [|reflexivity|].
        * destruct (HL cs' (b :: rest') Hlead E1) as [Hq _]; [split; auto|]. rewrite <- Hq in E3. lia.
        * destruct (HL rest [] Hlead) as [Hq _]; [symmetry; apply app_nil_r|split; auto|]. rewrite <- Hq in E2. lia.
    - destruct t as [|b' t]; [destruct HN as [tl' HN]; rewrite HN in Hn; destruct stop; discriminate|]. rewrite HN in Hn. injection Hn as -> _.
      apply not_continues_iff in Hb. assert (Hlead : lead 5 cs (b :: t)) by (split; auto).
      rewrite fin_u_result. cbv zeta. unfold fits, unsigned_fits. split.
      + destruct (N.ltb_spec (leb_unsigned (cs ++ [b])) (2 ^ 32)); [discriminate|]. intros [= <-]. eapply bs_large; eauto.
      + intros [cs' b2 rest' E1 E2 E3 E4 E5|cs' rest' E1 E2 E3|E1 E2].
        * destruct (HL cs' (b2 :: rest') Hlead E1) as [-> [= -> ->]]; [split; auto|].
          destruct (N.ltb_spec (leb_unsigned (cs' ++ [b2])) (2 ^ 32)); [lia|reflexivity].
        * destruct (HL cs' rest' Hlead E1) as [Hq _]; [split; auto|]. rewrite <- Hq in E3. lia.
        * destruct (HL rest [] Hlead) as [_ Hq]; [symmetry; apply app_nil_r|split; auto|discriminate].
    - destruct t as [|b' t]; [destruct HN as [tl' HN]; rewrite HN in Hn; destruct stop; try discriminate|rewrite HN in Hn; discriminate].
      assert (Hlead : lead 5 cs []) by (split; auto). rewrite app_nil_r in Ht. split.
      + intros [= <-]. subst. apply (bs_cut cs Ends); auto.
      + intros [cs' b2 rest' E1 E2 E3 E4 E5|cs' rest' E1 E2 E3|E1 E2].
        * destruct (HL cs' (b2 :: rest') Hlead E1) as [_ Hq]; [split; auto|discriminate].
        * destruct (HL cs' rest' Hlead E1) as [Hq _]; [split; auto|]. rewrite <- Hq in E3. lia.
        * reflexivity.
    - destruct t as [|b' t]; [destruct HN as [tl' HN]; rewrite HN in Hn; destruct stop as [|k]; try discriminate|rewrite HN in Hn; discriminate].
      cbn in Hn. injection Hn as -> _.
      assert (Hlead : lead 5 cs []) by (split; auto). rewrite app_nil_r in Ht. split.
      + intros [= <-]. subst. apply (bs_cut cs (Fails kk)); auto.
      + intros [cs' b2 rest' E1 E2 E3 E4 E5|cs' rest' E1 E2 E3|E1 E2].
        * destruct (HL cs' (b2 :: rest') Hlead E1) as [_ Hq]; [split; auto|discriminate].
        * destruct (HL cs' rest' Hlead E1) as [Hq _]; [split; auto|]. rewrite <- Hq in E3. lia.
        * reflexivity.
  Qed.
  (** ** the header *)
  Inductive bad_header : DecodeSectionHeaderError -> Prop :=
  | bh_read k : rest = [] -> stop = Fails k -> k <> UnexpectedEof -> bad_header (Hdr_ReadSectionIdByte k)
  | bh_id b rest' : rest = b :: rest' -> (forall k, b <> id_of k) -> bad_header (Hdr_InvalidSectionId (InvalidSectionId b))
  | bh_size k rest' e : rest = id_of k :: rest' -> bad_size rest' stop e -> bad_header (Hdr_DecodeSectionSize e).
End Header.

Lemma id_of_inj k k' : id_of k = id_of k' -> k = k'.
Proof. destruct k, k'; cbn; intros; reflexivity || discriminate. Qed.
Lemma marker_none b : section_from_marker b = None <-> forall k, b <> id_of k.
Proof.
  split.
  - intros E k ->. rewrite (proj2 (section_marker (id_of k) k) eq_refl) in E. discriminate.
  - intros HN. destruct (section_from_marker b) as [k|] eqn:E; [|reflexivity]. apply section_marker in E. exfalso. exact (HN k E).
Qed.

Section Header2.
  Context (rest : list byte) (stop : ending) (tl : list atom) (HS : Stops stop tl) (r : list event) (Hr : abs r = map AByte rest ++ tl).
  (** what [decode_section_header] does on each input *)
  Lemma header_cases :
    match rest with
    | [] => match stop with
            | Fails k => if match k with UnexpectedEof => true | _ => false end then fst (decode_section_header r) = Ok None
                         else fst (decode_section_header r) = Err (Hdr_ReadSectionIdByte k)
            | Ends => fst (decode_section_header r) = Ok None
            end
    | b :: rest' =>
        match section_from_marker b with
        | None => fst (decode_section_header r) = Err (Hdr_InvalidSectionId (InvalidSectionId b))
        | Some k => exists r1 : list event, abs r1 = map AByte rest' ++ tl /\
                      decode_section_header r = (let '(x, r2) := decode_u32 r1 in (match x with Ok n => Ok (Some (mkHeader k n)) | Err e => Err (Hdr_DecodeSectionSize e) | Panic p => Panic p | Stuck => Stuck end, r2))
        end
    end.
  Proof using HS Hr.
    unfold decode_section_header, read_section_id, bind, map_err.
    destruct (read_byte r) as [y r1] eqn:Eb. pose proof (read_byte_spec _ _ _ Eb) as Hspec. rewrite Hr in Hspec.
    pose proof (stream_next _ _ rest HS) as HN. destruct rest as [|b rest'].
    - destruct HN as [tl' HN]. rewrite HN in Hspec. destruct stop as [|[]]; cbn in *; injection Hspec as -> _; try reflexivity.
    - rewrite HN in Hspec. injection Hspec as -> Ha. destruct (section_from_marker b) as [k|]; [|reflexivity].
      exists r1. split; [exact Ha|]. destruct (decode_u32 r1) as [[]]; reflexivity.
  Qed.
  Lemma header_errors e : fst (decode_section_header r) = Err e <-> bad_header rest stop e.
  Proof using HS Hr.
    pose proof header_cases as HC. split.
    - intros He. destruct rest as [|b rest'].
      + destruct stop as [|k]; [congruence|]. destruct k; cbn in HC; try congruence; rewrite He in HC; injection HC as ->; eapply bh_read; eauto; discriminate.
      + destruct (section_from_marker b) as [k|] eqn:Em.
        * destruct HC as (r1 & Ha & HC). pose proof (u32_errors _ _ _ HS r1 Ha) as HU. destruct (decode_u32 r1) as [[n|e'|p|] r2]; rewrite HC in He; try discriminate.
          injection He as <-. apply section_marker in Em as ->. eapply bh_size; [reflexivity|]. apply HU. reflexivity.
        * rewrite He in HC. injection HC as ->. eapply bh_id; [reflexivity|]. apply marker_none. exact Em.
    - intros [k E1 E2 E3|b rest' E1 E2|k rest' e' E1 E2].
      + rewrite E1, E2 in HC. destruct k; cbn in HC; congruence.
      + rewrite E1 in HC. rewrite (proj2 (marker_none b) E2) in HC. exact HC.
      + rewrite E1 in HC. rewrite (proj2 (section_marker _ _) eq_refl) in HC. destruct HC as (r1 & Ha & HC).
        apply (u32_errors _ _ _ HS r1 Ha) in E2. destruct (decode_u32 r1) as [x r2]. cbn in E2. subst x. rewrite HC. reflexivity.
  Qed.
  Lemma header_none : fst (decode_section_header r) = Ok None <-> rest = [] /\ (stop = Ends \/ stop = Fails UnexpectedEof).
  Proof using HS Hr.
    pose proof header_cases as HC. split.
    - intros He. destruct rest as [|b rest'].
      + split; [reflexivity|]. destruct stop as [|[]]; cbn in HC; auto; congruence.
      + destruct (section_from_marker b); [|congruence]. destruct HC as (r1 & _ & HC). destruct (decode_u32 r1) as [[] ]; rewrite HC in He; discriminate.
    - intros [-> [-> | ->]]; exact HC.
  Qed.
  Lemma header_some h r1 : decode_section_header r = (Ok (Some h), r1) ->
    exists nb rest', rest = id_of (sh_kind h) :: nb ++ rest' /\ Bu32 (sh_size h) nb /\ abs r1 = map AByte rest' ++ tl.
  Proof using HS Hr.
    intros E. destruct (header_sound _ _ _ E) as (nb & HU & Hb). rewrite Hr in Hb. apply (stream_bsteps _ _ HS) in Hb as (rest' & E1 & E2).
    exists nb, rest'. auto.
  Qed.
End Header2.

(** ** the fence: a limited reader and a reader of exactly the declared bytes *)
Definition fenceK (t : Take (list atom)) (l : list atom) : Prop :=
  exists p tl tl', t_inner t = map AByte p ++ tl /\ l = map AByte p ++ tl' /\ (lenN p <= t_limit t)%N /\
    (if (lenN p =? t_limit t)%N then fst (next tl') = AEof
     else fst (next tl') = fst (next tl) /\ forall b, fst (next tl) <> AByte b).
#[export] Instance fence_bis : Bis fenceK.
Proof.
  intros [n c] l (p & tl & tl' & Ec & El & Hle & Hs). cbn [t_inner t_limit] in *. subst c l. destruct p as [|b p]; cbn.
  - unfold lenN in *. cbn [length] in *. destruct (N.eqb_spec (N.of_nat 0) n) as [E|E].
    + subst n. cbn in *. destruct tl' as [|a tl']; cbn in *; [reflexivity|subst a; reflexivity].
    + destruct (N.eqb_spec n 0) as [->|_]; [cbn in E; lia|]. destruct Hs as [Hs Hb].
      cbn [app map] in *. destruct tl as [|[] tl], tl' as [|[] tl']; cbn in *; try reflexivity; try discriminate; try congruence; try (exfalso; eapply Hb; reflexivity).
  - unfold lenN in *. cbn [length] in *. destruct (N.eqb_spec n 0) as [->|_]; [lia|]. split; [reflexivity|]. exists p, tl, tl'. cbn [t_inner t_limit].
    split; [reflexivity|]. split; [reflexivity|]. split; [unfold lenN; lia|]. unfold lenN in *.
    destruct (N.eqb_spec (N.of_nat (S (length p))) n), (N.eqb_spec (N.of_nat (length p)) (n - 1)); try lia; exact Hs.
Qed.
Lemma fenced_fenceK n rest stop tl evs : Stops stop tl -> content evs = fenced n rest stop -> fenceK (mkTake n (map AByte rest ++ tl)) (events_abs evs).
Proof.
  intros HS HC. unfold fenced in HC. destruct (N.leb_spec n (N.of_nat (length rest))) as [Hl|Hl].
  - destruct (content_stream _ _ _ HC) as (tl' & Ha & HS'). exists (firstn (N.to_nat n) rest), (map AByte (skipn (N.to_nat n) rest) ++ tl), tl'.
    cbn [t_inner t_limit]. rewrite app_assoc, <- map_app, firstn_skipn. split; [reflexivity|]. split; [exact Ha|].
    assert (HN : lenN (firstn (N.to_nat n) rest) = n) by (unfold lenN; rewrite firstn_length; lia). rewrite HN, N.eqb_refl. split; [lia|].
    apply stops_next in HS' as [? ->]. reflexivity.
  - destruct (content_stream _ _ _ HC) as (tl' & Ha & HS'). exists rest, tl, tl'. cbn [t_inner t_limit].
    split; [reflexivity|]. split; [exact Ha|]. unfold lenN. split; [lia|]. destruct (N.eqb_spec (N.of_nat (length rest)) n); [lia|].
    apply stops_next in HS as [? ->]. apply stops_next in HS' as [? ->]. split; [reflexivity|]. intros b. destruct stop; discriminate.
Qed.
Lemma fence_not_stuck {env : Env} {R C} `{Lawful R C} k s (r : R) : fst (decode_section k s r) <> Stuck.
Proof. pose proof (safe_decode_section k s r) as HS. destruct (decode_section k s r) as [[]]; cbn; try discriminate. destruct HS; contradiction. Qed.
Lemma fence_section {env : Env} n rest stop tl (r evs : list event) k s : Stops stop tl -> abs r = map AByte rest ++ tl -> content evs = fenced n rest stop ->
  fst (decode_section k s (mkTake n r)) = fst (decode_section k s evs).
Proof.
  intros HS Hr HC. assert (Hle : env_le env env) by (split; reflexivity).
  destruct (sim_decode_section Hle k s _ _ _ _ _ _ _ _ _ _ fenceK _ (mkTake n r) evs) as [[He _]|[He|[He|[He _]]]]; auto.
  - change (fenceK (mkTake n (abs r)) (events_abs evs)). rewrite Hr. apply (fenced_fenceK _ _ stop); assumption.
  - exfalso. exact (fence_not_stuck k s (mkTake n r) He).
  - exfalso. exact (fence_not_stuck k s evs He).
  - contradiction.
Qed.

(** ** one section *)
(** the decoder of contents of kind [k] fails on a reader (any reader) *)
Definition cerr {env : Env} {R} `{Reader R} (k : SectionKind) (r : R) (e : DecodeModuleError) : Prop :=
  match k with
  | SK_Custom => exists x, fst (decode_section_custom r) = Err x /\ e = DM_DecodeCustomSection x
  | SK_Type => exists x, fst (decode_type_section r) = Err x /\ e = DM_DecodeTypeSection x
  | SK_Import => exists x, fst (decode_import_section r) = Err x /\ e = DM_DecodeImportSection x
  | SK_Function => exists x, fst (decode_function_section r) = Err x /\ e = DM_DecodeFunctionSection x
  | SK_Table => exists x, fst (decode_table_section r) = Err x /\ e = DM_DecodeTableSection x
  | SK_Memory => exists x, fst (decode_memory_section r) = Err x /\ e = DM_DecodeMemorySection x
  | SK_Tag => exists x, fst (decode_tag_section r) = Err x /\ e = DM_DecodeTagSection x
  | SK_Global => exists x, fst (decode_global_section r) = Err x /\ e = DM_DecodeGlobalSection x
  | SK_Export => exists x, fst (decode_export_section r) = Err x /\ e = DM_DecodeExportSection x
  | SK_Start => exists x, fst (decode_start_section r) = Err x /\ e = DM_DecodeStartSection x
  | SK_Element => exists x, fst (decode_element_section r) = Err x /\ e = DM_DecodeElementSection x
  | SK_DataCount => exists x, fst (decode_datacount_section r) = Err x /\ e = DM_DecodeDatacountSection x
  | SK_Code => exists x, fst (decode_code_section r) = Err x /\ e = DM_DecodeCodeSection x
  | SK_Data => exists x, fst (decode_data_section r) = Err x /\ e = DM_DecodeDataSection x
  end.
Lemma cerr_contents {env : Env} {R} `{Reader R} k (r : R) e : cerr k r e <-> exists r', contents_of k r = (Err e, r').
Proof.
  assert (G : forall E1 A (f : E1 -> DecodeModuleError) (p : M R E1 A), (exists x, fst (p r) = Err x /\ e = f x) <-> exists r', bind (map_err f p) (fun _ => ret tt) r = (Err e, r')).
  { intros E1 A f p. unfold bind, map_err, ret. destruct (p r) as [[a|x|pn|] r'] eqn:Ep; cbn; (split; [intros (y & Hy & Hf)|intros (r2 & Hf)]); try discriminate.
    - injection Hy as ->. subst e. eauto.
    - injection Hf as <- <-. eauto. }
  destruct k; apply G.
Qed.
Lemma cerr_fault {env : Env} {R C} `{Lawful R C} k (r : R) bs stop e : delivers (abs r) bs stop -> cerr k r e -> Fcontents k bs stop e.
Proof. intros HD He. apply cerr_contents in He as [r' He]. exact (b_sound _ _ (blames_contents k) _ _ _ _ _ HD He). Qed.
Lemma bind_map_err_err {R E E' A B} (f : E -> E') (p : M R E A) (q : A -> M R E' B) (r : R) x : fst (p r) = Err x -> fst (bind (map_err f p) q r) = Err (f x).
Proof. unfold bind, map_err. destruct (p r) as [y r']; cbn. intros ->. reflexivity. Qed.
Lemma cerr_section {env : Env} {R} `{Reader R} k s (r : R) e : cerr k r e -> fst (decode_section k s r) = Err e.
Proof. destruct k; intros (x & E & ->); unfold decode_section; cbv zeta; apply (bind_map_err_err (E' := DecodeModuleError)); exact E. Qed.

Lemma fault_section {env : Env} {R C} `{Lawful R C} k s (r : R) bs stop e : delivers (abs r) bs stop -> Fcontents k bs stop e ->
  fst (decode_section k s r) = Err e \/ gave_up (fst (decode_section k s r)).
Proof.
  intros HD HF. destruct (b_complete _ _ (blames_contents k) _ _ _ _ HD HF) as [He|Hg].
  - left. apply cerr_section, cerr_contents. exact He.
  - right. destruct k; unfold contents_of in Hg; unfold decode_section; cbv zeta; apply gave_up_bind;
      match type of Hg with gave_up (fst (bind ?p _ _)) => unfold bind at 1 in Hg; destruct (p r) as [[a|x|pn|] r'] end; cbn in *; auto; contradiction.
Qed.

Lemma errs_fill_none {env : Env} {R} codes : forall i fs d (r : R) e r', fill_codes i codes fs d r <> (Err e, r').
Proof.
  induction codes as [|c codes IH]; intros i fs d r e r'; cbn [fill_codes]; [discriminate|]. unfold bind, alloc.
  destruct (_ <=? _)%N; [|discriminate]. cbn. destruct (nth_error fs i); [apply IH|discriminate].
Qed.

(** sections at odds with the decoder's state *)
Inductive misfit (s : st) : section -> DecodeModuleError -> Prop :=
| mf_code l : lenN l <> lenN (funcs (st_module s)) -> misfit s (SCode l) (DM_CodeFuncEntriesLenMismatch (lenN l) (lenN (funcs (st_module s))))
| mf_data l n : data_count (st_module s) = Some n -> lenN l <> n -> misfit s (SData l) (DM_DataCountMismatch (lenN l) n).
Section Misfit.
  Context {env : Env} {R C : Type} `{Lawful R C}.
  Lemma section_err k s (r : R) e : fst (decode_section k s r) = Err e ->
    cerr k r e \/ exists x q c, kind_of x = k /\ Bcontents x q /\ bsteps (abs r) q c /\ misfit s x e.
  Proof.
    unfold decode_section. cbv zeta.
    assert (G : forall E1 A B (f : E1 -> DecodeModuleError) (p : M R E1 A) (q : A -> M R DecodeModuleError B),
      fst (bind (map_err f p) q r) = Err e -> (exists x, fst (p r) = Err x /\ e = f x) \/ (exists a r', p r = (Ok a, r') /\ fst (q a r') = Err e)).
    { intros E1 A B f p q. unfold bind, map_err. destruct (p r) as [[a|x|pn|] r'] eqn:Ep; cbn; intros Hq; try discriminate; eauto. injection Hq as <-. eauto. }
    destruct k; intros He; apply G in He; (destruct He as [(x & Hx & ->)|(a & r' & Ha & He)]; [left; exists x; auto|]); try discriminate He; right.
    - unfold decode_code_section in Ha. destruct (p_sound _ _ (parses_map_err _ _ _ (parses_list _ _ parses_code)) _ _ _ Ha) as (q & Hb & HL).
      destruct (N.eqb_spec (lenN a) (lenN (funcs (st_module s)))) as [E|E]; cbn [negb] in He.
      + exfalso. unfold bind in He. destruct (fill_codes 0 a (funcs (st_module s)) (st_data_idx s) r') as [[[fs d]|x|pn|] r2] eqn:Ef; try discriminate.
        exact (errs_fill_none _ _ _ _ _ _ _ Ef).
      + injection He as <-. exists (SCode (map code_fn a)), q, (abs r'). split; [reflexivity|]. split; [constructor; apply list_code; exact HL|]. split; [exact Hb|].
        assert (Hl : lenN a = lenN (map code_fn a)) by (unfold lenN; rewrite map_length; reflexivity). rewrite Hl in *. constructor. exact E.
    - unfold decode_data_section in Ha. destruct (p_sound _ _ (parses_map_err _ _ _ (parses_list _ _ parses_data)) _ _ _ Ha) as (q & Hb & HL).
      destruct (data_count (st_module s)) as [n|] eqn:Ed; [|discriminate]. destruct (N.eqb_spec (lenN a) n) as [E|E]; cbn [negb] in He; [discriminate|].
      injection He as <-. exists (SData a), q, (abs r'). split; [reflexivity|]. split; [constructor; exact HL|]. split; [exact Hb|]. constructor; assumption.
  Qed.
  Lemma misfit_section s (r : R) x q c e : Bcontents x q -> bsteps (abs r) q c -> misfit s x e ->
    fst (decode_section (kind_of x) s r) = Err e \/ gave_up (fst (decode_section (kind_of x) s r)).
  Proof.
    intros HB Hb HM. destruct HM as [l Hl|l n Hn Hl]; cbn [kind_of]; unfold decode_section; cbv zeta; inversion HB as [| | | | | | | | | | | |? ? HL|? ? HL]; subst.
    - apply list_code_inv in HL as (cs & HL & ->).
      edestruct (p_complete _ _ (parses_map_err DM_DecodeCodeSection _ _ (parses_map_err CodeSec_DecodeList _ _ (parses_list _ _ parses_code))) r _ _ _ HL Hb) as [(r' & E & _)|Hg].
      + left. unfold decode_code_section, bind. rewrite E. unfold lenN in *. rewrite map_length in *.
        destruct (N.eqb_spec (N.of_nat (length cs)) (N.of_nat (length (funcs (st_module s))))); [lia|]. reflexivity.
      + right. apply gave_up_bind. exact Hg.
    - edestruct (p_complete _ _ (parses_map_err DM_DecodeDataSection _ _ (parses_map_err DataSec_DecodeList _ _ (parses_list _ _ parses_data))) r _ _ _ HL Hb) as [(r' & E & _)|Hg].
      + left. unfold decode_data_section, bind. rewrite E, Hn. destruct (N.eqb_spec (lenN l) n); [lia|]. reflexivity.
      + right. apply gave_up_bind. exact Hg.
  Qed.
End Misfit.

Lemma inv_kinds xs s : Inv xs s -> parsed_section_kinds (st_module s) = kinds (map fst xs).
Proof. intros [Hm _ _]. rewrite Hm. reflexivity. Qed.
Lemma inv_order xs s k : Inv xs s -> order_err (last_opt (parsed_section_kinds (st_module s))) k = order_err (last_kind (map fst xs)) k.
Proof. intros HI. rewrite (inv_kinds _ _ HI), last_kind_opt. reflexivity. Qed.
Lemma in_place_iff cs k : (forall e, ~ misplaced cs k e) <-> order_err (last_kind cs) k = None.
Proof.
  split.
  - intros HN. destruct (order_err (last_kind cs) k) as [e|] eqn:E; [|reflexivity]. exfalso. exact (HN e (proj2 (misplaced_iff _ _ _) E)).
  - intros E e HM. apply misplaced_iff in HM. congruence.
Qed.
Lemma misfit_iff xs s x e : Inv xs s -> Ok_so_far (map fst xs) -> order_err (last_kind (map fst xs)) (kind_of x) = None ->
  misfit s x e <-> mismatch (map fst xs) x e.
Proof.
  intros HI [Ho Hl Hn] HO. rewrite <- (inv_order _ _ _ HI) in HO. pose proof (inv_kinds _ _ HI) as Hk. destruct HI as [Hm Hc Hd].
  assert (EO : order_ok (st_module s) (kind_of x) = true) by (rewrite order_ok_err, HO; reflexivity).
  destruct x; try (split; intros HX; inversion HX; fail);
    (rewrite order_ok_iff, Hk in EO; [rename EO into Hlt|rewrite Hk; assumption|discriminate]).
  - assert (Hno : has SK_Code (map fst xs) = false) by (no_kind Hlt).
    assert (HL : lenN (funcs (st_module s)) = N.of_nat (length (the get_function (map fst xs)))).
    { rewrite Hm. cbn [funcs set_funcs]. rewrite Hno. unfold lenN, stubs. rewrite map_length. reflexivity. }
    split; intros HX; inversion HX; subst.
    + rewrite HL. apply mm_code. unfold lenN in *. lia.
    + rewrite <- HL. apply mf_code. unfold lenN in *. lia.
  - assert (HD : forall n, data_count (st_module s) = Some n <-> In (SDataCount n) (map fst xs)).
    { intros n. rewrite <- in_datacount, Hm. cbn. split.
      - destruct (the get_datacount (map fst xs)); [discriminate|]. intros [= ->]. left. reflexivity.
      - intros Hin. rewrite (datacount_unique _ Ho _ Hin). reflexivity. }
    split; intros HX; inversion HX; subst; constructor; try (apply HD); assumption.
Qed.
Lemma beginning_step xs s x n : Inv xs s -> beginning (map fst xs) ->
  (exists s', apply_one (x, n) s = Some s') <-> beginning (map fst xs ++ [x]).
Proof.
  intros HI HB. apply beginning_iff in HB. split.
  - intros [s' Hs]. apply beginning_iff. eapply step_sound; eauto.
  - intros HB'. apply beginning_iff in HB'. eapply step_complete; eauto.
Qed.
Lemma beginning_state xs : beginning (map fst xs) -> exists s, apply_all xs s0 = Some s /\ Inv xs s.
Proof.
  intros HB. apply beginning_iff in HB. destruct (apply_all_complete _ HB) as [s Hs]. exists s. split; [exact Hs|].
  apply apply_all_sound in Hs as [HI _]. exact HI.
Qed.
Lemma state_beginning xs s : apply_all xs s0 = Some s -> Inv xs s /\ beginning (map fst xs).
Proof. intros Hs. apply apply_all_sound in Hs as [HI HO]. split; [exact HI|]. apply beginning_iff. exact HO. Qed.

Section StepErr.
  Context {env : Env} (rest : list byte) (stop : ending) (tl : list atom) (HS : Stops stop tl) (r : list event) (Hr : abs r = map AByte rest ++ tl).
  Context (xs : list (section * N)) (s : st) (HI : Inv xs s) (HB : beginning (map fst xs)).
  Lemma stream_delivers : delivers (abs r) rest stop.
  Proof using HS Hr. rewrite Hr. pose proof (stops_next _ _ HS) as [tl' Hn]. exists tl, tl'. split; [apply bsteps_list|]. rewrite Hn. destruct stop; reflexivity. Qed.
  Lemma custom_short n (c : CustomSection) t : decode_section_custom (mkTake n r) = (Ok c, t) -> t_limit t <> 0%N ->
    Bcustom c rest /\ (lenN rest < n)%N /\ stop = Ends /\ t_limit t = (n - lenN rest)%N.
  Proof using HS Hr.
    pose proof (parses_map_err Cust_DecodeName _ _ (parses_name (R := Take (list event)))) as [S K].
    unfold decode_section_custom. intros Hp Ht. unfold bind at 1 in Hp.
    destruct (map_err Cust_DecodeName decode_name (mkTake n r)) as [[nm|e|pn|] t1] eqn:E1; try discriminate.
    destruct (S _ _ _ E1) as (b1 & Hb1 & HN). unfold bind, map_err in Hp.
    destruct (read_to_end t1) as [[l|e|pn|] t2] eqn:E2; try discriminate. injection Hp as <- <-.
    apply read_to_end_spec in E2 as (b2 & c1 & Hb2 & [(_ & [([= ->] & Hn)|(k & _ & ? & _)])|(_ & ?)]); [|discriminate|discriminate].
    pose proof (bsteps_app _ _ _ _ _ Hb1 Hb2) as Hb. apply bsteps_take_inv in Hb as (H2 & H3 & H4).
    change (t_limit (abs (mkTake n r))) with n in H2, H3. change (t_inner (abs (mkTake n r))) with (abs r) in H4. rewrite Hr in H4.
    apply (stream_bsteps _ _ HS) in H4 as (rest' & Hrest & Hc).
    cbn [next take_machine] in Hn. destruct (N.eqb_spec (t_limit c1) 0) as [E|E].
    - exfalso. injection Hn as Hn. apply Ht. change (t_limit (take_abs t2) = 0%N). rewrite <- Hn. exact E.
    - pose proof (stream_next _ _ rest' HS) as HX. rewrite <- Hc in HX. destruct rest' as [|b' rest'].
      + destruct HX as [tl' HX]. rewrite HX in Hn. rewrite app_nil_r in Hrest. destruct stop; [|discriminate]. cbn [stop_atom] in Hn. injection Hn as Hn _.
        rewrite Hrest. split; [constructor; exact HN|]. split; [lia|]. split; [reflexivity|]. rewrite <- Hn. exact H3.
      + rewrite HX in Hn. discriminate.
  Qed.
  Lemma custom_short_complete n (c : CustomSection) : Bcustom c rest -> (lenN rest < n)%N -> stop = Ends ->
    (exists t, decode_section_custom (mkTake n r) = (Ok c, t) /\ t_limit t = (n - lenN rest)%N) \/ gave_up (fst (decode_section_custom (mkTake n r))).
  Proof using HS Hr.
    pose proof (parses_map_err Cust_DecodeName _ _ (parses_name (R := Take (list event)))) as [S K].
    unfold decode_section_custom. intros HC Hl Hst. remember rest as rest0 eqn:Erest. destruct HC as [nm l b1 HN]. unfold bind at 1 3.
    assert (Hb : bsteps (abs r) (b1 ++ l) tl) by (rewrite Hr; apply bsteps_list).
    assert (Hle : (lenN (b1 ++ l) <= n)%N) by lia. pose proof (bsteps_take _ _ _ n Hle Hb) as Hb'. apply bsteps_app_inv in Hb' as (c1 & Hb1 & Hb2).
    destruct (K (mkTake n r) _ _ _ HN Hb1) as [(t & -> & Ha)|Hg].
    2: { right. destruct (map_err Cust_DecodeName decode_name _) as [[x|e|pn|] t]; cbn in *; auto; contradiction. }
    subst c1. unfold bind, map_err.
    destruct (read_to_end t) as [x t2] eqn:E2. apply read_to_end_spec in E2 as (b2 & c1 & Hb3 & [(_ & Hx)|(_ & ->)]); [|right; exact I]. left.
    assert (HT : exists c', next (mkTake (n - lenN (b1 ++ l)) tl) = (AEof, mkTake (n - lenN (b1 ++ l)) c')).
    { cbn [next take_machine t_limit t_inner]. destruct (N.eqb_spec (n - lenN (b1 ++ l)) 0); [lia|]. subst stop. apply stops_next in HS as [tl' ->]. eexists. reflexivity. }
    destruct HT as [c' HT].
    assert (c1 = mkTake (n - lenN (b1 ++ l)) tl /\ b2 = l) as [-> ->].
    { eapply bsteps_maximal; [exact Hb3| |exact Hb2|]; intros b c2 Hn; [|rewrite HT in Hn; discriminate].
      destruct Hx as [(_ & Hx)|(k & _ & _ & Hx)]; rewrite Hn in Hx; discriminate. }
    rewrite HT in Hx. destruct Hx as [(-> & Hn)|(k & _ & _ & Hn)]; [|discriminate].
    injection Hn as Hn _. exists t2. split; [reflexivity|]. symmetry. exact Hn.
  Qed.
  Lemma step_eq k n : fst (section_step (mkHeader k n) s r) =
    match order_err (last_kind (map fst xs)) k with
    | Some e => Err e
    | None => match decode_section k s (mkTake n r) with
              | (Ok s', t) => if (t_limit t =? 0)%N then (if (lenN (section_headers (st_module s') ++ [mkHeader k n]) <=? alloc_limit)%N then Ok (finish (mkHeader k n) s') else Panic AllocFailure)
                              else if (t_limit t <=? n)%N then Err (DM_SectionSizeMismatch k n (n - t_limit t)%N) else Panic ArithOverflow
              | (Err e, _) => Err e | (Panic p, _) => Panic p | (Stuck, _) => Stuck
              end
    end.
  Proof using HI.
    unfold section_step. cbn [sh_kind sh_size]. unfold bind at 1, with_take. unfold bind at 1. rewrite validate_exact. cbn [sh_kind].
    rewrite (inv_order _ _ _ HI). destruct (order_err (last_kind (map fst xs)) k) as [e1|]; [reflexivity|].
    destruct (decode_section k s (mkTake n r)) as [[s'|e1|pn|] t]; try reflexivity.
    destruct (N.eqb_spec (t_limit t) 0) as [El|El]; cbn [negb].
    { cbv zeta. unfold bind, alloc. change (section_headers (st_module (on_module (fun m => set_headers (section_headers m ++ [mkHeader k n]) m) s'))) with (section_headers (st_module s') ++ [mkHeader k n]).
      destruct (_ <=? alloc_limit)%N; reflexivity. }
    unfold sub_u64, bind. destruct (_ <=? _)%N; reflexivity.
  Qed.
  Lemma step_backward k n e : fst (section_step (mkHeader k n) s r) = Err e -> wrong_section (map fst xs) k n rest stop e.
  Proof.
    rewrite step_eq. destruct (order_err (last_kind (map fst xs)) k) as [e1|] eqn:EO.
    { cbn. intros [= <-]. apply ws_misplaced, misplaced_iff. exact EO. }
    assert (HP : forall e', ~ misplaced (map fst xs) k e') by (apply in_place_iff; exact EO).
    destruct (decode_section k s (mkTake n r)) as [[s'|e1|pn|] t] eqn:Ed; try discriminate.
    - destruct (N.eqb_spec (t_limit t) 0) as [El|El]; [destruct (_ <=? alloc_limit)%N; discriminate|].
      assert (HH : k <> SK_Custom -> exists x q rest', kind_of x = k /\ Bcontents x q /\ apply_section x s = Some s' /\ rest = q ++ rest' /\ (lenN q <= n)%N /\ t_limit t = (n - lenN q)%N).
      { intros Hk. destruct (p_sound _ _ (parses_section (R := Take (list event)) k s Hk) _ _ _ Ed) as (q & Hb & x & Hkx & HC & Ha).
        apply bsteps_take_inv in Hb as (H2 & H3 & H4). change (t_limit (abs (mkTake n r))) with n in H2, H3. change (t_inner (abs (mkTake n r))) with (abs r) in H4.
        change (t_limit (abs t)) with (t_limit t) in H3.
        rewrite Hr in H4. apply (stream_bsteps _ _ HS) in H4 as (rest' & Hrest & Hc). exists x, q, rest'. auto 10. }
      destruct (sk_eqb k SK_Custom) eqn:Ek.
      + apply N.eqb_eq, rank_inj in Ek. subst k. clear HH. cbn [decode_section] in Ed. unfold decode_section, bind, map_err in Ed.
        destruct (decode_section_custom (mkTake n r)) as [[c|e1|pn|] t1] eqn:Ec; try discriminate. injection Ed as _ ->.
        destruct (custom_short _ _ _ Ec El) as (HC & Hl & Hst & Ht). rewrite Ht in *.
        destruct (N.leb_spec (n - lenN rest) n) as [_|]; [|lia]. intros [= <-].
        replace (n - (n - lenN rest))%N with (lenN rest) by lia. eapply ws_custom; eauto.
      + assert (Hk : k <> SK_Custom) by (intros ->; discriminate Ek).
        destruct (HH Hk) as (x & q & rest' & Hkx & HC & Ha & Hrest & Hl & Ht). rewrite Ht in *.
        destruct (N.leb_spec (n - lenN q) n) as [_|]; [|lia]. intros [= <-].
        replace (n - (n - lenN q))%N with (lenN q) by lia. eapply ws_size; eauto; [unfold lenN in *; lia|].
        apply (beginning_step _ s x n HI HB). unfold apply_one. cbn [fst snd]. rewrite order_ok_err, (inv_order _ _ _ HI), Hkx, EO, Ha. eexists. reflexivity.
    - cbn. intros [= <-].
      destruct (section_err k s (mkTake n r) e1) as [He|(x & q & c & Hkx & HC & Hb & HM)]; [rewrite Ed; reflexivity| |].
      + destruct (fenced n rest stop) as [p st] eqn:Ef. eapply ws_contents; [exact HP|exact Ef|]. apply (cerr_fault k (mkTake n r)); [|exact He].
        change (abs (mkTake n r)) with (mkTake n (abs r)). pose proof (delivers_take n _ _ _ stream_delivers) as HD. rewrite Ef in HD. exact HD.
      + apply bsteps_take_inv in Hb as (H2 & H3 & H4). change (t_limit (abs (mkTake n r))) with n in H2. change (t_inner (abs (mkTake n r))) with (abs r) in H4.
        rewrite Hr in H4. apply (stream_bsteps _ _ HS) in H4 as (rest' & Hrest & _).
        eapply ws_mismatch; eauto. subst k. apply beginning_iff in HB. eapply misfit_iff; eauto.
  Qed.
  Lemma step_forward k n e : wrong_section (map fst xs) k n rest stop e ->
    fst (section_step (mkHeader k n) s r) = Err e \/ gave_up (fst (section_step (mkHeader k n) s r)).
  Proof.
    intros HW. rewrite step_eq.
    assert (HD : order_err (last_kind (map fst xs)) k = None -> fst (decode_section k s (mkTake n r)) = Err e \/ gave_up (fst (decode_section k s (mkTake n r))) ->
      fst (section_step (mkHeader k n) s r) = Err e \/ gave_up (fst (section_step (mkHeader k n) s r))).
    { intros EO Hd. rewrite step_eq, EO. destruct (decode_section k s (mkTake n r)) as [[s'|e1|pn|] t]; cbn in Hd |- *; try tauto.
      - destruct Hd; [discriminate|contradiction]. }
    rewrite step_eq in HD.
    destruct HW as [e HM|bs' stop' e HP HC He|x q rest' e HP Hkx HC Hrest Hl HM|x q rest' Hk Hkx HC Hrest Hl HBx|c Hk HC Hl Hst].
    - apply misplaced_iff in HM. rewrite HM. left. reflexivity.
    - apply in_place_iff in HP. apply (HD HP). eapply fault_section; [|exact He].
      change (abs (mkTake n r)) with (mkTake n (abs r)). pose proof (delivers_take n _ _ _ stream_delivers) as HD'. rewrite HC in HD'. exact HD'.
    - apply in_place_iff in HP. apply (HD HP). subst k. eapply misfit_section; [exact HC| |].
      + change (abs (mkTake n r)) with (mkTake n (abs r)). apply bsteps_take; [exact Hl|]. rewrite Hr, Hrest, map_app, <- app_assoc. apply bsteps_list.
      + apply (misfit_iff _ _ _ _ HI); [apply beginning_iff; exact HB|exact HP|exact HM].
    - apply (beginning_step _ s x n HI HB) in HBx as [s' Ha]. unfold apply_one in Ha. cbn [fst snd] in Ha.
      destruct (order_ok (st_module s) (kind_of x)) eqn:EO; [|discriminate]. rewrite order_ok_err, (inv_order _ _ _ HI) in EO.
      destruct (order_err (last_kind (map fst xs)) (kind_of x)) as [e1|] eqn:EO'; [discriminate|]. subst k. rewrite EO'. clear HD.
      destruct (apply_section x s) as [s1|] eqn:Es; [|discriminate].
      edestruct (p_complete _ _ (parses_section (R := Take (list event)) (kind_of x) s Hk) (mkTake n r) s1 q) as [(t & -> & Ht)|Hg].
      + exists x. auto.
      + change (abs (mkTake n r)) with (mkTake n (abs r)). apply bsteps_take; [unfold lenN; lia|]. rewrite Hr, Hrest, map_app, <- app_assoc. apply bsteps_list.
      + left. injection Ht as Ht _. rewrite Ht. destruct (N.eqb_spec (n - lenN q) 0); [unfold lenN in *; lia|].
        destruct (N.leb_spec (n - lenN q) n); [|lia]. f_equal. f_equal. unfold lenN. lia.
      + right. destruct (decode_section (kind_of x) s _) as [[s2|e|pn|] t]; cbn in *; auto; contradiction.
    - subst k. replace (order_err (last_kind (map fst xs)) SK_Custom) with (@None DecodeModuleError) by (unfold order_err; destruct (last_kind _); reflexivity). clear HD.
      unfold decode_section, bind, map_err.
      destruct (custom_short_complete n c HC ltac:(exact Hl) Hst) as [(t & -> & Ht)|Hg].
      + left. cbn. rewrite Ht. destruct (N.eqb_spec (n - lenN rest) 0); [unfold lenN in *; lia|].
        destruct (N.leb_spec (n - lenN rest) n); [|lia]. f_equal. f_equal. unfold lenN. lia.
      + right. destruct (decode_section_custom (mkTake n r)) as [[c1|e|pn|] t]; cbn in *; auto; contradiction.
  Qed.
End StepErr.

(** ** the end of the input *)
Lemma final_iff xs s : Inv xs s -> beginning (map fst xs) -> forall {R} (r : R) e, fst (final_checks s r) = Err e <-> incomplete (map fst xs) e.
Proof.
  intros [Hm Hc Hd] HB R r e. apply beginning_iff in HB as [Ho Hl Hn]. unfold final_checks. cbv zeta. rewrite Hc, Hd, Hm. cbn [funcs data_count datas set_funcs module_of].
  set (cs := map fst xs) in *.
  assert (Hlen : lenN (if has SK_Code cs then merge (the get_function cs) (the get_code cs) else stubs (the get_function cs)) = N.of_nat (length (the get_function cs))).
  { destruct (has SK_Code cs) eqn:Eh; unfold lenN; [rewrite length_merge by (apply Hl; reflexivity); reflexivity|unfold stubs; rewrite map_length; reflexivity]. }
  rewrite Hlen.
  assert (HA : negb (N.of_nat (length (the get_function cs)) =? 0)%N && negb (has SK_Code cs) = true <-> (forall l, ~ In (SCode l) cs) /\ the get_function cs <> []).
  { rewrite Bool.andb_true_iff, !Bool.negb_true_iff, N.eqb_neq. split.
    - intros [H1 H2]. split; [intros l HIn; assert (has SK_Code cs = true) by (apply has_code_iff; eauto); congruence|]. intros E. rewrite E in H1. apply H1. reflexivity.
    - intros [H1 H2]. split; [destruct (the get_function cs); [congruence|discriminate]|]. destruct (has SK_Code cs) eqn:Eh; [|reflexivity].
      apply has_code_iff in Eh as (l & Hin). exfalso. exact (H1 l Hin). }
  destruct (negb _ && negb _) eqn:E1.
  { destruct (proj1 HA eq_refl) as [H1 H2]. cbn. assert (Hne : length (the get_function cs) <> length (the get_code cs)).
    { rewrite (no_code cs). - destruct (the get_function cs); [congruence|discriminate].
      - destruct (has SK_Code cs) eqn:Eh; [|reflexivity]. apply has_code_iff in Eh as (l & Hin). exfalso. exact (H1 l Hin). }
    split.
    - intros [= <-]. apply inc_code; assumption.
    - intros [H3 H4|n H3 H4 H5|ls e' i H3 H4 H5 H6 H7]; [reflexivity|congruence..]. }
  assert (HL : length (the get_function cs) = length (the get_code cs)).
  { destruct (has SK_Code cs) eqn:Eh; [apply Hl; reflexivity|]. rewrite (no_code _ Eh). cbn [negb] in E1. rewrite Bool.andb_true_r in E1.
    apply Bool.negb_false_iff, N.eqb_eq in E1. cbn. lia. }
  assert (HnA : ~ ((forall l, ~ In (SCode l) cs) /\ the get_function cs <> [])) by (intros HX; apply HA in HX; discriminate).
  clear E1 HA.
  destruct (the get_datacount cs) as [|n l] eqn:Edc.
  - cbn [hd_error]. rewrite Bool.andb_true_r. assert (Hno : forall n, ~ In (SDataCount n) cs) by (apply no_datacount; exact Edc).
    destruct (code_mentions (the get_code cs)) eqn:Em; cbn.
    + apply mentions_iff in Em as (ls & e' & i & H1 & H2 & H3). split.
      * intros [= <-]. eapply inc_index; eauto.
      * intros [H4 H5|n H4 H5 H6|? ? ? ? ? ? ? ?]; [exfalso; auto|exfalso; exact (Hno _ H5)|reflexivity].
    + split; [discriminate|]. intros [H4 H5|n H4 H5 H6|ls e' i H4 H5 H6 H7 H8]; [exfalso; auto|exfalso; exact (Hno _ H5)|].
      assert (code_mentions (the get_code cs) = true) by (apply mentions_iff; eauto 6). congruence.
  - assert (Hin : In (SDataCount n) cs) by (apply in_datacount; rewrite Edc; left; reflexivity).
    assert (Hun : forall n', In (SDataCount n') cs -> n' = n).
    { intros n' Hn'. apply in_datacount in Hn'. pose proof (datacount_unique _ Ho _ Hn') as HX. rewrite Edc in HX. congruence. }
    cbn [hd_error]. rewrite Bool.andb_false_r.
    destruct (N.eqb_spec n (lenN (the get_data cs))) as [E|E]; cbn.
    + split; [discriminate|]. intros [H4 H5|n' H4 H5 H6|ls e' i H4 H5 H6 H7 H8]; exfalso; [auto| |exact (H5 _ Hin)].
      rewrite (Hun _ H5) in H6. exact (H6 E).
    + split.
      * intros [= <-]. apply inc_data; assumption.
      * intros [H4 H5|n' H4 H5 H6|ls e' i H4 H5 H6 H7 H8]; [exfalso; auto| |exfalso; exact (H5 _ Hin)]. rewrite (Hun _ H5). reflexivity.
Qed.

(** ** whole inputs *)
Lemma diagnosis_backward env (evs : list event) bs stop e : content evs = (bs, stop) -> fst (@decode_module env _ _ evs) = Err e -> diagnosis bs stop e.
Proof.
  intros Hc Hd. destruct (content_stream _ _ _ Hc) as (tl & Ha & HS).
  assert (HP : forall x, fst (@decode_module env _ _ evs) = Err (DM_ParsePreamble x) -> diagnosis bs stop (DM_ParsePreamble x)).
  { intros x Hx. destruct (Nat.lt_ge_cases (length bs) 8) as [Hl|Hl].
    - pose proof (preamble_short evs bs stop Hc Hl) as Hs. rewrite Hx in Hs. injection Hs as ->. apply dg_short. exact Hl.
    - destruct (preamble_only evs bs stop x Hc Hx) as [HX|HX]; [lia|].
      pose proof (preamble_wrong evs bs stop Hc Hl HX) as Hs. rewrite Hx in Hs. injection Hs as ->. apply dg_preamble; assumption. }
  destruct (decode_module evs) as [y r'] eqn:Em. cbn in Hd. subst y.
  assert (Hsplit : forall w c, bsteps (abs evs) (magic ++ version1 ++ w) c -> exists rest, bs = preamble ++ w ++ rest /\ c = map AByte rest ++ tl).
  { intros w c Hb. change (abs evs) with (events_abs evs) in Hb. rewrite Ha in Hb. apply (stream_bsteps _ _ HS) in Hb as (rest & -> & ->).
    exists rest. rewrite preamble_eq, <- !app_assoc. auto. }
  pose proof (decode_backward _ _ _ Em) as HE. destruct HE as [x r' Hx|xs w s1 r1 e r' Hb Hq Hs He|xs w s1 r1 e r' Hb Hq Hs Hh Hf].
  - apply HP. reflexivity.
  - apply Hsplit in Hb as (rest & Hbs & Hr1). apply state_beginning in Hs as [HI HB].
    inversion He as [x r2 Hx|h r2 e2 r3 Hh Hst|]; subst.
    + assert (Hx' : fst (decode_section_header r1) = Err x) by (rewrite Hx; reflexivity).
      apply (header_errors _ _ _ HS r1 Hr1) in Hx'. destruct Hx' as [k E1 E2 E3|b rest' E1 E2|k rest' e' E1 E2].
      * eapply dg_read; eauto. subst rest. rewrite app_nil_r. reflexivity.
      * eapply dg_id; eauto. subst rest. reflexivity.
      * eapply dg_size; eauto. subst rest. reflexivity.
    + destruct (header_some _ _ _ HS r1 Hr1 _ _ Hh) as (nb & rest' & E1 & HU & Hr2). subst rest.
      eapply dg_section; eauto. destruct h as [k n]. cbn [sh_kind sh_size] in *. eapply (step_backward rest' stop tl HS r2 Hr2); eauto. rewrite Hst. reflexivity.
  - apply Hsplit in Hb as (rest & Hbs & Hr1). apply state_beginning in Hs as [HI HB].
    assert (Hx : fst (decode_section_header r1) = Ok None) by (rewrite Hh; reflexivity). apply (header_none _ _ _ HS r1 Hr1) in Hx as [-> Hst].
    rewrite app_nil_r in Hbs. eapply dg_end; eauto. apply (final_iff _ _ HI HB (R := list event) r'). rewrite Hf. reflexivity.
Qed.

Lemma run_to env (evs : list event) bs stop xs w rest : content evs = (bs, stop) -> bs = preamble ++ w ++ rest ->
  Bseq Bsection xs w -> beginning (map fst xs) ->
  (exists n (r1 : list event) s1 tl, Inv xs s1 /\ abs r1 = map AByte rest ++ tl /\ Stops stop tl /\
     decode_module evs = bind (section_loop n s1) final_checks r1) \/ gave_up (fst (@decode_module env _ _ evs)).
Proof.
  intros Hc -> Hq HB. destruct (content_stream _ _ _ Hc) as (tl & Ha & HS). destruct (beginning_state _ HB) as (s1 & Hs & HI).
  destruct (decode_forward evs xs w (map AByte rest ++ tl) s1) as [(n & r1 & Hr1 & E)|Hg]; auto.
  - change (abs evs) with (events_abs evs). rewrite Ha. replace (preamble ++ w ++ rest) with ((magic ++ version1 ++ w) ++ rest) by (rewrite preamble_eq, <- !app_assoc; reflexivity). rewrite map_app, <- app_assoc. apply bsteps_list.
  - left. exists n, r1, s1, tl. auto.
Qed.
Lemma diagnosis_forward env (evs : list event) bs stop e : content evs = (bs, stop) -> diagnosis bs stop e ->
  fst (@decode_module env _ _ evs) = Err e \/ gave_up (fst (@decode_module env _ _ evs)).
Proof.
  intros Hc HD. destruct HD as [Hl|Hl HN|xs w k Hq HB Hbs Hst Hk|xs w b rest Hq HB Hbs HN|xs w k rest e Hq HB Hbs He|xs w k nb n rest e Hq HB Hbs HU HW|xs w e Hq HB Hbs Hst He].
  - left. eapply preamble_short; eassumption.
  - left. eapply preamble_wrong; eassumption.
  - destruct (run_to env evs bs stop xs w [] Hc) as [(m & r1 & s1 & tl & HI & Hr1 & HS & E)|Hg]; auto; [rewrite app_nil_r; exact Hbs|].
    destruct m as [|m]; [right; rewrite E; exact I|]. left. rewrite E. cbn [section_loop].
    assert (Hx : fst (decode_section_header r1) = Err (Hdr_ReadSectionIdByte k)) by (apply (header_errors _ _ _ HS r1 Hr1); eapply bh_read; eauto).
    unfold bind, map_err. destruct (decode_section_header r1) as [y r2]. cbn in Hx. subst y. reflexivity.
  - destruct (run_to env evs bs stop xs w (b :: rest) Hc) as [(m & r1 & s1 & tl & HI & Hr1 & HS & E)|Hg]; auto.
    destruct m as [|m]; [right; rewrite E; exact I|]. left. rewrite E. cbn [section_loop].
    assert (Hx : fst (decode_section_header r1) = Err (Hdr_InvalidSectionId (InvalidSectionId b))) by (apply (header_errors _ _ _ HS r1 Hr1); eapply bh_id; eauto).
    unfold bind, map_err. destruct (decode_section_header r1) as [y r2]. cbn in Hx. subst y. reflexivity.
  - destruct (run_to env evs bs stop xs w (id_of k :: rest) Hc) as [(m & r1 & s1 & tl & HI & Hr1 & HS & E)|Hg]; auto.
    destruct m as [|m]; [right; rewrite E; exact I|]. left. rewrite E. cbn [section_loop].
    assert (Hx : fst (decode_section_header r1) = Err (Hdr_DecodeSectionSize e)) by (apply (header_errors _ _ _ HS r1 Hr1); eapply bh_size; eauto).
    unfold bind, map_err. destruct (decode_section_header r1) as [y r2]. cbn in Hx. subst y. reflexivity.
  - destruct (run_to env evs bs stop xs w (id_of k :: nb ++ rest) Hc) as [(m & r1 & s1 & tl & HI & Hr1 & HS & E)|Hg]; auto.
    destruct m as [|m]; [right; rewrite E; exact I|]. rewrite E. cbn [section_loop].
    destruct (header_complete r1 k n nb (map AByte rest ++ tl) HU) as [(r2 & Hh & Hr2)|Hg].
    + rewrite Hr1, app_comm_cons, map_app, <- app_assoc. apply bsteps_list.
    + unfold bind, map_err. rewrite Hh.
      destruct (step_forward rest stop tl HS r2 Hr2 xs s1 HI HB k n e HW) as [Hs|Hg].
      * left. destruct (section_step (mkHeader k n) s1 r2) as [y r3]. cbn in Hs. subst y. reflexivity.
      * right. destruct (section_step (mkHeader k n) s1 r2) as [[s'|e'|p|] r3]; cbn in *; auto; contradiction.
    + right. apply gave_up_bind, gave_up_bind, gave_up_map_err. exact Hg.
  - destruct (run_to env evs bs stop xs w [] Hc) as [(m & r1 & s1 & tl & HI & Hr1 & HS & E)|Hg]; auto; [rewrite app_nil_r; exact Hbs|].
    destruct m as [|m]; [right; rewrite E; exact I|]. left. rewrite E. cbn [section_loop].
    assert (Hx : fst (decode_section_header r1) = Ok None) by (apply (header_none _ _ _ HS r1 Hr1); auto).
    unfold bind, map_err. destruct (decode_section_header r1) as [y r2]. cbn in Hx. subst y. cbn. apply (final_iff _ _ HI HB (R := list event) r2). exact He.
Qed.
Theorem diagnosis_exact env (evs : list event) bs stop e : sufficient env (length bs) -> content evs = (bs, stop) ->
  fst (@decode_module env _ _ evs) = Err e <-> diagnosis bs stop e.
Proof.
  intros HS Hc. split; [apply diagnosis_backward; exact Hc|]. intros HD. destruct (diagnosis_forward _ _ _ _ _ Hc HD) as [E|Hg]; [exact E|].
  exfalso. destruct (decode_decided evs bs stop Hc HS) as [[m E]|[e' E]]; rewrite E in Hg; exact Hg.
Qed.
