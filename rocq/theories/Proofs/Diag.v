(** Exact diagnosis of module-level errors. *)
From Verif Require Import Model.Prelude Model.Io Model.Ast Model.Errors Model.Integer Model.Helpers Model.Types Model.Instr Model.Sections Model.Module.
From Verif Require Import Proofs.Machine Proofs.Reads Proofs.Parses Proofs.Safe Proofs.SafeWalk Proofs.Leb Proofs.GHelpers Proofs.GSections Proofs.GModule Proofs.GAssemble Proofs.Sim Proofs.Final.
From Verif Require Import Spec.Lang Spec.Types Spec.Instr Spec.Module Spec.Streams Spec.Diagnosis.
From Coq Require Import Lia ZifyBool ZifyNat ZifyN Sorting.Sorted.

Lemma precedes_iff k k' : precedes k k' <-> (k <> SK_Custom /\ k' <> SK_Custom /\ klt k k').
Proof.
  split.
  - intros (l1 & l2 & l3 & Ho). pose proof order_sorted as HS. rewrite Ho in HS.
    apply ksorted_app in HS as (_ & HS & _). inversion HS as [|? ? _ HF]; subst. rewrite Forall_forall in HF.
    assert (Hin : forall j, j <> SK_Custom \/ j = SK_Custom) by (intros []; (right; reflexivity) || (left; discriminate)).
    assert (Hnc : ~ In SK_Custom section_order) by (cbn; intuition discriminate).
    split; [intros ->; apply Hnc; rewrite Ho; apply in_elt|]. split.
    + intros ->; apply Hnc. rewrite Ho. apply in_or_app. right. right. apply in_elt.
    + apply HF. apply in_elt.
  - intros (Hk & Hk' & Hlt).
    assert (Hs : subseq [k; k'] section_order).
    { apply sorted_subseq; [exact order_sorted|repeat constructor; assumption|].
      intros j [<-|[<-|[]]]; apply order_complete; assumption. }
    revert Hs. clear. unfold precedes. generalize section_order as L. intros L Hs.
    remember [k; k'] as l eqn:El. induction Hs as [|x l1 l2 Hs IH|x l1 l2 Hs IH]; [discriminate|..].
    + destruct (IH El) as (a & b & c & ->). exists (x :: a), b, c. reflexivity.
    + injection El as -> ->. clear IH. remember [k'] as l eqn:El. 
      assert (exists b c, l2 = b ++ k' :: c) as (b & c & ->).
      { revert El. induction Hs as [|y l1 l2 Hs IH|y l1 l2 Hs IH]; intros El; [discriminate|..].
        - destruct (IH El) as (b & c & ->). exists (y :: b), c. reflexivity.
        - injection El as -> ->. exists [], l2. reflexivity. }
      exists [], b, c. reflexivity.
Qed.

Lemma has_code_iff cs : has SK_Code cs = true <-> exists l, In (SCode l) cs.
Proof.
  unfold has. rewrite existsb_exists. split.
  - intros (x & Hx & Ek). destruct x; try discriminate. eauto.
  - intros (l & Hl). exists (SCode l). auto.
Qed.
Lemma has_data_iff cs : has SK_Data cs = true <-> exists l, In (SData l) cs.
Proof.
  unfold has. rewrite existsb_exists. split.
  - intros (x & Hx & Ek). destruct x; try discriminate. eauto.
  - intros (l & Hl). exists (SData l). auto.
Qed.
Lemma the_unique {A} (f : section -> list A) k cs x : (forall y, kind_of y <> k -> f y = []) -> k <> SK_Custom ->
  ksorted (kinds cs) -> In x cs -> kind_of x = k -> the f cs = f x.
Proof.
  intros Hf Hk HS Hin Ek. apply in_split in Hin as (a & b & ->). subst k.
  change (x :: b) with ([x] ++ b) in *. rewrite !kinds_app in HS. apply ksorted_app in HS as (_ & HS & Hab). apply ksorted_app in HS as (_ & _ & Hb).
  assert (Hx : kinds [x] = [kind_of x]) by (destruct x; cbn in *; congruence).
  rewrite !the_app, the_one, (the_nil f (kind_of x) a), (the_nil f (kind_of x) b), app_nil_r; auto.
  - intros HI. specialize (Hb (kind_of x) (kind_of x)). rewrite Hx in Hb. specialize (Hb (or_introl eq_refl) HI). red in Hb. lia.
  - intros HI. specialize (Hab (kind_of x) (kind_of x) HI). rewrite Hx in Hab. specialize (Hab ltac:(cbn; auto)). red in Hab. lia.
Qed.
Lemma in_datacount n cs : In n (the get_datacount cs) <-> In (SDataCount n) cs.
Proof.
  unfold the. rewrite in_flat_map. split.
  - intros (x & Hx & Hn). destruct x; cbn in Hn; try contradiction. destruct Hn as [->|[]]. assumption.
  - intros HI. exists (SDataCount n). cbn. auto.
Qed.
Lemma no_datacount cs : the get_datacount cs = [] <-> forall n, ~ In (SDataCount n) cs.
Proof.
  split.
  - intros E n HI. apply in_datacount in HI. rewrite E in HI. contradiction.
  - intros HN. destruct (the get_datacount cs) as [|n l] eqn:E; [reflexivity|]. exfalso. apply (HN n), in_datacount. rewrite E. left. reflexivity.
Qed.
Lemma beginning_iff cs : beginning cs <-> Ok_so_far cs.
Proof.
  split.
  - intros [Ho Hc Hd]. apply order_iff in Ho. constructor; [assumption| |].
    + intros Hh. apply has_code_iff in Hh as (l & Hl). rewrite <- (Hc _ Hl).
      rewrite (the_unique get_code SK_Code cs (SCode l)); try assumption; try reflexivity; try discriminate; try (intros [] ?; cbn in *; congruence).
    + intros Hh n Hn. apply has_data_iff in Hh as (l & Hl). apply in_datacount in Hn. rewrite (Hd _ _ Hl Hn). unfold lenN.
      rewrite (the_unique get_data SK_Data cs (SData l)); try assumption; try reflexivity; try discriminate; try (intros [] ?; cbn in *; congruence).
  - intros [Ho Hc Hd]. constructor.
    + apply order_iff. assumption.
    + intros l Hl. rewrite Hc by (apply has_code_iff; eauto).
      rewrite (the_unique get_code SK_Code cs (SCode l)); try assumption; try reflexivity; try discriminate; try (intros [] ?; cbn in *; congruence).
    + intros l n Hl Hn. rewrite (Hd ltac:(apply has_data_iff; eauto) n) by (apply in_datacount; assumption). unfold lenN.
      rewrite (the_unique get_data SK_Data cs (SData l)); try assumption; try reflexivity; try discriminate; try (intros [] ?; cbn in *; congruence).
Qed.
Lemma last_kind_opt cs : last_kind cs = last_opt (kinds cs).
Proof. unfold last_kind, last_opt, kinds. destruct (rev _); reflexivity. Qed.

(** ** running the section loop over well-formed sections *)
Definition order_err (prev : option SectionKind) (k : SectionKind) : option DecodeModuleError :=
  match prev with
  | None => None
  | Some p => if sk_eqb k SK_Custom then None
              else if sk_ltb k p then Some (DM_SectionOutOfOrder k p)
              else if sk_eqb k p then Some (DM_DuplicateSection k) else None
  end.
Lemma validate_exact {R} (m : Module_) h (r : R) :
  validate_section_kind_expected m h r =
  (match order_err (last_opt (parsed_section_kinds m)) (sh_kind h) with None => Ok tt | Some e => Err e end, r).
Proof.
  unfold validate_section_kind_expected, order_err. destruct (last_opt _); [|reflexivity]. cbv zeta.
  destruct (sk_eqb (sh_kind h) SK_Custom); [reflexivity|]. destruct (sk_ltb _ _); [reflexivity|]. destruct (sk_eqb _ _); reflexivity.
Qed.
Lemma last_kind_not_custom cs p : last_kind cs = Some p -> p <> SK_Custom.
Proof.
  rewrite last_kind_opt. unfold last_opt. intros Hl Hp. destruct (rev (kinds cs)) as [|q l] eqn:Er; [discriminate|]. injection Hl as ->.
  eapply (kinds_not_custom cs p); [|exact Hp]. apply in_rev. rewrite Er. left. reflexivity.
Qed.
Lemma misplaced_iff cs k e : misplaced cs k e <-> order_err (last_kind cs) k = Some e.
Proof.
  unfold order_err. split.
  - intros [p Hl Hp|Hl]; rewrite Hl.
    + apply precedes_iff in Hp as (Hk & _ & Hlt). unfold sk_eqb, sk_ltb. red in Hlt.
      destruct (N.eqb_spec (sk_rank k) (sk_rank SK_Custom)) as [Ek|_]; [apply rank_inj in Ek; contradiction|].
      destruct (N.ltb_spec (sk_rank k) (sk_rank p)); [reflexivity|lia].
    + apply last_kind_not_custom in Hl. unfold sk_eqb, sk_ltb. rewrite N.ltb_irrefl, N.eqb_refl.
      destruct (N.eqb_spec (sk_rank k) (sk_rank SK_Custom)) as [Ek|_]; [apply rank_inj in Ek; contradiction|reflexivity].
  - destruct (last_kind cs) as [p|] eqn:El; [|discriminate]. pose proof (last_kind_not_custom _ _ El) as Hp. unfold sk_eqb, sk_ltb.
    destruct (N.eqb_spec (sk_rank k) (sk_rank SK_Custom)) as [Ek|Ek]; [discriminate|].
    destruct (N.ltb_spec (sk_rank k) (sk_rank p)) as [Hlt|_].
    + intros [= <-]. apply mis_order; [assumption|]. apply precedes_iff. split; [congruence|]. split; [assumption|exact Hlt].
    + destruct (N.eqb_spec (sk_rank k) (sk_rank p)) as [Ekp|]; [|discriminate]. apply rank_inj in Ekp as ->. intros [= <-]. apply mis_twice. assumption.
Qed.
Lemma order_ok_err m k : order_ok m k = match order_err (last_opt (parsed_section_kinds m)) k with None => true | Some _ => false end.
Proof.
  unfold order_ok, order_err. destruct (last_opt _) as [p|]; [|reflexivity]. destruct (sk_eqb k SK_Custom); [reflexivity|]. cbn. unfold sk_ltb, sk_eqb.
  destruct (N.ltb_spec (sk_rank p) (sk_rank k)), (N.ltb_spec (sk_rank k) (sk_rank p)), (N.eqb_spec (sk_rank k) (sk_rank p)); try reflexivity; lia.
Qed.

Section Run.
  Context {env : Env} {R C : Type} `{Lawful R C}.
  (** a section header *)
  Lemma header_complete (r : R) k n nb c1 : Bu32 n nb -> bsteps (abs r) (id_of k :: nb) c1 ->
    (exists r1, decode_section_header r = (Ok (Some (mkHeader k n)), r1) /\ abs r1 = c1) \/ gave_up (fst (decode_section_header r)).
  Proof.
    intros HU Hb. apply bsteps_cons_inv in Hb as (c3 & Hn & Hb). unfold decode_section_header, read_section_id, bind, map_err.
    destruct (read_byte r) as [y r1] eqn:Eb. pose proof (read_byte_spec _ _ _ Eb) as Hspec. rewrite Hn in Hspec. injection Hspec as -> <-.
    rewrite (proj2 (section_marker _ _) eq_refl).
    destruct (p_complete _ _ parses_u32 _ _ _ _ HU Hb) as [(r2 & -> & <-)|Hg].
    - left. eexists. split; reflexivity.
    - right. destruct (decode_u32 r1) as [[a|e|pn|] r2]; cbn in *; auto; contradiction.
  Qed.
  Lemma header_sound (r : R) h r1 : decode_section_header r = (Ok (Some h), r1) ->
    exists nb, Bu32 (sh_size h) nb /\ bsteps (abs r) (id_of (sh_kind h) :: nb) (abs r1).
  Proof.
    unfold decode_section_header, read_section_id, bind, map_err.
    destruct (read_byte r) as [y r2] eqn:Eb. pose proof (read_byte_spec _ _ _ Eb) as Hspec.
    destruct y as [id|[]|pn|]; try discriminate.
    destruct (section_from_marker id) as [kd|] eqn:Em; [|discriminate]. apply section_marker in Em. subst id.
    destruct (decode_u32 r2) as [[sz|e|pn|] r3] eqn:Eu; try discriminate. intros [= <- <-].
    destruct (p_sound _ _ parses_u32 _ _ _ Eu) as (b1 & Hb1 & HU).
    destruct (next (abs r)) as [[b| |k] c2] eqn:En; try discriminate. injection Hspec as <- <-.
    exists b1. split; [exact HU|]. econstructor; [exact En|exact Hb1].
  Qed.

  Lemma loop_forward n : forall s (r : R) xs bs c1 s1,
    Bseq Bsection xs bs -> apply_all xs s = Some s1 -> bsteps (abs r) bs c1 ->
    (exists n' r1, abs r1 = c1 /\ section_loop n s r = section_loop n' s1 r1) \/ gave_up (fst (section_loop n s r)).
  Proof.
    induction n as [|n IH]; intros s r xs bs c1 s1 Hq Hall Hb; [right; exact I|].
    inversion Hq as [|[x sz] xs' b1 b2 Hx Hq']; subst.
    { apply bsteps_nil_inv in Hb as ->. injection Hall as <-. left. exists (S n), r. auto. }
    inversion Hx as [? b3 b4 HU HC]; subst. cbn [app] in Hb. rewrite <- !app_assoc, app_comm_cons in Hb.
    apply bsteps_app_inv in Hb as (c3 & Hb3 & Hb). apply bsteps_app_inv in Hb as (c4 & Hb4 & Hb).
    cbn [apply_all] in Hall. destruct (apply_one _ s) as [s2|] eqn:Ea; [|discriminate]. cbn [section_loop].
    destruct (header_complete r _ _ _ _ HU Hb3) as [(r1 & Eh & <-)|Hg].
    2: { right. apply gave_up_bind, gave_up_map_err. exact Hg. }
    unfold bind at 1 3, map_err. rewrite Eh.
    edestruct (p_complete _ _ (parses_section_step (mkHeader (kind_of x) (N.of_nat (length b4))) s) r1 s2 b4 c4) as [(r2 & Es & <-)|Hg]; [|exact Hb4| |].
    - exists x. cbn. auto.
    - unfold bind. rewrite Es. eapply IH; eauto.
    - right. apply gave_up_bind. exact Hg.
  Qed.
  (** how the loop ends when it does not succeed, and when it does *)
  Inductive loop_end (s : st) (r : R) : res DecodeModuleError st -> R -> Prop :=
  | le_header e r' : decode_section_header r = (Err e, r') -> loop_end s r (Err (DM_DecodeSectionHeader e)) r'
  | le_section h r1 e r' : decode_section_header r = (Ok (Some h), r1) -> section_step h s r1 = (Err e, r') -> loop_end s r (Err e) r'
  | le_done r' : decode_section_header r = (Ok None, r') -> loop_end s r (Ok s) r'.
  Lemma loop_backward n : forall s (r : R) x r', section_loop n s r = (x, r') -> (exists e, x = Err e) \/ (exists s', x = Ok s') ->
    exists xs bs s1 r1, bsteps (abs r) bs (abs r1) /\ Bseq Bsection xs bs /\ apply_all xs s = Some s1 /\ loop_end s1 r1 x r'.
  Proof.
    induction n as [|n IH]; intros s r x r' Hr Hx; [injection Hr as <- <-; destruct Hx as [[? ?]|[? ?]]; discriminate|]. cbn [section_loop] in Hr.
    unfold bind at 1, map_err in Hr. destruct (decode_section_header r) as [[[h|]|e|pn|] r1] eqn:Eh.
    - unfold bind in Hr. destruct (section_step h s r1) as [[s1|e|pn|] r2] eqn:Es.
      + destruct (IH _ _ _ _ Hr Hx) as (xs & bs & s2 & r3 & Hb & Hq & Hall & He).
        destruct (header_sound _ _ _ Eh) as (nb & HU & Hh).
        destruct (p_sound _ _ (parses_section_step _ _) _ _ _ Es) as (b2 & Hb2 & y & Hk & Hsz & HC & Ha).
        exists ((y, sh_size h) :: xs), ((id_of (sh_kind h) :: nb ++ b2) ++ bs), s2, r3. split.
        { rewrite app_comm_cons. eapply bsteps_app; [|exact Hb]. eapply bsteps_app; [exact Hh|exact Hb2]. }
        split. { constructor; [|exact Hq]. rewrite Hsz in *. rewrite <- Hk. constructor; assumption. }
        split; [cbn; rewrite Ha; exact Hall|exact He].
      + injection Hr as <- <-. exists [], [], s, r. split; [constructor|]. split; [constructor|]. split; [reflexivity|]. econstructor; eassumption.
      + injection Hr as <- <-. destruct Hx as [[? ?]|[? ?]]; discriminate.
      + injection Hr as <- <-. destruct Hx as [[? ?]|[? ?]]; discriminate.
    - injection Hr as <- <-. exists [], [], s, r. split; [constructor|]. split; [constructor|]. split; [reflexivity|]. econstructor; eassumption.
    - injection Hr as <- <-. exists [], [], s, r. split; [constructor|]. split; [constructor|]. split; [reflexivity|]. econstructor; eassumption.
    - injection Hr as <- <-. destruct Hx as [[? ?]|[? ?]]; discriminate.
    - injection Hr as <- <-. destruct Hx as [[? ?]|[? ?]]; discriminate.
  Qed.
  Definition s0 : st := mkSt default_module false false.
  Lemma decode_forward (r : R) xs bs c1 s1 :
    bsteps (abs r) (magic ++ version1 ++ bs) c1 -> Bseq Bsection xs bs -> apply_all xs s0 = Some s1 ->
    (exists n r1, abs r1 = c1 /\ decode_module r = bind (section_loop n s1) final_checks r1) \/ gave_up (fst (decode_module r)).
  Proof.
    intros Hb Hq Ha. rewrite app_assoc in Hb. apply bsteps_app_inv in Hb as (c0 & Hb0 & Hb).
    destruct (p_complete _ _ (parses_map_err DM_ParsePreamble _ _ parses_preamble) r tt _ _ eq_refl Hb0) as [(r1 & E1 & <-)|Hg].
    2: { right. unfold decode_module. apply gave_up_bind. exact Hg. }
    assert (Ed : decode_module r = bind (section_loop' s0) final_checks r1) by (unfold decode_module, bind at 1; rewrite E1; reflexivity).
    rewrite Ed. unfold section_loop'.
    destruct (loop_forward (S (budget r1)) _ _ _ _ _ _ Hq Ha Hb) as [(n & r2 & Hc & E2)|Hg].
    - left. exists n, r2. split; [exact Hc|]. unfold bind. rewrite E2. reflexivity.
    - right. apply gave_up_bind. exact Hg.
  Qed.
  Inductive decode_end (r : R) : DecodeModuleError -> R -> Prop :=
  | de_preamble e r' : parse_preamble r = (Err e, r') -> decode_end r (DM_ParsePreamble e) r'
  | de_loop xs bs s1 r1 e r' : bsteps (abs r) (magic ++ version1 ++ bs) (abs r1) -> Bseq Bsection xs bs -> apply_all xs s0 = Some s1 ->
      loop_end s1 r1 (Err e) r' -> decode_end r e r'
  | de_final xs bs s1 r1 e r' : bsteps (abs r) (magic ++ version1 ++ bs) (abs r1) -> Bseq Bsection xs bs -> apply_all xs s0 = Some s1 ->
      decode_section_header r1 = (Ok None, r') -> final_checks s1 r' = (Err e, r') -> decode_end r e r'.
  Lemma final_same s (r : R) : snd (final_checks s r) = r.
  Proof.
    unfold final_checks. cbv zeta. destruct (negb _ && negb _); [reflexivity|].
    destruct (match data_count _ with Some _ => _ | None => _ end); [reflexivity|]. destruct (st_data_idx s && _); reflexivity.
  Qed.
  Lemma decode_backward (r : R) e r' : decode_module r = (Err e, r') -> decode_end r e r'.
  Proof.
    unfold decode_module. unfold bind at 1. intros Hr. unfold map_err in Hr.
    destruct (parse_preamble r) as [[[]|e1|pn|] r1] eqn:E1; try discriminate.
    2: { injection Hr as <- <-. constructor. assumption. }
    destruct (p_sound _ _ parses_preamble _ _ _ E1) as (b0 & Hb0 & ->).
    unfold bind, section_loop' in Hr. destruct (section_loop _ _ r1) as [[s|e1|pn|] r2] eqn:E2; try discriminate.
    - destruct (loop_backward _ _ _ _ _ E2) as (xs & bs & s1 & r3 & Hb & Hq & Ha & He); [eauto|]. inversion He; subst.
      assert (Hrr : r' = r2).
      { pose proof (final_same s r2) as HF. rewrite Hr in HF. exact HF. }
      subst r'. eapply de_final; eauto. rewrite app_assoc. eapply bsteps_app; eassumption.
    - injection Hr as <- <-. destruct (loop_backward _ _ _ _ _ E2) as (xs & bs & s1 & r3 & Hb & Hq & Ha & He); [eauto|].
      eapply de_loop; eauto. rewrite app_assoc. eapply bsteps_app; eassumption.
  Qed.
End Run.
