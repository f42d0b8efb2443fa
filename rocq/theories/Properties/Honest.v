(** C69: an error does not contradict itself: what a message says was found is
    not among what it says was expected, and it names all that would do. *)
From Verif Require Import Model.Prelude Model.Io Model.Ast Model.Errors Model.Display Model.Integer Model.Helpers Model.Types Model.Instr Model.Sections Model.Module.
From Verif Require Import Spec.Lang Spec.Types Spec.Instr Spec.Module Spec.Streams Spec.Leb Spec.Layout Spec.Faults Spec.Diagnosis Spec.Honest.
From Verif Require Import Proofs.Machine Proofs.Safe Proofs.Parses Proofs.SafeWalk Proofs.GSections Proofs.Final Proofs.Components Proofs.Blames Proofs.FSections Proofs.Unamb Proofs.Reports Proofs.Decimal Proofs.Honest Proofs.HonestModule.
From Verif Require Import Properties.Components Properties.Samples Properties.Modules Properties.Diagnosis Properties.Faults.
From Coq Require Import Bool String Ascii Lia.
Local Open Scope string_scope.

(** ** What was found is not among what was expected *)

(** whatever the input and the resources, no text of a reported error, or of an
    error it contains, names what was found among what was expected *)
Theorem C69_consistent env (evs : list event) e : fst (@decode_module env _ _ evs) = Err e -> Forall honest (levels (n_module e)).
Proof. destruct (content evs) as [bs stop] eqn:Hc. intros He. exact (consistent bs stop e (C50_sound env evs bs stop e Hc He)). Qed.

(** ** What was expected is all that would do *)

(** After the bytes [pre], the decoder [p] refuses a byte [b] by the error
    [invalid b] exactly if that error - as said of whatever byte [got] - does
    not name [b] among what it expects. *)
Definition names_all {E A} (before : list byte -> Prop) (p : Env -> list event -> res E A * list event) (invalid : byte -> E) (n : E -> node) (after : list byte -> Prop) : Prop :=
  forall env stop pre got b rest, stop <> Fails Interrupted -> sufficient env (List.length (pre ++ b :: rest)) -> before pre -> after rest ->
    (fst (p env (byte_by_byte (pre ++ b :: rest) stop)) = Err (invalid b) <-> ~ lists (n (invalid got)) (Byte.to_N b)).

Lemma reported {E A} (p : Env -> list event -> res E A * list event) F env bs stop e : reports p F -> stop <> Fails Interrupted -> sufficient env (List.length bs) ->
  fst (p env (byte_by_byte bs stop)) = Err e <-> F bs stop e.
Proof.
  intros [RS RC] Hst Hs. split.
  - intros He. apply (RS env (byte_by_byte bs stop) bs stop e (snd (p env (byte_by_byte bs stop)))); [apply content_plain; exact Hst|]. rewrite <- He. apply surjective_pairing.
  - intros HF. destruct (RC env bs stop e Hst Hs HF) as [r ->]. reflexivity.
Qed.
Definition listed (pre : string) (n : N) : bool := existsb (fun w => match number w with Some m => N.eqb m n | None => false end) (words pre).
Lemma listed_ok pre n : listed pre n = true <-> exists w, In w (words pre) /\ number w = Some n.
Proof.
  unfold listed. rewrite existsb_exists. split; intros (w & Hw & Hn); exists w; (split; [exact Hw|]).
  - destruct (number w); [|discriminate Hn]. apply N.eqb_eq in Hn as ->. reflexivity.
  - rewrite Hn. apply N.eqb_refl.
Qed.
Lemma lists_text nd pre x b : levels nd = [pre ++ "; got " ++ x] -> lacks ";" pre = true -> lacks ";" x = true -> lists nd b <-> listed pre b = true.
Proof.
  intros El Hp Hx. rewrite listed_ok. split.
  - intros (said & got & w & Hi & Hw & Hn). rewrite El in Hi. destruct Hi as [E|[]]. exists w. split; [|exact Hn].
    destruct (skip_first ";" pre ("; got " ++ x) said (" got " ++ got) Hp E) as (s2 & -> & E2). destruct s2 as [|c s2]; [rewrite str_app_nil in Hw; exact Hw|].
    exfalso. assert (Eq : " got " ++ x = s2 ++ String ";" (" got " ++ got)) by exact (f_equal (fun s => match s with String _ s => s | "" => "" end) E2).
    apply (f_equal (lacks ";")) in Eq. rewrite !lacks_app, Hx in Eq. cbn [lacks] in Eq. rewrite Ascii.eqb_refl, andb_false_r in Eq. discriminate Eq.
  - intros (w & Hw & Hn). exists pre, x, w. rewrite El. split; [left; reflexivity|auto].
Qed.
Lemma after_cut {A E} (X : lang A) (K : A -> faulty E) v pre rest stop e :
  (forall a w a' w' r r', (w ++ r = w' ++ r')%list -> X a w -> X a' w' -> a = a' /\ w = w') -> X v pre -> after_ X K (pre ++ rest)%list stop e <-> K v rest stop e.
Proof.
  intros HU HX. split.
  - intros (a & pre' & rest' & E1 & HX' & HK). destruct (HU _ _ _ _ _ _ E1 HX HX') as [<- <-]. apply app_inv_head in E1. subst rest'. exact HK.
  - intros HK. exists v, pre, rest. auto.
Qed.
Ltac here := intros env stop pre got b rest Hst Hs Hpre Hrest.
(* an error of another kind *)
Ltac never HF := lazymatch type of HF with
  | nothing _ _ _ => destruct HF
  | at_ _ _ _ _ _ => destruct HF as (? & _ & HF); discriminate HF
  | field _ _ _ _ _ _ _ => destruct HF as [HF|(? & ? & ? & _ & _ & HF)]; [destruct HF as (? & _ & HF); discriminate HF|cbv beta in HF; never HF]
  end.
(* refused or not, byte by byte *)
Ltac bytewise F := clear; match goal with b : byte |- _ => destruct b end;
  (match goal with |- _ <-> listed ?s ?n <> true => let r := eval vm_compute in (listed s n) in change (listed s n) with r end);
  cbn [app]; unfold F, byte_, peek;
  lazymatch goal with
  | |- _ <-> false <> true => split; [discriminate|reflexivity]
  | |- _ <-> _ => let HF := fresh in split; [intros HF; exfalso; never HF|intros HF; destruct (HF eq_refl)] end.
Theorem C69_limits : names_all (eq []) (fun _ => parse_limits) Lim_UnexpectedFlagByte n_limits (fun _ => True).
Proof.
  here. subst pre. rewrite (reported _ _ _ _ _ _ (proj1 C52_limits) Hst Hs), (lists_text _ "unexpected Limits flag byte: expected 0x00, 0x01, 0x04 or 0x05" (hexb got)) by (reflexivity || apply semi_hexb).
  bytewise Flimits.
Qed.
Theorem C69_comptype : names_all (eq []) (fun env => decode_comptype) CT_InvalidMarkerByte n_comptype (fun _ => True).
Proof.
  here. subst pre. rewrite (reported _ _ _ _ _ _ (proj1 C52_comptype) Hst Hs), (lists_text _ "unexpected CompType marker byte: expected 0x5E, 0x5F or 0x60" (hexb got)) by (reflexivity || apply semi_hexb).
  bytewise Fcomptype.
Qed.
Theorem C69_tagtype : names_all (eq []) (fun _ => decode_tagtype) Tag_InvalidMarkerByte n_tagtype (fun _ => True).
Proof.
  here. subst pre. rewrite (reported _ _ _ _ _ _ (proj1 C52_tagtype) Hst Hs), (lists_text _ "unexpected TagType marker byte: expected 0x00" (hexb got)) by (reflexivity || apply semi_hexb).
  bytewise Ftagtype.
Qed.
Theorem C69_externtype : names_all (eq []) (fun _ => decode_externtype) Ext_InvalidMarkerByte n_externtype (fun _ => True).
Proof.
  here. subst pre. rewrite (reported _ _ _ _ _ _ (proj1 C52_externtype) Hst Hs), (lists_text _ "unexpected ExternType marker byte: expected 0x00, 0x01, 0x02, 0x03 or 0x04" (hexb got)) by (reflexivity || apply semi_hexb).
  bytewise Fexterntype.
Qed.
Theorem C69_catch : names_all (eq []) (fun _ => decode_catch) Catch_InvalidMarkerByte n_catch (fun _ => True).
Proof.
  here. subst pre. rewrite (reported _ _ _ _ _ _ (proj1 C52_catch) Hst Hs), (lists_text _ "invalid marker byte: expected 0x00, 0x01, 0x02 or 0x03" (hexb got)) by (reflexivity || apply semi_hexb).
  bytewise Fcatch.
Qed.
Lemma reports_elemkind : reports (fun _ => parse_elemkind) Felemkind.
Proof. eapply reports_of; intros env; [apply blames_elemkind|apply safe_elemkind]. Qed.
Theorem C69_elemkind : names_all (eq []) (fun _ => parse_elemkind) EK_InvalidElemKind n_elemkind (fun _ => True).
Proof.
  here. subst pre. rewrite (reported _ _ _ _ _ _ reports_elemkind Hst Hs), (lists_text _ "expected byte 0x00" (hexb got)) by (reflexivity || apply semi_hexb).
  bytewise Felemkind.
Qed.
(** after the byte 0x40 *)
Theorem C69_table : names_all (eq [x40]) (fun env => decode_table) Tbl_UnexpectedMarkerByte n_table (fun _ => True).
Proof.
  here. subst pre. rewrite (reported _ _ _ _ _ _ (proj1 C52_table) Hst Hs), (lists_text _ "unexpected marker byte: expected 0x00" (hexb got)) by (reflexivity || apply semi_hexb).
  bytewise Ftable.
Qed.
(** after a value type, or a storage type *)
Lemma unique_of {E A} (p : Env -> list byte -> res E A * list byte) G : decodes p G ->
  forall a w a' w' r r', (w ++ r = w' ++ r')%list -> G a w -> G a' w' -> a = a' /\ w = w'.
Proof. intros D a w a' w' r r' Eq H1 H2. exact (decodes_prefix_free p G D _ _ _ _ _ _ Eq H1 H2). Qed.
Lemma after_field {A E E'} (f : E -> E') F (X : lang A) (K : A -> faulty E') v pre rest stop e :
  (forall a w a' w' r r', (w ++ r = w' ++ r')%list -> X a w -> X a' w' -> a = a' /\ w = w') -> X v pre -> (forall e', e <> f e') ->
  field f F X K (pre ++ rest)%list stop e <-> K v rest stop e.
Proof.
  intros HU HX Hne. unfold field. rewrite (after_cut X K v pre rest stop e HU HX). split; [intros [(e' & _ & ->)|HK]; [destruct (Hne e' eq_refl)|exact HK]|auto].
Qed.
Definition mut_text : string := "invalid Mutability marker byte - expected one of " ++ mut_markers.
Theorem C69_global_mutability : names_all (fun pre => exists t, Bvaltype t pre) (fun _ => decode_globaltype) (fun b => GT_InvalidMutability (InvalidMutabilityByte b)) n_globaltype (fun _ => True).
Proof.
  here. destruct Hpre as [t Ht]. rewrite (reported _ _ _ _ _ _ (proj1 C52_globaltype) Hst Hs), (lists_text _ mut_text (hexb got)) by (reflexivity || apply semi_hexb).
  unfold Fglobaltype. rewrite (after_field _ _ _ _ t pre _ _ _ (unique_of _ _ C12_valtype) Ht) by discriminate. unfold Fmut; bytewise Flimits.
Qed.
Theorem C69_field_mutability : names_all (fun pre => exists t, Bstoragetype t pre) (fun _ => decode_fieldtype) (fun b => FT_DecodeMutability (InvalidMutabilityByte b)) n_fieldtype (fun _ => True).
Proof.
  here. destruct Hpre as [t Ht]. rewrite (reported _ _ _ _ _ _ (proj1 C52_fieldtype) Hst Hs), (lists_text _ mut_text (hexb got)) by (reflexivity || apply semi_hexb).
  unfold Ffieldtype. rewrite (after_field _ _ _ _ t pre _ _ _ (unique_of _ _ C13_storagetype) Ht) by discriminate. unfold Fmut; bytewise Flimits.
Qed.
(** after the name, if an index follows *)
Theorem C69_export : names_all (fun pre => exists s, Bname s pre) (fun env => parse_export) (fun b => Exp_InvalidDescriptorMarkerByte (InvalidExportDescMarker b)) n_export
  (fun rest => exists i w r, rest = (w ++ r)%list /\ Bu32 i w).
Proof.
  here. destruct Hpre as [t Ht], Hrest as (i & w & r & -> & Hi).
  rewrite (reported _ _ _ _ _ _ (proj1 C52_export) Hst Hs), (lists_text _ "invalid ExportDesc marker byte: expected 0x00 (func), 0x01 (table), 0x02 (mem), 0x03 (global), 0x04 (tag)" (hexb got)) by (reflexivity || apply semi_hexb).
  unfold Fexport. rewrite (after_field _ _ _ _ t pre _ _ _ (unique_of _ _ D_name) Ht) by discriminate. unfold byte_.
  rewrite (after_field _ _ _ _ i w _ _ _ (unique_of _ _ decodes_u32) Hi) by discriminate. unfold Fmut; bytewise Flimits.
Qed.
(** a data segment's kind *)
Theorem C69_data_kind env stop n w got rest : stop <> Fails Interrupted -> sufficient env (List.length (w ++ rest)%list) -> Bu32 n w ->
  fst (@parse_data env _ _ (byte_by_byte (w ++ rest)%list stop)) = Err (Dat_InvalidBitfield n) <-> ~ lists (n_data (Dat_InvalidBitfield got)) n.
Proof.
  intros Hst Hs Hw. rewrite (reported (fun env => @parse_data env _ _) _ _ _ _ _ (proj1 C52_data) Hst Hs), (lists_text _ "invalid bitfield: expected 0 (passive), 1 or 2 (active)" (dec got)) by (reflexivity || apply semi_dec).
  unfold Fdata. cbv zeta. rewrite (after_field _ _ _ _ n w _ _ _ (unique_of _ _ decodes_u32) Hw) by discriminate.
  assert (L : listed "invalid bitfield: expected 0 (passive), 1 or 2 (active)" n = true <-> (n = 0 \/ n = 1 \/ n = 2)%N).
  { split; [|intros [-> |[-> | ->]]; vm_compute; reflexivity]. rewrite listed_ok. intros (x & Hx & Hn).
    let ws := eval vm_compute in (words "invalid bitfield: expected 0 (passive), 1 or 2 (active)") in change (In x ws) in Hx. cbn [In] in Hx.
    repeat (destruct Hx as [<-|Hx]; [vm_compute in Hn; first [discriminate Hn|injection Hn as <-; auto]|]). destruct Hx. }
  rewrite L. clear. split.
  - intros HF [-> |[-> | ->]]; never HF.
  - intros Hne. destruct n as [|[p|[p|p|]|]]; first [reflexivity|exfalso; apply Hne; auto].
Qed.
(** a section's kind, after well-formed sections *)
Theorem C69_section_id env (evs : list event) bs stop xs w b got rest : content evs = (bs, stop) -> sufficient env (List.length bs) ->
  bs = (preamble ++ w ++ b :: rest)%list -> Bseq Bsection xs w -> beginning (map fst xs) ->
  fst (@decode_module env _ _ evs) = Err (DM_DecodeSectionHeader (Hdr_InvalidSectionId (InvalidSectionId b))) <->
  ~ lists (n_invalid_section_id (InvalidSectionId got)) (Byte.to_N b).
Proof.
  intros Hc Hs Hbs Hw HB. rewrite (lists_text _ ("invalid section ID: expected one of " ++ section_markers) (hexb got)) by (reflexivity || apply semi_hexb).
  assert (L : (forall k, b <> id_of k) <-> listed ("invalid section ID: expected one of " ++ section_markers) (Byte.to_N b) <> true).
  { clear. destruct b; (match goal with |- _ <-> listed ?s ?n <> true => let r := eval vm_compute in (listed s n) in change (listed s n) with r end);
      lazymatch goal with
      | |- _ <-> false <> true => split; [discriminate|intros _ k; destruct k; discriminate]
      | |- _ <-> _ => split; [intros Hk; exfalso|intros Ht; destruct (Ht eq_refl)];
          first [exact (Hk SK_Custom eq_refl)|exact (Hk SK_Type eq_refl)|exact (Hk SK_Import eq_refl)|exact (Hk SK_Function eq_refl)|exact (Hk SK_Table eq_refl)
                |exact (Hk SK_Memory eq_refl)|exact (Hk SK_Tag eq_refl)|exact (Hk SK_Global eq_refl)|exact (Hk SK_Export eq_refl)|exact (Hk SK_Start eq_refl)
                |exact (Hk SK_Element eq_refl)|exact (Hk SK_DataCount eq_refl)|exact (Hk SK_Code eq_refl)|exact (Hk SK_Data eq_refl)] end. }
  rewrite <- L. split.
  - intros He. apply (C50_sound _ _ _ _ _ Hc) in He.
    inversion He as [E|? ? E|? ? ? ? ? ? ? ? E|xs' w' b' rest' _ _ _ Hb E|? ? ? ? ? ? ? ? ? E|xs' w' k nb n rest' e' _ _ _ _ HW E|xs' w' e' _ _ _ _ HI E].
    + exact Hb.
    + exfalso. wrong HW.
    + exfalso. inversion HI.
  - intros Hb. apply (C50_exact env evs bs stop _ Hs Hc). eapply dg_id; eauto.
Qed.

(** ** What is not named

    The message for a byte that starts no reference type names the abstract
    heap types only, though 0x63 and 0x64 start reference types too; and the
    same message is used where a value type is expected, though 0x7B to 0x7F
    are value types. *)
Definition refused_reftype (b : byte) : DecodeRefTypeError := RT_InvalidMarkerByte (AHT_InvalidMarkerByte (InvalidAbsHeapTypeMarker b)).
Definition refused_valtype (b : byte) : DecodeValTypeError := VTE_DecodeRefType (refused_reftype b).
Definition absheaptype_text : string := "invalid AbsHeapType marker byte - expected one of " ++ absheaptype_markers.
Theorem C69_reftype env stop got b rest : stop <> Fails Interrupted -> sufficient env (List.length (b :: rest)) ->
  fst (decode_reftype (byte_by_byte (b :: rest) stop)) = Err (refused_reftype b) <-> ~ lists (n_reftype (refused_reftype got)) (Byte.to_N b) /\ ~ In b [x63; x64].
Proof.
  intros Hst Hs. rewrite (reported (fun _ => decode_reftype) _ env _ _ _ (proj1 C52_reftype) Hst Hs), (lists_text _ absheaptype_text (hexb got)) by (reflexivity || apply semi_hexb).
  clear. destruct b; (match goal with |- _ <-> listed ?s ?n <> true /\ _ => let r := eval vm_compute in (listed s n) in change (listed s n) with r end); unfold Freftype, byte_, refused_reftype;
    lazymatch goal with
    | |- wrong _ _ _ _ <-> _ => split; [intros _; split; [discriminate|intros Hi; repeat (destruct Hi as [Hi|Hi]; [discriminate Hi|]); exact Hi]|reflexivity]
    | |- _ => let HF := fresh in split; [intros HF; exfalso; never HF|intros [H1 H2]; first [destruct (H1 eq_refl)|exfalso; apply H2; cbn [In]; auto]] end.
Qed.
Theorem C69_valtype env stop got b rest : stop <> Fails Interrupted -> sufficient env (List.length (b :: rest)) ->
  fst (decode_valtype (byte_by_byte (b :: rest) stop)) = Err (refused_valtype b) <->
  ~ lists (n_valtype (refused_valtype got)) (Byte.to_N b) /\ ~ In b [x63; x64; x7b; x7c; x7d; x7e; x7f].
Proof.
  intros Hst Hs. rewrite (reported (fun _ => decode_valtype) _ env _ _ _ (proj1 C52_valtype) Hst Hs), (lists_text _ absheaptype_text (hexb got)) by (reflexivity || apply semi_hexb).
  clear. destruct b; (match goal with |- _ <-> listed ?s ?n <> true /\ _ => let r := eval vm_compute in (listed s n) in change (listed s n) with r end); unfold Fvaltype, peek, refused_valtype;
    lazymatch goal with
    | |- nothing _ _ _ <-> _ => let HF := fresh in split; [intros HF; destruct HF|intros [H1 H2]; exfalso; apply H2; cbn [In]; auto 8]
    | |- at_ _ _ _ _ _ <-> _ => unfold Freftype, byte_, refused_reftype; let HF := fresh in let e := fresh in split;
        [intros (e & HF & Ee); injection Ee as <-;
           first [solve [exfalso; never HF] | split; [discriminate|intros Hi; repeat (destruct Hi as [Hi|Hi]; [discriminate Hi|]); exact Hi]]
        |intros [H1 H2]; first [destruct (H1 eq_refl)|solve [exfalso; apply H2; cbn [In]; auto]|eexists; split; [|reflexivity]; reflexivity]] end.
Qed.
(** so the claim of this file fails for them *)
Theorem C69_reftype_incomplete : ~ names_all (eq []) (fun _ => decode_reftype) refused_reftype n_reftype (fun _ => True).
Proof.
  intros HN. pose proof (HN roomy Ends [] x00 x63 [x70] ltac:(discriminate) (roomy_ok 2 ltac:(lia)) eq_refl I) as HE.
  assert (HL : ~ lists (n_reftype (refused_reftype x00)) (Byte.to_N x63)) by (rewrite (lists_text _ absheaptype_text (hexb x00)) by (reflexivity || apply semi_hexb); vm_compute; discriminate).
  apply HE in HL. vm_compute in HL. discriminate HL.
Qed.
Theorem C69_valtype_incomplete : ~ names_all (eq []) (fun _ => decode_valtype) refused_valtype n_valtype (fun _ => True).
Proof.
  intros HN. pose proof (HN roomy Ends [] x00 x7f [] ltac:(discriminate) (roomy_ok 1 ltac:(lia)) eq_refl I) as HE.
  assert (HL : ~ lists (n_valtype (refused_valtype x00)) (Byte.to_N x7f)) by (rewrite (lists_text _ absheaptype_text (hexb x00)) by (reflexivity || apply semi_hexb); vm_compute; discriminate).
  apply HE in HL. vm_compute in HL. discriminate HL.
Qed.

(** ** Examples *)
(** a message that would contradict itself *)
Example dishonest : ~ honest "unexpected Limits flag byte: expected 0x00, 0x01, 0x04 or 0x05; got 0x04".
Proof. intros H. destruct (H "unexpected Limits flag byte: expected 0x00, 0x01, 0x04 or 0x05" "0x04" eq_refl) as [H1 _]. apply H1. vm_compute. auto 20. Qed.
(** a module with a memory whose limits start with 0x02 *)
Definition bad_limits : list byte := (preamble ++ [x05; x03; x01; x02; x00])%list.
Example bad_limits_reported : exists e, fst (@decode_module roomy _ _ (byte_by_byte bad_limits Ends)) = Err e /\
  levels (n_module e) = ["failed decoding Memory section"; "failed parsing vector element at position 0"; "failed decoding Memory type";
                         "unexpected Limits flag byte: expected 0x00, 0x01, 0x04 or 0x05; got 0x02"].
Proof. eexists. split; [vm_compute; reflexivity|vm_compute; reflexivity]. Qed.
Example bad_limits_lists : lists (n_limits (Lim_UnexpectedFlagByte x02)) 5 /\ ~ lists (n_limits (Lim_UnexpectedFlagByte x02)) 2.
Proof.
  assert (L : forall n, lists (n_limits (Lim_UnexpectedFlagByte x02)) n <-> listed "unexpected Limits flag byte: expected 0x00, 0x01, 0x04 or 0x05" n = true)
    by (intros n; apply (lists_text _ _ (hexb x02)); [reflexivity|reflexivity|apply semi_hexb]).
  split; [apply L; vm_compute; reflexivity|]. intros HL. apply L in HL. vm_compute in HL. discriminate HL.
Qed.
