(** Grammars of types (src/decode/types) *)
From Verif Require Import Model.Prelude Model.Io Model.Ast Model.Errors Model.Integer Model.Helpers Model.Types.
From Verif Require Import Proofs.Machine Proofs.Reads Proofs.Parses Proofs.Leb Proofs.GHelpers.
From Verif Require Import Spec.Lang Spec.Types.
From Coq Require Import Lia ZifyBool ZifyNat ZifyN.

(** ** simplifying composed grammars *)
Lemma g_bind_iff {A B} (G : lang A) (K : A -> lang B) b bs :
  g_bind G K b bs <-> exists a bs1 bs2, bs = bs1 ++ bs2 /\ G a bs1 /\ K a b bs2.
Proof. reflexivity. Qed.
Lemma g_bind_ret {A B} (G : lang A) (f : A -> B) b bs :
  g_bind G (fun a => g_ret (f a)) b bs <-> exists a, b = f a /\ G a bs.
Proof.
  unfold g_bind, g_ret. split.
  - intros (a & bs1 & bs2 & -> & Ha & -> & ->). rewrite app_nil_r. eauto.
  - intros (a & -> & Ha). exists a, bs, []. rewrite app_nil_r. auto.
Qed.
Lemma g_bind_byte {B} (K : byte -> lang B) b bs :
  g_bind Bbyte K b bs <-> exists m bs', bs = m :: bs' /\ K m b bs'.
Proof.
  unfold g_bind, Bbyte. split.
  - intros (a & bs1 & bs2 & -> & -> & Hk). exists a, bs2. auto.
  - intros (a & bs' & -> & Hk). exists a, [a], bs'. auto.
Qed.
Lemma g_bind_if {A B} (c : bool) (G1 G2 : lang A) (K : A -> lang B) b bs :
  g_bind (if c then G1 else G2) K b bs <-> (if c then g_bind G1 K b bs else g_bind G2 K b bs).
Proof. destruct c; reflexivity. Qed.

(** decide which arm a known byte takes *)
Ltac byte_cmp := repeat match goal with
  | |- context [N.eqb ?a ?b] => const (N.eqb a b)
  | |- context [N.leb ?a ?b] => const (N.leb a b)
  end; cbn [andb orb negb]; cbv beta iota.
Ltac arms := cbn [switch pmatch]; byte_cmp.
(** case analysis on the marker byte in a hypothesis [switch (b2n b) .. x bs] *)
Ltac arm_cases H b :=
  cbn [switch pmatch] in H;
  repeat match type of H with
  | context [N.eqb (b2n b) ?k] =>
      let E := fresh "E" in destruct (N.eqb_spec (b2n b) k) as [E|E];
      [ byte_known E; cbn [orb andb negb] in H; cbv beta iota in H
      | cbn [orb andb negb] in H; cbv beta iota in H ]
  end.

(** ** marker tables *)
Lemma absheaptype_marker b t : absheaptype_from_marker b = Some t <-> Babsheaptype t [b].
Proof.
  split.
  - destruct b; vm_compute; intros [=]; subst; constructor.
  - inversion 1; reflexivity.
Qed.
Lemma mut_marker b t : mut_from_marker b = Some t <-> Bmut t [b].
Proof.
  split.
  - destruct b; vm_compute; intros [=]; subst; constructor.
  - inversion 1; reflexivity.
Qed.
Lemma packtype_marker b t : packtype_from_marker b = Some t <-> Bpacktype t [b].
Proof.
  split.
  - destruct b; vm_compute; intros [=]; subst; constructor.
  - inversion 1; reflexivity.
Qed.

(** a non-negative s33 starts with a byte < 0x40 or >= 0x80 *)
Lemma Bs33_first x b bs : Bs33 (Z.of_N x) (b :: bs) -> (b2n b < 64 \/ 128 <= b2n b)%N.
Proof.
  inversion 1; subst; unfold val in *; fold (b2n b) in *; try subst n; try subst n0;
  change (2 ^ 6)%Z with 64%Z in *; change (2 ^ 7)%Z with 128%Z in *; lia.
Qed.
Lemma Bs33_nonneg_range x bs : Bs33 (Z.of_N x) bs -> (x < 2 ^ 32)%N.
Proof. intros HB. apply Bs_range in HB; [|lia]. change (33 - 1)%Z with 32%Z in HB. lia. Qed.

Lemma abs_not_idx x b bs t : Bs33 (Z.of_N x) (b :: bs) -> absheaptype_from_marker b = Some t -> False.
Proof.
  intros HB HM. apply Bs33_first in HB. apply absheaptype_marker in HM.
  inversion HM; subst; vm_compute in HB; destruct HB as [HB|HB]; congruence.
Qed.

Section Walk.
  Context {env : Env}.

  Lemma parses_u32_try {R C E} `{Lawful R C} x : (x < 2 ^ 32)%Z ->
    Parses (u32_try_from_unwrap x : M R E u32) (fun n bs => bs = [] /\ Z.of_N n = x).
  Proof.
    intros Hx. unfold u32_try_from_unwrap. eapply parses_ext; [apply parses_if; intros; [apply parses_ret|apply parses_panic]|].
    intros n bs. destruct (Z.leb_spec 0 x); [destruct (Z.ltb_spec x (2 ^ 32)); [|lia]|]; cbn.
    - unfold g_ret. split; intros [? ?]; split; auto; lia.
    - unfold g_fail. split; [tauto|]. intros [? ?]. lia.
  Qed.

  Lemma parses_absheaptype {R C} `{Lawful R C} : Parses (decode_absheaptype : M R _ _) Babsheaptype.
  Proof.
    eapply parses_ext; [unfold decode_absheaptype; parses|]. intros t bs. rewrite g_bind_byte. split.
    - intros (m & bs' & -> & Hm). destruct (absheaptype_from_marker m) eqn:E; [|destruct Hm].
      destruct Hm as [-> ->]. apply absheaptype_marker. assumption.
    - intros HB. assert (exists m, bs = [m]) as [m ->] by (inversion HB; eauto).
      exists m, []. split; [reflexivity|]. apply absheaptype_marker in HB. rewrite HB. split; reflexivity.
  Qed.
  Lemma Bht_nonempty : nonempty Bheaptype.
  Proof. intros t HB. inversion HB; subst. - inversion H. - eapply Bs_nonempty; eauto. Qed.

  (** the s33 part shared by heap types and block types *)
  Definition Btypeidx33 : lang N := fun x bs => Bs33 (Z.of_N x) bs.
  Lemma parses_idx33 {R C E A} `{Lawful R C} (f : _ -> E) (g : _ -> E) (h : N -> A) :
    Parses (x <- map_err f decode_s33 ;;
            if (x <? 0)%Z then throw (g x)
            else x <- u32_try_from_unwrap x ;; ret (h x) : M R E A)
           (fun a bs => exists x, a = h x /\ Btypeidx33 x bs).
  Proof.
    eapply parses_ext.
    { parses_step; [parses|]. parses_step; [parses|]. parses_step; [|parses].
      apply parses_u32_try. match goal with Hx : exists bs, Bs33 _ bs |- _ => destruct Hx as [bs HB] end. apply Bs_range in HB; [|lia]. change (33 - 1)%Z with 32%Z in HB. lia. }
    intros a bs. rewrite g_bind_iff. split.
    - intros (z & bs1 & bs2 & -> & Hz & Hk). destruct (Z.ltb_spec z 0); [destruct Hk|].
      apply g_bind_ret in Hk as (x & -> & -> & Hx). exists x. rewrite app_nil_r. split; [reflexivity|].
      red. rewrite Hx. assumption.
    - intros (x & -> & HB). exists (Z.of_N x), bs, []. rewrite app_nil_r. split; [reflexivity|]. split; [exact HB|].
      destruct (Z.ltb_spec (Z.of_N x) 0); [lia|]. apply g_bind_ret. exists x. auto.
  Qed.

  Lemma parses_heaptype {R C} `{Lawful R C} : Parses (decode_heaptype : M R _ _) Bheaptype.
  Proof.
    eapply parses_ext.
    { unfold decode_heaptype. parses_step; [parses|]. parses_step; [parses|].
      apply parses_with_chain; [apply parses_idx33|]. intros hh (x & _ & HB). eapply Bs_nonempty; eauto. }
    intros t bs. rewrite g_bind_byte. split.
    - intros (m & bs' & -> & Hm). destruct (absheaptype_from_marker m) eqn:E.
      + destruct Hm as [-> ->]. constructor. apply absheaptype_marker. assumption.
      + destruct Hm as (x & -> & HB). constructor. exact HB.
    - intros HB. destruct bs as [|b bs]; [exfalso; eapply Bht_nonempty; eauto|].
      exists b, bs. split; [reflexivity|]. inversion HB as [? ? HA|? ? HI]; subst.
      + assert (bs = []) as -> by (inversion HA; reflexivity).
        apply absheaptype_marker in HA. rewrite HA. split; reflexivity.
      + destruct (absheaptype_from_marker b) eqn:E; [exfalso; eapply abs_not_idx; eauto|].
        eexists. split; [reflexivity|]. exact HI.
  Qed.

  Lemma Babs_nonempty : nonempty Babsheaptype.
  Proof. intros t HB. inversion HB. Qed.
  Lemma parses_reftype {R C} `{Lawful R C} : Parses (decode_reftype : M R _ _) Breftype.
  Proof.
    eapply parses_ext.
    { unfold decode_reftype. parses_step; [parses|].
      parses; try apply parses_heaptype; try apply parses_absheaptype; try apply Babs_nonempty. }
    intros t bs. rewrite g_bind_byte. split.
    - intros (m & bs' & -> & Hm). arm_cases Hm m.
      + apply g_bind_ret in Hm as (h & -> & Hh). constructor. assumption.
      + apply g_bind_ret in Hm as (h & -> & Hh). constructor. assumption.
      + apply g_bind_ret in Hm as (h & -> & Hh). constructor. assumption.
    - inversion 1 as [h bs' Hh|h bs' Hh|a bs' Ha]; subst.
      + exists x64, bs'. split; [reflexivity|]. arms. apply g_bind_ret. eauto.
      + exists x63, bs'. split; [reflexivity|]. arms. apply g_bind_ret. eauto.
      + destruct bs as [|b bs]; [exfalso; eapply Babs_nonempty; eauto|].
        exists b, bs. split; [reflexivity|]. 
        inversion Ha; subst; arms; apply g_bind_ret; eexists; (split; [reflexivity|constructor]).
  Qed.
  Lemma Brt_nonempty : nonempty Breftype.
  Proof. intros t HB. inversion HB; subst. eapply Babs_nonempty; eauto. Qed.

  (** first bytes *)
  Lemma Breftype_first t b bs : Breftype t (b :: bs) -> (0x63 <= b2n b <= 0x64 \/ 0x69 <= b2n b <= 0x74)%N.
  Proof.
    inversion 1 as [h bs' Hh|h bs' Hh|a bs' Ha]; subst; [left; vm_compute; split; congruence..|].
    right. inversion Ha; subst; vm_compute; split; congruence.
  Qed.
  Lemma parses_valtype {R C} `{Lawful R C} : Parses (decode_valtype : M R _ _) Bvaltype.
  Proof.
    eapply parses_ext.
    { unfold decode_valtype. parses_step; [parses|]. parses_step; [parses|].
      apply parses_with_chain; [parses_step; [apply parses_map_err, parses_reftype|parses]|].
      intros hh (x & b1 & b2 & E & Hr & _ & ->). symmetry in E. apply app_eq_nil in E as [-> _]. eapply Brt_nonempty; eauto. }
    intros t bs. rewrite g_bind_byte. split.
    - intros (m & bs' & -> & Hm). arm_cases Hm m; try (destruct Hm as [-> ->]; repeat constructor).
      apply g_bind_ret in Hm as (h & -> & Hh). constructor. assumption.
    - inversion 1 as [? ? HN|? ? HN|? ? HN]; subst.
      + inversion HN; subst; eexists _, _; (split; [reflexivity|]); arms; split; reflexivity.
      + inversion HN; subst; eexists _, _; (split; [reflexivity|]); arms; split; reflexivity.
      + destruct bs as [|b bs]; [exfalso; eapply Brt_nonempty; eauto|].
        exists b, bs. split; [reflexivity|]. pose proof (Breftype_first _ _ _ HN) as Hb.
        cbn [switch pmatch].
        repeat match goal with |- context [N.eqb (b2n b) ?k] => destruct (N.eqb_spec (b2n b) k) as [E'|_]; [exfalso; lia|] end.
        apply g_bind_ret. eauto.
  Qed.
  Lemma Bvt_nonempty : nonempty Bvaltype.
  Proof. intros t HB. inversion HB as [? ? HN|? ? HN|? ? HN]; subst; [inversion HN|inversion HN|]. eapply Brt_nonempty; eauto. Qed.
  Lemma Bvaltype_first t b bs : Bvaltype t (b :: bs) -> (0x63 <= b2n b <= 0x64 \/ 0x69 <= b2n b <= 0x74 \/ 0x7B <= b2n b <= 0x7F)%N.
  Proof.
    inversion 1 as [? ? HN|? ? HN|? ? HN]; subst; [inversion HN; subst; right; right; vm_compute; split; congruence..|].
    apply Breftype_first in HN. tauto.
  Qed.

  Lemma parses_resulttype {R C} `{Lawful R C} : Parses (decode_result_type : M R _ _) Bresulttype.
  Proof. apply parses_map_err, parses_list, parses_valtype. Qed.

  Lemma parses_globaltype {R C} `{Lawful R C} : Parses (decode_globaltype : M R _ _) Bglobaltype.
  Proof.
    eapply parses_ext.
    { unfold decode_globaltype. parses_step; [apply parses_map_err, parses_valtype|]. parses. }
    intros t bs. rewrite g_bind_iff. split.
    - intros (vt & bs1 & bs2 & -> & Hv & Hk). apply g_bind_byte in Hk as (m & bs' & -> & Hm).
      destruct (mut_from_marker m) eqn:E; [|destruct Hm]. destruct Hm as [-> ->].
      constructor; [assumption|]. apply mut_marker. assumption.
    - inversion 1 as [vt m bs1 bs2 Hv Hm]; subst. exists vt, bs1, bs2. split; [reflexivity|]. split; [assumption|].
      apply g_bind_byte. assert (exists b, bs2 = [b]) as [b ->] by (inversion Hm; eauto).
      exists b, []. split; [reflexivity|]. apply mut_marker in Hm. rewrite Hm. split; reflexivity.
  Qed.

  Lemma parses_storagetype {R C} `{Lawful R C} : Parses (decode_storagetype : M R _ _) Bstoragetype.
  Proof.
    eapply parses_ext.
    { unfold decode_storagetype. parses_step; [parses|]. parses_step; [parses|].
      apply parses_with_chain; [parses_step; [apply parses_map_err, parses_valtype|parses]|].
      intros hh (x & b1 & b2 & E & Hr & _ & ->). symmetry in E. apply app_eq_nil in E as [-> _]. eapply Bvt_nonempty; eauto. }
    intros t bs. rewrite g_bind_byte. split.
    - intros (m & bs' & -> & Hm). destruct (packtype_from_marker m) eqn:E.
      + destruct Hm as [-> ->]. constructor. apply packtype_marker. assumption.
      + apply g_bind_ret in Hm as (h & -> & Hh). constructor. assumption.
    - inversion 1 as [vt ? HV|pt ? HP]; subst.
      + destruct bs as [|b bs]; [exfalso; eapply Bvt_nonempty; eauto|].
        exists b, bs. split; [reflexivity|]. destruct (packtype_from_marker b) eqn:E.
        * exfalso. apply packtype_marker in E. apply Bvaltype_first in HV. inversion E; subst; vm_compute in HV; intuition congruence.
        * apply g_bind_ret. eauto.
      + assert (exists b, bs = [b]) as [b ->] by (inversion HP; eauto).
        exists b, []. split; [reflexivity|]. apply packtype_marker in HP. rewrite HP. split; reflexivity.
  Qed.

  Lemma parses_fieldtype {R C} `{Lawful R C} : Parses (decode_fieldtype : M R _ _) Bfieldtype.
  Proof.
    eapply parses_ext.
    { unfold decode_fieldtype. parses_step; [apply parses_map_err, parses_storagetype|]. parses. }
    intros t bs. rewrite g_bind_iff. split.
    - intros (vt & bs1 & bs2 & -> & Hv & Hk). apply g_bind_byte in Hk as (m & bs' & -> & Hm).
      destruct (mut_from_marker m) eqn:E; [|destruct Hm]. destruct Hm as [-> ->].
      constructor; [assumption|]. apply mut_marker. assumption.
    - inversion 1 as [vt m bs1 bs2 Hv Hm]; subst. exists vt, bs1, bs2. split; [reflexivity|]. split; [assumption|].
      apply g_bind_byte. assert (exists b, bs2 = [b]) as [b ->] by (inversion Hm; eauto).
      exists b, []. split; [reflexivity|]. apply mut_marker in Hm. rewrite Hm. split; reflexivity.
  Qed.

  Lemma parses_comptype {R C} `{Lawful R C} : Parses (decode_comptype : M R _ _) Bcomptype.
  Proof.
    eapply parses_ext.
    { unfold decode_comptype. parses; try apply parses_list, parses_fieldtype; try apply parses_fieldtype; apply parses_resulttype. }
    intros t bs. rewrite g_bind_byte. split.
    - intros (m & bs' & -> & Hm). arm_cases Hm m.
      + apply g_bind_ret in Hm as (h & -> & Hh). constructor. assumption.
      + apply g_bind_ret in Hm as (h & -> & Hh). constructor. assumption.
      + destruct Hm as (t1 & bs1 & bs2 & -> & Hg1 & Hm). apply g_bind_ret in Hm as (t2 & -> & Hg2). constructor; assumption.
      + destruct Hm.
    - inversion 1; subst; eexists _, _; (split; [reflexivity|]); arms.
      + apply g_bind_ret. eauto.
      + apply g_bind_ret. eauto.
      + eexists _, _, _. split; [reflexivity|]. split; [eassumption|]. apply g_bind_ret. eauto.
  Qed.
  Lemma Bct_nonempty : nonempty Bcomptype.
  Proof. intros t HB. inversion HB. Qed.

  Lemma parses_subtype {R C} `{Lawful R C} : Parses (decode_subtype : M R _ _) Bsubtype.
  Proof.
    eapply parses_ext.
    { unfold decode_subtype. parses_step; [parses|]. parses_step.
      - parses; apply parses_comptype.
      - apply parses_with_chain; [parses_step; [apply parses_map_err, parses_comptype|parses]|].
        intros hh (x & b1 & b2 & E & Hr & _ & ->). symmetry in E. apply app_eq_nil in E as [-> _]. eapply Bct_nonempty; eauto. }
    intros t bs. rewrite g_bind_byte. split.
    - intros (m & bs' & -> & Hm). arm_cases Hm m.
      + destruct Hm as (t1 & bs1 & bs2 & -> & Hg1 & Hm). apply g_bind_ret in Hm as (t2 & -> & Hg2). constructor; assumption.
      + destruct Hm as (t1 & bs1 & bs2 & -> & Hg1 & Hm). apply g_bind_ret in Hm as (t2 & -> & Hg2). constructor; assumption.
      + apply g_bind_ret in Hm as (t2 & -> & Hg2). constructor; assumption.
    - inversion 1 as [| |ct bs' HC]; subst.
      + eexists _, _. split; [reflexivity|]. arms. eexists _, _, _. split; [reflexivity|]. split; [eassumption|]. apply g_bind_ret. eauto.
      + eexists _, _. split; [reflexivity|]. arms. eexists _, _, _. split; [reflexivity|]. split; [eassumption|]. apply g_bind_ret. eauto.
      + destruct bs as [|b bs]; [exfalso; eapply Bct_nonempty; eauto|]. exists b, bs. split; [reflexivity|].
        inversion HC; subst; arms; apply g_bind_ret; eauto.
  Qed.
  Lemma Bsub_nonempty : nonempty Bsubtype.
  Proof. intros t HB. inversion HB; subst. eapply Bct_nonempty; eauto. Qed.

  Lemma parses_rectype {R C} `{Lawful R C} : Parses (decode_rectype : M R _ _) Brectype.
  Proof.
    eapply parses_ext.
    { unfold decode_rectype. parses_step; [parses|]. apply parses_if; intros _.
      - apply parses_map_err, parses_list, parses_subtype.
      - apply parses_with_chain; [parses_step; [apply parses_map_err, parses_subtype|parses]|].
        intros hh (x & b1 & b2 & E & Hr & _ & ->). symmetry in E. apply app_eq_nil in E as [-> _]. eapply Bsub_nonempty; eauto. }
    intros t bs. rewrite g_bind_byte. split.
    - intros (m & bs' & -> & Hm). arm_cases Hm m.
      + constructor. assumption.
      + apply g_bind_ret in Hm as (t2 & -> & Hg2). constructor; assumption.
    - inversion 1 as [|st bs' HC]; subst.
      + eexists _, _. split; [reflexivity|]. arms. assumption.
      + destruct bs as [|b bs]; [exfalso; eapply Bsub_nonempty; eauto|]. exists b, bs. split; [reflexivity|].
        inversion HC as [| |? ? HC']; subst; arms; [apply g_bind_ret; eauto..|].
        inversion HC'; subst; arms; apply g_bind_ret; eauto.
  Qed.

  Lemma parses_limits {R C} `{Lawful R C} : Parses (parse_limits : M R _ _) Blimits.
  Proof.
    eapply parses_ext.
    { unfold parse_limits. parses_step; [parses|].
      eapply parses_bind with (K := fun z => g_bind Bu64 (fun n => g_bind (if fst z : bool then g_bind Bu64 (fun m => g_ret (Some m)) else g_ret None) (fun m => g_ret (mkLimits (snd z) n m)))).
      - parses.
      - intros [hm at_] _. parses. }
    intros t bs. rewrite g_bind_byte. split.
    - intros (m & bs' & -> & (z & bs1 & bs2 & -> & Hm & Hk)). 
      arm_cases Hm m; try (destruct Hm; fail); destruct Hm as [-> ->]; cbn [fst snd app] in *;
      destruct Hk as (n & b1 & b2 & -> & Hn & Hk); apply g_bind_ret in Hk as (o & -> & Ho).
      + destruct Ho as [-> ->]. rewrite app_nil_r. constructor; assumption.
      + apply g_bind_ret in Ho as (x & -> & Hx). constructor; assumption.
      + destruct Ho as [-> ->]. rewrite app_nil_r. constructor; assumption.
      + apply g_bind_ret in Ho as (x & -> & Hx). constructor; assumption.
    - inversion 1; subst; eexists _, _; (split; [reflexivity|]); arms.
      + exists (false, AT_I32), [], bs0. split; [reflexivity|]. split; [split; reflexivity|]. cbn.
        exists n, bs0, []. rewrite app_nil_r. split; [reflexivity|]. split; [assumption|]. apply g_bind_ret. exists None. repeat split.
      + exists (true, AT_I32), [], (bs1 ++ bs2). split; [reflexivity|]. split; [split; reflexivity|]. cbn.
        exists n, bs1, bs2. split; [reflexivity|]. split; [assumption|]. apply g_bind_ret. exists (Some m). split; [reflexivity|]. apply g_bind_ret. eauto.
      + exists (false, AT_I64), [], bs0. split; [reflexivity|]. split; [split; reflexivity|]. cbn.
        exists n, bs0, []. rewrite app_nil_r. split; [reflexivity|]. split; [assumption|]. apply g_bind_ret. exists None. repeat split.
      + exists (true, AT_I64), [], (bs1 ++ bs2). split; [reflexivity|]. split; [split; reflexivity|]. cbn.
        exists n, bs1, bs2. split; [reflexivity|]. split; [assumption|]. apply g_bind_ret. exists (Some m). split; [reflexivity|]. apply g_bind_ret. eauto.
  Qed.

  Lemma parses_memtype {R C} `{Lawful R C} : Parses (parse_memtype : M R _ _) Bmemtype.
  Proof.
    eapply parses_ext; [unfold parse_memtype; parses_step; [apply parses_map_err, parses_limits|parses]|].
    intros t bs. rewrite g_bind_ret. split.
    - intros (l & -> & Hl). constructor. assumption.
    - inversion 1; subst. eauto.
  Qed.
  Lemma parses_tabletype {R C} `{Lawful R C} : Parses (decode_tabletype : M R _ _) Btabletype.
  Proof.
    eapply parses_ext; [unfold decode_tabletype; parses_step; [apply parses_map_err, parses_reftype|parses_step; [apply parses_map_err, parses_limits|parses]]|].
    intros t bs. rewrite g_bind_iff. split.
    - intros (l & bs1 & bs2 & -> & Hl & Hk). apply g_bind_ret in Hk as (x & -> & Hx). constructor; assumption.
    - inversion 1; subst. eexists _, _, _. split; [reflexivity|]. split; [eassumption|]. apply g_bind_ret. eauto.
  Qed.
  Lemma parses_tagtype {R C} `{Lawful R C} : Parses (decode_tagtype : M R _ _) Btagtype.
  Proof.
    eapply parses_ext; [unfold decode_tagtype; parses|].
    intros t bs. rewrite g_bind_byte. split.
    - intros (m & bs' & -> & Hm). arm_cases Hm m.
      + apply g_bind_ret in Hm as (x & -> & Hx). constructor; assumption.
      + destruct Hm.
    - inversion 1; subst. eexists _, _. split; [reflexivity|]. arms. apply g_bind_ret. eauto.
  Qed.
  Lemma parses_externtype {R C} `{Lawful R C} : Parses (decode_externtype : M R _ _) Bexterntype.
  Proof.
    eapply parses_ext.
    { unfold decode_externtype. parses; first [apply parses_tabletype|apply parses_memtype|apply parses_globaltype|apply parses_tagtype]. }
    intros t bs. rewrite g_bind_byte. split.
    - intros (m & bs' & -> & Hm). arm_cases Hm m; try (apply g_bind_ret in Hm as (x & -> & Hx); constructor; assumption). destruct Hm.
    - inversion 1; subst; eexists _, _; (split; [reflexivity|]); arms; apply g_bind_ret; eauto.
  Qed.
End Walk.
#[export] Hint Resolve parses_absheaptype parses_heaptype parses_reftype parses_valtype parses_resulttype
  parses_globaltype parses_storagetype parses_fieldtype parses_comptype parses_subtype parses_rectype
  parses_limits parses_memtype parses_tabletype parses_tagtype parses_externtype : parses.
