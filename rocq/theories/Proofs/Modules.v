(** Proofs for Properties/Modules.v *)
From Verif Require Import Model.Prelude Model.Io Model.Ast Model.Errors Model.Integer Model.Helpers Model.Types Model.Instr Model.Sections Model.Module.
From Verif Require Import Spec.Lang Spec.Types Spec.Instr Spec.Module Spec.Streams Spec.Layout Spec.Diagnosis.
From Verif Require Import Proofs.Machine Proofs.Reads Proofs.Parses Proofs.Leb Proofs.GHelpers Proofs.GModule Proofs.GAssemble Proofs.Safe Proofs.SafeWalk Proofs.Sim Proofs.Final Proofs.Components Proofs.Diag Proofs.Unamb.
From Coq Require Import Lia ZifyBool ZifyNat ZifyN.

(** ** C48 *)
Lemma slice_plain {env : Env} bs : fst (decode_module (plain bs Ends)) = fst (decode_module bs).
Proof. apply decode_slice, content_plain. discriminate. Qed.
Lemma complete_or_gave_up {env : Env} evs bs e m : content evs = (bs, e) -> e = Ends \/ e = Fails UnexpectedEof -> Bmodule m bs ->
  fst (decode_module evs) = Ok m \/ gave_up (fst (decode_module evs)).
Proof.
  intros Hc He HB. apply Bmodule_iff in HB as (xs & bs' & Hbs & Hq & Ha).
  destruct (events_content evs) as (tl & Hab & HE). rewrite Hc in Hab, HE. cbn [fst snd] in *.
  destruct (decode_complete evs m xs bs' tl (snd (next tl)) Hq Ha) as [(r' & -> & _)|Hg]; [| |left; reflexivity|right; exact Hg].
  - rewrite <- Hbs. change (abs evs) with (events_abs evs). rewrite Hab. apply bsteps_list.
  - destruct He as [->| ->].
    + left. destruct HE as [->|[? ->]]; reflexivity.
    + right. destruct HE as [_ [? ->]]. reflexivity.
Qed.
Lemma err_malformed {env : Env} evs bs e er m : content evs = (bs, e) -> e = Ends \/ e = Fails UnexpectedEof ->
  fst (decode_module evs) = Err er -> ~ Bmodule m bs.
Proof. intros Hc He Hd HB. destruct (complete_or_gave_up _ _ _ _ Hc He HB) as [E|E]; rewrite Hd in E; [discriminate|exact E]. Qed.
Lemma err_malformed_slice {env : Env} (bs : list byte) er m : fst (decode_module bs) = Err er -> ~ Bmodule m bs.
Proof. rewrite <- slice_plain. eapply err_malformed; [apply content_plain; discriminate|auto]. Qed.

(** ** C49 *)
Lemma content_of_abs evs1 evs2 : events_abs evs1 = events_abs evs2 -> content evs1 = content evs2.
Proof.
  intros E. destruct (events_content evs1) as (t1 & A1 & H1), (events_content evs2) as (t2 & A2 & H2). rewrite A1, A2 in E.
  assert (HN : forall t e, match e with Ends => t = [] \/ (exists t', t = AEof :: t') | Fails k => k <> Interrupted /\ exists t', t = AErr k :: t' end -> forall b t', t <> AByte b :: t').
  { intros t [|k] Ht b t'; [destruct Ht as [->|[? ->]]|destruct Ht as [_ [? ->]]]; discriminate. }
  assert (HM : fst (content evs1) = fst (content evs2) /\ t1 = t2).
  { pose proof (HN _ _ H1) as N1. pose proof (HN _ _ H2) as N2. clear -E N1 N2. revert E. generalize (fst (content evs1)) (fst (content evs2)). intros l1.
    induction l1 as [|b l1 IH]; intros [|b' l2] E; cbn in *; auto.
    - exfalso. eapply N1; exact E.
    - exfalso. symmetry in E. eapply N2; exact E.
    - injection E as -> E. destruct (IH _ E) as [-> ->]. auto. }
  destruct HM as [Hf ->]. destruct (content evs1) as [l1 e1], (content evs2) as [l2 e2]. cbn [fst snd] in *. subst. f_equal.
  destruct e1 as [|k1], e2 as [|k2]; auto.
  - destruct H2 as [_ [? ->]]. destruct H1 as [H1|[? H1]]; discriminate.
  - destruct H1 as [_ [? ->]]. destruct H2 as [H2|[? H2]]; discriminate.
  - destruct H1 as [_ [? ->]], H2 as [_ [? H2]]. congruence.
Qed.
Lemma after_stop_spec evs : exists tl, events_abs evs = map AByte (fst (content evs)) ++ tl /\ snd (next tl) = events_abs (after_stop evs).
Proof.
  induction evs as [|[b bs| |k] evs (tl & IH & HE)]; cbn.
  - exists []. auto.
  - destruct (content evs) as [l e]. cbn [fst snd] in *. exists tl. split; [|exact HE]. cbn. rewrite IH, map_app, app_assoc. reflexivity.
  - exists (AEof :: events_abs evs). auto.
  - destruct k; [exists (AErr UnexpectedEof :: events_abs evs); auto|exists tl; auto|exists (AErr (OtherKind code) :: events_abs evs); auto].
Qed.
Lemma consumes_all {env : Env} (evs : list event) m evs' : decode_module evs = (Ok m, evs') -> content evs' = content (after_stop evs).
Proof.
  intros Hd. destruct (decode_sound _ _ _ Hd) as (xs & bs & c1 & Hb & He & _). destruct (after_stop_spec evs) as (tl & Ha & Hs).
  change (abs evs) with (events_abs evs) in Hb.
  assert (HM : tl = c1 /\ fst (content evs) = magic ++ version1 ++ bs).
  { rewrite Ha in Hb. eapply bsteps_maximal; [apply bsteps_list| |exact Hb|]; intros b c' Hn.
    - destruct (events_content evs) as (tl' & Ha' & HE'). rewrite Ha in Ha'. apply app_inv_head in Ha' as <-.
      destruct (snd (content evs)); [destruct HE' as [->|[? ->]]|destruct HE' as [_ [? ->]]]; discriminate.
    - destruct He as [E|E]; rewrite Hn in E; discriminate. }
  destruct HM as [<- _]. apply content_of_abs. change (abs evs') with (events_abs evs') in He. rewrite <- Hs. destruct He as [-> | ->]; reflexivity.
Qed.
Lemma consumes_all_slice {env : Env} (bs : list byte) m rest : decode_module bs = (Ok m, rest) -> rest = [].
Proof.
  intros Hd. destruct (decode_sound _ _ _ Hd) as (xs & bs' & c1 & Hb & He & _).
  apply bsteps_slice in Hb as (r' & -> & ->). destruct r' as [|b r'].
  - destruct He as [[= E]|E]; [|discriminate]. destruct rest; [reflexivity|discriminate].
  - destruct He; discriminate.
Qed.

(** ** C43 *)
Lemma bytes_eqb_iff a : forall b, bytes_eqb a b = true <-> a = b.
Proof.
  induction a as [|x a IH]; intros [|y b]; cbn; try (split; congruence). rewrite Bool.andb_true_iff, IH. split.
  - intros [Hx ->]. f_equal. apply Byte.byte_dec_bl. exact Hx.
  - intros [= -> ->]. split; [|reflexivity]. apply Byte.byte_dec_lb. reflexivity.
Qed.
Lemma cread_short : forall bs n acc tl, length bs < n -> (forall b c, next tl <> (AByte b, c)) ->
  fst (cread n acc (map AByte bs ++ tl)) = Err (match fst (next tl) with AErr k => k | _ => UnexpectedEof end).
Proof.
  induction bs as [|b bs IH]; intros [|n] acc tl Hl Hn; cbn in Hl; try lia.
  - destruct tl as [|[b| |k] c]; [reflexivity|exfalso; eapply Hn; reflexivity|reflexivity|reflexivity].
  - cbn. apply IH; [lia|exact Hn].
Qed.
Lemma preamble_short {env : Env} evs bs e : content evs = (bs, e) -> length bs < 8 ->
  fst (decode_module evs) = Err (DM_ParsePreamble (Pre_Io (match e with Ends => UnexpectedEof | Fails k => k end))).
Proof.
  intros Hc Hl. destruct (events_content evs) as (tl & Ha & HE). rewrite Hc in Ha, HE. cbn [fst snd] in *.
  assert (HT : forall b c, next tl <> (AByte b, c)) by (intros b c Hn; destruct e; [destruct HE as [->|[? ->]]|destruct HE as [_ [? ->]]]; discriminate).
  assert (HR : fst (read_exact 8 evs) = Err (match e with Ends => UnexpectedEof | Fails k => k end)).
  { destruct (read_exact 8 evs) as [x r'] eqn:E. apply read_exact_spec in E. change (abs evs) with (events_abs evs) in E. rewrite Ha in E.
    pose proof (cread_short bs (N.to_nat 8) [] tl Hl HT) as HS. rewrite <- E in HS. cbn [fst] in HS |- *. rewrite HS. f_equal.
    destruct e; [destruct HE as [->|[? ->]]|destruct HE as [_ [? ->]]]; reflexivity. }
  unfold decode_module, parse_preamble, bind, map_err. destruct (read_exact 8 evs) as [[x|k|pn|] r']; cbn in HR; try discriminate. injection HR as ->. reflexivity.
Qed.
Lemma preamble_wrong {env : Env} evs bs e : content evs = (bs, e) -> 8 <= length bs -> firstn 8 bs <> preamble ->
  fst (decode_module evs) = Err (DM_ParsePreamble (Pre_Unexpected (firstn 8 bs))).
Proof.
  intros Hc Hl Hp. destruct (events_content evs) as (tl & Ha & HE). rewrite Hc in Ha, HE. cbn [fst snd] in *.
  destruct (read_exact_complete 8 evs (firstn 8 bs) (map AByte (skipn 8 bs) ++ tl)) as (r' & HR & _).
  - change (abs evs) with (events_abs evs). rewrite Ha. rewrite <- (firstn_skipn 8 bs) at 1. rewrite map_app, <- app_assoc. apply bsteps_list.
  - unfold lenN. rewrite firstn_length. lia.
  - unfold decode_module, parse_preamble, bind, map_err. rewrite HR. destruct (bytes_eqb _ _) eqn:EB; [|reflexivity].
    exfalso. apply Hp. apply bytes_eqb_iff in EB. exact EB.
Qed.
(** which errors a decoder can return *)
Definition Errs {R E A} (p : M R E A) (P : E -> Prop) : Prop := forall r e r', p r = (Err e, r') -> P e.
Lemma errs_bind {R E A B} (p : M R E A) (q : A -> M R E B) P : Errs p P -> (forall a, Errs (q a) P) -> Errs (bind p q) P.
Proof. intros Hp Hq r e r'. unfold bind. destruct (p r) as [[a|e1|pn|] r1] eqn:E1; try discriminate; [apply Hq|]. intros [= <- <-]. eapply Hp; exact E1. Qed.
Lemma errs_map_err {R E E' A} (f : E -> E') (p : M R E A) (P : E' -> Prop) : (forall e, P (f e)) -> Errs (map_err f p) P.
Proof. intros Hf r e r'. unfold map_err. destruct (p r) as [[a|e1|pn|] r1]; try discriminate. intros [= <- <-]. apply Hf. Qed.
Lemma errs_ret {R E A} (a : A) (P : E -> Prop) : Errs (ret a : M R E A) P.
Proof. intros r e r' [=]. Qed.
Lemma errs_throw {R E A} (e : E) (P : E -> Prop) : P e -> Errs (throw e : M R E A) P.
Proof. intros HP r e' r' [= <- _]. exact HP. Qed.
Lemma errs_panic {R E A} x (P : E -> Prop) : Errs (panic_with x : M R E A) P.
Proof. intros r e r' [=]. Qed.
Definition not_preamble (e : DecodeModuleError) : Prop := match e with DM_ParsePreamble _ => False | _ => True end.
Lemma errs_fill_codes {env : Env} {R} codes : forall i fs d, Errs (fill_codes i codes fs d : M R _ _) not_preamble.
Proof.
  induction codes as [|c codes IH]; intros i fs d; cbn [fill_codes]; [apply errs_ret|]. apply errs_bind.
  - unfold alloc. destruct (_ <=? _)%N; [apply errs_ret|apply errs_panic].
  - intros _. destruct (nth_error fs i); [apply IH|apply errs_panic].
Qed.
Lemma errs_section {env : Env} {R} `{Reader R} k s : Errs (decode_section k s : M R _ _) not_preamble.
Proof.
  unfold decode_section. cbv zeta. destruct k; apply errs_bind; try (apply errs_map_err; intros; exact I); intros x; try apply errs_ret.
  - destruct (negb _); [apply errs_throw; exact I|]. apply errs_bind; [apply errs_fill_codes|]. intros [fs d]. apply errs_ret.
  - destruct (data_count _); [|apply errs_ret]. destruct (negb _); [apply errs_throw; exact I|apply errs_ret].
Qed.
Lemma errs_step {env : Env} {R} `{Reader R} h s : Errs (section_step h s : M R _ _) not_preamble.
Proof.
  unfold section_step. apply errs_bind.
  - intros r e r'. unfold with_take. unfold bind. rewrite validate_exact. destruct (order_err _ _) as [e1|] eqn:Eo.
    + intros [= <- <-]. unfold order_err in Eo. destruct (last_opt _); [|discriminate]. destruct (sk_eqb _ _); [discriminate|]. destruct (sk_ltb _ _); [injection Eo as <-; exact I|].
      destruct (sk_eqb _ _); [injection Eo as <-; exact I|discriminate].
    + destruct (decode_section _ _ _) as [[a|e1|pn|] t] eqn:Ed; try discriminate. intros [= <- <-]. eapply errs_section; exact Ed.
  - intros [s' l]. destruct (negb _); [|apply errs_bind; [unfold alloc; destruct (_ <=? _)%N; [apply errs_ret|apply errs_panic]|intros _; apply errs_ret]]. apply errs_bind; [|intros; apply errs_throw; exact I].
    unfold sub_u64. destruct (_ <=? _)%N; [apply errs_ret|apply errs_panic].
Qed.
Lemma final_not_preamble {R} s : Errs (final_checks s : M R _ _) not_preamble.
Proof.
  unfold final_checks. cbv zeta. destruct (_ && _); [apply errs_throw; exact I|].
  destruct (match data_count _ with Some _ => _ | None => _ end); [apply errs_throw; exact I|]. destruct (_ && _); [apply errs_throw; exact I|apply errs_ret].
Qed.
Lemma preamble_only {env : Env} evs bs e x : content evs = (bs, e) -> fst (decode_module evs) = Err (DM_ParsePreamble x) ->
  length bs < 8 \/ firstn 8 bs <> preamble.
Proof.
  intros Hc Hd. destruct (Nat.lt_ge_cases (length bs) 8) as [|Hl]; [auto|]. right. intros Hp.
  destruct (decode_module evs) as [y r'] eqn:ED. cbn in Hd. subst y. apply decode_backward in ED. inversion ED as [e1 ? HP|xs b s1 r1 e1 ? Hb Hq Ha HL|xs b s1 r1 e1 ? Hb Hq Ha Hh HF]; subst.
  - assert (HE : fst (parse_preamble evs) = Ok tt).
    { destruct (events_content evs) as (tl & Hab & HE). rewrite Hc in Hab. cbn [fst] in Hab.
      destruct (read_exact_complete 8 evs (firstn 8 bs) (map AByte (skipn 8 bs) ++ tl)) as (r2 & HR & _).
      - change (abs evs) with (events_abs evs). rewrite Hab. rewrite <- (firstn_skipn 8 bs) at 1. rewrite map_app, <- app_assoc. apply bsteps_list.
      - unfold lenN. rewrite firstn_length. lia.
      - unfold parse_preamble, bind, map_err. rewrite HR, Hp. reflexivity. }
    rewrite HP in HE. discriminate.
  - inversion HL; subst. match goal with HS : section_step _ _ _ = _ |- _ => apply errs_step in HS; exact HS end.
  - apply final_not_preamble in HF. exact HF.
Qed.

(** ** C34, C35 *)
Lemma panic_why {env : Env} evs p : fst (decode_module evs) = Panic p ->
  (p = AllocFailure /\ (alloc_limit < 2 ^ 32 - 1 \/ alloc_limit <= N.of_nat (length (fst (content evs))))%N) \/ (p = StackOverflow /\ stack_limit <= S (length (fst (content evs)))).
Proof.
  intros Hd. destruct (content evs) as [bs e] eqn:Hc. cbn [fst].
  assert (He : e <> Fails Interrupted) by (pose proof (content_not_interrupted evs) as HN; rewrite Hc in HN; exact HN).
  rewrite (decode_content evs (plain bs e)) in Hd by (rewrite content_plain by assumption; assumption).
  pose proof (safe_decode_module (plain bs e)) as HS. pose proof (budget_plain bs e). cbn [budget event_reader] in HS.
  destruct (decode_module (plain bs e)) as [[m|er|pn|] r']; cbn in Hd; try discriminate. injection Hd as ->.
  destruct HS as [_ HS]. destruct p; try contradiction; [left; split; [reflexivity|]; unfold short in HS; lia|right; split; [reflexivity|lia]].
Qed.

Lemma panic_why_slice {env : Env} (bs : list byte) p : fst (decode_module bs) = Panic p ->
  (p = AllocFailure /\ (alloc_limit < 2 ^ 32 - 1 \/ alloc_limit < N.of_nat (length bs))%N) \/ (p = StackOverflow /\ stack_limit <= length bs).
Proof.
  intros Hd. pose proof (safe_decode_module bs) as HS. cbn [budget list_reader] in HS.
  destruct (decode_module bs) as [[m|er|pn|] r']; cbn in Hd; try discriminate. injection Hd as ->.
  destruct HS as [_ HS]. destruct p; try contradiction; [left; split; [reflexivity|]; unfold short in HS; lia|right; split; [reflexivity|exact HS]].
Qed.

(** ** C46 *)
Lemma decode_envs (env1 env2 : Env) (evs : list event) : fst (@decode_module env1 _ _ evs) = fst (@decode_module env2 _ _ evs)
  \/ exhausted env1 env2 (fst (@decode_module env1 _ _ evs)) \/ exhausted env2 env1 (fst (@decode_module env2 _ _ evs)).
Proof.
  set (envj := Build_Env (max (@stack_limit env1) (@stack_limit env2)) (N.max (@alloc_limit env1) (@alloc_limit env2)) (fun _ => 0%N)).
  assert (H1 : env_le env1 envj) by (unfold env_le; cbn; lia). assert (H2 : env_le env2 envj) by (unfold env_le; cbn; lia).
  assert (HE : forall e, env_le e envj -> fst (@decode_module e _ _ evs) = fst (@decode_module envj _ _ evs) \/ exhausted e envj (fst (@decode_module e _ _ evs))).
  { intros e Hle. assert (HK : @Bis _ _ list_machine list_machine (@eq (list atom))).
    { intros c1 c2 ->. destruct (next c2) as [[]]; auto. }
    destruct (sim_decode_module Hle _ _ _ _ _ _ _ _ _ _ eq HK evs evs eq_refl) as [[He _]|[He|[He|[_ He]]]].
    - left; exact He.
    - exfalso. exact (not_stuck (env := e) evs He).
    - exfalso. exact (not_stuck (env := envj) evs He).
    - right; exact He. }
  destruct (HE _ H1) as [E1|[[L1 E1]|[L1 E1]]].
  - destruct (HE _ H2) as [E2|[[L2 E2]|[L2 E2]]].
    + left. exact (eq_trans E1 (eq_sym E2)).
    + right; right; left. split; [subst envj; cbn [alloc_limit] in L2; lia|exact E2].
    + right; right; right. split; [subst envj; cbn [stack_limit] in L2; lia|exact E2].
  - right; left; left. split; [subst envj; cbn [alloc_limit] in L1; lia|exact E1].
  - right; left; right. split; [subst envj; cbn [stack_limit] in L1; lia|exact E1].
Qed.

(** ** facts about accepted modules *)
Lemma preamble_eq : preamble = magic ++ version1.
Proof. reflexivity. Qed.
Lemma subseq_nodup {A} (l1 l2 : list A) : subseq l1 l2 -> NoDup l2 -> NoDup l1.
Proof.
  induction 1 as [|x l1 l2 HS IH|x l1 l2 HS IH]; intros HN; [constructor|inversion HN; auto|].
  inversion HN; subst. constructor; [|auto]. intros HI. assert (Hin : forall (a b : list A), subseq a b -> incl a b).
  { clear. induction 1; intros z Hz; [assumption|right; auto|destruct Hz; [left; assumption|right; auto]]. }
  apply (Hin _ _ HS) in HI. contradiction.
Qed.
Lemma order_nodup : NoDup section_order.
Proof. repeat constructor; cbn; intuition discriminate. Qed.
Lemma kinds_headers xs : map kind_of (non_custom (map fst xs)) =
  filter (fun k => match k with SK_Custom => false | _ => true end) (map sh_kind (map (fun '(s, n) => mkHeader (kind_of s) n) (xs : list (section * N)))).
Proof. induction xs as [|[[] n] xs IH]; cbn; try (f_equal; exact IH); auto. Qed.
Lemma module_order m bs : Bmodule m bs -> subseq (parsed_section_kinds m) section_order /\ NoDup (parsed_section_kinds m)
  /\ parsed_section_kinds m = filter (fun k => match k with SK_Custom => false | _ => true end) (map sh_kind (section_headers m)).
Proof.
  inversion 1 as [ss w cs Hq Ho Hl Hc Hm]; subst. cbn. split; [exact Ho|]. split; [eapply subseq_nodup; [exact Ho|apply order_nodup]|]. apply kinds_headers.
Qed.
Lemma module_funcs m bs : Bmodule m bs -> exists ss w, bs = preamble ++ w /\ Bseq Bsection ss w /\
  let ts := the get_function (map fst ss) in let cs := the get_code (map fst ss) in
  length (funcs m) = length ts /\ length (funcs m) = length cs /\
  (forall i f, nth_error (funcs m) i = Some f <->
     exists t ls e, nth_error ts i = Some t /\ nth_error cs i = Some (ls, e) /\ f = mkFunc t ls e).
Proof.
  inversion 1 as [ss w cs Hq Ho Hl Hc Hm]; subst. exists ss, w. split; [reflexivity|]. split; [assumption|]. cbv zeta. unfold cs in *. clear -Hl.
  cbn [funcs module_of]. revert Hl. generalize (the get_function (map fst ss)) (the get_code (map fst ss)). intros ts cs Hl.
  split; [rewrite map_length, combine_length; lia|]. split; [rewrite map_length, combine_length; lia|].
  revert cs Hl. induction ts as [|t ts IH]; intros [|[ls e] cs] Hl; try discriminate.
  - intros [|i] f; cbn; (split; [discriminate|intros (? & ? & ? & ? & _); discriminate]).
  - intros [|i] f; cbn [nth_error map combine].
    + split; [intros [= <-]; eexists _, _, _; auto|intros (? & ? & ? & [= <-] & [= <- <-] & ->); reflexivity].
    + apply IH. injection Hl as Hl. exact Hl.
Qed.
Lemma module_datacount m bs n : Bmodule m bs -> data_count m = Some n -> n = N.of_nat (length (datas m)).
Proof.
  inversion 1 as [ss w cs Hq Ho Hl Hc Hm]; subst. cbn. intros Hh. apply Hc. unfold cs.
  destruct (the get_datacount (map fst ss)); [discriminate|]. injection Hh as ->. left. reflexivity.
Qed.
Lemma module_mentions m bs f i : Bmodule m bs -> In f (funcs m) -> In i (f_body f) -> mentions_data i -> exists n, data_count m = Some n.
Proof.
  inversion 1 as [ss w cs Hq Ho Hl Hc Hm]; subst. cbn. intros Hf Hi Hmd. apply in_map_iff in Hf as ([t [ls e]] & <- & Hin). apply in_combine_r in Hin. cbn in Hi.
  unfold cs in *. destruct (the get_datacount (map fst ss)) as [|n l]; [|exists n; reflexivity]. exfalso. exact (Hm eq_refl ls e i Hin Hi Hmd).
Qed.
Lemma module_locals m bs f : Bmodule m bs -> In f (funcs m) -> (N.of_nat (length (f_locals f)) < 2 ^ 32)%N.
Proof.
  inversion 1 as [ss w cs Hq Ho Hl Hc Hm]; subst. cbn. intros Hf. apply in_map_iff in Hf as ([t [ls e]] & <- & Hin). apply in_combine_r in Hin. cbn.
  clear -Hq Hin. unfold the in Hin. apply in_flat_map in Hin as (x & Hx & Hin). destruct x; try contradiction. cbn in Hin.
  apply in_map_iff in Hx as ([x n] & Ex & Hx). cbn in Ex. subst x.
  assert (HB : exists p, Bcontents (SCode cs) p).
  { clear Hin. induction Hq as [|y ys b1 b2 Hy _ IH]; [contradiction|]. destruct Hx as [->|Hx]; [inversion Hy; eauto|auto]. }
  destruct HB as [p HB]. inversion HB as [| | | | | | | | | | | |l p' HL|]; subst. inversion HL as [? b1 b2 _ Hs]; subst. clear -Hs Hin.
  induction Hs as [|y ys b1 b2 Hy _ IH]; [contradiction|]. destruct Hin as [->|Hin]; [|auto]. inversion Hy as [? ? ? _ HF]; subst. inversion HF; assumption.
Qed.
Lemma module_parts m bs : Bmodule m bs -> exists ps w, bs = preamble ++ w /\ parts ps w /\
  section_headers m = map (fun p => mkHeader (fst p) (N.of_nat (length (snd p)))) ps /\
  Forall2 Bcustom (custom_sections m) (map snd (filter (fun p => match fst p with SK_Custom => true | _ => false end) ps)).
Proof.
  inversion 1 as [ss w cs Hq Ho Hl Hc Hm]; subst. destruct (sections_parts _ _ Hq) as (ps & Hp & HF). exists ps, w. split; [reflexivity|]. split; [assumption|].
  cbn [section_headers custom_sections module_of]. clear -HF. induction HF as [|[x n] [k p] xs ps (Hk & Hn & HC) _ [IH1 IH2]]; [split; [reflexivity|constructor]|].
  cbn in Hk, Hn, HC |- *. subst. split; [f_equal; exact IH1|]. inversion HC; subst; cbn; try exact IH2. constructor; assumption.
Qed.
Lemma module_truncated m p rest m' : Bmodule m (p ++ rest) -> Bmodule m' p -> exists xs1 xs2 w1, p = preamble ++ w1 /\
  Bseq Bsection xs1 w1 /\ Bseq Bsection xs2 rest /\ m = module_of (xs1 ++ xs2) /\ m' = module_of xs1.
Proof.
  intros H1 H2. inversion H2 as [xs1 w1 cs1 Hq1 _ _ _ _ Hm1 Hp1]; subst. rewrite <- !app_assoc in H1.
  remember (magic ++ version1 ++ w1 ++ rest) as q eqn:Hp in H1. destruct H1 as [xs w cs Hq _ _ _ _]. unfold magic, version1 in Hp. cbn [app] in Hp. injection Hp as Hp. subst w.
  destruct (sections_split _ _ _ _ Hq1 Hq) as (xs2 & -> & Hq2). exists xs1, xs2, w1. auto.
Qed.

(** ** C27 *)
Lemma the_custom {A} (f : section -> list A) (xs1 : list (section * N)) c n xs2 : f (SCustom c) = [] -> the f (map fst (xs1 ++ (SCustom c, n) :: xs2)) = the f (map fst (xs1 ++ xs2)).
Proof. intros Hf. unfold the. rewrite !map_app, !flat_map_app. cbn. rewrite Hf. reflexivity. Qed.
Lemma kinds_custom (xs1 : list (section * N)) c n xs2 : map kind_of (non_custom (map fst (xs1 ++ (SCustom c, n) :: xs2))) = map kind_of (non_custom (map fst (xs1 ++ xs2))).
Proof. unfold non_custom. rewrite !map_app, !filter_app. reflexivity. Qed.
Lemma conds_custom (xs1 : list (section * N)) c n xs2 : Module_conds (map fst (xs1 ++ (SCustom c, n) :: xs2)) <-> Module_conds (map fst (xs1 ++ xs2)).
Proof.
  pose proof (kinds_custom xs1 c n xs2) as E0. pose proof (the_custom get_function xs1 c n xs2 eq_refl) as E1. pose proof (the_custom get_code xs1 c n xs2 eq_refl) as E2.
  pose proof (the_custom get_datacount xs1 c n xs2 eq_refl) as E3. pose proof (the_custom get_data xs1 c n xs2 eq_refl) as E4.
  split; intros [A1 A2 A3 A4]; (constructor; [congruence|congruence| |]).
  - rewrite <- E3, <- E4. exact A3.
  - rewrite <- E3, <- E2. exact A4.
  - rewrite E3, E4. exact A3.
  - rewrite E3, E2. exact A4.
Qed.
Lemma module_custom xs1 c n xs2 : without_customs (module_of (xs1 ++ (SCustom c, n) :: xs2)) = without_customs (module_of (xs1 ++ xs2)).
Proof.
  unfold without_customs, module_of. cbn [version parsed_section_kinds section_headers custom_sections types funcs tables mems globals elems data_count datas start imports exports tags].
  rewrite kinds_custom, !the_custom by reflexivity. f_equal. rewrite !map_app, !filter_app. reflexivity.
Qed.
Lemma Bmodule_sections xs w m : Bseq Bsection xs w -> (Bmodule m (preamble ++ w) <-> Module_conds (map fst xs) /\ m = module_of xs).
Proof.
  intros Hq. split.
  - intros HB. apply Bmodule_iff in HB as (xs' & w' & Hp & Hq' & Ha). unfold preamble, magic, version1 in Hp. cbn [app] in Hp. injection Hp as <-.
    rewrite (sections_unamb _ _ _ Hq' Hq) in Ha. apply assemble_iff in Ha. exact Ha.
  - intros [HC ->]. apply Bmodule_iff. exists xs, w. split; [reflexivity|]. split; [assumption|]. apply assemble_iff. auto.
Qed.
Lemma custom_insert xs1 w1 c n b xs2 w2 m : Bseq Bsection xs1 w1 -> Bsection (SCustom c, n) b -> Bseq Bsection xs2 w2 -> Bmodule m (preamble ++ w1 ++ w2) ->
  exists m', Bmodule m' (preamble ++ w1 ++ b ++ w2) /\ without_customs m' = without_customs m /\
    custom_sections m = the get_custom (map fst xs1) ++ the get_custom (map fst xs2) /\
    custom_sections m' = the get_custom (map fst xs1) ++ c :: the get_custom (map fst xs2).
Proof.
  intros H1 HB H2 HM. pose proof (sections_app _ _ _ _ H1 H2) as H12. apply (Bmodule_sections _ _ _ H12) in HM as [HC ->].
  exists (module_of (xs1 ++ (SCustom c, n) :: xs2)). split; [|split; [apply module_custom|]].
  - eapply Bmodule_sections; [apply sections_app; [eassumption|constructor; eassumption]|]. split; [apply conds_custom; assumption|reflexivity].
  - unfold module_of, the. cbn [custom_sections]. rewrite !map_app, !flat_map_app. auto.
Qed.
Lemma custom_remove xs1 w1 c n b xs2 w2 m' : Bseq Bsection xs1 w1 -> Bsection (SCustom c, n) b -> Bseq Bsection xs2 w2 -> Bmodule m' (preamble ++ w1 ++ b ++ w2) ->
  exists m, Bmodule m (preamble ++ w1 ++ w2) /\ without_customs m' = without_customs m /\
    custom_sections m = the get_custom (map fst xs1) ++ the get_custom (map fst xs2) /\
    custom_sections m' = the get_custom (map fst xs1) ++ c :: the get_custom (map fst xs2).
Proof.
  intros H1 HB H2 HM. assert (H12 : Bseq Bsection (xs1 ++ (SCustom c, n) :: xs2) (w1 ++ b ++ w2)) by (apply sections_app; [assumption|constructor; assumption]).
  apply (Bmodule_sections _ _ _ H12) in HM as [HC ->]. exists (module_of (xs1 ++ xs2)). split; [|split; [apply module_custom|]].
  2: { unfold module_of, the. cbn [custom_sections]. rewrite !map_app, !flat_map_app. auto. }
  eapply Bmodule_sections; [apply sections_app; eassumption|]. split; [eapply conds_custom; eassumption|reflexivity].
Qed.
