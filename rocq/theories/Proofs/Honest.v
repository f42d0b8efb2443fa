(** C69: no message of an error names what was found among what was expected. *)
From Verif Require Import Model.Prelude Model.Io Model.Ast Model.Errors Model.Display Model.Module.
From Verif Require Import Spec.Lang Spec.Types Spec.Instr Spec.Module Spec.Streams Spec.Leb Spec.Layout Spec.Faults Spec.Diagnosis Spec.Honest Proofs.Decimal.
From Coq Require Import Bool Lia ZifyN ZifyNat ZifyBool String Ascii.
Local Open Scope string_scope.

(** ** strings *)
Lemma str_app_assoc a b c : (a ++ b) ++ c = a ++ (b ++ c).
Proof. induction a as [|x a IH]; [reflexivity|]. cbn [append]. f_equal. exact IH. Qed.
Lemma str_app_nil a : a ++ "" = a.
Proof. induction a as [|x a IH]; [reflexivity|]. cbn [append]. f_equal. exact IH. Qed.
(** the character [c] does not occur in [s] *)
Fixpoint lacks (c : ascii) (s : string) : bool := match s with "" => true | String x s => negb (Ascii.eqb x c) && lacks c s end.
Lemma lacks_app c a b : lacks c (a ++ b) = lacks c a && lacks c b.
Proof. induction a as [|x a IH]; [reflexivity|]. cbn [append lacks]. rewrite IH. apply andb_assoc. Qed.
Lemma cut_first c a b : forall a' b', lacks c a = true -> lacks c a' = true -> a ++ String c b = a' ++ String c b' -> a = a' /\ b = b'.
Proof.
  induction a as [|x a IH]; intros [|x' a'] b' H H' E; cbn [append lacks] in *.
  - injection E as ->. auto.
  - injection E as <- E. rewrite Ascii.eqb_refl in H'. discriminate H'.
  - injection E as -> E. rewrite Ascii.eqb_refl in H. discriminate H.
  - injection E as <- E. apply andb_prop in H as [_ H], H' as [_ H']. destruct (IH _ _ H H' E) as [-> ->]. auto.
Qed.
Lemma skip_first c a b : forall a' b', lacks c a = true -> a ++ b = a' ++ String c b' -> exists a2, a' = a ++ a2 /\ b = a2 ++ String c b'.
Proof.
  induction a as [|x a IH]; intros [|x' a'] b' H E; cbn [append lacks] in *.
  - exists "". auto.
  - exists (String x' a'). auto.
  - injection E as -> E. rewrite Ascii.eqb_refl in H. discriminate H.
  - injection E as <- E. apply andb_prop in H as [_ H]. destruct (IH _ _ H E) as (a2 & -> & ->). exists a2. auto.
Qed.
Lemma cut_last c a b : forall a' b', lacks c b = true -> lacks c b' = true -> a ++ String c b = a' ++ String c b' -> a = a' /\ b = b'.
Proof.
  induction a as [|x a IH]; intros [|x' a'] b' H H' E; cbn [append] in *.
  - injection E as ->. auto.
  - injection E as <- E. rewrite E, lacks_app in H. cbn [lacks] in H. rewrite Ascii.eqb_refl, andb_false_r in H. discriminate H.
  - injection E as -> E. rewrite <- E, lacks_app in H'. cbn [lacks] in H'. rewrite Ascii.eqb_refl, andb_false_r in H'. discriminate H'.
  - injection E as <- E. destruct (IH _ _ H H' E) as [-> ->]. auto.
Qed.

(** ** texts without "; got " *)
Definition no_got (s : string) : Prop := forall said got, s <> said ++ "; got " ++ got.
Lemma no_got_honest s : no_got s -> honest s.
Proof. intros H said got E. destruct (H said got E). Qed.
Lemma lacks_no_got s : lacks ";" s = true -> no_got s.
Proof. intros H said got ->. rewrite lacks_app in H. cbn [append lacks] in H. rewrite Ascii.eqb_refl, andb_false_r in H. discriminate H. Qed.
Lemma no_got_app a b : lacks ";" a = true -> no_got b -> no_got (a ++ b).
Proof. intros H Hb said got E. destruct (skip_first ";" a b said (" got " ++ got) H E) as (s2 & -> & E2). exact (Hb s2 got E2). Qed.
Fixpoint strip (p s : string) : option string :=
  match p, s with "", _ => Some s | String c p, String x s => if Ascii.eqb c x then strip p s else None | _, _ => None end.
Lemma strip_app p s : strip p (p ++ s) = Some s.
Proof. induction p as [|c p IH]; [reflexivity|]. cbn [append strip]. rewrite Ascii.eqb_refl. exact IH. Qed.
Fixpoint cuts (seen s : string) : list (string * string) :=
  (seen, s) :: match s with "" => [] | String c s => cuts (seen ++ String c "") s end.
Lemma cuts_app s : forall seen a b, s = a ++ b -> In (seen ++ a, b) (cuts seen s).
Proof.
  induction s as [|c s IH]; intros seen a b E.
  - destruct a; [|discriminate E]. cbn [append] in E. subst b. left. rewrite str_app_nil. reflexivity.
  - destruct a as [|x a]; cbn [append] in E; [subst b; left; rewrite str_app_nil; reflexivity|]. injection E as <- E. right.
    pose proof (IH (seen ++ String c "") a b E) as H. rewrite str_app_assoc in H. exact H.
Qed.
Definition blank_before (got said : string) : bool := existsb (fun c => String.eqb (snd c) (" " ++ got)) (cuts "" said).
Definition honestb (s : string) : bool :=
  forallb (fun c => match strip "; got " (snd c) with
                    | Some got => negb (existsb (String.eqb got) (words (fst c))) && negb (blank_before got (fst c))
                    | None => true end) (cuts "" s).
Lemma honestb_ok s : honestb s = true -> honest s.
Proof.
  intros H said got E. unfold honestb in H. rewrite forallb_forall in H. pose proof (H _ (cuts_app s "" said _ E)) as K. cbn [fst snd] in K. change ("" ++ said) with said in K.
  rewrite strip_app in K. apply andb_prop in K as [K1 K2]. split.
  - intros Hi. rewrite negb_true_iff in K1. rewrite (proj2 (existsb_exists _ _) (ex_intro _ got (conj Hi (String.eqb_refl got)))) in K1. discriminate K1.
  - intros a Ea. rewrite negb_true_iff in K2. unfold blank_before in K2.
    rewrite (proj2 (existsb_exists _ _) (ex_intro _ _ (conj (cuts_app said "" a (" " ++ got) Ea) (String.eqb_refl _)))) in K2. discriminate K2.
Qed.
Definition no_gotb (s : string) : bool := forallb (fun c => match strip "; got " (snd c) with Some _ => false | None => true end) (cuts "" s).
Lemma no_gotb_ok s : no_gotb s = true -> no_got s.
Proof.
  intros H said got E. unfold no_gotb in H. rewrite forallb_forall in H. pose proof (H _ (cuts_app s "" said _ E)) as K. cbn [fst snd] in K. change ("" ++ said) with said in K.
  rewrite strip_app in K. discriminate K.
Qed.

(** ** numbers *)
Lemma lacks_digits c base fuel : (0 < base <= 16)%N -> word_char c = false -> forall n, lacks c (digits base fuel n) = true.
Proof.
  intros Hb Hc.
  assert (D : forall d, (d < 16)%N -> lacks c (digit d) = true).
  { intros d Hd. unfold digit. cbn [lacks]. rewrite andb_true_r, negb_true_iff. apply Ascii.eqb_neq. intros E. subst c.
    unfold word_char in Hc. cbv zeta in Hc. assert (K : ((if (d <? 10) then 48 + d else 55 + d) < 256)%N) by (destruct (N.ltb_spec d 10); lia).
    rewrite (N_ascii_embedding _ K) in Hc. destruct (N.ltb_spec d 10); lia. }
  induction fuel as [|fuel IH]; intros n; cbn [digits].
  - apply D. pose proof (N.mod_lt n base). lia.
  - destruct (N.ltb_spec n base) as [H|H]; [apply D; lia|]. rewrite lacks_app, IH. apply D. pose proof (N.mod_lt n base). lia.
Qed.
Lemma lacks_dec c n : word_char c = false -> lacks c (dec n) = true.
Proof. intros H. apply lacks_digits; [lia|exact H]. Qed.
Lemma semi_dec n : lacks ";" (dec n) = true. Proof. apply lacks_dec. reflexivity. Qed.
Lemma semi_decZ z : lacks ";" (decZ z) = true.
Proof. unfold decZ. destruct (z <? 0)%Z; [cbn [append lacks]; apply semi_dec|apply semi_dec]. Qed.
Lemma lacks_hex c n : word_char c = false -> lacks c (hex n) = true.
Proof.
  intros H. unfold hex. rewrite lacks_app, lacks_digits by (lia || exact H). rewrite andb_true_r. cbn [lacks]. rewrite !andb_true_iff, !negb_true_iff, !Ascii.eqb_neq.
  repeat split; intros <-; discriminate H.
Qed.
Lemma semi_hex04 n : lacks ";" (hex04 n) = true.
Proof.
  unfold hex04. destruct (N.ltb_spec n 16); [|apply lacks_hex; reflexivity]. rewrite lacks_app. change (lacks ";" "0x0") with true.
  exact (lacks_digits ";" 16 0 ltac:(lia) eq_refl n) || (unfold digit; cbn [lacks andb]; rewrite andb_true_r, negb_true_iff; apply Ascii.eqb_neq; intros E;
    assert (K : ((if (n <? 10) then 48 + n else 55 + n) < 256)%N) by (destruct (n <? 10)%N; lia); apply (f_equal N_of_ascii) in E; rewrite (N_ascii_embedding _ K) in E;
    change (N_of_ascii ";") with 59%N in E; destruct (N.ltb_spec n 10); lia).
Qed.
Lemma semi_hexb b : lacks ";" (hexb b) = true. Proof. apply semi_hex04. Qed.
Lemma semi_section k : lacks ";" (debug_section k) = true. Proof. destruct k; reflexivity. Qed.

(** ** words *)
Lemma words_cut c b : word_char c = false -> forall a run, words_after run (a ++ String c b) = (words_after run a ++ words_after "" b)%list.
Proof.
  intros Hc. induction a as [|x a IH]; intros run; cbn [append words_after].
  - rewrite Hc. reflexivity.
  - destruct (word_char x); [apply IH|]. rewrite IH, app_assoc. reflexivity.
Qed.
Fixpoint all_word (s : string) : bool := match s with "" => true | String c s => word_char c && all_word s end.
Lemma words_one s : all_word s = true -> forall run, run ++ s <> "" -> words_after run s = [run ++ s].
Proof.
  induction s as [|c s IH]; intros H run Hn; cbn [words_after].
  - rewrite str_app_nil in *. destruct (String.eqb_spec run ""); [contradiction|reflexivity].
  - cbn [all_word] in H. apply andb_prop in H as [-> H]. assert (E : (run ++ String c "") ++ s = run ++ String c s) by (rewrite str_app_assoc; reflexivity).
    rewrite IH by (rewrite ?E; assumption). rewrite E. reflexivity.
Qed.
Definition digit_char (c : ascii) : bool := let n := N_of_ascii c in ((48 <=? n) && (n <=? 57))%N.
Fixpoint numeral (s : string) : bool := match s with "" => true | String c s => digit_char c && numeral s end.
Lemma numeral_app a b : numeral (a ++ b) = numeral a && numeral b.
Proof. induction a as [|x a IH]; [reflexivity|]. cbn [append numeral]. rewrite IH. apply andb_assoc. Qed.
Lemma numeral_digits fuel : forall n, numeral (digits 10 fuel n) = true.
Proof.
  assert (D : forall d, (d < 10)%N -> numeral (digit d) = true).
  { intros d Hd. unfold digit. cbn [numeral]. rewrite andb_true_r. unfold digit_char. cbv zeta. assert (K : ((if (d <? 10) then 48 + d else 55 + d) < 256)%N) by (destruct (N.ltb_spec d 10); lia).
    rewrite (N_ascii_embedding _ K). destruct (N.ltb_spec d 10); lia. }
  induction fuel as [|fuel IH]; intros n; cbn [digits].
  - apply D. pose proof (N.mod_lt n 10). lia.
  - destruct (N.ltb_spec n 10) as [H|H]; [apply D; lia|]. rewrite numeral_app, IH. apply D. pose proof (N.mod_lt n 10). lia.
Qed.
Lemma numeral_dec n : numeral (dec n) = true. Proof. apply numeral_digits. Qed.
Lemma numeral_word s : numeral s = true -> all_word s = true.
Proof.
  induction s as [|c s IH]; [reflexivity|]. cbn [numeral all_word]. intros H. apply andb_prop in H as [H1 H2]. rewrite (IH H2), andb_true_r.
  unfold digit_char, word_char in *. cbv zeta in *. lia.
Qed.
Lemma dec_empty n : dec n <> "".
Proof. intros E. pose proof (dec_ok n) as H. rewrite E in H. inversion H. match goal with X : ?a ++ _ = "" |- _ => destruct a; discriminate X end. Qed.
Lemma words_dec n : words (dec n) = [dec n].
Proof. unfold words. rewrite words_one; [reflexivity|apply numeral_word, numeral_dec|apply dec_empty]. Qed.
Lemma words_between a n : words (a ++ " " ++ dec n) = (words a ++ [dec n])%list.
Proof. unfold words. change (" " ++ dec n) with (String " " (dec n)). rewrite (words_cut " "%char (dec n) eq_refl a ""). fold (words (dec n)). rewrite words_dec. reflexivity. Qed.
Lemma words_bytes a n : words (a ++ " " ++ dec n ++ " bytes") = (words a ++ [dec n; "bytes"])%list.
Proof.
  unfold words. change (" " ++ dec n ++ " bytes") with (String " " (dec n ++ String " " "bytes")). rewrite (words_cut " "%char _ eq_refl a ""), (words_cut " "%char _ eq_refl (dec n) "").
  fold (words (dec n)). rewrite words_dec. reflexivity.
Qed.

(** ** texts that end with a number *)
Lemma got_dec (pre : string) n : lacks ";" pre = true -> ~ In (dec n) (words pre) -> (forall a, pre <> a ++ " " ++ dec n) -> honest (pre ++ "; got " ++ dec n).
Proof.
  intros Hp H1 H2 said got E. destruct (skip_first ";" pre ("; got " ++ dec n) said (" got " ++ got) Hp E) as (s2 & -> & E2). destruct s2 as [|c s2].
  - rewrite str_app_nil. assert (Eq : dec n = got) by (cbn [append] in E2; injection E2; auto). subst got. split; assumption.
  - exfalso. assert (Eq : " got " ++ dec n = s2 ++ String ";" (" got " ++ got)).
    { change ("; got " ++ dec n) with (String ";" (" got " ++ dec n)) in E2. change (String c s2 ++ ?x) with (String c (s2 ++ x)) in E2. exact (f_equal (fun s => match s with String _ s => s | "" => "" end) E2). }
    apply (f_equal (lacks ";")) in Eq. rewrite !lacks_app, semi_dec in Eq. cbn [lacks] in Eq. rewrite Ascii.eqb_refl, andb_false_r in Eq. discriminate Eq.
Qed.
(** a word that is no number *)
Lemma dec_other n w : numeral w = false -> dec n <> w.
Proof. intros H E. rewrite <- E, numeral_dec in H. discriminate H. Qed.
Lemma not_after_blank a s n : forall x, lacks " " s = true -> dec n <> s -> a ++ " " ++ s <> x ++ " " ++ dec n.
Proof.
  intros x H1 H2 E. destruct (cut_last " " a s x (dec n) H1 (lacks_dec " "%char n eq_refl) E) as [_ E2]. congruence.
Qed.

(** ** chains *)
Definition H (n : node) : Prop := Forall honest (levels n).
Lemma h_leaf s : honest s -> H (Leaf s). Proof. intros Hs. constructor; [exact Hs|constructor]. Qed.
Lemma h_io e : H (Io e). Proof. constructor. Qed.
Lemma h_utf8 bs : H (FromUtf8 bs). Proof. constructor. Qed.
Lemma h_transparent n : H n -> H (Transparent n). Proof. exact (fun x => x). Qed.
Lemma h_message s n : honest s -> H n -> H (Message s n). Proof. intros. constructor; assumption. Qed.
Lemma h_detached s n : honest s -> H n -> H (Detached s n). Proof. intros. constructor; assumption. Qed.
Ltac semi := lazymatch goal with
  | |- lacks _ (_ ++ _) = true => rewrite lacks_app; apply andb_true_intro; split; semi
  | |- lacks _ (dec _) = true => apply semi_dec
  | |- lacks _ (decZ _) = true => apply semi_decZ
  | |- lacks _ (hexb _) = true => apply semi_hexb
  | |- lacks _ (hex04 _) = true => apply semi_hex04
  | |- lacks _ (debug_section _) = true => apply semi_section
  | |- lacks _ _ = true => reflexivity end.
Ltac silent := first [solve [apply lacks_no_got; semi] | solve [apply no_gotb_ok; reflexivity] | apply no_got_app; [solve [semi]|silent]].
Create HintDb honest.
Ltac text := first [solve [apply no_got_honest; silent] | solve [eauto with honest] | solve [apply honestb_ok; vm_compute; reflexivity]].
Ltac h := first
  [ assumption | solve [eauto with honest]
  | lazymatch goal with |- H ?t => let t' := eval hnf in t in
      lazymatch t' with
      | Leaf _ => change (H t'); apply h_leaf; text
      | Io _ => change (H t'); apply h_io
      | FromUtf8 _ => change (H t'); apply h_utf8
      | Transparent _ => change (H t'); apply h_transparent; h
      | Message _ _ => change (H t'); apply h_message; [text|h]
      | Detached _ _ => change (H t'); apply h_detached; [text|h]
      end end ].
(** errors that say nothing of what was expected *)
Ltac always := intros e; destruct e; h.
Lemma h_u32 e : H (n_u32 e). Proof. revert e. always. Qed.
Lemma h_u64 e : H (n_u64 e). Proof. revert e. always. Qed.
Lemma h_i32 e : H (n_i32 e). Proof. revert e. always. Qed.
Lemma h_i64 e : H (n_i64 e). Proof. revert e. always. Qed.
Lemma h_s33 e : H (n_s33 e). Proof. revert e. always. Qed.
#[export] Hint Resolve h_u32 h_u64 h_i32 h_i64 h_s33 : honest.
Lemma h_typeidx e : H (n_typeidx e). Proof. revert e. always. Qed.
Lemma h_funcidx e : H (n_funcidx e). Proof. revert e. always. Qed.
Lemma h_tableidx e : H (n_tableidx e). Proof. revert e. always. Qed.
Lemma h_memidx e : H (n_memidx e). Proof. revert e. always. Qed.
Lemma h_globalidx e : H (n_globalidx e). Proof. revert e. always. Qed.
Lemma h_elemidx e : H (n_elemidx e). Proof. revert e. always. Qed.
Lemma h_dataidx e : H (n_dataidx e). Proof. revert e. always. Qed.
Lemma h_localidx e : H (n_localidx e). Proof. revert e. always. Qed.
Lemma h_labelidx e : H (n_labelidx e). Proof. revert e. always. Qed.
Lemma h_tagidx e : H (n_tagidx e). Proof. revert e. always. Qed.
Lemma h_f32 e : H (n_f32 e). Proof. revert e. always. Qed.
Lemma h_f64 e : H (n_f64 e). Proof. revert e. always. Qed.
Lemma h_byte_vector e : H (n_byte_vector e). Proof. revert e. always. Qed.
#[export] Hint Resolve h_typeidx h_funcidx h_tableidx h_memidx h_globalidx h_elemidx h_dataidx h_localidx h_labelidx h_tagidx h_f32 h_f64 h_byte_vector : honest.
Lemma h_name e : H (n_name e). Proof. revert e. always. Qed.
Lemma h_heaptype e : H (n_heaptype e). Proof. revert e. always. Qed.
Lemma h_memarg e : H (n_memarg e). Proof. revert e. always. Qed.
Lemma h_laneidx e : H (n_laneidx e). Proof. revert e. always. Qed.
Lemma h_blocktype e : H (n_blocktype e). Proof. revert e. always. Qed.
#[export] Hint Resolve h_name h_heaptype h_memarg h_laneidx h_blocktype : honest.
Lemma h_reference e : H (n_reference e). Proof. revert e. always. Qed.
Lemma h_aggregate e : H (n_aggregate e). Proof. revert e. always. Qed.
Lemma h_variable e : H (n_variable e). Proof. revert e. always. Qed.
Lemma h_table_instr e : H (n_table_instr e). Proof. revert e. always. Qed.
Lemma h_memory_instr e : H (n_memory_instr e). Proof. revert e. always. Qed.
Lemma h_numeric e : H (n_numeric e). Proof. revert e. always. Qed.
Lemma h_vector e : H (n_vector e). Proof. revert e. always. Qed.
#[export] Hint Resolve h_reference h_aggregate h_variable h_table_instr h_memory_instr h_numeric h_vector : honest.
Lemma h_length {E} (n : E -> node) e : H (n_list n (DecodeLength e)). Proof. h. Qed.
#[export] Hint Resolve h_length : honest.

(** ** faults *)
Definition Hn {E} (F : faulty E) (n : E -> node) : Prop := forall bs stop e, F bs stop e -> H (n e).
Lemma hn_all {E} (F : faulty E) n : (forall e, H (n e)) -> Hn F n. Proof. intros K bs stop e _. apply K. Qed.
Lemma hn_weak {E} (F : faulty E) (n n' : E -> node) : Hn F n -> (forall e, H (n e) -> H (n' e)) -> Hn F n'.
Proof. intros K1 K2 bs stop e HF. exact (K2 e (K1 bs stop e HF)). Qed.
Lemma hn_nothing {E} (n : E -> node) : Hn nothing n. Proof. intros bs stop e []. Qed.
Lemma hn_wrong {E} (e : E) n : H (n e) -> Hn (wrong e) n. Proof. intros K bs stop e' HF. unfold wrong in HF. subst e'. exact K. Qed.
Lemma hn_at {E E'} (f : E -> E') F n : Hn F (fun x => n (f x)) -> Hn (at_ f F) n.
Proof. intros K bs stop e (e' & HF & ->). exact (K bs stop e' HF). Qed.
Lemma hn_after {A E} (X : lang A) (K : A -> faulty E) n : (forall a, Hn (K a) n) -> Hn (after_ X K) n.
Proof. intros HK bs stop e (a & pre & rest & _ & _ & HF). exact (HK a rest stop e HF). Qed.
Lemma hn_field {A E E'} (f : E -> E') F (X : lang A) K n : Hn F (fun x => n (f x)) -> (forall a, Hn (K a) n) -> Hn (field f F X K) n.
Proof. intros K1 K2 bs stop e [HF|HF]; [exact (hn_at f F n K1 bs stop e HF)|exact (hn_after X K n K2 bs stop e HF)]. Qed.
Lemma hn_byte {E} (f : io_error -> E) K n : (forall k, H (n (f k))) -> (forall b, Hn (K b) n) -> Hn (byte_ f K) n.
Proof. intros K1 K2 [|b bs] stop e HF; cbn [byte_] in HF; [subst e; apply K1|exact (K2 b bs stop e HF)]. Qed.
Lemma hn_peek {E} (f : io_error -> E) K n : (forall k, H (n (f k))) -> (forall b, Hn (K b) n) -> Hn (peek f K) n.
Proof. intros K1 K2 [|b bs] stop e HF; cbn [peek] in HF; [subst e; apply K1|exact (K2 b (b :: bs) stop e HF)]. Qed.
Lemma hn_list {A E} (X : lang A) (F : faulty E) n : Hn F n -> Hn (Flist X F) (n_list n).
Proof.
  intros K. apply hn_field; [apply hn_all; intros e; h|]. intros a bs stop e (xs & w & rest & e' & _ & _ & _ & HF & ->). pose proof (K rest stop e' HF). h.
Qed.
Lemma hn_typeidx : Hn (at_ TypeIdxE Fu32) n_typeidx. Proof. apply hn_all. auto with honest. Qed.
Lemma hn_funcidx : Hn (at_ FuncIdxE Fu32) n_funcidx. Proof. apply hn_all. auto with honest. Qed.
Lemma hn_labelidx : Hn (at_ LabelIdxE Fu32) n_labelidx. Proof. apply hn_all. auto with honest. Qed.
#[export] Hint Resolve hn_list hn_typeidx hn_funcidx hn_labelidx : honest.
Ltac hf := cbv beta zeta; lazymatch goal with
  | |- Hn nothing _ => apply hn_nothing
  | |- Hn (wrong _) _ => apply hn_wrong; h
  | |- Hn (at_ _ _) _ => apply hn_at; cbv beta; first [solve [apply hn_all; intros ?e; h] | eapply hn_weak; [solve [eauto with honest]|intros ?e ?He; h] | hf]
  | |- Hn (field _ _ _ _) _ => apply hn_field; [cbv beta; first [solve [apply hn_all; intros ?e; h] | eapply hn_weak; [solve [eauto with honest]|intros ?e ?He; h] | hf]|intros ?a; hf]
  | |- Hn (byte_ _ _) _ => apply hn_byte; [intros ?k; h|intros ?b; hf]
  | |- Hn (peek _ _) _ => apply hn_peek; [intros ?k; h|intros ?b; hf]
  | |- Hn (match ?x with _ => _ end) _ => destruct x; hf
  | |- Hn (if ?x then _ else _) _ => destruct x; hf
  | |- Hn _ _ => first [solve [apply hn_all; intros ?e; h] | eapply hn_weak; [solve [eauto with honest]|intros ?e ?He; h]]
  end.
Lemma hn_reftype : Hn Freftype n_reftype. Proof. unfold Freftype. hf. Qed.
#[export] Hint Resolve hn_reftype : honest.
Lemma hn_valtype : Hn Fvaltype n_valtype. Proof. unfold Fvaltype. hf. Qed.
#[export] Hint Resolve hn_valtype : honest.
Lemma hn_resulttype : Hn Fresulttype n_resulttype. Proof. unfold Fresulttype. hf. Qed.
#[export] Hint Resolve hn_resulttype : honest.
Lemma hn_mut b : Hn (Fmut (fun x => x) b) n_invalid_mut. Proof. destruct b; cbn [Fmut]; hf. Qed.
Lemma hn_mut_at {E} (f : InvalidMutabilityByteError -> E) b n : (forall x, H (n_invalid_mut x) -> H (n (f x))) -> Hn (Fmut f b) n.
Proof.
  intros K bs stop e HF. pose proof (hn_mut b bs stop (InvalidMutabilityByte b)) as Hm. destruct b; cbn [Fmut] in *; try contradiction; unfold wrong in *; subst e; exact (K _ (Hm eq_refl)).
Qed.
Lemma hn_globaltype : Hn Fglobaltype n_globaltype.
Proof. unfold Fglobaltype. apply hn_field; [hf|]. intros _. apply hn_byte; [intros k; h|]. intros b. apply hn_mut_at. intros x Hx. h. Qed.
#[export] Hint Resolve hn_globaltype : honest.
Lemma hn_storagetype : Hn Fstoragetype n_storagetype. Proof. unfold Fstoragetype. hf. Qed.
#[export] Hint Resolve hn_storagetype : honest.
Lemma hn_fieldtype : Hn Ffieldtype n_fieldtype.
Proof. unfold Ffieldtype. apply hn_field; [hf|]. intros _. apply hn_byte; [intros k; h|]. intros b. apply hn_mut_at. intros x Hx. h. Qed.
#[export] Hint Resolve hn_fieldtype : honest.
Lemma hn_comptype : Hn Fcomptype n_comptype. Proof. unfold Fcomptype. hf. Qed.
#[export] Hint Resolve hn_comptype : honest.
Lemma hn_subtype : Hn Fsubtype n_subtype.
Proof.
  assert (K1 : Hn (field SubT_DecodeSupertypes (Flist Bidx (at_ TypeIdxE Fu32)) (Blist Bidx) (fun _ => at_ SubT_DecodeCompType Fcomptype)) n_subtype) by hf.
  assert (K2 : Hn (at_ SubT_DecodeCompType Fcomptype) n_subtype) by hf.
  intros [|b bs] stop e HF; [cbn [Fsubtype] in HF; subst e; h|]. destruct b; cbn [Fsubtype] in HF; first [exact (K2 _ _ _ HF)|exact (K1 _ _ _ HF)].
Qed.
#[export] Hint Resolve hn_subtype : honest.
Lemma hn_rectype : Hn Frectype n_rectype.
Proof.
  assert (K1 : Hn (at_ Rec_DecodeSubtypes (Flist Bsubtype Fsubtype)) n_rectype) by hf.
  assert (K2 : Hn (at_ Rec_DecodeSubtype Fsubtype) n_rectype) by hf.
  intros [|b bs] stop e HF; [cbn [Frectype] in HF; subst e; h|]. destruct b; cbn [Frectype] in HF; first [exact (K2 _ _ _ HF)|exact (K1 _ _ _ HF)].
Qed.
#[export] Hint Resolve hn_rectype : honest.
Lemma hn_limits : Hn Flimits n_limits. Proof. unfold Flimits. hf. Qed.
#[export] Hint Resolve hn_limits : honest.
Lemma hn_memtype : Hn Fmemtype n_memtype. Proof. unfold Fmemtype. hf. Qed.
Lemma hn_tabletype : Hn Ftabletype n_tabletype. Proof. unfold Ftabletype. hf. Qed.
Lemma hn_tagtype : Hn Ftagtype n_tagtype. Proof. unfold Ftagtype. hf. Qed.
#[export] Hint Resolve hn_memtype hn_tabletype hn_tagtype : honest.
Lemma hn_externtype : Hn Fexterntype n_externtype. Proof. unfold Fexterntype. hf. Qed.
#[export] Hint Resolve hn_externtype : honest.
Lemma hn_catch : Hn Fcatch n_catch. Proof. unfold Fcatch. hf. Qed.
#[export] Hint Resolve hn_catch : honest.
Lemma hn_br_on_cast : Hn Fbr_on_cast n_instr. Proof. unfold Fbr_on_cast. hf. Qed.
Lemma hn_fb n : Hn (Ffb n) n_instr.
Proof. unfold Ffb. pose proof hn_br_on_cast. hf. Qed.
Lemma hn_fc n : Hn (Ffc n) n_instr. Proof. unfold Ffc. hf. Qed.
Lemma hn_fd n : Hn (Ffd n) n_instr. Proof. unfold Ffd. hf. Qed.
