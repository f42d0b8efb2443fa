(** core::fmt's text, pretty-printed or not, determines the tree it was printed from. *)
From Verif Require Import Model.Prelude Model.Display Model.Debug Spec.Debug.
From Coq Require Import Bool String Ascii Lia.
Local Open Scope string_scope.
#[local] Arguments Ascii.eqb : simpl never.
#[local] Arguments newline : simpl never.

(** ** strings *)
Lemma sapp_nil s : s ++ "" = s.
Proof. induction s as [|c s IH]; cbn; [|rewrite IH]; reflexivity. Qed.
Lemma sapp_assoc a b c : a ++ (b ++ c) = (a ++ b) ++ c.
Proof. induction a as [|x a IH]; cbn; [|rewrite IH]; reflexivity. Qed.
(** lists of characters *)
Notation chars := list_ascii_of_string.
Lemma chars_app a b : chars (a ++ b) = (chars a ++ chars b)%list.
Proof. induction a as [|x a IH]; cbn; [|rewrite IH]; reflexivity. Qed.
Lemma chars_inj a b : chars a = chars b -> a = b.
Proof. revert b. induction a as [|x a IH]; intros [|y b] E; try discriminate E; [reflexivity|]. injection E as -> E. rewrite (IH _ E). reflexivity. Qed.
Lemma sapp_inj_l a b c : a ++ b = a ++ c -> b = c.
Proof. induction a as [|x a IH]; cbn; intros E; [exact E|]. injection E as E. auto. Qed.
Lemma sapp_inj_r a b c : a ++ c = b ++ c -> a = b.
Proof. intros E. apply (f_equal chars) in E. rewrite !chars_app in E. apply app_inv_tail in E. apply chars_inj. exact E. Qed.
(** same last character *)
Lemma last_char a c b d : a ++ String c "" = b ++ String d "" -> c = d /\ a = b.
Proof. intros E. apply (f_equal chars) in E. rewrite !chars_app in E. apply app_inj_tail in E as [E ->]. split; [reflexivity|apply chars_inj; exact E]. Qed.

Definition one_line (s : string) : Prop := ~ In newline (chars s).
Ltac no_newline := unfold one_line; cbn; intuition discriminate.
Lemma one_line_app a b : one_line a -> one_line b -> one_line (a ++ b).
Proof. unfold one_line. rewrite chars_app, in_app_iff. tauto. Qed.

Lemma strings_app a b : strings (a ++ b) = strings a ++ strings b.
Proof. induction a as [|x a IH]; cbn; [reflexivity|]. rewrite IH. apply sapp_assoc. Qed.
Lemma one_single s : one_line s -> single_line s.
Proof. intros H a b ->. apply H. rewrite !chars_app. apply in_or_app. right. left. reflexivity. Qed.

(** ** tokens and literals *)
Lemma token_head s : token s -> exists c s', s = String c s' /\ token_char c = true.
Proof. intros [H1 H2]. destruct s as [|c s]; [contradiction|]. inversion H2; subst. eauto. Qed.
Lemma token_char_newline : token_char newline = false. Proof. reflexivity. Qed.
Lemma token_line s : token s -> one_line s.
Proof. intros [_ H] Hi. rewrite Forall_forall in H. apply H in Hi. rewrite token_char_newline in Hi. discriminate Hi. Qed.
Lemma printable_newline c : printable c -> c <> newline.
Proof. intros [H _] ->. apply H. reflexivity. Qed.
Lemma literal_end_line s : literal_end s -> one_line s.
Proof.
  unfold one_line. induction 1 as [|c s H1 H2 H3%printable_newline _ IH|c s H%printable_newline _ IH]; cbn.
  - intros [E|[]]. discriminate E.
  - intros [E|E]; auto.
  - intros [E|[E|E]]; auto. discriminate E.
Qed.
Lemma literal_line s : literal s -> one_line s.
Proof. intros [s' H] [E|E]; [discriminate E|]. exact (literal_end_line _ H E). Qed.
Lemma literal_end_split s s' x y : literal_end s -> literal_end s' -> s ++ x = s' ++ y -> s = s' /\ x = y.
Proof.
  intros H. revert s'. induction H as [|c s H1 H2 H3 _ IH|c s H1 _ IH]; intros s' [|c' s'' K1 K2 K3 K|c' s'' K1 K] E; cbn [append] in E; injection E as E; subst; try congruence.
  - auto.
  - match goal with E : s ++ x = _ |- _ => apply IH in E as [-> ->]; auto end.
  - match goal with E : s ++ x = _ |- _ => apply IH in E as [-> ->]; auto end.
Qed.
Lemma literal_split s s' x y : literal s -> literal s' -> s ++ x = s' ++ y -> s = s' /\ x = y.
Proof. intros [w H] [w' H'] E. cbn [append] in E. injection E as E. apply literal_end_split in E as [-> ->]; auto. Qed.
(** what remains after a token *)
Fixpoint drop (s : string) : string := match s with "" => "" | String c s' => if token_char c then drop s' else s end.
Definition stop (x : string) : Prop := match x with "" => True | String c _ => token_char c = false end.
Lemma drop_stop x : stop x -> drop x = x.
Proof. destruct x as [|c x]; cbn; [reflexivity|]. intros ->. reflexivity. Qed.
Lemma drop_token s x : token s -> drop (s ++ x) = drop x.
Proof. intros [_ H]. induction s as [|c s IH]; [reflexivity|]. inversion H as [|? ? Hc Hs]; subst. cbn [append drop]. rewrite Hc. auto. Qed.
Lemma token_split s s' x y : token s -> token s' -> stop x -> stop y -> s ++ x = s' ++ y -> s = s' /\ x = y.
Proof.
  intros H H' Hx Hy E. assert (Ex : x = y) by (rewrite <- (drop_stop x Hx), <- (drop_stop y Hy), <- (drop_token s x H), <- (drop_token s' y H'), E; reflexivity).
  subst y. split; [|reflexivity]. exact (sapp_inj_r _ _ _ E).
Qed.

(** ** trees *)
Section Ind.
  Variable P : dtree -> Prop.
  Hypothesis HA : forall s, P (DAtom s).
  Hypothesis HT : forall n fs, Forall P fs -> P (DTuple n fs).
  Hypothesis HS : forall n fs, Forall (fun nf => P (snd nf)) fs -> P (DStruct n fs).
  Hypothesis HL : forall es, Forall P es -> P (DList es).
  Hypothesis HP : forall n t, P t -> P (DPath n t).
  Fixpoint dtree_ind' (t : dtree) : P t :=
    match t with
    | DAtom s => HA s
    | DTuple n fs => HT n fs ((fix go l : Forall P l := match l with [] => Forall_nil _ | t :: l => Forall_cons _ (dtree_ind' t) (go l) end) fs)
    | DStruct n fs => HS n fs ((fix go l : Forall (fun nf => P (snd nf)) l := match l with [] => Forall_nil _ | t :: l => Forall_cons _ (dtree_ind' (snd t)) (go l) end) fs)
    | DList es => HL es ((fix go l : Forall P l := match l with [] => Forall_nil _ | t :: l => Forall_cons _ (dtree_ind' t) (go l) end) es)
    | DPath n t => HP n t (dtree_ind' t)
    end.
End Ind.

(** trees a formatter can be asked to print; [p]: with [DPath] *)
Definition atom (s : string) : Prop := token s \/ literal s \/ s = "()".
Fixpoint wf (p : bool) (t : dtree) : Prop :=
  match t with
  | DAtom s => atom s
  | DTuple n fs => token n /\ fs <> [] /\ (fix all l := match l with [] => True | t :: l => wf p t /\ all l end) fs
  | DStruct n fs => token n /\ fs <> [] /\ (fix all l := match l with [] => True | t :: l => (token (fst t) /\ wf p (snd t)) /\ all l end) fs
  | DList es => (fix all l := match l with [] => True | t :: l => wf p t /\ all l end) es
  | DPath n t => p = true /\ token n /\ wf p t
  end.
Lemma all_Forall {A} (P : A -> Prop) l : (fix all l := match l with [] => True | t :: l => P t /\ all l end) l <-> Forall P l.
Proof. induction l as [|a l IH]; [split; constructor|]. rewrite IH, Forall_cons_iff. reflexivity. Qed.
Lemma wf_tuple p n fs : wf p (DTuple n fs) <-> token n /\ fs <> [] /\ Forall (wf p) fs.
Proof. cbn. rewrite (all_Forall (wf p)). reflexivity. Qed.
Lemma wf_struct p n fs : wf p (DStruct n fs) <-> token n /\ fs <> [] /\ Forall (fun nf => token (fst nf) /\ wf p (snd nf)) fs.
Proof. cbn. rewrite (all_Forall (fun nf => token (fst nf) /\ wf p (snd nf))). reflexivity. Qed.
Lemma wf_list p es : wf p (DList es) <-> Forall (wf p) es.
Proof. cbn. apply (all_Forall (wf p)). Qed.
Lemma well_formed_wf t : well_formed t -> wf true t.
Proof.
  induction t as [s|n fs IH|n fs IH|es IH|n t IH] using dtree_ind'; intros Hw; inversion Hw; subst.
  - left. assumption.
  - right. left. assumption.
  - right. right. reflexivity.
  - apply wf_tuple. rewrite Forall_forall in *. auto.
  - apply wf_struct. rewrite Forall_forall in *. split; [assumption|split; [assumption|]]. intros nf Hi. match goal with H : forall x, In x _ -> _ /\ _ |- _ => destruct (H nf Hi) end. auto.
  - apply wf_list. rewrite Forall_forall in *. auto.
  - split; [reflexivity|split; [assumption|]]. auto.
Qed.
Lemma atom_line s : atom s -> one_line s.
Proof. intros [H|[H| ->]]; [exact (token_line _ H)|exact (literal_line _ H)|]. intros [E|[E|[]]]; discriminate E. Qed.

(** ** both styles at once: [None] for [{:?}], [Some k] for [{:#?}] indented [k] times *)
Notation style := (option nat).
Fixpoint sp (k : nat) : string := match k with O => "" | S k => "    " ++ sp k end.
Definition inner (m : style) : style := match m with None => None | Some k => Some (S k) end.
Definition outer (m : style) : style := match m with None => Some O | Some k => Some k end.
Definition start_ (m : style) : string := match m with None => "" | Some k => String newline (sp (S k)) end.
Definition sep (m : style) : string := match m with None => ", " | Some k => String "," (String newline (sp (S k))) end.
Definition fin (m : style) : string := match m with None => "" | Some k => String "," (String newline (sp k)) end.
Definition gap (m : style) : string := match m with None => " " | Some _ => "" end.
Fixpoint rest (m : style) (close : string) (l : list string) : string := match l with [] => fin m ++ close | s :: l => sep m ++ s ++ rest m close l end.
Definition items (m : style) (close : string) (l : list string) : string := match l with [] => "" | s :: l => start_ m ++ s ++ rest m close l end.
Definition field_text (f : dtree -> string) (nf : string * dtree) : string := fst nf ++ ": " ++ f (snd nf).
Fixpoint show (m : style) (t : dtree) : string :=
  match t with
  | DAtom s => s
  | DTuple n fs => n ++ "(" ++ items m ")" (map (fun f => show (inner m) f) fs)
  | DStruct n fs => n ++ " {" ++ gap m ++ items m (gap m ++ "}") (map (fun nf => fst nf ++ ": " ++ show (inner m) (snd nf)) fs)
  | DList [] => "[]"
  | DList es => "[" ++ items m "]" (map (fun f => show (inner m) f) es)
  | DPath n t => n ++ "::" ++ show (outer m) t
  end.
Lemma show_tuple m n fs : show m (DTuple n fs) = n ++ "(" ++ items m ")" (map (show (inner m)) fs). Proof. reflexivity. Qed.
Lemma show_struct m n fs : show m (DStruct n fs) = n ++ " {" ++ gap m ++ items m (gap m ++ "}") (map (field_text (show (inner m))) fs). Proof. reflexivity. Qed.
Lemma show_list m e es : show m (DList (e :: es)) = "[" ++ items m "]" (map (show (inner m)) (e :: es)). Proof. reflexivity. Qed.
Lemma show_path m n t : show m (DPath n t) = n ++ "::" ++ show (outer m) t. Proof. reflexivity. Qed.
#[local] Arguments show : simpl never.

Lemma show_head p m t : wf p t -> exists c s, show m t = String c s /\ Ascii.eqb c newline = false.
Proof.
  assert (HT : forall n x, token n -> exists c s, n ++ x = String c s /\ Ascii.eqb c newline = false).
  { intros n x Hn. destruct (token_head n Hn) as (c & s & -> & Hc). exists c, (s ++ x). split; [reflexivity|]. destruct (Ascii.eqb_spec c newline) as [->|]; [|reflexivity]. discriminate Hc. }
  destruct t as [s|n fs|n fs|[|e es]|n t]; intros Hw.
  - destruct Hw as [H|[[s' H]| ->]]; [|do 2 eexists; split; reflexivity..]. destruct (HT s "" H) as (c & s' & E & Hc). rewrite sapp_nil in E. exists c, s'. auto.
  - apply wf_tuple in Hw as [Hn _]. rewrite show_tuple. auto.
  - apply wf_struct in Hw as [Hn _]. rewrite show_struct. auto.
  - do 2 eexists. split; reflexivity.
  - do 2 eexists. split; reflexivity.
  - destruct Hw as (_ & Hn & _). rewrite show_path. auto.
Qed.

(** ** [compact] *)
Lemma concat_rest s l close : String.concat ", " (s :: l) ++ close = s ++ rest None close l.
Proof.
  revert s. induction l as [|s' l IH]; intros s; [reflexivity|]. change (String.concat ", " (s :: s' :: l)) with (s ++ ", " ++ String.concat ", " (s' :: l)).
  rewrite <- !sapp_assoc, IH. reflexivity.
Qed.
Lemma pretty_path n t : pretty (DPath n t) = n ++ "::" ++ pretty t. Proof. reflexivity. Qed.

(** ** [pretty] *)
Lemma pad_line l x : one_line l -> pad false (l ++ x) = l ++ pad false x.
Proof.
  unfold one_line. induction l as [|c l IH]; cbn; intros H; [reflexivity|]. destruct (Ascii.eqb_spec c newline) as [->|Hc]; [tauto|]. rewrite IH; auto.
Qed.
Lemma pad_head c s : Ascii.eqb c newline = false -> pad true (String c s) = "    " ++ pad false (String c s).
Proof. intros Hc. cbn [pad]. rewrite Hc. reflexivity. Qed.
Lemma sp_line k : one_line (sp k).
Proof. induction k as [|k IH]; [intros []|]. apply (one_line_app "    "); [|exact IH]. no_newline. Qed.
Lemma pad_sp k c s : Ascii.eqb c newline = false -> pad true (sp k ++ String c s) = sp (S k) ++ pad false (String c s).
Proof.
  intros Hc. destruct k as [|k]; [apply pad_head; exact Hc|]. change (sp (S k) ++ String c s) with (String " " ("   " ++ (sp k ++ String c s))).
  rewrite pad_head by reflexivity. change (String " " ("   " ++ (sp k ++ String c s))) with ("    " ++ (sp k ++ String c s)).
  rewrite pad_line by (no_newline). rewrite pad_line by apply sp_line. rewrite !sapp_assoc. reflexivity.
Qed.
Lemma pad_newline x : pad false (String newline x) = String newline (pad true x).
Proof. reflexivity. Qed.
Lemma pad_comma x : pad false (String "," x) = String "," (pad false x).
Proof. reflexivity. Qed.
(** a text that is indented once more by the adapter *)
Definition Padded (t0 t1 : string) : Prop := (exists c s, t0 = String c s /\ Ascii.eqb c newline = false) /\ forall x, pad false (t0 ++ x) = t1 ++ pad false x.
Lemma padded_true k t0 t1 x : Padded t0 t1 -> pad true (sp k ++ t0 ++ x) = sp (S k) ++ t1 ++ pad false x.
Proof.
  intros [(c & s & E & Hc) H]. rewrite <- H, E. apply (pad_sp k c (s ++ x) Hc).
Qed.
Lemma padded_rest {A} (f0 f1 : A -> string) k c l x : Forall (fun a => Padded (f0 a) (f1 a)) l -> Ascii.eqb c newline = false ->
  pad false (rest (Some k) (String c "") (map f0 l) ++ x) = rest (Some (S k)) (String c "") (map f1 l) ++ pad false x.
Proof.
  intros H Hc. induction H as [|a l Ha _ IH]; cbn [map rest fin sep append].
  - rewrite <- !sapp_assoc. cbn [append]. rewrite pad_comma, pad_newline, pad_sp by exact Hc. cbn [pad]. rewrite Hc, <- ?sapp_assoc. cbn [append]. rewrite <- ?sapp_assoc. reflexivity.
  - rewrite <- !sapp_assoc. rewrite pad_comma, pad_newline, (padded_true (S k) _ _ _ Ha), IH, !sapp_assoc. reflexivity.
Qed.
Lemma padded_items {A} (f0 f1 : A -> string) k c l x : Forall (fun a => Padded (f0 a) (f1 a)) l -> Ascii.eqb c newline = false ->
  pad false (items (Some k) (String c "") (map f0 l) ++ x) = items (Some (S k)) (String c "") (map f1 l) ++ pad false x.
Proof.
  intros H Hc. destruct H as [|a l Ha H]; [reflexivity|]. cbn [map items start_ append]. rewrite <- !sapp_assoc.
  rewrite pad_newline, (padded_true (S k) _ _ _ Ha), (padded_rest _ f1 _ _ _ _ H Hc), !sapp_assoc. reflexivity.
Qed.
Lemma pad_show p k t x : wf p t -> pad false (show (Some k) t ++ x) = show (Some (S k)) t ++ pad false x.
Proof.
  revert k x. induction t as [s|n fs IH|n fs IH|es IH|n t IH] using dtree_ind'; intros k x Hw.
  - apply pad_line, atom_line, Hw.
  - apply wf_tuple in Hw as (Hn & _ & Hf). rewrite !show_tuple. rewrite <- !sapp_assoc, pad_line by (apply token_line; exact Hn). f_equal.
    rewrite pad_line by (no_newline). f_equal. apply padded_items; [|reflexivity]. rewrite Forall_forall in *. intros t Ht. split; [exact (show_head p _ t (Hf t Ht))|].
    intros y. apply IH; auto.
  - apply wf_struct in Hw as (Hn & _ & Hf). rewrite !show_struct. rewrite <- !sapp_assoc, pad_line by (apply token_line; exact Hn). f_equal.
    rewrite pad_line by (no_newline). f_equal. apply padded_items; [|reflexivity]. rewrite Forall_forall in *. intros t Ht. destruct (Hf t Ht) as [Hl Hw].
    unfold field_text. split.
    + destruct (token_head _ Hl) as (c & s & -> & Hc). do 2 eexists. split; [reflexivity|]. destruct (Ascii.eqb_spec c newline) as [->|]; [discriminate Hc|reflexivity].
    + intros y. rewrite <- !sapp_assoc. rewrite pad_line by (apply token_line; exact Hl). rewrite pad_line by (no_newline).
      change (inner (Some (S k))) with (Some (S (S k))). change (inner (Some k)) with (Some (S k)). rewrite (IH t Ht _ _ Hw). reflexivity.
  - apply wf_list in Hw. destruct es as [|e es]; [apply (pad_line "[]"); no_newline|]. rewrite !show_list, <- !sapp_assoc.
    rewrite pad_line by (no_newline). f_equal. apply padded_items; [|reflexivity]. rewrite Forall_forall in *. intros t Ht. split; [exact (show_head p _ t (Hw t Ht))|].
    intros y. apply IH; auto.
  - destruct Hw as (_ & Hn & Ht). rewrite !show_path, <- !sapp_assoc, pad_line by (apply token_line; exact Hn). f_equal. rewrite pad_line by (no_newline). f_equal.
    apply IH. exact Ht.
Qed.
Lemma strings_items {A} (f0 f1 : A -> string) close a l : Forall (fun a => pad true (f0 a) = "    " ++ f1 a ++ "," ++ nl) (a :: l) ->
  nl ++ strings (map (fun a => pad true (f0 a)) (a :: l)) ++ close = items (Some 0%nat) close (map f1 (a :: l)).
Proof.
  intros H. cbn [map items start_]. change nl with (String newline "") at 1. cbn [append]. f_equal. cbn [strings fold_right]. change (fold_right append "") with strings.
  inversion H as [|? ? Ha Hl]; subst. rewrite Ha, <- !sapp_assoc. change (sp 1 ++ ?x) with ("    " ++ x). do 2 f_equal. clear Ha H.
  induction Hl as [|b l Hb _ IH]; [reflexivity|]. cbn [map rest sep]. cbn [strings fold_right]. change (fold_right append "") with strings.
  rewrite Hb, <- !sapp_assoc, IH. reflexivity.
Qed.
Lemma pretty_show p t : wf p t -> pretty t = show (Some 0%nat) t.
Proof.
  assert (HE : forall t, wf p t -> pretty t = show (Some 0%nat) t -> pad true (pretty t ++ "," ++ nl) = "    " ++ show (Some 1%nat) t ++ "," ++ nl).
  { clear t. intros t Hw E. rewrite E. change (show (Some 0%nat) t ++ "," ++ nl) with (sp 0 ++ show (Some 0%nat) t ++ "," ++ nl). rewrite (padded_true 0 _ (show (Some 1%nat) t)); [reflexivity|].
    split; [exact (show_head p _ t Hw)|]. intros x. exact (pad_show p _ t x Hw). }
  induction t as [s|n fs IH|n fs IH|es IH|n t IH] using dtree_ind'; intros Hw.
  - reflexivity.
  - apply wf_tuple in Hw as (Hn & Hne & Hf). destruct fs as [|f fs]; [contradiction|]. rewrite show_tuple. cbn [pretty]. do 2 f_equal.
    apply (strings_items (fun f => pretty f ++ "," ++ nl)). rewrite Forall_forall in *. auto.
  - apply wf_struct in Hw as (Hn & Hne & Hf). destruct fs as [|f fs]; [contradiction|]. rewrite show_struct. cbn [pretty]. f_equal. apply (f_equal (append " {")).
    apply (strings_items (fun nf => fst nf ++ ": " ++ pretty (snd nf) ++ "," ++ nl)). rewrite Forall_forall in *. intros nf Hi. destruct (Hf nf Hi) as [Hl Hw].
    unfold field_text. rewrite (IH nf Hi Hw). change (inner (Some 0%nat)) with (Some 1%nat).
    assert (Hp : Padded (fst nf ++ ": " ++ show (Some 0%nat) (snd nf)) (fst nf ++ ": " ++ show (Some 1%nat) (snd nf))).
    { split.
      - destruct (token_head _ Hl) as (c & s & -> & Hc). do 2 eexists. split; [reflexivity|]. destruct (Ascii.eqb_spec c newline) as [->|]; [discriminate Hc|reflexivity].
      - intros y. rewrite <- !sapp_assoc. rewrite pad_line by (apply token_line; exact Hl). rewrite pad_line by (no_newline). rewrite (pad_show p _ _ _ Hw). reflexivity. }
    pose proof (padded_true 0 _ _ ("," ++ nl) Hp) as E. rewrite <- !sapp_assoc in E. rewrite <- !sapp_assoc. exact E.
  - apply wf_list in Hw. destruct es as [|f fs]; [reflexivity|]. rewrite show_list. cbn [pretty]. f_equal.
    apply (strings_items (fun f => pretty f ++ "," ++ nl)). rewrite Forall_forall in *. auto.
  - destruct Hw as (_ & Hn & Ht). rewrite show_path, pretty_path. cbn [outer]. rewrite IH by exact Ht. reflexivity.
Qed.
Lemma compact_show p t : wf p t -> compact t = show None t.
Proof.
  induction t as [s|n fs IH|n fs IH|es IH|n t IH] using dtree_ind'; intros Hw.
  - reflexivity.
  - apply wf_tuple in Hw as (Hn & Hne & Hf). rewrite show_tuple. destruct fs as [|f fs]; [contradiction|]. cbn [compact]. do 2 f_equal. change (inner None) with (@None nat).
    replace (map compact (f :: fs)) with (map (show None) (f :: fs)) by (apply map_ext_in; rewrite Forall_forall in *; intros; symmetry; auto). apply concat_rest.
  - apply wf_struct in Hw as (Hn & Hne & Hf). rewrite show_struct. destruct fs as [|f fs]; [contradiction|]. cbn [compact]. f_equal. apply (f_equal (append " { ")). change (inner None) with (@None nat).
    replace (map (fun nf => fst nf ++ ": " ++ compact (snd nf)) (f :: fs)) with (map (field_text (show None)) (f :: fs)).
    + apply concat_rest.
    + apply map_ext_in. rewrite Forall_forall in *. intros nf Hi. unfold field_text. rewrite (IH nf Hi) by (apply Hf; exact Hi). reflexivity.
  - apply wf_list in Hw. destruct es as [|f fs]; [reflexivity|]. rewrite show_list. cbn [compact]. f_equal. change (inner None) with (@None nat).
    replace (map compact (f :: fs)) with (map (show None) (f :: fs)) by (apply map_ext_in; rewrite Forall_forall in *; intros; symmetry; auto). apply concat_rest.
  - destruct Hw as (_ & Hn & Ht). cbn [compact]. rewrite show_path, (pretty_show p t Ht). reflexivity.
Qed.

(** ** the text determines the tree *)
(** what can come after a value *)
Definition follow (x : string) : Prop :=
  match x with "" => True | String c x' => In c [","; ")"; "]"; "}"]%char \/ c = " "%char /\ exists z, x' = String "}" z end.
Lemma follow_stop x : follow x -> stop x.
Proof. destruct x as [|c x]; [exact id|]. cbn. intros [[<-|[<-|[<-|[<-|[]]]]]|[-> _]]; reflexivity. Qed.
Definition closes (m : style) (close : string) : Prop := close = ")" \/ close = "]" \/ close = gap m ++ "}".
Lemma follow_rest m close l x : closes m close -> follow (rest m close l ++ x).
Proof.
  intros Hc. destruct l as [|s l]; cbn [rest].
  - destruct m as [k|]; cbn [fin append]; [left; left; reflexivity|]. destruct Hc as [-> |[-> | ->]]; cbn; [left; auto..|right; eauto].
  - destruct m as [k|]; cbn [sep append]; left; left; reflexivity.
Qed.
Definition Det {A} (txt : A -> string) (ok : A -> Prop) (a : A) : Prop := forall a' x y, ok a -> ok a' -> follow x -> follow y -> txt a ++ x = txt a' ++ y -> a = a' /\ x = y.
Lemma rest_clash m close s l x y : closes m close -> fin m ++ close ++ x = sep m ++ s ++ rest m close l ++ y -> False.
Proof.
  intros Hc E. revert E. generalize (s ++ rest m close l ++ y). intros z E. destruct m as [k|].
  - apply (sapp_inj_l (String "," (String newline "")) (sp k ++ (close ++ x)) (sp (S k) ++ z)) in E.
    assert (Hs : forall w, sp (S k) ++ w = sp k ++ ("    " ++ w)).
    { clear. induction k as [|k IH]; intros w; [reflexivity|]. change (sp (S (S k))) with ("    " ++ sp (S k)). rewrite <- sapp_assoc, IH, sapp_assoc. reflexivity. }
    rewrite Hs in E. apply sapp_inj_l in E. destruct Hc as [-> |[-> | ->]]; discriminate E.
  - destruct Hc as [-> |[-> | ->]]; discriminate E.
Qed.
Lemma rest_det {A} (txt : A -> string) ok m close l l' x y : closes m close -> Forall (Det txt ok) l -> Forall ok l -> Forall ok l' ->
  rest m close (map txt l) ++ x = rest m close (map txt l') ++ y -> l = l' /\ x = y.
Proof.
  intros Hc HD. revert l'. induction HD as [|a l Ha _ IH]; intros [|a' l'] Hl Hl' E; cbn [map rest] in E; rewrite <- !sapp_assoc in E.
  - do 2 apply sapp_inj_l in E. auto.
  - exfalso. exact (rest_clash _ _ _ _ _ _ Hc E).
  - exfalso. exact (rest_clash _ _ _ _ _ _ Hc (eq_sym E)).
  - inversion Hl; inversion Hl'; subst. apply sapp_inj_l in E. apply Ha in E as [-> E]; [|assumption|assumption|apply follow_rest; exact Hc|apply follow_rest; exact Hc].
    apply IH in E as [-> ->]; auto.
Qed.
Lemma items_det {A} (txt : A -> string) ok m close l l' x y : closes m close -> l <> [] -> l' <> [] -> Forall (Det txt ok) l -> Forall ok l -> Forall ok l' ->
  items m close (map txt l) ++ x = items m close (map txt l') ++ y -> l = l' /\ x = y.
Proof.
  intros Hc Hn Hn' HD Hl Hl' E. destruct l as [|a l]; [contradiction|]. destruct l' as [|a' l']; [contradiction|]. cbn [map items] in E. rewrite <- !sapp_assoc in E. apply sapp_inj_l in E.
  inversion HD as [|? ? Ha HD']; inversion Hl; inversion Hl'; subst. apply Ha in E as [-> E]; [|assumption|assumption|apply follow_rest; exact Hc|apply follow_rest; exact Hc].
  apply (rest_det txt ok) in E as [-> ->]; auto.
Qed.
(** which kind of tree it is *)
Definition atom_kind (s : string) : nat :=
  match s with "" => 0 | String c _ => if token_char c then 0 else if Ascii.eqb c """" then 1 else 2 end.
Lemma kind_token s : token s -> atom_kind s = 0.
Proof. intros H. destruct (token_head s H) as (c & w & -> & Hc). cbn [atom_kind]. rewrite Hc. reflexivity. Qed.
Lemma kind_literal s : literal s -> atom_kind s = 1.
Proof. intros [s' H]. reflexivity. Qed.
Lemma atom_kinds s : atom s -> atom_kind s = 0 \/ atom_kind s = 1 \/ atom_kind s = 2.
Proof. intros [H|[H| ->]]; [left; exact (kind_token s H)|right; left; exact (kind_literal s H)|right; right; reflexivity]. Qed.
Definition kind (t : dtree) : nat :=
  match t with DAtom s => atom_kind s | DTuple _ _ => 3 | DStruct _ _ => 4 | DPath _ _ => 5 | DList _ => 6 end.
Definition text_kind (s : string) : nat :=
  match s with
  | "" => 0
  | String c _ =>
      if token_char c then
        match drop s with
        | String c x =>
            if Ascii.eqb c "(" then 3 else if Ascii.eqb c ":" then 5 else
            if Ascii.eqb c " " then match x with String d _ => if Ascii.eqb d "{" then 4 else 0 | "" => 0 end else 0
        | "" => 0 end
      else if Ascii.eqb c """" then 1 else if Ascii.eqb c "(" then 2 else 6
  end.
Lemma text_kind_token n x : token n -> stop x -> text_kind (n ++ x) =
  match x with
  | String c x => if Ascii.eqb c "(" then 3 else if Ascii.eqb c ":" then 5 else if Ascii.eqb c " " then match x with String d _ => if Ascii.eqb d "{" then 4 else 0 | "" => 0 end else 0
  | "" => 0 end.
Proof.
  intros Hn Hx. destruct (token_head n Hn) as (c & s & -> & Hc). unfold text_kind. cbn [append]. rewrite Hc. change (String c (s ++ x)) with (String c s ++ x).
  rewrite (drop_token _ _ Hn), (drop_stop _ Hx). reflexivity.
Qed.
Lemma text_kind_ok p m t x : wf p t -> follow x -> text_kind (show m t ++ x) = kind t.
Proof.
  intros Hw Hx. destruct t as [s|n fs|n fs|es|n t].
  - change (show m (DAtom s)) with s. cbn [kind]. destruct Hw as [H|[[s' H]| ->]]; [|reflexivity..].
    rewrite (text_kind_token _ _ H (follow_stop _ Hx)). destruct (token_head s H) as (c & s' & -> & Hc). unfold atom_kind. rewrite Hc.
    destruct x as [|d x]; [reflexivity|]. destruct Hx as [[<-|[<-|[<-|[<-|[]]]]]|[-> [z ->]]]; reflexivity.
  - apply wf_tuple in Hw as [Hn _]. rewrite show_tuple, <- !sapp_assoc. rewrite (text_kind_token _ _ Hn); reflexivity.
  - apply wf_struct in Hw as [Hn _]. rewrite show_struct, <- !sapp_assoc. rewrite (text_kind_token _ _ Hn); reflexivity.
  - destruct es as [|e es]; reflexivity.
  - destruct Hw as (_ & Hn & _). rewrite show_path, <- !sapp_assoc. rewrite (text_kind_token _ _ Hn); reflexivity.
Qed.
Lemma not_empty p m e l x y : Forall (wf p) (e :: l) -> "[]" ++ x <> show m (DList (e :: l)) ++ y.
Proof.
  intros Hl. rewrite show_list. cbn [map items append]. intros K. injection K as K. inversion Hl as [|? ? He _]; subst. clear Hl.
  destruct m as [k|]; cbn [start_ append] in K; [discriminate K|]. assert (HT : forall n w, token n -> String "]" x = n ++ w -> False).
  { intros n w Hn Ew. destruct (token_head n Hn) as (c & n' & -> & Hc). injection Ew as <- _. discriminate Hc. }
  rewrite <- !sapp_assoc in K. revert K. generalize (rest None "]" (map (show (inner None)) l) ++ y). intros w K. destruct e as [s|n fs|n fs|[|e es]|n t].
  - change (show (inner None) (DAtom s)) with s in K. destruct He as [H|[H|H]]; [exact (HT s _ H K)| |subst s; discriminate K]. inversion H; subst s. discriminate K.
  - apply wf_tuple in He as [H _]. rewrite show_tuple, <- !sapp_assoc in K. exact (HT n _ H K).
  - apply wf_struct in He as [H _]. rewrite show_struct, <- !sapp_assoc in K. exact (HT n _ H K).
  - discriminate K.
  - unfold show in K; cbn [append] in K; discriminate K.
  - destruct He as (_ & H & _). rewrite show_path, <- !sapp_assoc in K. exact (HT n _ H K).
Qed.
Lemma show_det p m t : Det (show m) (wf p) t.
Proof.
  revert m. induction t as [s|n fs IH|n fs IH|es IH|n t IH] using dtree_ind'; intros m t' x y Hw Hw' Hx Hy E;
    (assert (HK : kind t' = kind t') by reflexivity; rewrite <- (text_kind_ok p m t' y Hw' Hy) in HK at 1; rewrite <- E, (text_kind_ok p m _ x Hw Hx) in HK).
  - destruct t' as [s'|? ?|? ?|?|? ?]; cbn [kind] in HK;
      try (exfalso; destruct (atom_kinds s Hw) as [K|[K|K]]; rewrite K in HK; discriminate HK).
    change (show m (DAtom s)) with s in E. change (show m (DAtom s')) with s' in E.
    destruct Hw as [H|[H|H]], Hw' as [H'|[H'|H']].
    + apply token_split in E as [-> ->]; auto using follow_stop.
    + exfalso. rewrite (kind_token s H), (kind_literal s' H') in HK. discriminate HK.
    + exfalso. rewrite (kind_token s H), H' in HK. discriminate HK.
    + exfalso. rewrite (kind_token s' H'), (kind_literal s H) in HK. discriminate HK.
    + apply literal_split in E as [-> ->]; auto.
    + exfalso. rewrite (kind_literal s H), H' in HK. discriminate HK.
    + exfalso. rewrite (kind_token s' H'), H in HK. discriminate HK.
    + exfalso. rewrite (kind_literal s' H'), H in HK. discriminate HK.
    + subst s s'. apply sapp_inj_l in E as ->. auto.
  - destruct t' as [s'|n' fs'|? ?|?|? ?]; cbn [kind] in HK; try discriminate HK.
    + exfalso. destruct (atom_kinds s' Hw') as [K|[K|K]]; rewrite K in HK; discriminate HK.
    + apply wf_tuple in Hw as (Hn & Hne & Hf), Hw' as (Hn' & Hne' & Hf'). rewrite !show_tuple, <- !sapp_assoc in E. apply token_split in E as [-> E]; [|assumption|assumption|reflexivity|reflexivity].
      apply sapp_inj_l in E. apply (items_det (show (inner m)) (wf p)) in E as [-> ->]; auto; [left; reflexivity|]. eapply Forall_impl; [|exact IH]. intros a Ha. apply Ha.
  - destruct t' as [s'|n' fs'|n' fs'|?|? ?]; cbn [kind] in HK; try discriminate HK.
    + exfalso. destruct (atom_kinds s' Hw') as [K|[K|K]]; rewrite K in HK; discriminate HK.
    + apply wf_struct in Hw as (Hn & Hne & Hf), Hw' as (Hn' & Hne' & Hf'). rewrite !show_struct, <- !sapp_assoc in E. apply token_split in E as [-> E]; [|assumption|assumption|reflexivity|reflexivity].
      do 2 apply sapp_inj_l in E. apply (items_det (field_text (show (inner m))) (fun nf => token (fst nf) /\ wf p (snd nf))) in E as [-> ->]; auto; [right; right; reflexivity|].
      eapply Forall_impl; [|exact IH]. intros [l a] Ha [l' a'] x' y' [K1 K2] [K1' K2'] Hx' Hy' E'. unfold field_text in E'. cbn [fst snd] in *. rewrite <- !sapp_assoc in E'.
      apply token_split in E' as [-> E']; [|assumption|assumption|reflexivity|reflexivity]. apply sapp_inj_l in E'. apply Ha in E' as [-> ->]; auto.
  - destruct t' as [s'|? ?|? ?|es'|? ?]; cbn [kind] in HK; try discriminate HK.
    + exfalso. destruct (atom_kinds s' Hw') as [K|[K|K]]; rewrite K in HK; discriminate HK.
    + apply wf_list in Hw, Hw'. destruct es as [|e es], es' as [|e' es'].
      * apply sapp_inj_l in E as ->. auto.
      * exfalso. exact (not_empty p m e' es' x y Hw' E).
      * exfalso. exact (not_empty p m e es y x Hw (eq_sym E)).
      * rewrite !show_list, <- !sapp_assoc in E. apply sapp_inj_l in E. apply (items_det (show (inner m)) (wf p)) in E as [-> ->]; auto; [right; left; reflexivity|discriminate|discriminate|].
        eapply Forall_impl; [|exact IH]. intros a Ha. apply Ha.
  - destruct t' as [s'|? ?|? ?|?|n' t']; cbn [kind] in HK; try discriminate HK.
    + exfalso. destruct (atom_kinds s' Hw') as [K|[K|K]]; rewrite K in HK; discriminate HK.
    + destruct Hw as (_ & Hn & Ht), Hw' as (_ & Hn' & Ht'). rewrite !show_path, <- !sapp_assoc in E. apply token_split in E as [-> E]; [|assumption|assumption|reflexivity|reflexivity].
      apply sapp_inj_l in E. apply IH in E as [-> ->]; auto.
Qed.
Theorem pretty_inj p t t' : wf p t -> wf p t' -> pretty t = pretty t' -> t = t'.
Proof.
  intros Hw Hw' E. rewrite (pretty_show p t Hw), (pretty_show p t' Hw') in E. refine (proj1 (show_det p (Some 0%nat) t t' "" "" Hw Hw' I I _)). rewrite !sapp_nil. exact E.
Qed.
Theorem compact_inj p t t' : wf p t -> wf p t' -> compact t = compact t' -> t = t'.
Proof.
  intros Hw Hw' E. rewrite (compact_show p t Hw), (compact_show p t' Hw') in E. refine (proj1 (show_det p None t t' "" "" Hw Hw' I I _)). rewrite !sapp_nil. exact E.
Qed.
(** ** without [DPath], the compact text is one line *)
Lemma concat_line l : Forall one_line l -> one_line (String.concat ", " l).
Proof.
  induction 1 as [|s l Hs Hl IH]; [intros []|]. destruct l as [|s' l]; [exact Hs|]. change (String.concat ", " (s :: s' :: l)) with (s ++ ", " ++ String.concat ", " (s' :: l)).
  apply one_line_app; [exact Hs|]. apply one_line_app; [no_newline|exact IH].
Qed.
Theorem compact_line t : wf false t -> one_line (compact t).
Proof.
  induction t as [s|n fs IH|n fs IH|es IH|n t IH] using dtree_ind'; intros Hw.
  - apply atom_line, Hw.
  - apply wf_tuple in Hw as (Hn & Hne & Hf). destruct fs as [|f fs]; [contradiction|]. cbn [compact]. apply one_line_app; [apply token_line, Hn|].
    apply one_line_app; [no_newline|]. apply one_line_app; [|no_newline]. apply concat_line. apply Forall_map. rewrite Forall_forall in *. auto.
  - apply wf_struct in Hw as (Hn & Hne & Hf). destruct fs as [|f fs]; [contradiction|]. cbn [compact]. apply one_line_app; [apply token_line, Hn|].
    apply one_line_app; [no_newline|]. apply one_line_app; [|no_newline]. apply concat_line. apply Forall_map. rewrite Forall_forall in *. intros nf Hi. destruct (Hf nf Hi) as [Hl Hw].
    apply one_line_app; [apply token_line, Hl|]. apply one_line_app; [no_newline|]. auto.
  - apply wf_list in Hw. cbn [compact]. apply one_line_app; [no_newline|]. apply one_line_app; [|no_newline]. apply concat_line. apply Forall_map. rewrite Forall_forall in *. auto.
  - destruct Hw as [Hw _]. discriminate Hw.
Qed.
