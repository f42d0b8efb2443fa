(** Specification: a message that says what was expected and what was found
    does not name what was found among what was expected. *)
From Verif Require Import Model.Prelude Model.Errors Model.Display Spec.Cli Spec.Texts.
From Coq Require Import List String Ascii NArith Bool.
Import ListNotations.
Local Open Scope string_scope.

(** a letter or a digit *)
Definition word_char (c : ascii) : bool :=
  let n := N_of_ascii c in ((48 <=? n) && (n <=? 57) || (65 <=? n) && (n <=? 90) || (97 <=? n) && (n <=? 122))%N.
(** the words of a text: its longest runs of letters and digits *)
Fixpoint words_after (run s : string) : list string :=
  match s with
  | "" => if run =? "" then [] else [run]
  | String c s => if word_char c then words_after (run ++ String c "") s
                  else (if run =? "" then [] else [run]) ++ words_after "" s
  end%list.
Definition words (s : string) : list string := words_after "" s.

(** "... expected A, B or C; got D": D is not one of the words before it, nor
    is it all that follows some blank before it *)
Definition honest (text : string) : Prop :=
  forall said got, text = said ++ "; got " ++ got -> ~ In got (words said) /\ forall a, said <> a ++ " " ++ got.

(** the texts of an error and of all errors it contains, except for those of std *)
Fixpoint levels (n : node) : list string :=
  match n with
  | Leaf s => [s]
  | Io _ | FromUtf8 _ => []
  | Transparent n => levels n
  | Message s n | Detached s n => s :: levels n
  end.

(** the value of a digit, and of the digits [s] after digits worth [acc] *)
Definition digit_value (c : ascii) : option N :=
  let n := N_of_ascii c in
  if ((48 <=? n) && (n <=? 57))%N then Some (n - 48)%N else if ((65 <=? n) && (n <=? 70))%N then Some (n - 55)%N else None.
Fixpoint value (base acc : N) (s : string) : option N :=
  match s with
  | "" => Some acc
  | String c s => match digit_value c with Some d => if (d <? base)%N then value base (acc * base + d)%N s else None | None => None end
  end.
(** the number that a word is: "0x5E" or "94" *)
Definition number (w : string) : option N :=
  match w with
  | "" => None
  | String "0" (String "x" (String c w)) => value 16 0 (String c w)
  | w => value 10 0 w
  end.
(** [lists n b]: the error [n] says "... expected ...; got ..." and the number
    [b] is among what it expects *)
Definition lists (n : node) (b : N) : Prop :=
  exists said got w, In (said ++ "; got " ++ got) (levels n) /\ In w (words said) /\ number w = Some b.
