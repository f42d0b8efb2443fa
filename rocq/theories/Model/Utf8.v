(** What std says about bytes that are not UTF-8: the [Utf8Error] inside the
    [FromUtf8Error] of [String::from_utf8] (src/decode/helpers.rs, the name
    decoder), its Display, which FromUtf8Error forwards to, and its derived
    Debug.  The std that wadec is built with is not part of /repo; this follows
    library/core/src/str/validations.rs (run_utf8_validation) and
    library/core/src/str/error.rs.

    Simplified: the fast path of run_utf8_validation over ASCII bytes, which
    skips two words at a time, advances byte by byte here; [valid_up_to] and
    [error_len] are unbounded numbers. *)
From Verif Require Import Model.Prelude Model.Io Model.Ast Model.Errors Model.Helpers Model.Display Model.Debug.
From Coq Require Import String Ascii Strings.Byte.
Local Open Scope N_scope.

(** core::str::validations::run_utf8_validation: [as i8 < -64], the second byte
    of three and of four *)
Definition is_cont (b : byte) : bool := in_rng 0x80 0xBF b.
Definition second_3 (b0 b1 : byte) : bool :=
  (b2n b0 =? 0xE0) && in_rng 0xA0 0xBF b1
  || in_rng 0xE1 0xEC b0 && in_rng 0x80 0xBF b1
  || (b2n b0 =? 0xED) && in_rng 0x80 0x9F b1
  || in_rng 0xEE 0xEF b0 && in_rng 0x80 0xBF b1.
Definition second_4 (b0 b1 : byte) : bool :=
  (b2n b0 =? 0xF0) && in_rng 0x90 0xBF b1
  || in_rng 0xF1 0xF3 b0 && in_rng 0x80 0xBF b1
  || (b2n b0 =? 0xF4) && in_rng 0x80 0x8F b1.

(** core::str::validations::run_utf8_validation, at the byte [index]:
    (valid_up_to, error_len) of the error, None if there is none *)
Fixpoint utf8_error (index : N) (l : list byte) : option (N * option N) :=
  match l with
  | [] => None
  | b0 :: l1 =>
      if b2n b0 <? 0x80 then utf8_error (index + 1) l1
      else if in_rng 0xC2 0xDF b0 then
        match l1 with
        | [] => Some (index, None)
        | b1 :: l2 => if is_cont b1 then utf8_error (index + 2) l2 else Some (index, Some 1)
        end
      else if in_rng 0xE0 0xEF b0 then
        match l1 with
        | [] => Some (index, None)
        | b1 :: l2 =>
            if second_3 b0 b1 then
              match l2 with
              | [] => Some (index, None)
              | b2 :: l3 => if is_cont b2 then utf8_error (index + 3) l3 else Some (index, Some 2)
              end
            else Some (index, Some 1)
        end
      else if in_rng 0xF0 0xF4 b0 then
        match l1 with
        | [] => Some (index, None)
        | b1 :: l2 =>
            if second_4 b0 b1 then
              match l2 with
              | [] => Some (index, None)
              | b2 :: l3 =>
                  if is_cont b2 then
                    match l3 with
                    | [] => Some (index, None)
                    | b3 :: l4 => if is_cont b3 then utf8_error (index + 4) l4 else Some (index, Some 3)
                    end
                  else Some (index, Some 2)
              end
            else Some (index, Some 1)
        end
      else Some (index, Some 1)
  end.

Local Open Scope string_scope.
(** <Utf8Error as Display>::fmt (library/core/src/str/error.rs); the text of a
    FromUtf8Error (library/alloc/src/string.rs).  Only built from bytes that are
    not UTF-8: for others the model says "". *)
Definition utf8_text (bytes : list byte) : string :=
  match utf8_error 0 bytes with
  | Some (v, Some n) => "invalid utf-8 sequence of " ++ dec n ++ " bytes from index " ++ dec v
  | Some (v, None) => "incomplete utf-8 byte sequence from index " ++ dec v
  | None => ""
  end.
(** #[derive(Debug)] for Utf8Error: valid_up_to: usize, error_len: Option<u8> *)
Definition utf8_debug (bytes : list byte) : dtree :=
  match utf8_error 0 bytes with
  | Some (v, k) => DStruct "Utf8Error" [("valid_up_to", DAtom (dec v));
      ("error_len", match k with Some n => DTuple "Some" [DAtom (dec n)] | None => DAtom "None" end)]
  | None => DAtom "None"
  end.
(** the texts of std, with these for the UTF-8 errors *)
Definition located_texts (T : Texts) : Texts :=
  {| io_view := io_view; utf8_message := utf8_text; debug_io := debug_io; debug_utf8_error := utf8_debug;
     debug_f32 := debug_f32; debug_f64 := debug_f64; debug_str := debug_str |}.
