(** src/decode/helpers.rs: floats, vectors, names ([decode_expr] is in Instr.v,
    [read_byte] in Io.v) *)
From Verif Require Import Model.Prelude Model.Io Model.Ast Model.Errors Model.Integer.
Local Open Scope N_scope.

(** uN::from_le_bytes *)
Fixpoint from_le_bytes (bs : list byte) : N :=
  match bs with
  | [] => 0
  | b :: bs' => b2n b + 256 * from_le_bytes bs'
  end.

(** core::str::from_utf8 (std, run_utf8_validation), which String::try_from
    uses: is the byte sequence well-formed UTF-8? *)
Definition in_rng (lo hi : N) (b : byte) : bool := (lo <=? b2n b) && (b2n b <=? hi).
Fixpoint from_utf8 (l : list byte) : bool :=
  match l with
  | [] => true
  | b0 :: l1 =>
      if b2n b0 <? 0x80 then from_utf8 l1
      else if in_rng 0xC2 0xDF b0 then
        match l1 with
        | b1 :: l2 => in_rng 0x80 0xBF b1 && from_utf8 l2
        | _ => false
        end
      else if in_rng 0xE0 0xEF b0 then
        match l1 with
        | b1 :: b2 :: l3 =>
            ((b2n b0 =? 0xE0) && in_rng 0xA0 0xBF b1
             || in_rng 0xE1 0xEC b0 && in_rng 0x80 0xBF b1
             || (b2n b0 =? 0xED) && in_rng 0x80 0x9F b1
             || in_rng 0xEE 0xEF b0 && in_rng 0x80 0xBF b1)
            && in_rng 0x80 0xBF b2 && from_utf8 l3
        | _ => false
        end
      else if in_rng 0xF0 0xF4 b0 then
        match l1 with
        | b1 :: b2 :: b3 :: l4 =>
            ((b2n b0 =? 0xF0) && in_rng 0x90 0xBF b1
             || in_rng 0xF1 0xF3 b0 && in_rng 0x80 0xBF b1
             || (b2n b0 =? 0xF4) && in_rng 0x80 0x8F b1)
            && in_rng 0x80 0xBF b2 && in_rng 0x80 0xBF b3 && from_utf8 l4
        | _ => false
        end
      else false
  end.

Section Helpers.
  Context {env : Env} {R : Type} `{Reader R}.

  (** src/decode/helpers.rs:74-78 *)
  Definition decode_f32 : M R DecodeFloat32Error f32 :=
    buf <- map_err F32_ReadPayload (read_exact 4) ;; ret (from_le_bytes buf).
  (** src/decode/helpers.rs:86-90 *)
  Definition decode_f64 : M R DecodeFloat64Error f64 :=
    buf <- map_err F64_ReadPayload (read_exact 8) ;; ret (from_le_bytes buf).

  (** src/decode/helpers.rs:112-118: one iteration; state = (i, items pushed so
      far, newest first; state captured by the closure) *)
  Definition list_step {St E T} (parse_fn : St -> M R E (T * St)) (s : N * list T * St)
    : M R (DecodeListError E) (N * list T * St) :=
    match s with
    | (i, items, st) =>
        '(elem, st') <- map_err (ParseElement i) (parse_fn st) ;;
        ret (i + 1, elem :: items, st')
    end.
  (** src/decode/helpers.rs:101-121, with the FnMut closure's captured state
      made explicit *)
  Definition decode_list_st {St E T} (parse_fn : St -> M R E (T * St)) (st : St)
    : M R (DecodeListError E) (list T) :=
    len <- map_err DecodeLength decode_u32 ;;                             (* 109 *)
    _ <- alloc len ;;                                                     (* 111 *)
    '(_, items, _) <- loopN (list_step parse_fn) len (0, [], st) ;;
    ret (rev items).
  (** the same for closures without state *)
  (** src/decode/helpers.rs:101-123 for closures without state *)
  Definition decode_list {E T} (parse_fn : M R E T) : M R (DecodeListError E) (list T) :=
    decode_list_st (fun _ : unit => x <- parse_fn ;; ret (x, tt)) tt.

  (** src/decode/helpers.rs:156-163 *)
  Definition decode_byte_vector : M R DecodeByteVectorError (list byte) :=
    len <- map_err BV_DecodeLength decode_u32 ;;
    _ <- alloc len ;;
    map_err BV_ReadElements (read_exact len).

  (** src/decode/helpers.rs:174-176 *)
  Definition decode_name : M R DecodeNameError rstring :=
    b <- map_err Name_DecodeByteVector decode_byte_vector ;;
    if from_utf8 b then ret b else throw (Name_Utf8 b).
End Helpers.
