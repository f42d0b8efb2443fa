(** src/decode/integer.rs: LEB128 integers *)
From Verif Require Import Model.Prelude Model.Io Model.Ast Model.Errors.
Local Open Scope N_scope.

Section Integer.
  Context {R : Type} `{Reader R}.

  (** [decode_u32]'s loop body, lines 25-47; [is]: remaining values of [i] *)
  Fixpoint u32_loop (is : list N) (result shift : N) : M R DecodeU32Error u32 :=
    match is with
    | [] => throw U32_RepresentationTooLong                               (* 49 *)
    | i :: is' =>
        byte <- map_err U32_Io read_byte ;;                               (* 26 *)
        x <- shl_u32 (N.land (b2n byte) 0x7F) shift ;;                    (* 28 *)
        let result := N.lor result x in
        let continuation_bit := N.land (b2n byte) 0x80 in                 (* 30 *)
        if continuation_bit =? 0 then                                     (* 31 *)
          if (i =? 5) && negb (N.land (b2n byte) 0xF0 =? 0)               (* 32 *)
          then throw U32_TooLarge
          else ret result                                                 (* 41 *)
        else
          shift' <- add_u8 shift 7 ;;                                     (* 46 *)
          u32_loop is' result shift'
    end.
  (** src/decode/integer.rs:20-50 *)
  Definition decode_u32 : M R DecodeU32Error u32 := u32_loop [1;2;3;4;5] 0 0.

  (** loop of [decode_u64], lines 69-91 *)
  Fixpoint u64_loop (is : list N) (result shift : N) : M R DecodeU64Error u64 :=
    match is with
    | [] => throw U64_RepresentationTooLong                               (* 93 *)
    | i :: is' =>
        byte <- map_err U64_Io read_byte ;;                               (* 70 *)
        x <- shl_u64 (N.land (b2n byte) 0x7F) shift ;;                    (* 72 *)
        let result := N.lor result x in
        let continuation_bit := N.land (b2n byte) 0x80 in                 (* 74 *)
        if continuation_bit =? 0 then                                     (* 75 *)
          if (i =? 10) && negb (N.land (b2n byte) 0x7E =? 0)              (* 76 *)
          then throw U64_TooLarge
          else ret result                                                 (* 85 *)
        else
          shift' <- add_u8 shift 7 ;;                                     (* 90 *)
          u64_loop is' result shift'
    end.
  (** src/decode/integer.rs:64-94 *)
  Definition decode_u64 : M R DecodeU64Error u64 := u64_loop [1;2;3;4;5;6;7;8;9;10] 0 0.

  (** loop of [decode_i32], lines 116-134 *)
  Fixpoint i32_loop (is : list N) (result : Z) (shift : N) : M R DecodeI32Error i32 :=
    match is with
    | [] => throw I32_RepresentationTooLong                               (* 136 *)
    | _ :: is' =>
        byte <- map_err I32_Io read_byte ;;                               (* 117 *)
        x <- shl_i64 (Z.of_N (N.land (b2n byte) 0x7F)) shift ;;           (* 119 *)
        let result := Z.lor result x in
        shift <- add_u8 shift 7 ;;                                        (* 120 *)
        let continuation_bit := N.land (b2n byte) 0x80 in                 (* 122 *)
        if continuation_bit =? 0 then                                     (* 123 *)
          result <- (if negb (N.land (b2n byte) 0x40 =? 0)                (* 124 *)
                     then (m <- shl_i64 (-1) shift ;; ret (Z.lor result m)) (* 125 *)
                     else ret result) ;;
          if negb ((- 2 ^ 31 <=? result)%Z && (result <=? 2 ^ 31 - 1)%Z)  (* 128 *)
          then throw I32_TooLarge
          else if ((- 2 ^ 31 <=? result)%Z && (result <=? 2 ^ 31 - 1)%Z)  (* 132: i32::try_from(..).unwrap() *)
               then ret result
               else panic_with UnwrapFailed
        else i32_loop is' result shift
    end.
  (** src/decode/integer.rs:108-137 *)
  Definition decode_i32 : M R DecodeI32Error i32 := i32_loop [1;2;3;4;5] 0%Z 0.

  (** loop of [decode_i64], lines 156-185 *)
  Fixpoint i64_loop (is : list N) (result : Z) (shift : N) : M R DecodeI64Error i64 :=
    match is with
    | [] => throw I64_RepresentationTooLong                               (* 187 *)
    | _ :: is' =>
        byte <- map_err I64_Io read_byte ;;                               (* 157 *)
        x <- shl_i64 (Z.of_N (N.land (b2n byte) 0x7F)) shift ;;           (* 159 *)
        let result := Z.lor result x in
        shift <- add_u8 shift 7 ;;                                        (* 160 *)
        let continuation_bit := N.land (b2n byte) 0x80 in                 (* 162 *)
        if continuation_bit =? 0 then                                     (* 163 *)
          let on_10th_byte := 64 <=? shift in                             (* 164 *)
          let is_negative := negb (N.land (b2n byte) 0x40 =? 0) in        (* 165 *)
          if on_10th_byte then                                            (* 167 *)
            let padding := N.land (b2n byte) 0x3F in                      (* 168 *)
            if is_negative && negb (padding =? 0x3F) then throw I64_IncorrectSignExtension      (* 169-172 *)
            else if negb is_negative && negb (padding =? 0) then throw I64_IncorrectSignExtension (* 173-176 *)
            else ret result
          else if is_negative then                                        (* 177 *)
            m <- shl_i64 (-1) shift ;; ret (Z.lor result m)               (* 180 *)
          else ret result                                                 (* 183 *)
        else i64_loop is' result shift
    end.
  (** src/decode/integer.rs:151-188 *)
  Definition decode_i64 : M R DecodeI64Error i64 := i64_loop [1;2;3;4;5;6;7;8;9;10] 0%Z 0.

  (** loop of [decode_s33], lines 207-238 *)
  Fixpoint s33_loop (is : list N) (result : Z) (shift : N) : M R DecodeS33Error i64 :=
    match is with
    | [] => throw S33_RepresentationTooLong                               (* 240 *)
    | _ :: is' =>
        byte <- map_err S33_Io read_byte ;;                               (* 208 *)
        x <- shl_i64 (Z.of_N (N.land (b2n byte) 0x7F)) shift ;;           (* 210 *)
        let result := Z.lor result x in
        shift <- add_u8 shift 7 ;;                                        (* 211 *)
        let continuation_bit := N.land (b2n byte) 0x80 in                 (* 213 *)
        if continuation_bit =? 0 then                                     (* 214 *)
          let on_5th_byte := 33 <=? shift in                              (* 215 *)
          let is_negative := negb (N.land (b2n byte) 0x40 =? 0) in        (* 216 *)
          let padding := N.land (b2n byte) 0x70 in                        (* 219 *)
          if on_5th_byte && (is_negative && negb (padding =? 0x70)) then throw S33_IncorrectSignExtension    (* 220-223 *)
          else if on_5th_byte && (negb is_negative && negb (padding =? 0)) then throw S33_IncorrectSignExtension (* 224-227 *)
          else if is_negative then                                        (* 230 *)
            m <- shl_i64 (-1) shift ;; ret (Z.lor result m)               (* 233 *)
          else ret result                                                 (* 236 *)
        else s33_loop is' result shift
    end.
  (** src/decode/integer.rs:202-241 *)
  Definition decode_s33 : M R DecodeS33Error i64 := s33_loop [1;2;3;4;5] 0%Z 0.

  (** src/decode/indices.rs:16-22 (one instance per index type, 26-35) *)
  Definition decode_typeidx : M R DecodeTypeIdxError TypeIdx := map_err TypeIdxE decode_u32.
  Definition decode_funcidx : M R DecodeFuncIdxError FuncIdx := map_err FuncIdxE decode_u32.
  Definition decode_tableidx : M R DecodeTableIdxError TableIdx := map_err TableIdxE decode_u32.
  Definition decode_memidx : M R DecodeMemIdxError MemIdx := map_err MemIdxE decode_u32.
  Definition decode_globalidx : M R DecodeGlobalIdxError GlobalIdx := map_err GlobalIdxE decode_u32.
  Definition decode_elemidx : M R DecodeElemIdxError ElemIdx := map_err ElemIdxE decode_u32.
  Definition decode_dataidx : M R DecodeDataIdxError DataIdx := map_err DataIdxE decode_u32.
  Definition decode_localidx : M R DecodeLocalIdxError LocalIdx := map_err LocalIdxE decode_u32.
  Definition decode_labelidx : M R DecodeLabelIdxError LabelIdx := map_err LabelIdxE decode_u32.
  Definition decode_tagidx : M R DecodeTagIdxError TagIdx := map_err TagIdxE decode_u32.
End Integer.
