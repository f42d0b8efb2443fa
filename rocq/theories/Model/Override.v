(** [decode_module] on a reader whose type brings its own [read_exact].

    [Read::read_exact] is a provided method that implementations may replace
    (std does so for [&[u8]], [Cursor], [BufReader], [StdinLock], ...).  The
    decoder calls it on the reader it was given in two places only: in
    [parse_preamble], and, through [read_byte], for the bytes of a section
    header.  Everything else is read through [io::Take] (src/decode/module.rs:224),
    which does not forward [read_exact] or [read_to_end] but runs std's default
    implementations on top of the [read] of the reader inside.  So this file
    repeats the definitions of Model/Integer.v and Model/Module.v that lie on
    the way to those two places, with [own_exact] for [read_exact], and uses
    [section_step] of Model/Module.v for the rest. *)
From Verif Require Import Model.Prelude Model.Io Model.Ast Model.Errors Model.Integer Model.Module Model.Display Model.Cli.
Local Open Scope N_scope.

(** a type that implements [Read], with its own [read_exact] *)
(** std::io::Read with an overriding read_exact *)
Class OwnReader (R : Type) : Type := {
  own_reader :> Reader R;
  own_exact : N -> M R io_error (list byte)
}.

Section Own.
  Context {env : Env} {R : Type} `{OwnReader R}.

  (** src/decode/helpers.rs:8-12 [read_byte] *)
  Definition read_byte_own : M R io_error byte :=
    buf <- own_exact 1 ;;
    match buf with
    | b :: _ => ret b
    | [] => panic_with IndexOutOfBounds
    end.

  (** [decode_u32]'s loop body, src/decode/integer.rs:25-47, as in Model/Integer.v *)
  Fixpoint u32_loop_own (is : list N) (result shift : N) : M R DecodeU32Error u32 :=
    match is with
    | [] => throw U32_RepresentationTooLong                               (* 49 *)
    | i :: is' =>
        byte <- map_err U32_Io read_byte_own ;;                           (* 26 *)
        x <- shl_u32 (N.land (b2n byte) 0x7F) shift ;;                    (* 28 *)
        let result := N.lor result x in
        let continuation_bit := N.land (b2n byte) 0x80 in                 (* 30 *)
        if continuation_bit =? 0 then                                     (* 31 *)
          if (i =? 5) && negb (N.land (b2n byte) 0xF0 =? 0)               (* 32 *)
          then throw U32_TooLarge
          else ret result                                                 (* 41 *)
        else
          shift' <- add_u8 shift 7 ;;                                     (* 46 *)
          u32_loop_own is' result shift'
    end.
  (** src/decode/integer.rs:20-50 *)
  Definition decode_u32_own : M R DecodeU32Error u32 := u32_loop_own [1;2;3;4;5] 0 0.

  (** src/decode/module.rs:362-371 *)
  Definition parse_preamble_own : M R ParsePreambleError unit :=
    preamble <- map_err Pre_Io (own_exact 8) ;;
    if negb (bytes_eqb preamble EXPECTED_PREAMBLE) then throw (Pre_Unexpected preamble)
    else ret tt.

  (** src/decode/module.rs:388-392 *)
  Definition read_section_id_own : M R DecodeSectionHeaderError (option byte) :=
    fun r => match read_byte_own r with
             | (Ok id, r') => (Ok (Some id), r')
             | (Err UnexpectedEof, r') => (Ok None, r')
             | (Err e, r') => (Err (Hdr_ReadSectionIdByte e), r')
             | (Panic p, r') => (Panic p, r')
             | (Stuck, r') => (Stuck, r')
             end.

  (** src/decode/module.rs:385-398 *)
  Definition decode_section_header_own : M R DecodeSectionHeaderError (option SectionHeader) :=
    id <- read_section_id_own ;;
    match id with
    | None => ret None
    | Some id =>
        match section_from_marker id with                                       (* 394 *)
        | None => throw (Hdr_InvalidSectionId (InvalidSectionId id))
        | Some kind =>
            size <- map_err Hdr_DecodeSectionSize decode_u32_own ;;             (* 395 *)
            ret (Some (mkHeader kind size))
        end
    end.

  (** src/decode/module.rs:223-319, the loop *)
  (** src/decode/module.rs:222-319 *)
  Fixpoint section_loop_own (fuel : nat) (s : st) : M R DecodeModuleError st :=
    match fuel with
    | O => stuck
    | S fuel' =>
        h <- map_err DM_DecodeSectionHeader decode_section_header_own ;;        (* 223 *)
        match h with
        | None => ret s
        | Some h => s' <- section_step h s ;; section_loop_own fuel' s'
        end
    end.
  Definition section_loop_own' (s : st) : M R DecodeModuleError st :=
    fun r => section_loop_own (S (budget r)) s r.

  (** src/decode/module.rs:207-351 [decode_module] *)
  Definition decode_module_own : M R DecodeModuleError Module_ :=
    _ <- map_err DM_ParsePreamble parse_preamble_own ;;                         (* 208 *)
    s <- section_loop_own' (mkSt default_module false false) ;;
    final_checks s.
End Own.

(** ** Types of std with their own [read_exact] *)

(** [&[u8]] (library/std/src/io/impls.rs): a slice that is too short is used up
    and reported *)
Definition slice_exact (n : N) : M (list byte) io_error (list byte) :=
  fun l => if lenN l <? n then (Err UnexpectedEof, []) else (Ok (takeN n l), dropN n l).
Definition slice_own : OwnReader (list byte) := {| own_reader := list_reader; own_exact := slice_exact |}.

(** [BufReader<R>] (library/std/src/io/buffered/bufreader.rs): [b_data] is the
    part of the buffer not yet consumed, [b_cap] its capacity. *)
Record Buffered (R : Type) : Type := mkBuffered { b_cap : N; b_data : list byte; b_inner : R }.
Arguments mkBuffered {R}.
Arguments b_cap {R}.
Arguments b_data {R}.
Arguments b_inner {R}.
(** [BufReader::read]: with nothing buffered, a request as large as the buffer
    goes to the inner reader directly; otherwise the buffer is filled by one
    call, if it is empty, and copied from (a claim of more than the buffer holds
    is refused by [BorrowedCursor::advance]) *)
(** std: impl Read for BufReader *)
#[export] Instance buffered_reader {R} `{Reader R} : Reader (Buffered R) := {
  read b n :=
    match b_data b with
    | [] =>
        if b_cap b <=? n then
          let '(x, r') := read (b_inner b) n in (x, mkBuffered (b_cap b) [] r')
        else
          match read (b_inner b) (b_cap b) with
          | (RdOk d, r') =>
              if lenN d <=? b_cap b then (RdOk (takeN n d), mkBuffered (b_cap b) (dropN n d) r')
              else (RdPanic, mkBuffered (b_cap b) [] r')
          | (RdErr k, r') => (RdErr k, mkBuffered (b_cap b) [] r')
          | (RdPanic, r') => (RdPanic, mkBuffered (b_cap b) [] r')
          end
    | d => (RdOk (takeN n d), mkBuffered (b_cap b) (dropN n d) (b_inner b))
    end;
  budget b := (length (b_data b) + budget (b_inner b))%nat
}.
(** [BufReader::read_exact]: from the buffer if it has enough, otherwise std's
    default *)
Definition buffered_exact {R} `{Reader R} (n : N) : M (Buffered R) io_error (list byte) :=
  fun b => if n <=? lenN (b_data b)
           then (Ok (takeN n (b_data b)), mkBuffered (b_cap b) (dropN n (b_data b)) (b_inner b))
           else read_exact n b.
Definition buffered_own {R} `{Reader R} : OwnReader (Buffered R) :=
  {| own_reader := buffered_reader; own_exact := buffered_exact |}.

(** ** The tool *)

(** wadec-cli/src/main.rs:20-28, [cli_main] of Model/Cli.v once more:
    [cli.input.open()] yields a [BufReader] of a file or the locked standard
    input (itself a [BufReader]), so the reader has its own [read_exact]. *)
Definition cli_main_own {T : Texts} {env : Env} {R} `{OwnReader R}
    (verbose : bool) (opened : (dyn_error * String.string) + R) : option outcome :=
  match opened with
  | inl (e, dbg) => Some (abort verbose e dbg)                                            (* 22 *)
  | inr r =>
      match fst (decode_module_own r) with                                                (* 23 *)
      | Ok m => Some (mkOutcome 0 (if verbose then [debug_module m] else []) [])          (* 25-28 *)
      | Err e => Some (abort verbose (view (n_module e)) (debug_error e))
      | Panic _ | Stuck => None
      end
  end.
