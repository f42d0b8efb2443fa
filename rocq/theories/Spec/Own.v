(** Specification: readers with their own [read_exact]. *)
From Verif Require Import Model.Prelude Model.Io Model.Override Spec.Streams Spec.Calls.

(** The contract of [Read::read_exact]: it fills the buffer, or fails, and
    deals with interruptions itself. *)
Definition exact_contract (R : Type) `{OwnReader R} : Prop :=
  forall n (r : R), match own_exact n r with
    | (Ok d, _) => lenN d = n
    | (Err k, _) => k <> Interrupted
    | (Panic _, _) | (Stuck, _) => False
    end.

(** [budget] bounds what [read_exact] can deliver, too (see [finite]) *)
Definition exact_finite (R : Type) `{OwnReader R} : Prop :=
  (forall n (r : R) d r', own_exact n r = (Ok d, r') -> budget r' + length d <= budget r) /\
  (forall n (r : R) k r', own_exact n r = (Err k, r') -> budget r' <= budget r).

(** What a call of [read_exact] shows of the stream: the bytes, or a failure.  The
    error UnexpectedEof may be the end of file or a failure of that kind:
    [read_exact] does not tell, and [eof] is what it is taken for. *)
Definition as_answer (eof : read_res) (x : res io_error (list byte)) : read_res :=
  match x with
  | Ok d => RdOk d
  | Err UnexpectedEof => eof
  | Err k => RdErr k
  | Panic _ | Stuck => eof
  end.
Definition may_be_eof (eof : read_res) : Prop := eof = RdOk [] \/ eof = RdErr UnexpectedEof.

(** the reader [r] was asked [log], by [read] or by [read_exact], and became [r'] *)
Inductive exchange {R} `{OwnReader R} (eof : read_res) : R -> list call -> R -> Prop :=
| x_nil r : exchange eof r [] r
| x_read r n x r1 log r' : read r n = (x, r1) -> exchange eof r1 log r' -> exchange eof r (mkCall n x :: log) r'
| x_exact r n x r1 log r' : own_exact n r = (x, r1) -> exchange eof r1 log r' -> exchange eof r (mkCall n (as_answer eof x) :: log) r'.

(** [serves_both r bs stop]: however it is asked, by [read] or by [read_exact],
    [r] delivers the bytes [bs] and then stops.  [read] may deliver any part of
    what is asked, or be interrupted; [read_exact] delivers what is asked if
    there is as much, and otherwise reports the stop. *)
Inductive serves_both {R} `{OwnReader R} : R -> list byte -> ending -> Prop :=
| sb_step r bs stop :
    (forall n, n <> 0%N -> reads_well r n bs stop) ->
    (forall n, n <> 0%N -> fills_well r n bs stop) -> serves_both r bs stop
with reads_well {R} `{OwnReader R} : R -> N -> list byte -> ending -> Prop :=
| rw_data r n b d bs stop r' : read r n = (RdOk (b :: d), r') -> serves_both r' bs stop -> reads_well r n (b :: d ++ bs) stop
| rw_retry r n bs stop r' : read r n = (RdErr Interrupted, r') -> serves_both r' bs stop -> reads_well r n bs stop
| rw_eof r n r' : read r n = (RdOk [], r') -> reads_well r n [] Ends
| rw_fail r n k r' : read r n = (RdErr k, r') -> k <> Interrupted -> reads_well r n [] (Fails k)
with fills_well {R} `{OwnReader R} : R -> N -> list byte -> ending -> Prop :=
| fw_data r n d bs stop r' : own_exact n r = (Ok d, r') -> lenN d = n -> serves_both r' bs stop -> fills_well r n (d ++ bs) stop
| fw_eof r n bs r' : own_exact n r = (Err UnexpectedEof, r') -> (lenN bs < n)%N -> fills_well r n bs Ends
| fw_fail r n bs k r' : own_exact n r = (Err k, r') -> k <> Interrupted -> (lenN bs < n)%N -> fills_well r n bs (Fails k).
