(** Specification: the calls of [read] a decoder makes. *)
From Verif Require Import Model.Prelude Model.Io Spec.Streams.

(** one call: the size of the buffer, and the answer *)
Record call : Type := mkCall { asked : N; answer : read_res }.

(** the call brought data, or is to be repeated *)
Definition goes_on (c : call) : Prop :=
  answer c = RdErr Interrupted \/ exists b d, answer c = RdOk (b :: d).
(** end of file, or a failure *)
Definition stops (c : call) : Prop :=
  answer c = RdOk [] \/ exists k, k <> Interrupted /\ answer c = RdErr k.

(** the reader [r], asked [log], gave those answers and became [r'] *)
Inductive transcript {R} `{Reader R} : R -> list call -> R -> Prop :=
| t_nil r : transcript r [] r
| t_cons r n x r1 log r' : read r n = (x, r1) -> transcript r1 log r' -> transcript r (mkCall n x :: log) r'.

(** a reader that remembers how it was used *)
Record Logged (R : Type) : Type := mkLogged { source_of : R; calls_of : list call }.
Arguments mkLogged {R}.
Arguments source_of {R}.
Arguments calls_of {R}.
#[export] Instance logged_reader {R} `{Reader R} : Reader (Logged R) := {
  read r n := let '(x, r') := read (source_of r) n in (x, mkLogged r' (calls_of r ++ [mkCall n x]));
  budget r := budget (source_of r)
}.

(** what an event stream can answer before it stops: bytes, and interruptions *)
Fixpoint interruptions (evs : list event) : nat :=
  match evs with
  | EvData _ _ :: evs' => interruptions evs'
  | EvErr Interrupted :: evs' => S (interruptions evs')
  | _ => 0
  end.

(** The contract of [Read::read]: no more bytes than the buffer holds, and no panic. *)
Definition honest (c : call) : Prop :=
  match answer c with RdOk d => (lenN d <= asked c)%N | RdErr _ => True | RdPanic => False end.
Definition well_behaved (R : Type) `{Reader R} : Prop :=
  forall (r : R) n x r', read r n = (x, r') -> honest (mkCall n x).

(** the (honest) answers of a transcript as an event stream, and the bytes in them *)
Definition event_of (c : call) : event :=
  match answer c with
  | RdOk [] => EvEof
  | RdOk (b :: d) => EvData b d
  | RdErr k => EvErr k
  | RdPanic => EvEof   (* never used *)
  end.
Definition answers (log : list call) : list event := map event_of log.
Definition bytes_of (log : list call) : list byte :=
  flat_map (fun c => match answer c with RdOk d => d | _ => [] end) log.

(** The reader delivers finitely much and is interrupted finitely often before
    it stops: [budget] bounds both (it is what the model's loops use as fuel,
    see Model/Io.v). *)
Definition finite (R : Type) `{Reader R} : Prop :=
  (forall (r : R) n d r', read r n = (RdOk d, r') -> budget r' + length d <= budget r) /\
  (forall (r : R) n k r', read r n = (RdErr k, r') -> budget r' <= budget r) /\
  (forall (r : R) n r', read r n = (RdErr Interrupted, r') -> budget r' < budget r).

(** [serves r bs stop]: however it is asked, [r] delivers the bytes [bs], in
    pieces of any sizes and interrupted at any points, and then stops. *)
Inductive serves {R} `{Reader R} : R -> list byte -> ending -> Prop :=
| serves_step r bs stop : (forall n, n <> 0%N -> answers_well r n bs stop) -> serves r bs stop
with answers_well {R} `{Reader R} : R -> N -> list byte -> ending -> Prop :=
| aw_data r n b d bs stop r' : read r n = (RdOk (b :: d), r') -> serves r' bs stop -> answers_well r n (b :: d ++ bs) stop
| aw_retry r n bs stop r' : read r n = (RdErr Interrupted, r') -> serves r' bs stop -> answers_well r n bs stop
| aw_eof r n r' : read r n = (RdOk [], r') -> answers_well r n [] Ends
| aw_fail r n k r' : read r n = (RdErr k, r') -> k <> Interrupted -> answers_well r n [] (Fails k).
