(** Specification of the memory buffer: a byte queue, and a length codec as plain
    byte strings.  Nothing here refers to the model. *)
From Verif Require Import Base.

(** Operations a user performs on a buffer, and the byte queue they act on. *)
Inductive bufop :=
| OpAppend (bs : list Z)      (* add bytes at the end *)
| OpSkip (n : nat)            (* consume up to n bytes from the front *)
| OpCompact                   (* housekeeping: must not be visible *)
| OpReserve (n : Z)           (* housekeeping: must not be visible *)
| OpClear.

Definition queue_step (q : list Z) (o : bufop) : list Z :=
  match o with
  | OpAppend bs => q ++ bs
  | OpSkip n => skipn n q
  | OpCompact => q
  | OpReserve _ => q
  | OpClear => []
  end.

Definition queue_run (q : list Z) (os : list bufop) : list Z := fold_left queue_step os q.
