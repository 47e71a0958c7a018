(** Specification of websocket framing (RFC 6455, section 5): frames, messages and their
    bytes.  Nothing here mentions the model. *)
From Verif Require Import Base.

(** the three ways of writing a payload length; a longer form than needed is allowed *)
Inductive lenform := Len7 | Len16 | Len64.

Record frame := mkframe {
  f_fin : bool; f_rsv : Z; f_op : Z;
  f_key : option (list Z);      (* masking key *)
  f_form : lenform;
  f_data : list Z               (* payload, unmasked *)
}.

(** [n] bytes of [z], most significant first *)
Definition be_bytes (n : nat) (z : Z) : list Z := rev (le_bytes n z).

(** masking: byte i of the payload is xored with byte i mod 4 of the key *)
Fixpoint mask_from (key : list Z) (i : nat) (d : list Z) : list Z :=
  match d with [] => [] | b :: d' => Z.lxor b (nth (i mod 4) key 0) :: mask_from key (S i) d' end.

Definition frame_bytes (f : frame) : list Z :=
  let n := Z.of_nat (length (f_data f)) in
  let m := match f_key f with Some _ => 128 | None => 0 end in
  [ (if f_fin f then 128 else 0) + 16 * f_rsv f + f_op f ]
  ++ match f_form f with
     | Len7 => [m + n] | Len16 => (m + 126) :: be_bytes 2 n | Len64 => (m + 127) :: be_bytes 8 n
     end
  ++ match f_key f with Some k => k ++ mask_from k 0 (f_data f) | None => f_data f end.

Definition frame_wf (f : frame) : Prop :=
  0 <= f_rsv f < 8 /\ 0 <= f_op f < 16 /\ Forall is_byte (f_data f)
  /\ (match f_key f with Some k => length k = 4%nat /\ Forall is_byte k | None => True end)
  /\ Z.of_nat (length (f_data f)) < match f_form f with Len7 => 126 | Len16 => 65536 | Len64 => 2 ^ 64 end.

(** a message: well-formed frames of which exactly the last one is final *)
Inductive message : list frame -> Prop :=
| msg_last f : frame_wf f -> f_fin f = true -> message [f]
| msg_more f fs : frame_wf f -> f_fin f = false -> message fs -> message (f :: fs).

Definition message_bytes (fs : list frame) : list Z := flat_map frame_bytes fs.
Definition message_data (fs : list frame) : list Z := flat_map f_data fs.
(** the kind of a message is the opcode of its first frame: 1 text, 2 binary *)
Definition message_op (fs : list frame) : Z := match fs with f :: _ => f_op f | [] => 0 end.

(** fragments as RFC 6455, section 5.4 wants them: the first frame names the kind, the others
    are continuations (opcode 0) *)
Definition fragments (op : Z) (fs : list frame) : Prop :=
  match fs with f :: fs' => f_op f = op /\ Forall (fun g => f_op g = 0) fs' | [] => False end.

(** a frame as a server may send it: not masked, no reserved bits, payload at most [n] *)
Definition server_frame (n : nat) (f : frame) : Prop :=
  f_key f = None /\ f_rsv f = 0 /\ (length (f_data f) <= n)%nat.

(** what a received message stands for: a text, or bytes followed by one info byte *)
Definition message_means (fs : list frame) (info : Z) (data : list Z) : Prop :=
  (message_op fs = 1 /\ info = 0 /\ data = message_data fs)
  \/ (message_op fs = 2 /\ message_data fs = data ++ [info]).

(** a proper beginning of some message *)
Definition incomplete (n : Z) (bs : list Z) : Prop :=
  exists fs rest, message fs /\ rest <> [] /\ bs ++ rest = message_bytes fs /\ Z.of_nat (length (message_bytes fs)) < n.

(** a sequence of messages as bytes, and what it stands for *)
Definition stream (ms : list (list frame)) : list Z := flat_map message_bytes ms.

Inductive delivers : list (list frame) -> list (Z * list Z) -> Prop :=
| dl_nil : delivers [] []
| dl_cons fs ms i d l : message_means fs i d -> delivers ms l -> delivers (fs :: ms) ((i, d) :: l).
