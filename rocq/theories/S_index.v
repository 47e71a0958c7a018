(** Specification of the index of blocks of time series (C64). *)
From Verif Require Import Base.

(** where a block lies and what it holds *)
Record iunit := mkiu { iu_active : Z; iu_ktype : Z; iu_sdict : Z; iu_fidx : Z; iu_offset : Z; iu_size : Z; iu_start : Z; iu_stop : Z }.
(** a block of a key and a table (None: of a key without table) *)
Record entry := mkent { e_key : list Z; e_tab : option (list Z); e_unit : iunit }.
(** "key.table" *)
Definition text_of (k : list Z) (t : option (list Z)) : list Z := match t with Some s => k ++ 46 :: s | None => k end.
Definition same_series (k : list Z) (t : option (list Z)) (e : entry) : bool :=
  (if list_eq_dec Z.eq_dec (e_key e) k then true else false) &&
  match e_tab e, t with
  | Some a, Some b => if list_eq_dec Z.eq_dec a b then true else false
  | None, None => true
  | _, _ => false
  end.
(** the blocks of a series, in the order of writing *)
Definition blocks_of (h : list entry) (k : list Z) (t : option (list Z)) : list iunit := map e_unit (filter (same_series k t) h).
Definition unit_ok (u : iunit) : Prop :=
  0 <= iu_active u < 256 /\ 0 <= iu_ktype u < 256 /\ 0 <= iu_sdict u < 256 /\ 0 <= iu_fidx u < 65536 /\
  0 <= iu_offset u < 2 ^ 64 /\ 0 <= iu_size u < 2 ^ 64 /\ 0 <= iu_start u < 2 ^ 64 /\ 0 <= iu_stop u < 2 ^ 64.
(** where a block of a dictionary lies: file, offset, size *)
Definition dplace : Type := Z * Z * Z.
Definition dplace_ok (d : dplace) : Prop := let '(f, o, s) := d in 0 <= f < 65536 /\ 0 <= o < 2 ^ 64 /\ 0 <= s < 2 ^ 64.
