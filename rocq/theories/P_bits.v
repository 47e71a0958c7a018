(** Properties C03-C07: the bit stream and its encoders. *)
From Verif Require Import Base S_bits M_bits L_bits L_bitcodec L_bitprops.

(** C03.  Fields of any width 1..64, any starting bit position, any buffer content. *)
Theorem C03_bit_fields_roundtrip : forall s fs,
  Forall is_byte (bdat s) ->
  Forall (fun f => (1 <= fst f <= 64)%nat) fs ->
  (bpos s + list_sum (map fst fs) <= 8 * length (bdat s))%nat ->
  exists s', put_all s fs = Some s'
    /\ bpos s' = (bpos s + list_sum (map fst fs))%nat
    /\ length (bdat s') = length (bdat s)
    /\ same_bits (bdat s') (bdat s) 0 (bpos s)
    /\ (forall k, (bpos s' <= 8 * k)%nat -> nth_error (bdat s') k = nth_error (bdat s) k)
    /\ get_all (mkbs (bdat s') (bpos s)) (map fst fs)
       = Some (map (fun f => snd f mod 2 ^ Z.of_nat (fst f)) fs, s').
Proof. exact bit_fields_lemma. Qed.
Print Assumptions C03_bit_fields_roundtrip.

Example C03_example :
  put_all (mkbs [255;170;255;3;7] 3) [(7%nat, 100); (11%nat, 1234); (3%nat, 5)]
  = Some (mkbs [249;38;149;3;7] 24)
  /\ get_all (mkbs [249;38;149;3;7] 3) [7%nat; 11%nat; 3%nat]
     = Some ([100; 1234; 5], mkbs [249;38;149;3;7] 24).
Proof. vm_compute. split; reflexivity. Qed.

(** C04, for every int64 except INT64_MIN.  [d] is any later state of the buffer in which
    the written bits are intact.  Missing: INT64_MIN, see the refutation. *)
Theorem C04_int_roundtrip_partial : forall s v,
  Forall is_byte (bdat s) -> - 2 ^ 63 < v < 2 ^ 63 ->
  (bpos s + 70 <= 8 * length (bdat s))%nat ->
  exists s', bput_int s v = Some s'
    /\ same_bits (bdat s') (bdat s) 0 (bpos s)
    /\ forall d, Forall is_byte d -> length d = length (bdat s) ->
         same_bits d (bdat s') (bpos s) (bpos s') ->
         bget_int (mkbs d (bpos s)) = Some (v, mkbs d (bpos s')).
Proof. exact int_roundtrip_lemma. Qed.
Print Assumptions C04_int_roundtrip_partial.

Example C04_example :
  match bput_int (mkbs (repeat 255 12) 5) (-123456789) with
  | Some s' => bpos s' = 40%nat /\ bget_int (mkbs (bdat s') 5) = Some (-123456789, s')
  | None => False end.
Proof. vm_compute. repeat split; reflexivity. Qed.

(** C04 at full strength is false: INT64_MIN is written as 0. *)
Theorem C04_int_min_refuted : exists s s' w,
  Forall is_byte (bdat s) /\ (bpos s + 70 <= 8 * length (bdat s))%nat
  /\ bput_int s (- 2 ^ 63) = Some s'
  /\ bget_int (mkbs (bdat s') (bpos s)) = Some (w, s') /\ w <> - 2 ^ 63.
Proof.
  exists (mkbs (repeat 0 10) 0), (mkbs (128 :: repeat 0 9) 2), 0.
  split; [|split; [|split; [|split]]].
  - cbn; repeat constructor; unfold is_byte; lia.
  - cbn; lia.
  - vm_compute; reflexivity.
  - vm_compute; reflexivity.
  - lia.
Qed.
Print Assumptions C04_int_min_refuted.

(** C05. *)
Theorem C05_uint_roundtrip : forall s v,
  Forall is_byte (bdat s) -> 0 <= v < 2 ^ 32 ->
  (bpos s + 35 <= 8 * length (bdat s))%nat ->
  exists s', bput_uint s v = Some s'
    /\ same_bits (bdat s') (bdat s) 0 (bpos s)
    /\ forall d, Forall is_byte d -> length d = length (bdat s) ->
         same_bits d (bdat s') (bpos s) (bpos s') ->
         bget_uint (mkbs d (bpos s)) = Some (v, mkbs d (bpos s')).
Proof. exact uint_roundtrip_lemma. Qed.
Print Assumptions C05_uint_roundtrip.

Example C05_uint_example :
  match bput_uint (mkbs (repeat 170 8) 7) 4096 with
  | Some s' => bpos s' = 26%nat /\ bget_uint (mkbs (bdat s') 7) = Some (4096, s')
  | None => False end.
Proof. vm_compute. repeat split; reflexivity. Qed.

Theorem C05_sint_roundtrip : forall s v,
  Forall is_byte (bdat s) -> 0 <= v ->
  (bpos s + 11 <= 8 * length (bdat s))%nat ->
  (306 <= v -> bput_sint s v = Some (false, s))
  /\ (v < 306 -> exists s', bput_sint s v = Some (true, s')
    /\ same_bits (bdat s') (bdat s) 0 (bpos s)
    /\ forall d, Forall is_byte d -> length d = length (bdat s) ->
         same_bits d (bdat s') (bpos s) (bpos s') ->
         bget_sint (mkbs d (bpos s)) = Some (v, mkbs d (bpos s'))).
Proof. exact sint_roundtrip_lemma. Qed.
Print Assumptions C05_sint_roundtrip.

Example C05_sint_example :
  match bput_sint (mkbs [1;2;3] 4) 305 with
  | Some (true, s') => bpos s' = 15%nat /\ bget_sint (mkbs (bdat s') 4) = Some (305, s')
  | _ => False end
  /\ bput_sint (mkbs [1;2;3] 4) 306 = Some (false, mkbs [1;2;3] 4).
Proof. vm_compute. repeat split; reflexivity. Qed.

Theorem C05_short_roundtrip : forall s v,
  Forall is_byte (bdat s) -> 0 <= v ->
  (bpos s + 19 <= 8 * length (bdat s))%nat ->
  (69890 <= v -> bput_short s v = Some (false, s))
  /\ (v < 69890 -> exists s', bput_short s v = Some (true, s')
    /\ same_bits (bdat s') (bdat s) 0 (bpos s)
    /\ forall d, Forall is_byte d -> length d = length (bdat s) ->
         same_bits d (bdat s') (bpos s) (bpos s') ->
         bget_short (mkbs d (bpos s)) = Some (v, mkbs d (bpos s'))).
Proof. exact short_roundtrip_lemma. Qed.
Print Assumptions C05_short_roundtrip.

Example C05_short_example :
  match bput_short (mkbs [1;2;3;4] 6) 4354 with
  | Some (true, s') => bpos s' = 25%nat /\ bget_short (mkbs (bdat s') 6) = Some (4354, s')
  | _ => False end
  /\ bput_short (mkbs [1;2;3;4] 6) 69890 = Some (false, mkbs [1;2;3;4] 6).
Proof. vm_compute. repeat split; reflexivity. Qed.

(** C06, for every pair of int64 values whose 64-bit difference is not INT64_MIN. *)
Theorem C06_incr_int_roundtrip_partial : forall s v ago,
  Forall is_byte (bdat s) ->
  - 2 ^ 63 <= v < 2 ^ 63 -> - 2 ^ 63 <= ago < 2 ^ 63 ->
  (v - ago) mod 2 ^ 64 <> 2 ^ 63 ->
  (bpos s + 70 <= 8 * length (bdat s))%nat ->
  exists s', bput_incr_int s v ago = Some s'
    /\ same_bits (bdat s') (bdat s) 0 (bpos s)
    /\ forall d, Forall is_byte d -> length d = length (bdat s) ->
         same_bits d (bdat s') (bpos s) (bpos s') ->
         bget_incr_int (mkbs d (bpos s)) ago = Some (v, mkbs d (bpos s')).
Proof. exact incr_int_roundtrip_lemma. Qed.
Print Assumptions C06_incr_int_roundtrip_partial.

(** the difference of this pair overflows and still round-trips *)
Example C06_example :
  match bput_incr_int (mkbs (repeat 0 12) 0) (2 ^ 63 - 1) (- 2 ^ 63) with
  | Some s' => bget_incr_int (mkbs (bdat s') 0) (- 2 ^ 63) = Some (2 ^ 63 - 1, s')
  | None => False end.
Proof. vm_compute. reflexivity. Qed.

Theorem C06_incr_int_refuted : exists s s' v ago w,
  Forall is_byte (bdat s) /\ (bpos s + 70 <= 8 * length (bdat s))%nat
  /\ - 2 ^ 63 <= v < 2 ^ 63 /\ - 2 ^ 63 <= ago < 2 ^ 63
  /\ bput_incr_int s v ago = Some s'
  /\ bget_incr_int (mkbs (bdat s') (bpos s)) ago = Some (w, s') /\ w <> v.
Proof.
  exists (mkbs (repeat 0 10) 0), (mkbs (128 :: repeat 0 9) 2), (- 2 ^ 62), (2 ^ 62), (2 ^ 62).
  split; [|split; [|split; [|split; [|split; [|split]]]]].
  - cbn; repeat constructor; unfold is_byte; lia.
  - cbn; lia.
  - lia.
  - lia.
  - vm_compute; reflexivity.
  - vm_compute; reflexivity.
  - lia.
Qed.
Print Assumptions C06_incr_int_refuted.

(** C07, unless the text becomes empty after a non-empty one.  [out] is the arbitrary
    destination content before decoding. *)
Theorem C07_chars_roundtrip_partial : forall s cur ago out,
  Forall is_byte (bdat s) -> Forall is_byte cur ->
  length ago = length cur -> length out = length cur -> Z.of_nat (length cur) < 2 ^ 31 ->
  (text cur = [] -> text ago = []) ->
  (bpos s + 36 + 8 * length cur <= 8 * length (bdat s))%nat ->
  exists s', bput_incr_chars s cur (Some ago) = Some s'
    /\ same_bits (bdat s') (bdat s) 0 (bpos s)
    /\ forall d, Forall is_byte d -> length d = length (bdat s) ->
         same_bits d (bdat s') (bpos s) (bpos s') ->
         exists r o, bget_incr_chars (mkbs d (bpos s)) out (Some ago) = Some (r, o, mkbs d (bpos s'))
           /\ length o = length cur /\ text o = text cur.
Proof. exact chars_roundtrip_lemma. Qed.
Print Assumptions C07_chars_roundtrip_partial.

Example C07_example :
  match bput_incr_chars (mkbs (repeat 0 12) 3) [97;98;0;7] (Some [97;98;99;0]) with
  | Some s' => bpos s' = 26%nat
     /\ bget_incr_chars (mkbs (bdat s') 3) [1;1;1;1] (Some [97;98;99;0])
        = Some (2, [97;98;0;0], s')
  | None => False end.
Proof. vm_compute. repeat split; reflexivity. Qed.

(** A text that becomes empty is decoded to the previous text. *)
Theorem C07_empty_text_refuted : exists s s' cur ago out r o,
  Forall is_byte (bdat s) /\ Forall is_byte cur /\ length ago = length cur
  /\ (bpos s + 36 + 8 * length cur <= 8 * length (bdat s))%nat
  /\ bput_incr_chars s cur (Some ago) = Some s'
  /\ bget_incr_chars (mkbs (bdat s') (bpos s)) out (Some ago) = Some (r, o, s')
  /\ text o <> text cur.
Proof.
  exists (mkbs (repeat 0 12) 0), (mkbs (repeat 0 12) 1), [0;0;0], [97;98;0], [0;0;0], 3, [97;98;0].
  split; [|split; [|split; [|split; [|split; [|split]]]]].
  - cbn; repeat constructor; unfold is_byte; lia.
  - cbn; repeat constructor; unfold is_byte; lia.
  - reflexivity.
  - cbn; lia.
  - vm_compute; reflexivity.
  - vm_compute; reflexivity.
  - vm_compute. discriminate.
Qed.
Print Assumptions C07_empty_text_refuted.
