(** Property theorems about the table compressor. *)
From Verif Require Import Base M_bits M_dynamic M_incrzip S_incrzip L_incrzip L_incrzip1 L_incrfit.

(** C08 for tables without CHAR and FLOAT fields, when no 8-byte word moves by exactly 2^63
    between consecutive records: whatever the prior content of the two buffers, if the
    compressor stays inside its buffer, the decompressor returns every record with the same
    field values, and the very same bytes when the fields cover the record. *)
Theorem C08_table_roundtrip_partial : forall t stale buf recs bytes,
  Forall (field_ok (tsize t)) (tfields t) -> Forall is_byte buf ->
  Forall (fun r => length r = tsize t /\ Forall is_byte r) recs ->
  Z.of_nat (length recs) < 2 ^ 31 ->
  steps_ok (columns (tfields t)) (repeat 0 (tsize t)) recs ->
  zcompress t buf recs = Some bytes ->
  exists rs, zuncompress t stale bytes = Some (ZRecs rs)
    /\ Forall2 (same_values (columns (tfields t))) recs rs
    /\ ((forall p, (p < tsize t)%nat -> covered (columns (tfields t)) p) -> rs = recs).
Proof. exact zcompress_roundtrip_lemma. Qed.
Print Assumptions C08_table_roundtrip_partial.

Definition ex_table : table :=
  mktable 7 [mkfield ty_int 4 1 0; mkfield ty_uint 1 3 4].

Example C08_example :
  match zcompress ex_table (repeat 77 300) [[1;2;3;255;9;0;200]; [0;0;0;128;10;0;199]; [255;255;255;127;0;0;0]] with
  | Some bytes => (length bytes < 60)%nat
     /\ zuncompress ex_table (fun _ => 55) bytes
        = Some (ZRecs [[1;2;3;255;9;0;200]; [0;0;0;128;10;0;199]; [255;255;255;127;0;0;0]])
  | None => False end.
Proof. vm_compute. split; [repeat constructor|reflexivity]. Qed.

Example C08_example_hyps :
  Forall (field_ok (tsize ex_table)) (tfields ex_table)
  /\ forall p, (p < tsize ex_table)%nat -> covered (columns (tfields ex_table)) p.
Proof.
  split.
  - repeat constructor; cbn; try lia; discriminate.
  - intros p Hp. cbn in Hp. destruct (Nat.lt_ge_cases p 4).
    + exists (mkcol 0 4 1). split; [left; reflexivity|]. unfold in_column; cbn. lia.
    + exists (mkcol 4 1 3). split; [right; left; reflexivity|]. unfold in_column; cbn. lia.
Qed.

(** An 8-byte field that moves by 2^63 between two records comes back wrong. *)
Theorem C08_table_roundtrip_refuted : exists t stale buf recs bytes rs,
  Forall (field_ok (tsize t)) (tfields t) /\ Forall is_byte buf
  /\ length buf = (2 * tsize t + 256)%nat /\ length recs = 2%nat
  /\ Forall (fun r => length r = tsize t /\ Forall is_byte r) recs
  /\ zcompress t buf recs = Some bytes
  /\ zuncompress t stale bytes = Some (ZRecs rs)
  /\ ~ Forall2 (same_values (columns (tfields t))) recs rs.
Proof.
  exists (mktable 8 [mkfield ty_int 8 1 0]), (fun _ => 0), (repeat 0 272),
    [[5;0;0;0;0;0;0;0]; [5;0;0;0;0;0;0;128]].
  eexists. exists [[5;0;0;0;0;0;0;0]; [5;0;0;0;0;0;0;0]].
  split; [repeat constructor; cbn; try lia; discriminate|].
  split; [apply Forall_forall; intros x Hx; apply repeat_spec in Hx; subst; unfold is_byte; lia|].
  split; [reflexivity|]. split; [reflexivity|].
  split; [repeat constructor; unfold is_byte; lia|].
  split; [vm_compute; reflexivity|]. split; [vm_compute; reflexivity|].
  intros H. inversion H as [|? ? ? ? _ H2]; subst. inversion H2 as [|? ? ? ? [_ H3] _]; subst.
  specialize (H3 7%nat). cbn in H3.
  assert (X : Some 128 = Some 0); [|discriminate].
  apply H3. exists (mkcol 0 8 1). split; [left; reflexivity|]. unfold in_column; cbn. lia.
Qed.
Print Assumptions C08_table_roundtrip_refuted.

(** C10 for inputs that are small enough: [elems] integers per record cost at most 70 bits
    each.  In particular every call with at most 320 8-byte integers fits. *)
Theorem C10_output_fits_partial : forall t buf recs,
  Forall (field_ok (tsize t)) (tfields t) -> Forall is_byte buf ->
  Forall (fun r => length r = tsize t) recs -> Z.of_nat (length recs) < 2 ^ 31 ->
  (70 * (elems (tfields t) * length recs) + 122 <= 8 * length buf)%nat ->
  exists bytes, zcompress t buf recs = Some bytes /\ (length bytes <= length buf)%nat.
Proof. exact zcompress_fits_lemma. Qed.
Print Assumptions C10_output_fits_partial.

Example C10_partial_example :
  let t := mktable 8 [mkfield ty_int 8 1 0] in
  (70 * (elems (tfields t) * 320) + 122 <= 8 * (320 * tsize t + 256))%nat.
Proof. apply Nat.leb_le. vm_compute. reflexivity. Qed.

(** C10 is violated by the one-shot compressor: the caller provides the input length plus
    256 bytes, and a 4-byte column alternating between its extreme values needs 47 bits per
    record.  None is the outcome "wrote outside the buffer". *)
Definition ex_swing (n : nat) : list (list Z) :=
  concat (repeat [[0;0;0;128]; [255;255;255;127]] n).

Theorem C10_output_fits_refuted : exists t buf recs,
  Forall (field_ok (tsize t)) (tfields t) /\ Forall is_byte buf
  /\ Forall (fun r => length r = tsize t /\ Forall is_byte r) recs
  /\ length buf = (length recs * tsize t + 256)%nat
  /\ zcompress t buf recs = None.
Proof.
  exists (mktable 4 [mkfield ty_int 4 1 0]), (repeat 0 1456), (ex_swing 150).
  split; [repeat constructor; cbn; try lia; discriminate|].
  split; [apply Forall_forall; intros x Hx; apply repeat_spec in Hx; subst; unfold is_byte; lia|].
  split.
  { apply Forall_forall. intros x Hx. unfold ex_swing in Hx. apply in_concat in Hx.
    destruct Hx as (l & H1 & H2). apply repeat_spec in H1. subst l.
    destruct H2 as [<-|[<-|[]]]; (split; [reflexivity|]); repeat constructor; unfold is_byte; lia. }
  split; [vm_compute; reflexivity|]. vm_compute. reflexivity.
Qed.
Print Assumptions C10_output_fits_refuted.

(** The same input succeeds in a larger buffer, so the failure is the lack of room. *)
Example C10_example :
  match zcompress (mktable 4 [mkfield ty_int 4 1 0]) (repeat 0 2000) (ex_swing 150) with
  | Some bytes => Nat.ltb 1456 (length bytes) = true | None => False end.
Proof. vm_compute. reflexivity. Qed.
