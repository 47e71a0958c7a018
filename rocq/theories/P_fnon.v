(** C47: reads of a key without time order. *)
From Verif Require Import Base S_fnon M_fnon.
From Coq Require Import ZifyBool ZifyNat.

Section P.
Context {R : Type}.

Lemma nots_slice : forall (l : list R) s n, s < 0 <= n ->
  match nots s n (Z.of_nat (length l)) with None => [] | Some (a, c) => firstn (Z.to_nat c) (skipn (Z.to_nat a) l) end = slice l s n.
Proof.
  intros l s n H. unfold nots, slice. replace (s <? 0) with true by lia. rewrite (Z.max_comm 0).
  set (a := Z.max (Z.of_nat (length l) + s) 0).
  destruct (a >=? Z.of_nat (length l)) eqn:E.
  - rewrite skipn_all2 by lia. rewrite firstn_nil. reflexivity.
  - destruct (a + n >? Z.of_nat (length l)) eqn:E1; [|reflexivity].
    rewrite !firstn_all2; [reflexivity| |]; rewrite skipn_length; lia.
Qed.

(** C47 for a key that is not on disk *)
Theorem C47_new_key : forall ops : list (nop R), from_end ops -> nrun None nstart ops = expected [] ops.
Proof.
  assert (G : forall (ops : list (nop R)) (u : nunit), from_end ops -> nrun None u ops = expected (n_recs u) ops).
  { induction ops as [|o ops IH]; intros u F; [reflexivity|].
    assert (F' : from_end ops) by (intros s n I0; apply F; right; auto).
    assert (L : nload None u = u) by (unfold nload; destruct (n_reads u =? 0); reflexivity).
    destruct o as [b|s n]; simpl.
    - rewrite IH by auto. unfold nwrite. rewrite L. reflexivity.
    - unfold nread. rewrite L. pose proof (nots_slice (n_recs u) s n (F s n (or_introl eq_refl))) as X.
      destruct (nots s n (Z.of_nat (length (n_recs u)))) as [[a c]|]; rewrite IH by auto; simpl; f_equal; auto. }
  intros ops F. apply (G ops nstart F).
Qed.

(** C47 in part: a key on disk that is read before it is written, with less than 256 reads *)
Theorem C47_partial : forall (l : list R) s n ops, from_end (NRead s n :: ops) -> (reads (NRead s n :: ops) < 256)%nat ->
  nrun (Some l) nstart (NRead s n :: ops) = expected l (NRead s n :: ops).
Proof.
  intros l s n ops F K.
  assert (G : forall (ops : list (nop R)) (u : nunit), from_end ops -> 1 <= n_reads u -> n_reads u + Z.of_nat (reads ops) < 256 -> nrun (Some l) u ops = expected (n_recs u) ops).
  { clear. induction ops as [|o ops IH]; intros u F H1 H2; [reflexivity|].
    assert (F' : from_end ops) by (intros s n I0; apply F; right; auto).
    assert (L : nload (Some l) u = u) by (unfold nload; replace (n_reads u =? 0) with false by lia; reflexivity).
    destruct o as [b|s n]; simpl.
    - rewrite IH; unfold nwrite; rewrite ?L; auto.
    - unfold nread. rewrite L. pose proof (nots_slice (n_recs u) s n (F s n (or_introl eq_refl))) as X.
      change (reads (NRead s n :: ops)) with (S (reads ops)) in H2.
      destruct (nots s n (Z.of_nat (length (n_recs u)))) as [[a c]|]; (rewrite IH; simpl; rewrite ?to_u_small by (change (2 ^ 8) with 256; lia); try lia; auto; f_equal; auto). }
  assert (F' : from_end ops) by (intros s' n' I0; apply F; right; auto).
  change (reads (NRead s n :: ops)) with (S (reads ops)) in K.
  simpl. unfold nread. simpl. pose proof (nots_slice l s n (F s n (or_introl eq_refl))) as X.
  destruct (nots s n (Z.of_nat (length l))) as [[a c]|]; (rewrite G; cbn [n_recs n_reads]; change (to_u 8 1) with 1; [f_equal; exact X|exact F'|lia|lia]).
Qed.
End P.

(** a write to a key on disk is not seen by the first read after it *)
Theorem C47_lost_write_refuted : exists (l b : list Z) ops, ops = [NWrite b; NRead (-1) 1] /\ from_end ops /\
  b <> [] /\ nrun (Some l) nstart ops <> expected l ops.
Proof.
  exists [1], [2], [NWrite [2]; NRead (-1) 1]. split; [reflexivity|]. split.
  - intros s n [H|[H|[]]]; [discriminate|]. injection H as <- <-. lia.
  - split; [discriminate|]. vm_compute. discriminate.
Qed.
(** after two writes only the second is left *)
Theorem C47_overwritten_refuted : exists (l b c : list Z),
  n_recs (nwrite (Some l) (nwrite (Some l) nstart b) c) = l ++ c /\ l ++ c <> l ++ b ++ c.
Proof. exists [1], [2], [3]. split; [reflexivity|discriminate]. Qed.
(** the count of reads wraps: after 256 reads a write is lost again *)
Theorem C47_wrap_refuted : exists (l b : list Z) ops, ops = repeat (NRead (-1) 1) 256 ++ [NWrite b; NRead (-1) 1] /\
  from_end ops /\ nrun (Some l) nstart ops <> expected l ops.
Proof.
  exists [1], [2], (repeat (NRead (-1) 1) 256 ++ [NWrite [2]; NRead (-1) 1]). split; [reflexivity|]. split.
  - intros s n I0. apply in_app_or in I0. destruct I0 as [I0|[H|[H|[]]]]; [|discriminate|].
    + apply repeat_spec in I0. injection I0 as -> ->. lia.
    + injection H as <- <-. lia.
  - intros H. apply (f_equal (fun x => last x [])) in H. vm_compute in H. discriminate.
Qed.
(** a position that is not negative is taken as 0, by reads and by deletions *)
Theorem C47_position_ignored : forall (R : Type) (l : list R) p n, 0 <= p -> 0 < n <= Z.of_nat (length l) ->
  let u := mknunit l 1 false false in
  fst (nread None u p n) = firstn (Z.to_nat n) l /\ n_recs (ndel None u p n) = skipn (Z.to_nat n) l.
Proof.
  intros R l p n P N u. unfold nread, ndel, nload, nots. simpl. replace (p <? 0) with false by lia.
  destruct (0 >=? Z.of_nat (length l)) eqn:E; [lia|]. simpl.
  destruct (n >? Z.of_nat (length l)) eqn:E1; [lia|]. replace (0 <? n) with true by lia. split; reflexivity.
Qed.
Theorem C47_position_refuted : exists (l : list Z) p n, 0 <= p < Z.of_nat (length l) /\ 0 < n /\
  fst (nread None (mknunit l 1 false false) p n) <> slice l p n.
Proof. exists [1; 2], 1, 1. repeat split; try (simpl; lia). vm_compute. discriminate. Qed.
(** a deletion that leaves records does not mark the key as written *)
Theorem C47_delete_unmarked_refuted : exists (l : list Z), n_recs (ndel None (mknunit l 1 false false) (-1) 1) = [1] /\
  l <> [1] /\ n_writed (ndel None (mknunit l 1 false false) (-1) 1) = false /\ n_moved (ndel None (mknunit l 1 false false) (-1) 1) = false.
Proof. exists [1; 2]. repeat split; try discriminate; reflexivity. Qed.

Example C47_ok :
  nrun None nstart [NWrite [1; 2]; NRead (-1) 1; NWrite [3]; NRead (-2) 5] = [[2]; [2; 3]] /\
  nrun (Some [7]) nstart [NRead (-1) 1; NWrite [1; 2]; NRead (-3) 2] = [[7]; [7; 1]].
Proof. split; reflexivity. Qed.

Print Assumptions C47_new_key.
Print Assumptions C47_partial.
Print Assumptions C47_lost_write_refuted.
Print Assumptions C47_overwritten_refuted.
Print Assumptions C47_wrap_refuted.
Print Assumptions C47_position_ignored.
Print Assumptions C47_position_refuted.
Print Assumptions C47_delete_unmarked_refuted.
