(** Properties of the list of contents: C63. *)
From Coq Require Import String.
From Verif Require Import Base M_memory S_server S_mapfile M_mapfile L_mapfile.
From Coq Require Import ZifyBool ZifyNat.
Open Scope list_scope.
Open Scope Z_scope.

(** Nothing is removed: for all histories of additions and reopenings, whatever memory holds, the list shows exactly what has
    been added.  What is missing: removals (C63_removed_refuted, C63_ghost_refuted, C63_again_refuted), and keys and tables
    with the same text (C63_names_refuted) or texts of more than 254 bytes. *)
Theorem C63_added_partial : forall stale keys tabs ktype h,
  labels_clear keys tabs -> Z.of_nat (List.length keys) < 2 ^ 31 -> Z.of_nat (List.length tabs) < 2 ^ 31 ->
  (forall k t, 0 <= ktype k t < 256) ->
  Forall (fun c => match c with Added p => known keys tabs p | Removed _ => False | Reopened => True end) h ->
  exists f, mrun stale keys tabs ktype empty_file h = Some f /\ forall p, shown (f_maps f) p <-> there h p false = true.
Proof.
  intros stale keys tabs ktype h L LK LT KT F.
  apply (run_ok stale keys tabs ktype L LK LT KT h empty_file (fun _ => false)).
  - split; [constructor|intros n d []].
  - reflexivity.
  - exact F.
  - intros p. split; [intros (n & d & a & [] & _)|discriminate].
Qed.
Print Assumptions C63_added_partial.

Lemma forall_nat : forall (P : nat -> Prop) n, (forall i, (i < n)%nat -> P i) -> (forall i, (n <= i)%nat -> P i) -> forall i, P i.
Proof. intros P n A B i. destruct (Nat.lt_ge_cases i n); auto. Qed.
(** two keys and two tables *)
Definition keys2 := [bs "sh600000"; bs "sz000001"]%string.
Definition tabs2 := [bs "stk_day"; bs "stk_snapshot"]%string.
Lemma clear2 : labels_clear keys2 tabs2.
Proof.
  assert (C : forall k t n, label keys2 tabs2 k t = Some n ->
    In (k, t) [(0%nat, None); (0%nat, Some 0%nat); (0%nat, Some 1%nat); (1%nat, None); (1%nat, Some 0%nat); (1%nat, Some 1%nat)]).
  { intros [|[|k]] [[|[|t]]|] n H; cbn; auto 10; try (destruct k; discriminate); try (destruct t; discriminate). }
  split.
  - intros k t n H. pose proof (C _ _ _ H) as I. cbn in I. decompose [or] I; try contradiction;
      match goal with E : (_, _) = (_, _) |- _ => injection E as <- <- end; vm_compute in H; injection H as <-; cbn; lia.
  - intros k t k' t' n H H'. pose proof (C _ _ _ H) as I. pose proof (C _ _ _ H') as I'. cbn in I, I'.
    decompose [or] I; try contradiction; match goal with E : (_, _) = (k, t) |- _ => injection E as <- <- end; vm_compute in H; injection H as <-;
    decompose [or] I'; try contradiction; match goal with E : (_, _) = (k', t') |- _ => injection E as <- <- end; vm_compute in H'; try discriminate; auto.
Qed.
Definition p1 := mkplace 0 (Some 0%nat) 2021.
Definition p2 := mkplace 1 (Some 1%nat) 20211210.
Definition p3 := mkplace 1 None 0.
Example C63_added_ex :
  let h := [Added p1; Added p2; Reopened; Added p2; Added p3; Added (mkplace 1 (Some 1%nat) 20211209); Reopened] in
  Forall (fun c => match c with Added p => known keys2 tabs2 p | Removed _ => False | Reopened => True end) h /\
  there h p3 false = true /\ there h (mkplace 0 None 0) false = false.
Proof.
  cbn zeta. split; [|split; reflexivity].
  assert (K : forall p, In p [p1; p2; p3; mkplace 1 (Some 1%nat) 20211209] -> known keys2 tabs2 p).
  { intros p I. cbn in I. decompose [or] I; subst; try contradiction; (split; [eexists; vm_compute; reflexivity|cbn; lia]). }
  repeat apply Forall_cons; try apply Forall_nil; try exact I; apply K; cbn; auto 6.
Qed.

(** A place that was removed is there again after reopening. *)
Theorem C63_removed_refuted : exists keys tabs ktype h p, labels_clear keys tabs /\ known keys tabs p /\
  h = [Added p; Removed p; Reopened] /\ there h p false = false /\
  forall stale, exists f, mrun stale keys tabs ktype empty_file h = Some f /\ shown (f_maps f) p.
Proof.
  exists keys2, tabs2, (fun _ _ => 0), [Added p2; Removed p2; Reopened], p2.
  split; [exact clear2|]. split; [split; [eexists; vm_compute; reflexivity|cbn; lia]|]. split; [reflexivity|]. split; [reflexivity|].
  intros stale. eexists. split; [vm_compute; reflexivity|]. eexists _, _, 1. split; [left; reflexivity|].
  split; [reflexivity|]. split; [reflexivity|]. split; [cbn; auto|lia].
Qed.
Print Assumptions C63_removed_refuted.

(** After a removal and reopening the list shows a place that was never added. *)
Theorem C63_ghost_refuted : exists keys tabs ktype h p q, labels_clear keys tabs /\ known keys tabs p /\
  h = [Added p; Removed p; Reopened] /\ q <> p /\ there h q false = false /\
  forall stale, exists f, mrun stale keys tabs ktype empty_file h = Some f /\ shown (f_maps f) q.
Proof.
  exists keys2, tabs2, (fun _ _ => 0), [Added p1; Removed p1; Reopened], p1, (mkplace 0 (Some 0%nat) 235).
  split; [exact clear2|]. split; [split; [eexists; vm_compute; reflexivity|cbn; lia]|]. split; [reflexivity|]. split; [discriminate|]. split; [reflexivity|].
  intros stale. eexists. split; [vm_compute; reflexivity|]. eexists _, _, 252. split; [left; reflexivity|].
  split; [reflexivity|]. split; [reflexivity|]. split; [cbn; auto|lia].
Qed.
Print Assumptions C63_ghost_refuted.

(** A place that was removed and added again is not shown. *)
Theorem C63_again_refuted : exists keys tabs ktype h p, labels_clear keys tabs /\ known keys tabs p /\
  h = [Added p; Removed p; Added p] /\ there h p false = true /\
  forall stale, exists f, mrun stale keys tabs ktype empty_file h = Some f /\ ~ shown (f_maps f) p.
Proof.
  exists keys2, tabs2, (fun _ _ => 0), [Added p2; Removed p2; Added p2], p2.
  split; [exact clear2|]. split; [split; [eexists; vm_compute; reflexivity|cbn; lia]|]. split; [reflexivity|]. split; [reflexivity|].
  intros stale. eexists. split; [vm_compute; reflexivity|]. intros (n & d & a & [E|[]] & _ & _ & K & N).
  injection E as <- <-. cbn in K. destruct K as [K|[]]. injection K as <-. congruence.
Qed.
Print Assumptions C63_again_refuted.

(** Key "a.b" with table "c" and key "a" with table "b.c" share one entry: the second is not shown. *)
Theorem C63_names_refuted : exists keys tabs ktype h p q, known keys tabs p /\ known keys tabs q /\
  h = [Added p; Added q] /\ there h q false = true /\
  forall stale, exists f, mrun stale keys tabs ktype empty_file h = Some f /\ ~ shown (f_maps f) q.
Proof.
  exists [bs "a.b"; bs "a"]%string, [bs "c"; bs "b.c"]%string, (fun _ _ => 0),
    [Added (mkplace 0 (Some 0%nat) 20211210); Added (mkplace 1 (Some 1%nat) 20211210)], (mkplace 0 (Some 0%nat) 20211210), (mkplace 1 (Some 1%nat) 20211210).
  do 2 (split; [split; [eexists; vm_compute; reflexivity|cbn; lia]|]). split; [reflexivity|]. split; [reflexivity|].
  intros stale. eexists. split; [vm_compute; reflexivity|]. intros (n & d & a & [E|[]] & K & _). injection E as <- <-. discriminate.
Qed.
Print Assumptions C63_names_refuted.
