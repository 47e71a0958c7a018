(** Properties of the dictionaries of keys: C65. *)
From Coq Require Import String.
From Verif Require Import Base S_server S_kdict M_kdict L_kdict.
From Coq Require Import ZifyBool ZifyNat.
Open Scope list_scope.
Open Scope Z_scope.

(** All keys are named before they are written and survive a list separated by commas: nothing crashes, and in every file the
    number in every block stands for the key for which the block was written.  What is missing: keys that are named by writing
    (C65_new_key_refuted, C65_wrong_key_refuted), other names (C65_comma_refuted, C65_blank_refuted). *)
Theorem C65_keys_partial : forall h, named_first [] h -> Forall plain_name (names_in h) ->
  exists s, krun empty_store h = Some s /\
    forall i n k, In (n, k) (k_data (s_files s i)) -> nth_error (reader_names s i) n = Some k.
Proof.
  intros h N P. destruct (run_order h [] empty_store) as (s & R & names & (_ & _ & _ & F)); auto.
  - split; [repeat split; constructor|]. split; [reflexivity|]. split; [intros k []|]. intros i. cbn. split; [constructor|]. split; [constructor|intros n k []].
  - exists s. split; [exact R|]. intros i n k I. specialize (F i). destruct (s_open s i); [destruct F as (_ & _ & D)|destruct F as (_ & _ & D)]; now apply D.
Qed.
Print Assumptions C65_keys_partial.

Ltac plain := match goal with |- plain_name _ => unfold plain_name; repeat split; try discriminate; try reflexivity; cbn; intuition discriminate end.
Example C65_keys_ex :
  let h := [Keys [bs "a"; bs "b c"]%string; Write (bs "b c"%string) 0; Keys [bs "d"]%string; Write (bs "d"%string) 0; Close; Write (bs "a"%string) 1;
            Write (bs "d"%string) 0] in
  named_first [] h /\ Forall plain_name (names_in h) /\
  option_map (fun s => (k_data (s_files s 0%nat), k_data (s_files s 1%nat))) (krun empty_store h) =
    Some ([(1%nat, bs "b c"%string); (2%nat, bs "d"%string); (2%nat, bs "d"%string)], [(0%nat, bs "a"%string)]).
Proof.
  cbn zeta. split; [cbn; intuition|]. split; [|vm_compute; reflexivity].
  unfold names_in. cbn [flat_map app]. repeat apply Forall_cons; try apply Forall_nil; plain.
Qed.

(** Two new keys are written to a file: the second is not in its dictionary; the next program that opens the file crashes. *)
Theorem C65_new_key_refuted : exists h k, Forall plain_name (names_in h) /\
  (exists s n, krun empty_store h = Some s /\ In (n, k) (k_data (s_files s 0%nat)) /\ nth_error (reader_names s 0) n = None) /\
  forall k', krun empty_store (h ++ [Close; Write k' 0]) = None.
Proof.
  exists [Write (bs "a"%string) 0; Write (bs "b"%string) 0], (bs "b"%string). split; [|split].
  - unfold names_in. cbn [flat_map app]. repeat apply Forall_cons; try apply Forall_nil; plain.
  - eexists _, 1%nat. split; [vm_compute; reflexivity|]. split; [vm_compute; auto|vm_compute; reflexivity].
  - intros k'. cbn [app krun].
    destruct (kstep empty_store (Write (bs "a"%string) 0)) as [s1|] eqn:E1; [|vm_compute in E1; discriminate].
    assert (X : kstep s1 (Write (bs "b"%string) 0) <> None /\ forall s2, kstep s1 (Write (bs "b"%string) 0) = Some s2 ->
      reopen (s_files (do_close s2) 0%nat) = None /\ (forall i, s_open (do_close s2) i = false)).
    { vm_compute in E1. injection E1 as <-. split; [vm_compute; discriminate|]. intros s2 E2. vm_compute in E2. injection E2 as <-. split; [vm_compute; reflexivity|reflexivity]. }
    destruct X as [X1 X2]. destruct (kstep s1 (Write (bs "b"%string) 0)) as [s2|]; [|congruence]. destruct (X2 s2 eq_refl) as [R O].
    cbn [kstep]. unfold do_write. cbn zeta.
    assert (B : s_open (before_write (do_close s2) k') 0%nat = false /\ s_files (before_write (do_close s2) k') 0%nat = s_files (do_close s2) 0%nat).
    { unfold before_write. destruct (known _ k'); [auto|]. unfold changed; cbn [s_open s_files]. rewrite (O 0%nat). auto. }
    destruct B as [-> ->]. rewrite R. reflexivity.
Qed.
Print Assumptions C65_new_key_refuted.

(** The number in a block stands for another key. *)
Theorem C65_wrong_key_refuted : exists h k k' s n, Forall plain_name (names_in h) /\ krun empty_store h = Some s /\ k <> k' /\
  In (n, k) (k_data (s_files s 0%nat)) /\ nth_error (reader_names s 0) n = Some k'.
Proof.
  exists [Write (bs "a"%string) 0; Write (bs "b"%string) 0; Keys [bs "c"]%string], (bs "b"%string), (bs "c"%string).
  eexists _, 1%nat. split; [unfold names_in; cbn [flat_map app]; repeat apply Forall_cons; try apply Forall_nil; plain|].
  split; [vm_compute; reflexivity|]. split; [discriminate|]. split; [vm_compute; auto|vm_compute; reflexivity].
Qed.
Print Assumptions C65_wrong_key_refuted.

(** A key with a comma: its number stands for another name, and the next program that opens the file crashes. *)
Theorem C65_comma_refuted : exists k k' s, krun empty_store [Write k 0] = Some s /\ In (0%nat, k) (k_data (s_files s 0%nat)) /\
  k <> k' /\ nth_error (reader_names s 0) 0 = Some k' /\ krun empty_store [Write k 0; Close; Write k 0] = None.
Proof.
  exists (bs "a,b"%string), (bs "a"%string). eexists. split; [vm_compute; reflexivity|]. split; [vm_compute; auto|]. split; [discriminate|].
  split; vm_compute; reflexivity.
Qed.
Print Assumptions C65_comma_refuted.

(** So with a key that begins with a blank. *)
Theorem C65_blank_refuted : exists k k' s, ~ In 44 k /\ krun empty_store [Write k 0] = Some s /\ In (0%nat, k) (k_data (s_files s 0%nat)) /\
  k <> k' /\ nth_error (reader_names s 0) 0 = Some k' /\ krun empty_store [Write k 0; Close; Write k 0] = None.
Proof.
  exists (bs " a"%string), (bs "a"%string). eexists. split; [cbn; intuition discriminate|]. split; [vm_compute; reflexivity|]. split; [vm_compute; auto|]. split; [discriminate|].
  split; vm_compute; reflexivity.
Qed.
Print Assumptions C65_blank_refuted.
