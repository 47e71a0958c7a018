(** Named lists: C36 (a map in order of insertion), C45 (who frees the values). *)
From Verif Require Import Base S_server M_server S_dict M_dict L_dict S_map M_map L_map.
From Coq Require Import String Permutation ZifyBool ZifyNat.

(** C36: any sequence of operations on a new named list answers as a map of names, ignoring case,
    to values kept in order of first insertion: setting a known name keeps its place. *)
Theorem C36_named_list : forall k0 k1 stale (os : list mop), Z.of_nat (List.length os) < 2 ^ 27 ->
  exists s, mrun k0 k1 stale mlist0 os = Some (s, snd (fst (mspec_run [] os)), snd (mspec_run [] os)).
Proof.
  intros k0 k1 stale os L. destruct (mrun_spec k0 k1 stale os mlist0 [] (mrel0 k0 k1) L) as (s & R & _). now exists s.
Qed.
Print Assumptions C36_named_list.

Definition ex_map_ops : list mop :=
  [MSet (bs "Open") 11; MSet (bs "close") 12; MSet (bs "vol") 13; MSet (bs "CLOSE") 14; MGet (bs "Close"); MIndex (bs "VOL");
   MIndex (bs "high"); MGet (bs "high"); MAt 0; MAt 1; MAt 3; MAt (-1); MSize; MClear; MSize; MSet (bs "vol") 15; MIndex (bs "vol")].
Example C36_example :
  match mrun 5 6 (fun _ => 77) mlist0 ex_map_ops with
  | Some (_, xs, fr) => xs = [0; 1; 2; 1; 14; 2; -1; 0; 11; 14; 0; 0; 3; 0; 0; 0; 0] /\ fr = [12; 11; 14; 13]
  | None => False
  end.
Proof. vm_compute. split; reflexivity. Qed.

(** C45: when the values handed to the list differ from each other, each is freed at most once,
    none is freed while a name leads to it, and each is either freed or still reached by a name. *)
Theorem C45_values_freed_once : forall k0 k1 stale (os : list mop), Z.of_nat (List.length os) + 1 < 2 ^ 27 ->
  NoDup (nonnull (given os)) ->
  exists s xs freed, mrun k0 k1 stale mlist0 os = Some (s, xs, freed) /\ NoDup freed /\
    (forall k s' v fr, mstep k0 k1 stale s (MGet k) = Some (s', v, fr) -> v <> 0 -> ~ In v freed) /\
    (forall v, In v (given os) -> v <> 0 ->
       In v freed \/ exists k s' fr, mstep k0 k1 stale s (MGet k) = Some (s', v, fr)).
Proof.
  intros k0 k1 stale os L ND. destruct (mrun_spec k0 k1 stale os mlist0 [] (mrel0 k0 k1)) as (s & R & M); [cbn; lia|].
  exists s, (snd (fst (mspec_run [] os))), (snd (mspec_run [] os)). split; [exact R|].
  pose proof (mrun_conserves os []) as C. cbn [held map nonnull filter] in C. change (held []) with (@nil Z) in C. rewrite app_nil_r in C.
  pose proof (Permutation_NoDup C ND) as N. set (l := fst (fst (mspec_run [] os))) in *. set (fr := snd (mspec_run [] os)) in *.
  assert (B : Z.of_nat (List.length l) < 2 ^ 27).
  { assert (X : forall os l, (List.length (fst (fst (mspec_run l os))) <= List.length l + List.length os)%nat).
    { clear. induction os as [|o os IH]; intros l; cbn [mspec_run fst snd List.length]; [lia|].
      pose proof (mspec_length l o) as S. destruct (mspec l o) as ((l1, x), r). cbn [fst] in S. specialize (IH l1).
      destruct (mspec_run l1 os) as ((l2, xs), rs). cbn [fst] in *. lia. }
    specialize (X os []). fold l in X. cbn [List.length] in X. lia. }
  assert (G : forall k, exists s', mstep k0 k1 stale s (MGet k) = Some (s', match position l k with Some i => value_at l i | None => 0 end, [])).
  { intros k. destruct (mstep_spec k0 k1 stale s l (MGet k) M B) as (s' & E & _). exists s'. exact E. }
  split; [|split].
  - clear - N. induction (held l); [exact N|]. cbn in N. inversion N; auto.
  - intros k s' v f E NZ I. destruct (G k) as (s2 & E2). rewrite E in E2. inversion E2; subst. clear E E2.
    destruct (position l k) as [i|] eqn:P; [|now apply NZ].
    assert (H : In (value_at l i) (held l)).
    { unfold held, nonnull. apply filter_In. split; [|lia]. unfold value_at. apply nth_In. rewrite map_length. eapply position_lt; eauto. }
    clear - N H I. induction (held l) as [|a h IH]; [contradiction|]. cbn in N. inversion N; subst.
    destruct H as [->|H]; [|auto]. apply H2. apply in_or_app. now right.
  - intros v I NZ. assert (J : In v (nonnull (given os))) by (unfold nonnull; apply filter_In; split; [trivial|lia]).
    apply (Permutation_in _ C) in J. apply in_app_or in J as [J|J]; [right|now left].
    (* the names of the list differ: dropping duplicates below *)
    unfold held in J. apply nonnull_in in J.
    assert (U : forall os l0, (forall i, (i < List.length l0)%nat -> position l0 (fst (nth i l0 ([], 0))) = Some i) ->
      let l1 := fst (fst (mspec_run l0 os)) in forall i, (i < List.length l1)%nat -> position l1 (fst (nth i l1 ([], 0))) = Some i).
    { clear - k0 k1. induction os as [|o os IH]; intros l0 H; [exact H|].
      assert (S1 : forall i, (i < List.length (fst (fst (mspec l0 o))))%nat ->
         position (fst (fst (mspec l0 o))) (fst (nth i (fst (fst (mspec l0 o))) ([], 0))) = Some i).
      { destruct o as [k w|k|k|j| |]; cbn [mspec fst]; try exact H; [|intros i Hi; cbn in Hi; lia].
        destruct (position l0 k) as [j|] eqn:P; cbn [fst].
        - intros i Hi. rewrite position_put, put_at_length in *.
          rewrite <- (H i Hi). f_equal.
          clear. revert i j. induction l0 as [|[a x] l0 IH]; intros [|i] [|j]; cbn; trivial.
        - intros i Hi. rewrite app_length in Hi. cbn in Hi. rewrite position_app.
          destruct (Nat.eq_dec i (List.length l0)) as [->|D].
          + rewrite app_nth2 by lia. rewrite Nat.sub_diag. cbn. rewrite P.
            destruct (same_name k k) eqn:X; [trivial|]. rewrite same_name_cmp in X. unfold str_compare in X.
            assert (Y : casecmp k k = true) by now apply casecmp_lower. congruence.
          + rewrite app_nth1 by lia. now rewrite H by lia. }
      specialize (IH _ S1). cbn [mspec_run] in *. destruct (mspec l0 o) as ((l1, x), r). cbn [fst] in IH |- *.
      destruct (mspec_run l1 os) as ((l2, xs), rs). cbn [fst] in *. exact IH. }
    specialize (U os [] ltac:(cbn; lia)). cbn zeta in U. fold l in U.
    apply (In_nth _ _ 0) in J as (i & Hi & E). rewrite map_length in Hi.
    exists (fst (nth i l ([], 0))). destruct (G (fst (nth i l ([], 0)))) as (s' & ->). exists s', [].
    rewrite (U i Hi). unfold value_at. now rewrite E.
Qed.
Print Assumptions C45_values_freed_once.
Example C45_example : NoDup (nonnull (given ex_map_ops)).
Proof. vm_compute. repeat (constructor; [cbn; lia|]). constructor. Qed.

(** without that assumption a value set again for its own name is freed and stays in the list *)
Theorem C45_same_value_refuted : exists (os : list mop) v, v <> 0 /\
  match mrun 0 0 (fun _ => 0) mlist0 os with
  | Some (s, _, freed) => In v freed /\ match mstep 0 0 (fun _ => 0) s (MGet (bs "a")) with Some (_, w, _) => w = v | None => False end
  | None => False
  end.
Proof. exists [MSet (bs "a") 8; MSet (bs "A") 8], 8. split; [lia|]. vm_compute. split; [now left|reflexivity]. Qed.
Print Assumptions C45_same_value_refuted.
