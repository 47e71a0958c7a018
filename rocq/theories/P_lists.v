(** C13, C14, C15: the chunked queue, the sorted list, the bounded ranking list. *)
From Verif Require Import Base S_list S_lists M_list M_lists L_list L_nodelist L_sortlist L_pint.

(** C13 (partial): every history of pushes, pops and reads on a new chunked list returns what
    a queue returns, as long as no pop finds it empty and no read goes past twice the rest
    of a partly consumed first chunk ([q_tame]).  Missing: the excluded cases, where the
    code is wrong - see the two refutations. *)
Theorem C13_chunked_queue_partial : forall (A : Type) (junk : nat -> nat -> A) (nc : nat) (ops : list (qop A)),
  (0 < nc)%nat -> q_tame nc [] 0 ops ->
  exists l, nl_run junk nc (nl_create junk nc) ops = Some (l, snd (q_run [] ops))
    /\ ncount l = length (fst (q_run [] ops)).
Proof. exact (fun A junk nc ops H => @node_list_lemma A junk nc H ops). Qed.
Print Assumptions C13_chunked_queue_partial.

Definition pushes (n : nat) : list (qop Z) := map (fun i => QPush (Z.of_nat i)) (seq 0 n).

Example C13_case : q_tame 4 [] 0 (pushes 9 ++ [QPop; QGet 5; QPop; QPop; QPop; QPop; QGet 3; QGet 4; QPush 77; QGet 4]) /\
  match nl_run (fun _ _ => 99) 4 (nl_create (fun _ _ => 99) 4)
    (pushes 9 ++ [QPop; QGet 5; QPop; QPop; QPop; QPop; QGet 3; QGet 4; QPush 77; QGet 4]) with
  | Some (l, rs) => skipn 9 rs = [Some 0; Some 6; Some 1; Some 2; Some 3; Some 4; Some 8; None; None; Some 77] /\ ncount l = 5%nat
  | None => False
  end.
Proof. vm_compute. repeat split; try discriminate; auto. Qed.

(** C13 refuted for reads: with chunks of 4 and one element popped, reading index 6 of the
    remaining 8 elements returns element 4 instead of 7. *)
Theorem C13_get_refuted : exists (nc : nat) (ops : list (qop Z)) (i : Z),
  (0 < nc)%nat /\ snd (q_run [] (ops ++ [QGet i])) = snd (q_run [] ops) ++ [Some 7]
  /\ match nl_run (fun _ _ => 99) nc (nl_create (fun _ _ => 99) nc) (ops ++ [QGet i]) with
     | Some (_, rs) => rs = snd (q_run [] ops) ++ [Some 4]
     | None => False
     end.
Proof. exists 4%nat, (pushes 9 ++ [QPop]), 6. vm_compute. auto. Qed.
Print Assumptions C13_get_refuted.

(** C13 refuted for pops: popping a new list uses the chunk it has just freed. *)
Theorem C13_pop_empty_refuted : exists (nc : nat) (ops : list (qop Z)),
  (0 < nc)%nat /\ snd (q_run [] ops) = [None] /\ nl_run (fun _ _ => 99) nc (nl_create (fun _ _ => 99) nc) ops = None.
Proof. exists 4%nat, [QPop]. vm_compute. auto. Qed.
Print Assumptions C13_pop_empty_refuted.

(** C14: after any history of sets and deletions by key, in either order direction, the keys
    stored are exactly those set and not deleted since, in strict order; the value stored
    beside the i-th key is the one found under it; and looking any key up yields the value
    of its last set, or nothing. *)
Theorem C14_sorted_list_is_map : forall (asc : bool) (V : Type) (jk : nat -> nat -> Z) (jv : nat -> nat -> V) (ops : list (kop V)),
  exists l ks, so_run jk jv asc so_create ops = Some l
    /\ key_ordered asc ks
    /\ (forall i, sl_get (skey l) i = Some (seq_get ks i))
    /\ (forall i k, nth_error ks i = Some k -> sl_get (sval l) (Z.of_nat i) = so_find asc l k)
    /\ (forall k, In k ks <-> last_set ops k None <> None)
    /\ forall key, so_find asc l key = Some (last_set ops key None).
Proof. exact (@sort_list_lemma). Qed.
Print Assumptions C14_sorted_list_is_map.

Example C14_case :
  match so_run (fun _ _ => 99) (fun _ _ => 99) false so_create
    [KSet 5 50; KSet 9 90; KSet 7 70; KSet 5 51; KDel 7; KSet 1 10; KDel 3] with
  | Some l => map (fun i => sl_get (skey l) i) [0; 1; 2; 3] = [Some (Some 9); Some (Some 5); Some (Some 1); Some None]
      /\ map (so_find false l) [1; 5; 7; 9] = [Some (Some 10); Some (Some 51); Some None; Some (Some 90)]
  | None => False
  end.
Proof. vm_compute. auto. Qed.

(** C15: whatever the fresh arrays contain, any history of sets and deletions leaves a
    list in strict key order, never longer than the bound, holding for each kept key its
    last value; the whole content is that of the step specification [rank_run]. *)
Theorem C15_ranking_list : forall (V : Type) (asc : bool) (ks : list Z) (vs : list V) (ops : list (kop V)),
  length vs = length ks ->
  exists l r, pl_run asc (mkpl ks vs 0) ops = Some l
    /\ r = rank_run asc (length ks) ops
    /\ firstn (pcount l) (pkeys l) = map fst r
    /\ (forall i, pl_get l i = Some (seq_get (map snd r) i))
    /\ key_ordered asc (map fst r) /\ (length r <= length ks)%nat
    /\ (forall k v, In (k, v) r -> last_set ops k None = Some v).
Proof. exact (@ranking_lemma). Qed.
Print Assumptions C15_ranking_list.

(** C15, best entries: without deletions the list is the first [length ks] entries of the
    sorted map [M] of everything ever set, each key with its last value. *)
Theorem C15_ranking_keeps_best : forall (V : Type) (asc : bool) (ks : list Z) (vs : list V) (ops : list (kop V)),
  length vs = length ks -> Forall (fun op => match op with KSet _ _ => True | KDel _ => False end) ops ->
  exists l M, pl_run asc (mkpl ks vs 0) ops = Some l
    /\ key_ordered asc (map fst M) /\ (forall k v, In (k, v) M <-> last_set ops k None = Some v)
    /\ firstn (pcount l) (pkeys l) = map fst (firstn (length ks) M)
    /\ (forall i, pl_get l i = Some (seq_get (map snd (firstn (length ks) M)) i)).
Proof. exact (@top_lemma). Qed.
Print Assumptions C15_ranking_keeps_best.

Example C15_case :
  match pl_run true (mkpl [0;0;0] [0;0;0] 0) [KSet 5 50; KSet 9 90; KSet 7 70; KSet 6 60; KSet 9 91; KSet 5 51] with
  | Some l => firstn (pcount l) (pkeys l) = [5;6;7] /\ map (pl_get l) [0;1;2;3] = [Some (Some 51); Some (Some 60); Some (Some 70); Some None]
  | None => False
  end.
Proof. vm_compute. auto. Qed.
