(** Dictionaries: C43 (a dictionary is a map), C44 (loops over the entries). *)
From Verif Require Import Base S_server S_dict M_dict L_dict L_dictiter M_map L_map.
From Coq Require Import Permutation ZifyBool ZifyNat.
From Coq Require Import String.

Lemma ops_ok {K V} (os : list (dop K V)) : (forall n, In (DExpand n) os -> n <= 2 ^ 62) -> Forall op_ok os.
Proof.
  intros H. apply Forall_forall. intros o I. destruct o; cbn [op_ok]; trivial. now apply H.
Qed.

(** C43: any sequence of operations on a new dictionary - look-ups, additions, replacements,
    deletions, growing, shrinking, turning the growing off, with iterators open or not - answers
    as a map does, never touches memory outside a table, and counts the entries right. *)
Theorem C43_dictionary_is_a_map : forall (K V : Type) (keq : K -> K -> bool) (hash : K -> Z) (os : list (dop K V)),
  key_ok keq hash -> (forall n, In (DExpand n) os -> n <= 2 ^ 62) -> Z.of_nat (List.length os) < 2 ^ 60 ->
  exists d, drun keq hash dcreate os = Some (d, snd (spec_run keq [] os)) /\
    dsize d = Z.of_nat (List.length (fst (spec_run keq [] os))).
Proof.
  intros K V keq hash os KOK E L.
  destruct (drun_spec keq hash KOK os dcreate [] (dinv_create keq hash) (perm_nil _) (ops_ok os E) L) as (d & R & D & P).
  exists d. split; [exact R|]. rewrite (dsize_dents keq hash d D). now rewrite (Permutation_length P).
Qed.
Print Assumptions C43_dictionary_is_a_map.

(** the two kinds of keys used: names ignoring case, with any secret of the hash; 64-bit numbers *)
Theorem C43_names : forall (V : Type) k0 k1 (os : list (dop (list Z) V)),
  (forall n, In (DExpand n) os -> n <= 2 ^ 62) -> Z.of_nat (List.length os) < 2 ^ 60 ->
  exists d, drun str_compare (str_hash k0 k1) dcreate os =
      Some (d, snd (spec_run (fun a b => if list_eq_dec Z.eq_dec (map lower a) (map lower b) then true else false) [] os)).
Proof.
  intros V k0 k1 os E L.
  destruct (C43_dictionary_is_a_map _ V str_compare (str_hash k0 k1) os (str_key_ok k0 k1) E L) as (d & R & _).
  exists d. rewrite R. f_equal. f_equal. clear.
  assert (X : forall a b, str_compare a b = if list_eq_dec Z.eq_dec (map lower a) (map lower b) then true else false).
  { intros a b. symmetry. apply same_name_cmp. }
  set (e := fun a b => if list_eq_dec Z.eq_dec (map lower a) (map lower b) then true else false).
  assert (LK : forall (l : list (list Z * V)) k, lookup str_compare l k = lookup e l k).
  { induction l as [|[a w] l IH]; intros k; cbn; trivial. rewrite X. fold (e k a). destruct (e k a); trivial. }
  assert (UP : forall (l : list (list Z * V)) k v, update str_compare l k v = update e l k v).
  { induction l as [|[a w] l IH]; intros k v; cbn; trivial. rewrite X. fold (e k a). destruct (e k a); trivial. now rewrite IH. }
  assert (RM : forall (l : list (list Z * V)) k, remove str_compare l k = remove e l k).
  { induction l as [|[a w] l IH]; intros k; cbn; trivial. rewrite X. fold (e k a). destruct (e k a); trivial. now rewrite IH. }
  generalize (@nil (list Z * V)). induction os as [|o os IH]; intros l; [reflexivity|]. cbn [spec_run].
  assert (ST : spec_step str_compare l o = spec_step e l o).
  { destruct o; cbn [spec_step]; unfold mem_key; rewrite ?LK, ?UP, ?RM; reflexivity. }
  rewrite ST. destruct (spec_step e l o) as (l1, x). specialize (IH l1).
  destruct (spec_run str_compare l1 os), (spec_run e l1 os). cbn [snd] in *. now f_equal.
Qed.
Print Assumptions C43_names.
Theorem C43_numbers : forall (V : Type) (os : list (dop Z V)),
  (forall n, In (DExpand n) os -> n <= 2 ^ 62) -> Z.of_nat (List.length os) < 2 ^ 60 ->
  exists d, drun int_compare int_hash dcreate os = Some (d, snd (spec_run Z.eqb [] os)).
Proof.
  intros V os E L. destruct (C43_dictionary_is_a_map _ V int_compare int_hash os int_key_ok E L) as (d & R & _).
  exists d. exact R.
Qed.
Print Assumptions C43_numbers.

Definition ex_dict_ops : list (dop (list Z) Z) :=
  [DAdd (bs "SH600601"%string) 1; DAdd (bs "sz000001"%string) 2; DAdd (bs "sh600601"%string) 9; DReplace (bs "Sz000001"%string) 3;
   DAdd (bs "c"%string) 4; DAdd (bs "d"%string) 5; DAdd (bs "e"%string) 6; DAdd (bs "f"%string) 7; DFind (bs "SZ000001"%string); DDelete (bs "D"%string);
   DFind (bs "d"%string); DResize; DFind (bs "E"%string); DFind (bs "sh600601"%string); DDelete (bs "zz"%string); DEmpty; DFind (bs "e"%string)].
Example C43_example :
  match drun str_compare (str_hash 1 2) dcreate ex_dict_ops with
  | Some (d, xs) => xs = [RBool true; RBool true; RBool false; RBool false; RBool true; RBool true; RBool true; RBool true;
       RVal (Some 3); RBool true; RVal None; RNone; RVal (Some 6); RVal (Some 1); RBool false; RNone; RVal None]
  | None => False
  end.
Proof. vm_compute. reflexivity. Qed.

(** C44: a loop over the entries of a dictionary in any reachable state, whose bodies look up, add,
    overwrite, ask for growing or shrinking, or delete the entry delivered, never touches a freed
    entry, ends once there have been more rounds than entries at the start plus operations in the
    bodies, and when it has ended it has delivered every key that was there at the start and that no
    body deletes exactly once; that key is still there. *)
Theorem C44_loop_visits_once : forall (K V : Type) (keq : K -> K -> bool) (hash : K -> Z) pre (d : dict) outs
    (bs : list (K * V -> list (dop K V))) (ns : list nat),
  key_ok keq hash -> (forall n, In (DExpand n) pre -> n <= 2 ^ 62) ->
  drun keq hash dcreate pre = Some (d, outs) -> 0 <= iters d ->
  Z.of_nat (List.length pre) + Z.of_nat (list_sum ns) < 2 ^ 60 ->
  Forall2 (fun b n => forall e : K * V, Forall (body_op keq (fst e)) (b e) /\ (List.length (b e) <= n)%nat) bs ns ->
  exists d' es ended, iloop keq hash d iter0 bs = Some (d', es, ended) /\
    ((List.length (fst (spec_run keq [] pre)) + list_sum ns < List.length bs)%nat -> ended = true) /\
    forall q, mem_key keq (fst (spec_run keq [] pre)) q = true ->
      Forall (fun b => forall e : K * V, forallb (fun o => negb (deletes keq q o)) (b e) = true) bs ->
      (ended = true -> visits keq q es = 1%nat) /\
      match dfind keq hash d' q with Some (_, Some _) => True | _ => False end.
Proof.
  intros K V keq hash pre d outs bs ns KOK E R I L F.
  destruct (drun_spec keq hash KOK pre dcreate [] (dinv_create keq hash) (perm_nil _) (ops_ok pre E)) as (d0 & R0 & D & P).
  { cbn. lia. }
  rewrite R in R0. inversion R0; subst d0. clear R0.
  assert (LL : forall (os : list (dop K V)) l, (List.length (fst (spec_run keq l os)) <= List.length l + List.length os)%nat).
  { clear. induction os as [|o os IH]; intros l; cbn [spec_run List.length fst]; [lia|].
    pose proof (spec_step_length keq l o) as S. destruct (spec_step keq l o) as (l1, x). cbn [fst] in S. specialize (IH l1).
    destruct (spec_run keq l1 os) as (l2, xs). cbn [fst] in *. lia. }
  specialize (LL pre []). rewrite <- (Permutation_length P) in *. cbn [List.length] in LL.
  destruct (iloop_spec keq hash KOK bs ns d iter0 (dents d)) as (d' & es & f & IL & D' & T & V'); trivial.
  - split; [cbn; lia|]. split; [discriminate|]. split; [trivial|]. discriminate.
  - lia.
  - right. auto.
  - exists d', es, f. split; [exact IL|].
    assert (RM : rem keq d iter0 = dents d) by (unfold rem, trem, dents, ents; cbn; destruct (tbl (h0 d)); reflexivity).
    rewrite RM in *. split; [exact T|]. intros q M N.
    assert (M' : mem_key keq (dents d) q = true).
    { rewrite <- M. apply (mem_key_perm keq hash KOK); [trivial|apply D]. }
    destruct (V' q M' N) as (V1 & V2). split.
    + intros ->. rewrite V2 by trivial. now rewrite M'.
    + destruct (dfind_spec keq hash KOK d' q D') as (d2 & -> & _).
      unfold mem_key in V1. now destruct (lookup keq (dents d') q).
Qed.
Print Assumptions C44_loop_visits_once.

(** a loop that deletes the even numbers and adds a new one in every round, starting while entries
    are being moved to a bigger table *)
Definition ex_loop_pre : list (dop Z Z) := map (fun i => DAdd (Z.of_nat i) (Z.of_nat i)) (seq 0 6).
Definition ex_body (e : Z * Z) : list (dop Z Z) :=
  (if Z.even (fst e) then [DDelete (fst e)] else [DReplace (fst e) 100]) ++ [DFind 3].
Example C44_example :
  match drun int_compare int_hash dcreate ex_loop_pre with
  | Some (d, _) =>
    rehashing d = true /\
    match iloop int_compare int_hash d iter0 (repeat ex_body 20) with
    | Some (d', es, true) => List.length es = 6%nat /\ visits Z.eqb 3 es = 1%nat /\ dsize d' = 3 /\ iters d' = 0
    | _ => False
    end
  | None => False
  end.
Proof. vm_compute. repeat (split; [reflexivity|]). reflexivity. Qed.
Example C44_example_body : forall e : Z * Z, Forall (body_op int_compare (fst e)) (ex_body e) /\ (List.length (ex_body e) <= 2)%nat.
Proof.
  intros e. unfold ex_body. destruct (Z.even (fst e)); cbn; (split; [|lia]); repeat constructor; cbn; trivial.
  apply Z.eqb_refl.
Qed.
