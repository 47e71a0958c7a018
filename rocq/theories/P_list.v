(** C11, C12: the struct array. *)
From Verif Require Import Base S_list M_list L_list.

(** C11: every history of calls on a new array succeeds (no access outside the
    allocation), returns what the same calls on a plain sequence return, and leaves the
    same content.  [junk] is what fresh allocations contain. *)
Theorem C11_struct_list_is_sequence : forall (A : Type) (junk : nat -> nat -> A) (ops : list (slop A)),
  exists s, sl_run junk sl_create ops = Some (s, snd (seq_run [] ops))
    /\ lcount s = length (fst (seq_run [] ops))
    /\ forall i, sl_get s i = Some (seq_get (fst (seq_run [] ops)) i).
Proof. exact (@struct_list_lemma). Qed.
Print Assumptions C11_struct_list_is_sequence.

Example C11_case :
  match sl_run (fun _ _ => 99) sl_create
    [LPushs [1;2;3]; LPop; LPushs [4;5]; LInserts 1 [7;8]; LUpdate 0 9; LDelete 2 1; LGet 3; LGet 8; LPop; LGet 0] with
  | Some (s, rs) => rs = [RInt 2; RElem (Some 1); RInt 3; RInt 1; RInt 0; RInt 1; RElem (Some 4); RElem None;
                          RElem (Some 9); RElem (Some 7)] /\ lcount s = 4%nat
  | None => False
  end.
Proof. vm_compute. repeat split. Qed.

(** C12: limiting an array to [n >= 1] after any history leaves exactly its newest
    [min n count] elements, in order, and drops only older ones. *)
Theorem C12_limit_keeps_newest : forall (A : Type) (junk : nat -> nat -> A) (ops : list (slop A)) (n : Z) (cut : slop A),
  1 <= n -> cut = LLimit n \/ cut = LRect n ->
  exists s older newest rs,
    sl_run junk sl_create (ops ++ [cut]) = Some (s, rs)
    /\ fst (seq_run [] ops) = older ++ newest
    /\ Z.of_nat (length newest) = Z.min n (Z.of_nat (length (older ++ newest)))
    /\ lcount s = length newest
    /\ forall i, sl_get s i = Some (seq_get newest i).
Proof. exact (@limit_lemma). Qed.
Print Assumptions C12_limit_keeps_newest.

Example C12_case :
  match sl_run (fun _ _ => 99) sl_create [LPushs [1;2;3;4;5]; LPop; LPushs [6;7]; LRect 2; LGet 0; LGet 1; LGet 2] with
  | Some (s, rs) => skipn 4 rs = [RElem (Some 6); RElem (Some 7); RElem None] /\ lcount s = 2%nat
  | None => False
  end.
Proof. vm_compute. repeat split. Qed.
