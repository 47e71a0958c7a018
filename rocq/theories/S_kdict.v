(** Specification of the dictionaries of keys (C65). *)
From Verif Require Import Base.

(** what is done with a store: naming keys, writing a block of a key into the file with a number, closing all files *)
Inductive kop := Keys (l : list (list Z)) | Write (k : list Z) (i : nat) | Close.
(** names that survive a list separated by commas: no comma, no zero, first and last byte above the blank *)
Definition plain_name (k : list Z) : Prop :=
  k <> [] /\ ~ In 44 k /\ ~ In 0 k /\ 32 < hd 0 k /\ 32 < last k 0.
(** every key is named before it is written *)
Fixpoint named_first (known : list (list Z)) (h : list kop) : Prop :=
  match h with
  | [] => True
  | Keys l :: h' => named_first (known ++ l) h'
  | Write k _ :: h' => In k known /\ named_first known h'
  | Close :: h' => named_first known h'
  end.
Definition names_in (h : list kop) : list (list Z) := flat_map (fun o => match o with Keys l => l | Write k _ => [k] | Close => [] end) h.
