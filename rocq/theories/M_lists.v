(** Model of the chunked list, the sorted list and the bounded ranking list:
    src/core/sis_list.c.  Same simplifications as M_list. *)
From Verif Require Import Base S_list S_lists M_list.

Section Lists.
Context {A : Type}.
Variable junk : nat -> nat -> A.

(** ** s_sis_node_list, sis_list.h:374-382.  The chunks are a plain list, the pointer list
    holding them is not modelled. *)
Record nlist := mknl { nnodes : list (slist A); ncount : nat; nnouse : Z }.

Section Node.
Variable nc : nat.   (* node_count *)

(** a new chunk: sis_struct_list_create and set_size, sis_list.c:538-539 *)
Definition nl_chunk : slist A := sl_set_size junk sl_create nc.

(** sis_node_list_create, sis_list.c:528-542 *)
Definition nl_create : nlist := mknl [nl_chunk] 0 0.

(** sis_node_list_clear, sis_list.c:549-559; None = null dereference *)
Definition nl_clear (l : nlist) : option nlist :=
  match nnodes l with
  | c :: _ => Some (mknl [sl_clear c] 0 0)
  | [] => None
  end.

(** sis_node_list_push, sis_list.c:561-577 *)
Definition nl_push (l : nlist) (x : A) : option nlist :=
  let add c := match sl_pushs junk c [x] with Some (c', _) => Some c' | None => None end in
  let fresh_one := match add nl_chunk with
                   | Some c' => Some (mknl (nnodes l ++ [c']) (S (ncount l)) (nnouse l))
                   | None => None end in
  match rev (nnodes l) with
  | [] => fresh_one
  | c :: before =>
    if Nat.leb nc (lstart c + lcount c) then fresh_one
    else match add c with
         | Some c' => Some (mknl (rev before ++ [c']) (S (ncount l)) (nnouse l))
         | None => None end
  end.

(** sis_node_list_get, sis_list.c:580-606 *)
Definition nl_get (l : nlist) (i : Z) : option (option A) :=
  if (i <? 0) || (i >? Z.of_nat (ncount l) - 1) then Some None
  else
    let offset := i + nnouse l in
    match nth_error (nnodes l) (Z.to_nat (Z.quot offset (Z.of_nat nc))) with
    | Some c => sl_get c (Z.rem i (Z.of_nat nc - Z.rem (nnouse l) (Z.of_nat nc)))
    | None => Some None
    end.

(** the loop that drops empty chunks, sis_list.c:631-644.  Result: the chunk to pop from;
    None in [snd] = the list of chunks is empty after dropping at least one. *)
Fixpoint nl_drop (ns : list (slist A)) (nouse : Z) : list (slist A) * Z :=
  match ns with
  | [] => ([], nouse)
  | c :: ns' => if Nat.eqb (lcount c) 0 then nl_drop ns' (nouse - Z.of_nat nc) else (ns, nouse)
  end.

(** sis_node_list_pop, sis_list.c:627-663; outer None = use of a freed chunk *)
Definition nl_pop (l : nlist) : option (nlist * option A) :=
  match nnodes l with
  | [] => Some (l, None)
  | _ =>
    match nl_drop (nnodes l) (nnouse l) with
    | ([], _) => None
    | (c :: ns, nouse) =>
      match sl_pop c with
      | None => None
      | Some (c', Some x) => Some (mknl (c' :: ns) (ncount l - 1) (nouse + 1), Some x)
      | Some (c', None) => Some (mknl (c' :: ns) (ncount l) nouse, None)
      end
    end
  end.

(** histories of calls; a push returns an index, not modelled *)
Definition nl_step (l : nlist) (op : qop A) : option (nlist * option A) :=
  match op with
  | QPush x => match nl_push l x with Some l' => Some (l', None) | None => None end
  | QPop => nl_pop l
  | QGet i => match nl_get l i with Some o => Some (l, o) | None => None end
  end.

Fixpoint nl_run (l : nlist) (ops : list (qop A)) : option (nlist * list (option A)) :=
  match ops with
  | [] => Some (l, [])
  | op :: ops' =>
    match nl_step l op with
    | None => None
    | Some (l1, r) => match nl_run l1 ops' with Some (l2, rs) => Some (l2, r :: rs) | None => None end
    end
  end.

End Node.
End Lists.
Arguments nlist : clear implicits.

(** ** s_sis_sort_list, sis_list.h:74-78 *)
Section Sort.
Context {V : Type}.
Variable jk : nat -> nat -> Z.
Variable jv : nat -> nat -> V.
Variable asc : bool.      (* isascend *)

Record solist := mkso { skey : slist Z; sval : slist V }.

(** sis_sort_list_create, sis_list.c:674-681 *)
Definition so_create : solist := mkso sl_create sl_create.

(** the comparison that moves the search down, sis_list.c:746-775 *)
Definition so_above (midv key : Z) : bool := if asc then midv >? key else midv <? key.
Definition so_below (midv key : Z) : bool := if asc then midv <? key else midv >? key.

(** _sort_list_find, sis_list.c:740-778; None = fuel exhausted or null dereference *)
Fixpoint so_search (fuel : nat) (l : solist) (key start stop : Z) : option Z :=
  match fuel with
  | O => None
  | S fuel' =>
    if start <=? stop then
      let mid := Z.quot (stop - start) 2 + start in
      match sl_get (skey l) mid with
      | Some (Some midv) =>
        if so_above midv key then so_search fuel' l key start (mid - 1)
        else if so_below midv key then so_search fuel' l key (mid + 1) stop
        else Some mid
      | _ => None
      end
    else Some (-1)
  end.

Definition so_index (l : solist) (key : Z) : option Z :=
  so_search (S (lcount (skey l))) l key 0 (Z.of_nat (lcount (skey l)) - 1).

(** sis_sort_list_find, sis_list.c:779-795, with the value read through the pointer *)
Definition so_find (l : solist) (key : Z) : option (option V) :=
  match so_index l key with
  | None => None
  | Some i => if i >=? 0 then sl_get (sval l) i else Some None
  end.

(** the insertion loop, sis_list.c:709-718: first index whose key is past [key] *)
Fixpoint so_place (n : nat) (l : solist) (key : Z) (i : Z) : option (option Z) :=
  match n with
  | O => Some None
  | S n' =>
    match sl_get (skey l) i with
    | Some (Some k) => if so_above k key then Some (Some i) else so_place n' l key (i + 1)
    | _ => None
    end
  end.

(** sis_sort_list_set, sis_list.c:701-722.  Writing through the pointer returned by find is
    an update at the found index. *)
Definition so_set (l : solist) (key : Z) (v : V) : option solist :=
  match so_index l key with
  | None => None
  | Some i =>
    if i >=? 0 then
      match sl_update (sval l) i v with
      | Some (vs, _) => Some (mkso (skey l) vs) | None => None end
    else
      match so_place (lcount (skey l)) l key 0 with
      | None => None
      | Some (Some i) =>
        match sl_inserts jk (skey l) i [key], sl_inserts jv (sval l) i [v] with
        | Some (ks, _), Some (vs, _) => Some (mkso ks vs)
        | _, _ => None
        end
      | Some None =>
        match sl_pushs jk (skey l) [key], sl_pushs jv (sval l) [v] with
        | Some (ks, _), Some (vs, _) => Some (mkso ks vs)
        | _, _ => None
        end
      end
  end.

(** sis_sort_list_deli, sis_list.c:807-811 *)
Definition so_deli (l : solist) (i : Z) : option solist :=
  match sl_delete (skey l) i 1, sl_delete (sval l) i 1 with
  | Some (ks, _), Some (vs, _) => Some (mkso ks vs)
  | _, _ => None
  end.

(** sis_sort_list_del, sis_list.c:800-806, called with the pointer find returned for [key];
    find returning NULL means the caller does not call it. *)
Definition so_del_key (l : solist) (key : Z) : option solist :=
  match so_index l key with
  | None => None
  | Some i => if i >=? 0 then so_deli l (i + Z.of_nat (lstart (sval l))) else Some l
  end.

Definition so_step (l : solist) (op : kop V) : option solist :=
  match op with KSet k v => so_set l k v | KDel k => so_del_key l k end.

Fixpoint so_run (l : solist) (ops : list (kop V)) : option solist :=
  match ops with
  | [] => Some l
  | op :: ops' => match so_step l op with Some l' => so_run l' ops' | None => None end
  end.
End Sort.
Arguments solist : clear implicits.

(** ** s_sis_pint_slist, sis_list.h:108-114: keys are ints, values pointers.  maxcount is
    the common length of the arrays. *)
Section Pint.
Context {V : Type}.
Variable asc : bool.

Record plist := mkpl { pkeys : list Z; pvals : list V; pcount : nat }.

(** the scan of sis_pint_slist_set, sis_list.c:881-914: (finded, index) *)
Fixpoint pl_scan (ks : list Z) (key : Z) (i : nat) (finded : option nat) : option nat * option nat :=
  match ks with
  | [] => (finded, None)
  | k :: ks' =>
    let finded := if k =? key then Some i else finded in
    if (if asc then k >? key else k <? key) then (finded, Some i)
    else pl_scan ks' key (S i) finded
  end.

(** sis_pint_slist_set, sis_list.c:879-968 *)
Definition pl_set (l : plist) (key : Z) (v : V) : option (plist * Z) :=
  match aget (pkeys l) 0 (pcount l) with
  | None => None
  | Some ks =>
    match pl_scan ks key 0 None with
    | (Some f, _) =>
      match aput (pkeys l) f [key], aput (pvals l) f [v] with
      | Some k', Some v' => Some (mkpl k' v' (pcount l), Z.of_nat f)
      | _, _ => None
      end
    | (None, None) =>
      if Nat.ltb (pcount l) (length (pkeys l)) then
        match aput (pkeys l) (pcount l) [key], aput (pvals l) (pcount l) [v] with
        | Some k', Some v' => Some (mkpl k' v' (S (pcount l)), Z.of_nat (pcount l))
        | _, _ => None
        end
      else Some (l, -1)
    | (None, Some i) =>
      let count := if Nat.leb (length (pkeys l)) (pcount l) then (length (pkeys l) - 1)%nat else pcount l in
      match amove (pkeys l) (i + 1) i (count - i), amove (pvals l) (i + 1) i (count - i) with
      | Some k1, Some v1 =>
        match aput k1 i [key], aput v1 i [v] with
        | Some k', Some v' =>
          Some (mkpl k' v' (if Nat.ltb (pcount l) (length (pkeys l)) then S (pcount l) else pcount l), Z.of_nat i)
        | _, _ => None
        end
      | _, _ => None
      end
    end
  end.

(** sis_pint_slist_get, sis_list.c:970-978 *)
Definition pl_get (l : plist) (i : Z) : option (option V) :=
  if (i <? 0) || (i >? Z.of_nat (pcount l) - 1) then Some None
  else match nth_error (pvals l) (Z.to_nat i) with Some v => Some (Some v) | None => None end.

(** sis_pint_slist_del, sis_list.c:994-1008 *)
Definition pl_del (l : plist) (i : Z) : option plist :=
  if (i <? 0) || (i >? Z.of_nat (pcount l) - 1) then Some l
  else if i <? Z.of_nat (pcount l) - 1 then
    let j := Z.to_nat i in
    match amove (pkeys l) j (S j) (pcount l - 1 - j), amove (pvals l) j (S j) (pcount l - 1 - j) with
    | Some k', Some v' => Some (mkpl k' v' (pcount l - 1))
    | _, _ => None
    end
  else Some (mkpl (pkeys l) (pvals l) (pcount l - 1)).

(** sis_pint_slist_delk, sis_list.c:979-993 *)
Fixpoint pl_findk (ks : list Z) (key : Z) (i : Z) : Z :=
  match ks with [] => -1 | k :: ks' => if k =? key then i else pl_findk ks' key (i + 1) end.

Definition pl_delk (l : plist) (key : Z) : option (plist * Z) :=
  match aget (pkeys l) 0 (pcount l) with
  | None => None
  | Some ks => let i := pl_findk ks key 0 in
               match pl_del l i with Some l' => Some (l', i) | None => None end
  end.

Definition pl_step (l : plist) (op : kop V) : option (plist * Z) :=
  match op with KSet k v => pl_set l k v | KDel k => pl_delk l k end.

Fixpoint pl_run (l : plist) (ops : list (kop V)) : option plist :=
  match ops with
  | [] => Some l
  | op :: ops' => match pl_step l op with Some (l', _) => pl_run l' ops' | None => None end
  end.
End Pint.
Arguments plist : clear implicits.
