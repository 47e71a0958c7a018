(** Model of the dictionary src/core/sis_dict.c, sis_dict.h.

    Simplifications: a chain of entries is a list, a table is the list of its chains (size is the
    length, sizemask is size - 1 or 0); the counters used are integers that do not wrap; memory
    allocation succeeds; keys and values are copied as they are.  None = memory accessed outside
    a table or a failed assertion. *)
From Verif Require Import Base S_dict.

Section Dict.
Context {K V : Type}.
Variable keq : K -> K -> bool.       (* kcompare *)
Variable hash : K -> Z.              (* hashmake *)
Notation chain := (list (K * V)).

(** s_sis_dictht, sis_dict.h:39-44 *)
Record dht := mkht { tbl : list chain; used : Z }.
(** s_sis_dict, sis_dict.h:46-52; the last field is the global _dict_can_resize, sis_dict.c:205 *)
Record dict := mkd { h0 : dht; h1 : dht; ridx : Z; iters : Z; can : bool }.

Definition hsize (h : dht) : Z := Z.of_nat (length (tbl h)).
Definition hmask (h : dht) : Z := if hsize h =? 0 then 0 else hsize h - 1.
(** _dict_reset, 239-245 *)
Definition hreset : dht := mkht [] 0.
(** sis_dict_create, _dict_init, 248-268 *)
Definition dcreate : dict := mkd hreset hreset (-1) 0 true.
(** DICT_IS_REHASHING, sis_dict.h:114; sis_dict_getsize, sis_dict.h:131 *)
Definition rehashing (d : dict) : bool := negb (ridx d =? -1).
Definition dsize (d : dict) : Z := used (h0 d) + used (h1 d).

Fixpoint upd {A} (l : list A) (i : nat) (v : A) : list A :=
  match l, i with [], _ => [] | _ :: l', O => v :: l' | x :: l', S i' => x :: upd l' i' v end.

(** bucket of a hash: h & sizemask *)
Definition bucket (h : dht) (x : Z) : nat := Z.to_nat (Z.land x (hmask h)).

(** _dict_next_power, 1114-1124 (4 is DICT_HT_INITIAL_SIZE, sis_dict.h:71); 64 doublings
    suffice below the limit of line 1118 *)
Fixpoint npow (fuel : nat) (i size : Z) : Z :=
  match fuel with O => i | S f => if size <=? i then i else npow f (i * 2) size end.
Definition next_power (size : Z) : Z := npow 64 4 size.

(** sis_dict_expand, 284-314; the flag is SIS_DICT_OK *)
Definition expand (d : dict) (size : Z) : dict * bool :=
  if rehashing d || (size <? used (h0 d)) then (d, false)
  else
    let rs := next_power size in
    if rs =? hsize (h0 d) then (d, false)
    else
      let n := mkht (repeat [] (Z.to_nat rs)) 0 in
      if hsize (h0 d) =? 0 then (mkd n (h1 d) (ridx d) (iters d) (can d), true)
      else (mkd (h0 d) n 0 (iters d) (can d), true).

(** the inner search of sis_dict_rehash, 335-338: [left] empty buckets may still be visited;
    inl = stopped there, inr = index of the next used bucket *)
Fixpoint seek (t : list chain) (i : nat) (left : nat) : option (nat + nat) :=
  match nth_error t i with
  | None => None
  | Some (_ :: _) => Some (inr i)
  | Some [] => match left with O => None | 1%nat => Some (inl (S i)) | S l => seek t (S i) l end
  end.

(** moving one entry to the front of its new chain, 341-352 *)
Definition put_front (h : dht) (e : K * V) : option dht :=
  let b := bucket h (hash (fst e)) in
  match nth_error (tbl h) b with
  | None => None
  | Some c => Some (mkht (upd (tbl h) b (e :: c)) (used h + 1))
  end.
Fixpoint move_chain (h : dht) (c : chain) : option dht :=
  match c with
  | [] => Some h
  | e :: c' => match put_front h e with Some h' => move_chain h' c' | None => None end
  end.

(** end of sis_dict_rehash, 358-364 *)
Definition finish (d : dict) : dict :=
  if used (h0 d) =? 0 then mkd (h1 d) hreset (-1) (iters d) (can d) else d.

(** sis_dict_rehash with n = 1, 325-368, when rehashing *)
Definition rehash1 (d : dict) : option dict :=
  if used (h0 d) =? 0 then Some (finish d)
  else if hsize (h0 d) <=? ridx d then None
  else
    match seek (tbl (h0 d)) (Z.to_nat (ridx d)) 10 with
    | None => None
    | Some (inl i) => Some (mkd (h0 d) (h1 d) (Z.of_nat i) (iters d) (can d))
    | Some (inr i) =>
      let c := nth i (tbl (h0 d)) [] in
      match move_chain (h1 d) c with
      | None => None
      | Some h1' =>
        Some (finish (mkd (mkht (upd (tbl (h0 d)) i []) (used (h0 d) - Z.of_nat (length c))) h1'
                          (Z.of_nat i + 1) (iters d) (can d)))
      end
    end.
(** _dict_rehash_step, 378-380, and its guard *)
Definition rstep (d : dict) : option dict :=
  if rehashing d then if iters d =? 0 then rehash1 d else Some d else Some d.

(** _dict_expand_if_needed, 1092-1111; unsigned division *)
Definition expand_if_needed (d : dict) : dict * bool :=
  if rehashing d then (d, true)
  else if hsize (h0 d) =? 0 then expand d 4
  else if (hsize (h0 d) <=? used (h0 d)) && (can d || (5 <? used (h0 d) / hsize (h0 d)))
  then expand d (used (h0 d) * 2)
  else (d, true).

(** the chain a hash selects in a table *)
Definition chain_of (h : dht) (x : Z) : option chain := nth_error (tbl h) (bucket h x).

(** sis_dict_find, 617-636: the value found *)
Definition dfind (d : dict) (k : K) : option (dict * option V) :=
  if dsize d =? 0 then Some (d, None)
  else match rstep d with
  | None => None
  | Some d1 =>
    match chain_of (h0 d1) (hash k) with
    | None => None
    | Some c =>
      match lookup keq c k with
      | Some v => Some (d1, Some v)
      | None =>
        if rehashing d1 then
          match chain_of (h1 d1) (hash k) with None => None | Some c1 => Some (d1, lookup keq c1 k) end
        else Some (d1, None)
      end
    end
  end.

(** _dict_key_index, 1133-1156: KError = -1 because the expansion was refused, KIn = -1 with the
    entry found in table 0 or 1, KAbsent = an index to insert at *)
Inductive kpos := KError | KIn (t : bool) | KAbsent.
Definition key_index (d : dict) (k : K) : option (dict * kpos) :=
  let '(d1, ok) := expand_if_needed d in
  if negb ok then Some (d1, KError)
  else match chain_of (h0 d1) (hash k) with
  | None => None
  | Some c =>
    if mem_key keq c k then Some (d1, KIn false)
    else if rehashing d1 then
      match chain_of (h1 d1) (hash k) with
      | None => None
      | Some c1 => if mem_key keq c1 k then Some (d1, KIn true) else Some (d1, KAbsent)
      end
    else Some (d1, KAbsent)
  end.

Definition set_h0 (d : dict) (h : dht) : dict := mkd h (h1 d) (ridx d) (iters d) (can d).
Definition set_h1 (d : dict) (h : dht) : dict := mkd (h0 d) h (ridx d) (iters d) (can d).

(** sis_dict_add_raw, 410-436, then DICT_SET_VAL: insertion in front *)
Definition insert (d : dict) (k : K) (v : V) : option dict :=
  if rehashing d
  then match put_front (h1 d) (k, v) with Some h => Some (set_h1 d h) | None => None end
  else match put_front (h0 d) (k, v) with Some h => Some (set_h0 d h) | None => None end.

(** sis_dict_add, 383-390 *)
Definition dadd (d : dict) (k : K) (v : V) : option (dict * bool) :=
  match rstep d with
  | None => None
  | Some d0 =>
    match key_index d0 k with
    | None => None
    | Some (d1, KAbsent) => match insert d1 k v with Some d2 => Some (d2, true) | None => None end
    | Some (d1, _) => Some (d1, false)
    end
  end.

Definition map_chain (h : dht) (x : Z) (f : chain -> chain) (n : Z) : dht :=
  mkht (upd (tbl h) (bucket h x) (f (nth (bucket h x) (tbl h) []))) (used h + n).

(** sis_dict_replace, 443-464 (and sis_dict_set_int, 465-476): None if the entry to overwrite
    was not delivered *)
Definition dreplace (d : dict) (k : K) (v : V) : option (dict * bool) :=
  match rstep d with
  | None => None
  | Some d0 =>
    match key_index d0 k with
    | None => None
    | Some (_, KError) => None
    | Some (d1, KAbsent) => match insert d1 k v with Some d2 => Some (d2, true) | None => None end
    | Some (d1, KIn false) => Some (set_h0 d1 (map_chain (h0 d1) (hash k) (fun c => update keq c k v) 0), false)
    | Some (d1, KIn true) => Some (set_h1 d1 (map_chain (h1 d1) (hash k) (fun c => update keq c k v) 0), false)
    end
  end.

(** sis_dict_delete, _dict_generic_delete, 505-546 *)
Definition ddelete (d : dict) (k : K) : option (dict * bool) :=
  if (used (h0 d) =? 0) && (used (h1 d) =? 0) then Some (d, false)
  else match rstep d with
  | None => None
  | Some d1 =>
    match chain_of (h0 d1) (hash k) with
    | None => None
    | Some c =>
      if mem_key keq c k
      then Some (set_h0 d1 (map_chain (h0 d1) (hash k) (fun c => remove keq c k) (-1)), true)
      else if rehashing d1 then
        match chain_of (h1 d1) (hash k) with
        | None => None
        | Some c1 =>
          if mem_key keq c1 k
          then Some (set_h1 d1 (map_chain (h1 d1) (hash k) (fun c => remove keq c k) (-1)), true)
          else Some (d1, false)
        end
      else Some (d1, false)
    end
  end.

(** sis_dict_resize, 272-281 *)
Definition dresize (d : dict) : dict :=
  if negb (can d) || rehashing d then d else fst (expand d (Z.max 4 (used (h0 d)))).

Definition dstep (d : dict) (o : dop K V) : option (dict * dout V) :=
  match o with
  | DFind k => match dfind d k with Some (d', v) => Some (d', RVal v) | None => None end
  | DAdd k v => match dadd d k v with Some (d', b) => Some (d', RBool b) | None => None end
  | DReplace k v => match dreplace d k v with Some (d', b) => Some (d', RBool b) | None => None end
  | DDelete k => match ddelete d k with Some (d', b) => Some (d', RBool b) | None => None end
  | DEmpty => Some (mkd hreset hreset (-1) 0 (can d), RNone)      (* sis_dict_empty, 1158-1163 *)
  | DResize => Some (dresize d, RNone)
  | DExpand n => Some (fst (expand d n), RNone)
  | DCanResize b => Some (mkd (h0 d) (h1 d) (ridx d) (iters d) b, RNone)   (* 1165-1171 *)
  | DIterOpen => Some (mkd (h0 d) (h1 d) (ridx d) (iters d + 1) (can d), RNone)   (* 709-710 *)
  | DIterClose => Some (mkd (h0 d) (h1 d) (ridx d) (iters d - 1) (can d), RNone)  (* 740-742 *)
  end.
Fixpoint drun (d : dict) (os : list (dop K V)) : option (dict * list (dout V)) :=
  match os with
  | [] => Some (d, [])
  | o :: os' =>
    match dstep d o with
    | None => None
    | Some (d', x) => match drun d' os' with Some (d2, xs) => Some (d2, x :: xs) | None => None end
    end
  end.

(** s_sis_dict_iter, sis_dict.h:58-65, of a safe iterator (697-701): the table, the index, whether
    an entry is held and which one, and the saved following entry.  A pointer to an entry is
    represented by the entry's key: this is exact as long as the saved entry is not deleted. *)
Record diter := mkit { itab : bool; iidx : Z; icur : option K; inxt : option K }.
(** _dict_get_iter, 683-695 *)
Definition iter0 : diter := mkit false (-1) None None.
Definition itbl (d : dict) (t : bool) : dht := if t then h1 d else h0 d.

(** the entry a pointer refers to and those after it in its chain *)
Fixpoint from_key (c : chain) (k : K) : option chain :=
  match c with [] => None | (k', v) :: c' => if keq k k' then Some ((k', v) :: c') else from_key c' k end.
(** lines 728-732: an entry is returned and the one after it saved *)
Definition deliver (t : bool) (i : Z) (e : K * V) (rest : chain) : diter * option (K * V) :=
  (mkit t i (Some (fst e)) (match rest with [] => None | (k, _) :: _ => Some k end), Some e).
(** the loop of sis_dict_next, 705-734, when no entry is held; None = outside a table *)
Fixpoint iscan (fuel : nat) (d : dict) (t : bool) (i : Z) : option (diter * option (K * V)) :=
  match fuel with
  | O => None
  | S f =>
    let i1 := i + 1 in
    let over := hsize (itbl d t) <=? i1 in
    if over && negb (rehashing d && negb t) then Some (mkit t i1 None None, None)
    else
      let '(t2, i2) := if over then (true, 0) else (t, i1) in
      match nth_error (tbl (itbl d t2)) (Z.to_nat i2) with
      | None => None
      | Some [] => iscan f d t2 i2
      | Some (e :: rest) => Some (deliver t2 i2 e rest)
      end
  end.
(** sis_dict_next, 703-736 *)
Definition dnext (d : dict) (it : diter) : option (dict * diter * option (K * V)) :=
  let d1 := match icur it with
            | None => if (iidx it =? -1) && negb (itab it)
                      then mkd (h0 d) (h1 d) (ridx d) (iters d + 1) (can d) else d
            | Some _ => d end in
  let fuel := (length (tbl (h0 d)) + length (tbl (h1 d)) + 2)%nat in
  match icur it, inxt it with
  | Some _, Some k =>
    match from_key (nth (Z.to_nat (iidx it)) (tbl (itbl d (itab it))) []) k with
    | Some (e :: rest) => let '(it', r) := deliver (itab it) (iidx it) e rest in Some (d1, it', r)
    | _ => None                                           (* the saved entry is gone *)
    end
  | _, _ =>
    match iscan fuel d (itab it) (iidx it) with Some (it', r) => Some (d1, it', r) | None => None end
  end.
(** sis_dict_iter_free, 738-747 *)
Definition iter_free (d : dict) (it : diter) : dict :=
  if negb ((iidx it =? -1) && negb (itab it))
  then mkd (h0 d) (h1 d) (ridx d) (iters d - 1) (can d) else d.

(** a loop over the entries: [bodies] gives, for each round, what is done with the entry delivered;
    the entries delivered, and whether the end was reached *)
Fixpoint iloop (d : dict) (it : diter) (bodies : list (K * V -> list (dop K V))) : option (dict * list (K * V) * bool) :=
  match bodies with
  | [] => Some (d, [], false)
  | b :: bodies' =>
    match dnext d it with
    | None => None
    | Some (d1, it1, None) => Some (iter_free d1 it1, [], true)
    | Some (d1, it1, Some e) =>
      match drun d1 (b e) with
      | None => None
      | Some (d2, _) =>
        match iloop d2 it1 bodies' with Some (d3, es, f) => Some (d3, e :: es, f) | None => None end
      end
    end
  end.
End Dict.
