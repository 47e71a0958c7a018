(** Specification of the merging of the blocks of a data file (C70). *)
From Verif Require Import Base S_kdict S_index.

(** what a block says of itself; NoHid, none of these *)
Inductive mhid := DictKey | DictSdb | MsgSdb | MsgNon | NoHid.
Record mblk := mkmb { b_hid : mhid; b_body : list Z }.
(** an entry of the index: first and last time, and which block of the data *)
Record munit := mkmu { u_start : Z; u_stop : Z; u_place : nat }.
Record mnode := mkmn { n_key : list Z; n_tab : list Z; n_units : list munit }.
(** the blocks of the dictionaries of keys and of tables; the series by "key.table" *)
Record index := mkix { x_keys : list nat; x_tabs : list nat; x_nodes : list (list Z * mnode) }.
(** None, a block that cannot be read; None, an index that cannot be read *)
Record dfile := mkdf { d_data : list (option mblk); d_index : option index }.

(** a number in front of a block *)
Definition num (v : Z) : list Z :=
  if 4294967295 <? v then 254 :: le_bytes 8 v
  else if 65785 <? v then 253 :: le_bytes 4 v
  else if 505 <? v then 252 :: le_bytes 2 (v - 250)
  else if 250 <? v then 251 :: le_bytes 1 (v - 250)
  else [v].
Definition block_at (data : list (option mblk)) (p : nat) (b : mblk) : Prop := nth_error data p = Some (Some b).
(** an entry whose block holds records of key number kx and table number sx *)
Definition holds (data : list (option mblk)) (kx sx : nat) (u : munit) (recs : list Z) : Prop :=
  exists b, block_at data (u_place u) b /\ (b_hid b = MsgSdb \/ b_hid b = MsgNon) /\
            b_body b = num (Z.of_nat kx) ++ num (Z.of_nat sx) ++ recs.
(** names separated by commas *)
Fixpoint commas (l : list (list Z)) : list Z := match l with [] => [] | [k] => k | k :: l' => k ++ 44 :: commas l' end.
(** the series of key k and table s with its entries, and the records of each entry *)
Definition series (data : list (option mblk)) (x : index) (ks ts : list (list Z)) (k s : list Z) (us : list munit) (recs : list (list Z)) : Prop :=
  exists kx sx nd, In (text_of k (Some s), nd) (x_nodes x) /\ n_key nd = k /\ n_tab nd = s /\ n_units nd = us /\
    nth_error ks kx = Some k /\ nth_error ts sx = Some s /\ Forall2 (holds data kx sx) us recs.
(** a file without damage: one block for each dictionary; every entry belongs to a series *)
Definition whole (tabs : list Z -> list (list Z)) (data : list (option mblk)) (x : index) (ks ts : list (list Z)) : Prop :=
  (exists p, x_keys x = [p] /\ block_at data p (mkmb DictKey (commas ks))) /\
  (exists p b, x_tabs x = [p] /\ block_at data p (mkmb DictSdb b) /\ tabs b = ts) /\
  ks <> [] /\ Forall plain_name ks /\ NoDup ks /\ NoDup ts /\
  Z.of_nat (length ks) < 2 ^ 64 /\ Z.of_nat (length ts) < 2 ^ 64 /\
  NoDup (map fst (x_nodes x)) /\
  (forall n nd, In (n, nd) (x_nodes x) -> exists us recs, series data x ks ts (n_key nd) (n_tab nd) us recs /\
     n = text_of (n_key nd) (Some (n_tab nd)) /\ n_units nd = us /\ us <> []).
