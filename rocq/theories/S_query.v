(** Specification of queries on a series (C77): which records and fields a request, a JSON object, asks for. *)
From Coq Require Import String.
From Verif Require Import Base S_server S_map S_table S_json S_fmap S_rectext.
Open Scope list_scope. Open Scope Z_scope.

(** the first member of a name, ignoring case *)
Definition member (name : list Z) (l : list (list Z * jv)) : option jv :=
  option_map snd (find (fun kv => same_name (fst kv) name) l).
(** a whole number of 64 bits *)
Definition whole (v : jv) (z : Z) : Prop := exists s, v = JNum s /\ spells z s /\ - 2 ^ 63 <= z < 2 ^ 63.
(** the same, if it is given *)
Definition whole_or (o : option jv) (default z : Z) : Prop := match o with Some v => whole v z | None => z = default end.

(** * Which records *)
(** from one time to another, if wanted with the record before the first time when there is none of that time; or those of one
    time; or the one a number of places before a time *)
Inductive sel := Between (start stop : Z) (prev : bool) | At (time : Z) | Before (time places : Z).
Section Chosen.
Context {R : Type}.
Variable mi : R -> Z.
Definition chosen (s : sel) (l : list R) : list R :=
  match s with
  | Between a b prev => let a' := first_time mi l a in (if prev then window_prev else window) mi a' (last_time mi l a' b) l
  | At m => filter (fun x => mi x =? m) l
  | Before m n => match nth_error (rev (filter (fun x => mi x <? m) l)) (Z.to_nat (n - 1)) with Some x => [x] | None => [] end
  end.
(** the records that are left without those *)
Definition left_over (s : sel) (l : list R) : list R :=
  match s with
  | Between a b _ => let a' := first_time mi l a in let b' := last_time mi l a' b in filter (fun x => (mi x <? a') || (b' <? mi x)) l
  | At m => filter (fun x => negb (mi x =? m)) l
  | Before _ _ => l
  end.
End Chosen.
(** what a request says about the records: the member range, or else the member where, or else the newest *)
Definition selects (l : list (list Z * jv)) (s : sel) : Prop :=
  match member (bs "range"%string) l with
  | Some v => exists r a b p va, v = JObj r /\ member (bs "start"%string) r = Some va /\ whole va a /\
      whole_or (member (bs "stop"%string) r) 0 b /\ whole_or (member (bs "ifprev"%string) r) 0 p /\ 0 <= p <= 1 /\
      s = Between a b (p =? 1)
  | None =>
      match member (bs "where"%string) l with
      | Some v => exists r m k va, v = JObj r /\ member (bs "start"%string) r = Some va /\ whole va m /\ 0 <= m /\
          whole_or (member (bs "offset"%string) r) 0 k /\ - 2 ^ 31 < k <= 0 /\ s = if k =? 0 then At m else Before m (- k)
      | None => s = Between (- 1) 0 false
      end
  end.

(** what a request to delete says: the member range (up to the start itself if no stop is given), or else the member where *)
Definition removes (l : list (list Z * jv)) (s : sel) : Prop :=
  match member (bs "range"%string) l with
  | Some v => exists r a b va, v = JObj r /\ member (bs "start"%string) r = Some va /\ whole va a /\
      whole_or (member (bs "stop"%string) r) a b /\ s = Between a b false
  | None => exists v r m va, member (bs "where"%string) l = Some v /\ v = JObj r /\ member (bs "start"%string) r = Some va /\ whole va m /\
      0 <= m /\ s = At m
  end.
(** a request: none, or the text of an object *)
Definition request (info : option (list Z)) (l : list (list Z * jv)) : Prop :=
  match info with None => l = [] | Some txt => jtext false (JObj l) txt end.

(** * Which fields *)
(** names with commas between them, and blanks around them if one likes *)
Fixpoint with_commas (l : list (list Z)) : list Z :=
  match l with [] => [] | [x] => x | x :: r => x ++ 44 :: with_commas r end.
Definition blank (l : list Z) : Prop := Forall (fun c => 1 <= c <= 32) l.
Definition a_name (n : list Z) : Prop := n <> [] /\ ~ In 44 n /\ Forall (fun c => 32 < c) n.
Definition lists (names : list (list Z)) (s : list Z) : Prop :=
  names <> [] /\ exists ps, s = with_commas ps /\
    Forall2 (fun n p => a_name n /\ exists a b, p = a ++ n ++ b /\ blank a /\ blank b) names ps.
(** the names given; None: all fields *)
Definition names_given (l : list (list Z * jv)) (o : option (list (list Z))) : Prop :=
  match member (bs "fields"%string) l with
  | None => o = None
  | Some v => exists s, v = JStr s /\ if hd 0 s =? 42 then o = None else exists names, lists names s /\ o = Some names
  end.
(** the field of a name, with its place *)
Definition field_of (ds : list fdef) (n : list Z) : option (fdef * Z) := find (fun x => same_name (df_name (fst x)) n) (layout ds).
Definition fields_named (ds : list fdef) (names : list (list Z)) (xs : list (fdef * Z)) : Prop :=
  Forall2 (fun n x => field_of ds n = Some x) names xs.

(** * In which form *)
Inductive form := AsArray | AsJson | AsBytes.
Definition form_given (l : list (list Z * jv)) (f : form) : Prop :=
  match member (bs "format"%string) l with
  | None => f = AsArray
  | Some v => exists c s, v = JStr (c :: s) /\
      match f with AsArray => c = 97 \/ c = 65 | AsJson => c = 106 \/ c = 74
                 | AsBytes => c = 98 \/ c = 66 \/ c = 115 \/ c = 83 \/ c = 122 \/ c = 90 end
  end.
(** the values of some fields of a record *)
Definition shown_part (xs : list (fdef * Z)) (rec : list Z) (v : jv) : Prop :=
  exists l, v = JArr l /\ Forall2 (fun x e => shown (fst x) (field_bytes rec x) e) xs l.
(** the numbers of the fields under their names *)
Fixpoint numbered_names (i : Z) (xs : list (fdef * Z)) (l : list (list Z * jv)) : Prop :=
  match xs, l with
  | [], [] => True
  | x :: xs', (n, v) :: l' => n = df_name (fst x) /\ (exists s, v = JNum s /\ spells i s) /\ numbered_names (i + 1) xs' l'
  | _, _ => False
  end.
(** the bytes of the named fields of a record; names that are not known are passed over *)
Definition part_bytes (ds : list fdef) (names : list (list Z)) (rec : list Z) : list Z :=
  List.concat (map (fun n => match field_of ds n with Some x => field_bytes rec x | None => [] end) names).
(** names that can be looked up as bytes: without a point, below 128 bytes *)
Definition short_name (n : list Z) : Prop := ~ In 46 n /\ Z.of_nat (List.length n) < 128.
(** a name that can be written as a name in JSON *)
Definition plain_key (k : list Z) : Prop := k <> [] /\ Forall plain k /\ Z.of_nat (List.length k) < 2 ^ 28.
(** names of fields like that, which fit in 31 bytes *)
Definition plain_names (ds : list fdef) : Prop := Forall (fun d => plain_key (df_name d) /\ (List.length (df_name d) <= 31)%nat) ds.
(** a series: records of the table in the order of their times; in all less than 2^31 bytes *)
Definition series (mi : list Z -> Z) (ds : list fdef) (l : list (list Z)) : Prop :=
  in_order mi l /\ (forall x, In x l -> 0 <= mi x < 2 ^ 63) /\ Forall (record ds) l /\ Z.of_nat (List.length l) * total ds < 2 ^ 31.
(** a request short enough for the parser *)
Definition fits (info : option (list Z)) (d : nat) : Prop :=
  match info with None => True | Some txt => Z.of_nat (List.length txt) < 2 ^ 31 /\ (List.length txt <= d)%nat end.
