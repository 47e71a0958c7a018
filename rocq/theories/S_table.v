(** Specification of record layouts (C37), the special fields of a table (C46) and conversion (C38). *)
From Verif Require Import Base S_server S_map.

(** one line of a table definition: name, kind (0 = not known), length, repetitions, decimals, flags *)
Record fdef := mkdef { df_name : list Z; df_style : Z; df_len : Z; df_count : Z; df_dot : Z; df_idx : bool; df_only : bool }.
(** lines that become fields; the others are skipped *)
Definition good_def (d : fdef) : bool :=
  negb (df_style d =? 0) && (1 <=? df_len d) && (df_len d <=? 65535) && (1 <=? df_count d) && (df_count d <=? 65535).
Definition space (d : fdef) : Z := if good_def d then df_len d * df_count d else 0.
(** the size of a record *)
Definition total (ds : list fdef) : Z := fold_right (fun d s => space d + s) 0 ds.
(** the fields of a table with their places: one after the other; a later line replaces an earlier
    one of the same name (ignoring case), whose space stays unused *)
Fixpoint places (off : Z) (ds : list fdef) : list (fdef * Z) :=
  match ds with
  | [] => []
  | d :: r =>
    (if good_def d && negb (existsb (fun e => good_def e && same_name (df_name d) (df_name e)) r) then [(d, off)] else [])
      ++ places (off + space d) r
  end.
Definition layout (ds : list fdef) : list (fdef * Z) := places 0 ds.
(** the good lines have different names, ignoring case *)
Fixpoint distinct_names (ds : list fdef) : Prop :=
  match ds with
  | [] => True
  | d :: r => (good_def d = true -> forall e, In e r -> good_def e = true -> same_name (df_name d) (df_name e) = false) /\ distinct_names r
  end.

(** byte ranges: start and length *)
Definition apart (a b : nat * nat) : Prop := (fst a + snd a <= fst b \/ fst b + snd b <= fst a)%nat.
Definition bytes_at (rec : list Z) (off n : nat) : list Z := firstn n (skipn off rec).

(** kinds of fields *)
Definition K_INT := 73.  Definition K_UINT := 85. Definition K_CHAR := 67. Definition K_FLOAT := 70. Definition K_PRICE := 80.
Definition K_MSEC := 84. Definition K_TSEC := 83. Definition K_MINU := 77. Definition K_DATE := 68.
Definition time_kind (k : Z) : bool := (k =? K_TSEC) || (k =? K_MSEC) || (k =? K_MINU) || (k =? K_DATE).
Definition whole_kind (k : Z) : bool := time_kind k || (k =? K_UINT) || (k =? K_INT).
Definition real_kind (k : Z) : bool := (k =? K_FLOAT) || (k =? K_PRICE).
Definition whole_len (n : Z) : bool := (n =? 1) || (n =? 2) || (n =? 4) || (n =? 8).

(** the number an element of a whole-number field stands for *)
Definition number (kind len : Z) (b : list Z) : Z :=
  if kind =? K_INT then to_s (8 * len) (le_val b) else le_val b.

(** element [a] of a field like [d] is kept as element [b] of a field like [d']: the same bytes
    for the same kind and length, texts cut or filled with zeros, whole numbers (and times of the
    same unit) reduced to the new width.  Nothing is said about numbers with decimals, times in
    different units, and kinds that do not fit. *)
Definition kept (d d' : fdef) (a b : list Z) : Prop :=
  let k := df_style d in let k' := df_style d' in
  if (k =? k') && (df_len d =? df_len d') then b = a
  else if (k =? K_CHAR) && (k' =? K_CHAR) then b = firstn (Z.to_nat (df_len d')) (a ++ repeat 0 (Z.to_nat (df_len d')))
  else if whole_kind k && whole_kind k' && (negb (time_kind k && time_kind k') || (k =? k')) && whole_len (df_len d) && whole_len (df_len d')
  then le_val b = number k (df_len d) a mod 2 ^ (8 * df_len d')
  else True.

(** [out] is the record [inp] of table [dsi] carried over to table [dso]: every field gets the
    elements of the field of the same name, elements and fields without a source are zero *)
Definition carried (dsi dso : list fdef) (inp out : list Z) : Prop :=
  forall d' o', In (d', o') (layout dso) ->
    let n' := Z.to_nat (df_len d') in
    let elem i := bytes_at out (Z.to_nat o' + i * n') n' in
    (forall d o, In (d, o) (layout dsi) -> same_name (df_name d) (df_name d') = true ->
       forall i, (i < Z.to_nat (df_count d'))%nat ->
         if (i <? Z.to_nat (df_count d))%nat
         then kept d d' (bytes_at inp (Z.to_nat o + i * Z.to_nat (df_len d)) (Z.to_nat (df_len d))) (elem i)
         else elem i = repeat 0 n') /\
    ((forall d o, In (d, o) (layout dsi) -> same_name (df_name d) (df_name d') = false) ->
       forall i, (i < Z.to_nat (df_count d'))%nat -> elem i = repeat 0 n').
(** the tables differ in size, in the number of fields, or in a field of the same name *)
Definition differ (dsi dso : list fdef) : Prop :=
  total dsi <> total dso \/ length (layout dsi) <> length (layout dso) \/
  exists d o d' o', In (d, o) (layout dsi) /\ In (d', o') (layout dso) /\ same_name (df_name d) (df_name d') = true /\
    (df_style d <> df_style d' \/ df_len d <> df_len d' \/ df_count d <> df_count d').
(** every field of the target has a source at the same place *)
Definition aligned (dsi dso : list fdef) : Prop :=
  forall d' o', In (d', o') (layout dso) -> exists d, In (d, o') (layout dsi) /\ same_name (df_name d) (df_name d') = true.
(** the target's names are shorter than 32 bytes, and its floats and prices have 4 or 8 bytes *)
Definition plain_target (dso : list fdef) : Prop :=
  forall d' o', In (d', o') (layout dso) -> (length (df_name d') < 32)%nat /\ (real_kind (df_style d') = true -> df_len d' = 4 \/ df_len d' = 8).

