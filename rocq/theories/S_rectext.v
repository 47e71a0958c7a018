(** Specification of records as JSON texts (C74): which JSON value stands for which records of a table. *)
From Verif Require Import Base S_server S_map S_table S_json.

(** whole numbers of 1, 2, 4 or 8 bytes and texts, none repeated *)
Definition simple_def (d : fdef) : Prop :=
  df_count d = 1 /\ (whole_kind (df_style d) = true /\ whole_len (df_len d) = true \/ df_style d = K_CHAR).
Definition simple_table (ds : list fdef) : Prop :=
  distinct_names ds /\ total ds < 65536 /\ Forall (fun d => good_def d = true -> simple_def d) ds.

(** [s] is the number [z] in decimal *)
Definition spells (z : Z) (s : list Z) : Prop :=
  0 <= z /\ is_dec z s \/ z < 0 /\ exists s', s = 45 :: s' /\ is_dec (- z) s'.
(** [s] with zeros up to [n] bytes; longer texts are cut *)
Definition filled (n : nat) (s : list Z) : list Z := firstn n (s ++ repeat 0 n).
(** the value [v] stands for the bytes [b] of a field like [d]; numbers are reduced to the width *)
Definition cell (d : fdef) (b : list Z) (v : jv) : Prop :=
  if df_style d =? K_CHAR then exists s, v = JStr s /\ Forall (fun c => c <> 0) s /\ b = filled (Z.to_nat (df_len d)) s
  else exists z s, v = JNum s /\ spells z s /\ - 2 ^ 63 <= z < 2 ^ 63 /\ le_val b = z mod 2 ^ (8 * df_len d).
Definition field_bytes (rec : list Z) (x : fdef * Z) : list Z := bytes_at rec (Z.to_nat (snd x)) (Z.to_nat (df_len (fst x))).
(** a record: an array with one value for every field *)
Definition row (ds : list fdef) (rec : list Z) (v : jv) : Prop :=
  exists l, v = JArr l /\ Forall2 (fun x e => cell (fst x) (field_bytes rec x) e) (layout ds) l.
(** records: an array of such arrays, or the array of a single record *)
Definition rows (ds : list fdef) (recs : list (list Z)) (v : jv) : Prop :=
  (exists rec, recs = [rec] /\ row ds rec v) \/
  (recs <> [] /\ exists l, v = JArr l /\ Forall2 (row ds) recs l).
(** a record: an object with values under the names of fields, ignoring case; the first one of a name counts, fields not given are zero *)
Definition named_row (ds : list fdef) (rec : list Z) (v : jv) : Prop :=
  exists l, v = JObj l /\ Forall (fun x =>
    match find (fun kv => same_name (fst kv) (df_name (fst x))) l with
    | Some kv => cell (fst x) (field_bytes rec x) (snd kv)
    | None => field_bytes rec x = repeat 0 (Z.to_nat (df_len (fst x)))
    end) (layout ds).
(** names that are looked up as they are: without a point, at most 31 bytes *)
Definition short_names (ds : list fdef) : Prop := Forall (fun d => ~ In 46 (df_name d) /\ (length (df_name d) <= 31)%nat) ds.
Definition record (ds : list fdef) (rec : list Z) : Prop := Forall is_byte rec /\ Z.of_nat (length rec) = total ds.

(** the value shown for a field: the number it stands for, or the text before the first zero *)
Fixpoint before0 (l : list Z) : list Z := match l with [] => [] | c :: r => if c =? 0 then [] else c :: before0 r end.
Definition shown (d : fdef) (b : list Z) (v : jv) : Prop :=
  if df_style d =? K_CHAR then v = JStr (before0 b) else exists s, v = JNum s /\ spells (number (df_style d) (df_len d) b) s.
Definition shown_row (ds : list fdef) (rec : list Z) (v : jv) : Prop :=
  exists l, v = JArr l /\ Forall2 (fun x e => shown (fst x) (field_bytes rec x) e) (layout ds) l.
Definition shown_rows (ds : list fdef) (recs : list (list Z)) (v : jv) : Prop :=
  match recs with [rec] => shown_row ds rec v | _ => exists l, v = JArr l /\ Forall2 (shown_row ds) recs l end.
(** what can be shown: numbers inside the signed 64 bits, texts of plain bytes and quotes *)
Definition showable (ds : list fdef) (rec : list Z) : Prop :=
  record ds rec /\ Forall (fun x =>
    if df_style (fst x) =? K_CHAR then Forall (fun c => plain c \/ c = 34) (before0 (field_bytes rec x))
    else - 2 ^ 63 < number (df_style (fst x)) (df_len (fst x)) (field_bytes rec x) < 2 ^ 63) (layout ds).
(** nothing but zeros behind the first zero of a text *)
Definition clean (ds : list fdef) (rec : list Z) : Prop :=
  Forall (fun x => df_style (fst x) = K_CHAR -> field_bytes rec x = filled (Z.to_nat (df_len (fst x))) (before0 (field_bytes rec x))) (layout ds).
