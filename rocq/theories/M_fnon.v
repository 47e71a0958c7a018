(** Model of a sisdb key of style NON: records without a time field, workers/sisdb/sisdb_fmap.c,
    sisdb_fmap_read.c.  The file opened at the start holds [disk] for the key (None: nothing); a unit
    exists (sisdb_fmap_cxt_init, sisdb_fmap.c:115-154, makes one for each key on disk).  No saves
    happen in the histories looked at; no unique fields (field_solely->count = 0). *)
From Verif Require Import Base S_fnon.

Section Fnon.
Context {R : Type}.
Variable disk : option (list R).

(** the value, reads (uint8), writed and moved of s_sisdb_fmap_unit, sisdb_fmap.h:49-71 *)
Record nunit := mknunit { n_recs : list R; n_reads : Z; n_writed : bool; n_moved : bool }.

(** sisdb_fmap_cxt_read_data, case SIS_SDB_STYLE_NON, sisdb_fmap_read.c:260-278 *)
Definition nload (u : nunit) : nunit :=
  if n_reads u =? 0 then
    match disk with
    | Some l => mknunit l (n_reads u) (n_writed u) (n_moved u)
    | None => u
    end
  else u.

(** sisdb_fmap_cxt_update, sisdb_fmap.c:397-417 and :454-479 *)
Definition nwrite (u : nunit) (b : list R) : nunit :=
  let u := nload u in
  mknunit (n_recs u ++ b) (n_reads u) (if (0 <? length b)%nat then true else n_writed u) (n_moved u).

(** _fmap_calc_nots_count, sisdb_fmap.c:11-30, with *start_ = 0 on entry: Some (start, count), None for 0 *)
Definition nots (cstart ccount inums : Z) : option (Z * Z) :=
  let start := if cstart <? 0 then Z.max (inums + cstart) 0 else 0 in
  if start >=? inums then None
  else Some (start, if start + ccount >? inums then inums - start else ccount).

(** sisdb_fmap_cxt_read, sisdb_fmap.c:305-323 and :365-387 (no callback): the records pointed at, the unit after it *)
Definition nread (u : nunit) (cstart ccount : Z) : list R * nunit :=
  let u := nload u in
  let u' := mknunit (n_recs u) (to_u 8 (n_reads u + 1)) (n_writed u) (n_moved u) in
  match nots cstart ccount (Z.of_nat (length (n_recs u))) with
  | None => ([], u')
  | Some (start, n) => (firstn (Z.to_nat n) (skipn (Z.to_nat start) (n_recs u)), u')
  end.

(** sisdb_fmap_cxt_del, sisdb_fmap.c:518-530 and :561-577 *)
Definition ndel (u : nunit) (cstart ccount : Z) : nunit :=
  let u := nload u in
  let l := n_recs u in
  let l' := match nots cstart ccount (Z.of_nat (length l)) with
            | Some (start, n) => if 0 <? n then firstn (Z.to_nat start) l ++ skipn (Z.to_nat (start + n)) l else l
            | None => l
            end in
  mknunit l' (n_reads u) (n_writed u) (if (length l' =? 0)%nat then true else n_moved u).

Fixpoint nrun (u : nunit) (ops : list (nop R)) : list (list R) :=
  match ops with
  | [] => []
  | NWrite b :: r => nrun (nwrite u b) r
  | NRead s n :: r => let '(a, u') := nread u s n in a :: nrun u' r
  end.

(** a unit made by sisdb_fmap_cxt_init or _new: no records in memory, never read *)
Definition nstart : nunit := mknunit [] 0 false false.
End Fnon.
Arguments mknunit {R}. Arguments n_recs {R}. Arguments n_reads {R}. Arguments n_writed {R}. Arguments n_moved {R}.
