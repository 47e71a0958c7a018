(** Model of the step-wise table compressor: src/core/zip/sis_incrzip.c. *)
From Verif Require Import Base M_bits M_dynamic M_incrzip.

(** Configuration: key count (sis_incrzip_set_key, sis_incrzip.c:74-79), tables
    (sis_incrzip_set_sdb, 80-91) and zip_size (compress_start, 149). *)
Record zcfg := mkzcfg { zkeys : nat; ztables : list table; zsize : nat }.

(** previous-value memory, one slot per (key, table): s_->cur_memory addressed by
    _sis_incrzip_get_curmem, sis_incrzip.c:126-133 *)
Definition slots := nat -> nat -> slot.

(** _incrzip_memory_init, sis_incrzip.c:27-32: all zero *)
Definition zero_slots (c : zcfg) : slots :=
  fun _ s => mkslot false (repeat 0 (match nth_error (ztables c) s with Some t => tsize t | None => O end)).

Definition set_slot (m : slots) (k s : nat) (v : slot) : slots :=
  fun k' s' => if (Nat.eqb k' k && Nat.eqb s' s)%bool then v else m k' s'.

(** Encoder part of s_sis_incrzip_class, sis_incrzip.h:52-79.  [e_init] is zip_init:
    Some b = 1/0, None = 2.  [e_out] lists the packets passed to cb_compress. *)
Record enc := mkenc {
  e_slots : slots; e_s : bstream; e_init : option bool; e_bags : Z; e_bagsize : nat;
  e_out : list (list Z) }.

(** sis_incrzip_compress_start, sis_incrzip.c:137-161.  Simplification: C allocates
    maxdbsize + 256 bytes more than zip_size as slack; the model's buffer is zip_size. *)
Definition enc_start (c : zcfg) : enc :=
  mkenc (zero_slots c) (mkbs (repeat 0 (zsize c)) 0) (Some true) 0 0 [].

Definition enc_size (e : enc) : nat := zgetsize (e_s e) (e_bagsize e).

(** cb_compress followed by _incrzip_compress_next, sis_incrzip.c:182-187 *)
Definition enc_emit (e : enc) : enc :=
  mkenc (e_slots e) (mkbs (bdat (e_s e)) 0) (e_init e) 0 0
        (e_out e ++ [firstn (enc_size e) (bdat (e_s e))]).

Inductive zop :=
| ZStep (kidx sidx : nat) (recs : list (list Z))
| ZRestart (init : bool).

(** sis_incrzip_compress_step, sis_incrzip.c:359-400.  The boolean is false for the
    rejections -2, -3 and -5.  Simplification: the input is given as whole records, which
    leaves out the -4 check.  None = the compressor ran outside its buffer. *)
Definition enc_step (c : zcfg) (e : enc) (kidx sidx : nat) (recs : list (list Z))
  : option (enc * bool) :=
  match nth_error (ztables c) sidx with
  | None => Some (e, false)
  | Some t =>
    if negb (Nat.ltb kidx (zkeys c)) then Some (e, false)
    else
      let newsize := (length recs * tsize t + length recs * 8 + 256)%nat in
      if Nat.ltb (zsize c) newsize then Some (e, false)
      else
        let e1 := if Nat.ltb (zsize c) (enc_size e + newsize)
                  then let e' := enc_emit e in
                       mkenc (e_slots e') (e_s e') (Some false) (e_bags e') (e_bagsize e') (e_out e')
                  else e in
        match zbag (e_s e1) (e_init e1) (e_slots e1 kidx sidx) (Z.of_nat kidx) (Z.of_nat sidx) t recs with
        | None => None
        | Some (s, sl) =>
          match zset_bags s (e_bags e1 + 1) with
          | None => None
          | Some (s', n) =>
            Some (mkenc (set_slot (e_slots e1) kidx sidx sl) s' None (e_bags e1 + 1) n (e_out e1), true)
          end
        end
  end.

(** sis_incrzip_compress_restart, sis_incrzip.c:189-212 *)
Definition enc_restart (c : zcfg) (e : enc) (init : bool) : enc :=
  let e1 := if Nat.ltb 0 (enc_size e)
            then let e' := enc_emit e in
                 mkenc (e_slots e') (e_s e') (if init then e_init e' else Some false)
                       (e_bags e') (e_bagsize e') (e_out e')
            else e in
  if init then mkenc (zero_slots c) (e_s e1) (Some true) (e_bags e1) (e_bagsize e1) (e_out e1)
  else e1.

(** a history of calls; also returns which steps were accepted *)
Fixpoint enc_run (c : zcfg) (e : enc) (ops : list zop) : option (enc * list bool) :=
  match ops with
  | [] => Some (e, [])
  | ZRestart b :: ops' =>
    match enc_run c (enc_restart c e b) ops' with
    | Some (e', bs) => Some (e', true :: bs) | None => None end
  | ZStep k s recs :: ops' =>
    match enc_step c e k s recs with
    | None => None
    | Some (e1, b) =>
      match enc_run c e1 ops' with Some (e', bs) => Some (e', b :: bs) | None => None end
    end
  end.

(** sis_incrzip_compress_stop, sis_incrzip.c:214-231: the packets handed to the caller *)
Definition enc_stop (e : enc) : list (list Z) :=
  if Nat.ltb 0 (enc_size e) then e_out e ++ [firstn (enc_size e) (bdat (e_s e))] else e_out e.

(** ** Decoder *)

(** Decoder part of the class.  [d_catch] is unzip_catch (uninitialised at first);
    [d_out] lists the calls of cb_uncompress. *)
Record dec := mkdec { d_slots : slots; d_catch : list Z; d_out : list (nat * nat * list Z) }.

(** sis_incrzip_uncompress_start, sis_incrzip.c:432-448 *)
Definition dec_start (c : zcfg) (catch : list Z) : dec := mkdec (zero_slots c) catch [].

(** the loop over records of a bag, sis_incrzip.c:615-636 *)
Fixpoint dec_recs (s : bstream) (d : dec) (zip : bool) (k sx : nat) (t : table) (count : nat)
  : option (bstream * dec) :=
  match count with
  | O => Some (s, d)
  | S count' =>
    let sl := d_slots d k sx in
    if negb (Nat.leb (tsize t) (length (d_catch d))) then None
    else
    match zget_rec s (if zip then Some (smem sl) else None) (tfields t) (firstn (tsize t) (d_catch d)) with
    | None => None
    | Some (r, s') =>
      let catch := r ++ skipn (tsize t) (d_catch d) in
      let d' := if (zip && negb (sseen sl))%bool then mkdec (d_slots d) catch (d_out d)
                else mkdec (set_slot (d_slots d) k sx (mkslot true r)) catch (d_out d ++ [(k, sx, r)]) in
      dec_recs s' d' zip k sx t count'
    end
  end.

(** one bag, sis_incrzip.c:594-637.  An unknown table or key is a null dereference when
    the bag has records. *)
Definition dec_bag (c : zcfg) (s : bstream) (d : dec) : option (bstream * dec) :=
  match bget s 1 with
  | None => None
  | Some (zip, s1) =>
    match bget_uint s1 with
    | None => None
    | Some (k, s2) =>
      match bget_uint s2 with
      | None => None
      | Some (sx, s3) =>
        match bget_uint s3 with
        | None => None
        | Some (cnt, s4) =>
          let count := Z.to_nat (to_s 32 cnt) in
          match count with
          | O => Some (s4, d)
          | _ =>
            if (k <? Z.of_nat (zkeys c)) && (sx <? Z.of_nat (length (ztables c))) then
              match nth_error (ztables c) (Z.to_nat sx) with
              | None => None
              | Some t => dec_recs s4 d (negb (zip =? 0)) (Z.to_nat k) (Z.to_nat sx) t count
              end
            else None
          end
        end
      end
    end
  end.

(** the loop over bags, sis_incrzip.c:593-638 *)
Fixpoint dec_bags (c : zcfg) (n : nat) (s : bstream) (d : dec) : option (bstream * dec) :=
  match n with
  | O => Some (s, d)
  | S n' => match dec_bag c s d with Some (s', d') => dec_bags c n' s' d' | None => None end
  end.

(** sis_incrzip_uncompress_step, sis_incrzip.c:576-640 *)
Definition dec_step (c : zcfg) (d : dec) (pkt : list Z) : option dec :=
  match zget_bags pkt with
  | None => None
  | Some bags =>
    if bags <? 1 then Some d
    else
      match bget (mkbs pkt 0) 1 with
      | None => None
      | Some (_, s1) =>
        match dec_bags c (Z.to_nat bags) s1 d with Some (_, d') => Some d' | None => None end
      end
  end.

Fixpoint dec_run (c : zcfg) (d : dec) (pkts : list (list Z)) : option dec :=
  match pkts with
  | [] => Some d
  | p :: pkts' => match dec_step c d p with Some d' => dec_run c d' pkts' | None => None end
  end.
