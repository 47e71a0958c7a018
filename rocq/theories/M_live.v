(** Model of the live stream of a day: workers/snodb/snodb.c 337-498, 531-575 and 612-653 (set, start, stop,
    zpub, sub, unsub), snodb_reader.c 17-99 (new subscriptions), 474-567 (lists of subscribers, what a
    subscriber's thread sends on), 594-677 (the filter of a subscriber), 679-798 (beginning and end of
    a subscription), and workers/sisdb_server/sisdb_incr.c.

    The server's commands run one after the other, step by step; between their steps the threads of
    the subscribers run, one block per step.  [l_outs] are all blocks ever published, [l_base] the
    first still held; C35 is about the list itself.  Simplified: blocks and packets are their records
    (C09 is about packing); what a subscriber's own packer sends out is one packet per block read;
    a block is known by its place instead of its address; catch-size is set, so that
    sis_lock_list_clear clears; the message 'waiting' sent once the list is read is left out, and so
    are ipub and pub (whose records a packing thread turns into blocks), the log and the clock in
    cmd_snodb_sub; every subscriber asks for the day itself. *)
From Coq Require Import ZArith List Bool Lia.
From Verif Require Import Base S_server M_server S_sub M_sub S_live.
Import ListNotations.
Open Scope Z_scope.

(** SIS_SUB_STATUS_NONE, _INIT, _WORK, _STOP of the server and of a subscriber *)
Inductive stat := StNone | StInit | StWork | StStop.
(** a subscriber's unpacker and packer: the names of each; [z_first]: zip_init *)
Record zipers := mkz { z_first : bool; z_uk : list str; z_us : list str; z_zk : list str; z_zs : list str }.
(** s_snodb_reader, snodb.h:39-84; [d_cur]: how many blocks its thread has read, None: no thread;
    [d_from], [d_in] are for the observer: the first block held when it began, its messages since it
    subscribed or the day started *)
Record rd := mkrd {
  d_cid : Z; d_kpat : str; d_spat : str; d_zip : bool; d_head : bool;
  d_stat : stat; d_isinit : bool; d_zs : option zipers; d_cur : option nat;
  d_from : nat; d_in : list msg }.
(** where the command in work stands *)
Inductive lpc :=
| PIdle
| PBegin (cs : list Z) (b : lblock)   (* _snodb_write_init: subscribers still to begin, then block b *)
| PNear (b : lblock)                  (* _snodb_write_incrzip, before near_object *)
| PPush (b : lblock)                  (* before sis_lock_list_push *)
| PStop (cs : list Z)                 (* cmd_snodb_stop: subscribers still to end *)
| PStop1 (c : Z) (cs : list Z)        (* cb_sub_stop of c was called *)
| PStop2 (c : Z) (cs : list Z).       (* its packer and unpacker are gone *)
(** s_snodb_cxt, snodb.h:90-143; [l_day] for the observer: number of blocks before the day *)
Record lst := mkl {
  l_stat : stat; l_keys : option (list str); l_sdbs : option (list str); l_date : Z;
  l_outs : list lblock; l_base : nat; l_near : option nat; l_rds : list rd; l_ncur : nat; l_pc : lpc;
  l_day : nat; l_bad : bool }.
Definition l0 (date : Z) : lst := mkl StNone None None date [] 0 None [] 0 PIdle 0 false.

Definition with_pc (s : lst) (p : lpc) : lst :=
  mkl (l_stat s) (l_keys s) (l_sdbs s) (l_date s) (l_outs s) (l_base s) (l_near s) (l_rds s) (l_ncur s) p (l_day s) (l_bad s).
Definition with_rds (s : lst) (l : list rd) : lst :=
  mkl (l_stat s) (l_keys s) (l_sdbs s) (l_date s) (l_outs s) (l_base s) (l_near s) l (l_ncur s) (l_pc s) (l_day s) (l_bad s).
Definition with_ncur (s : lst) (n : nat) : lst :=
  mkl (l_stat s) (l_keys s) (l_sdbs s) (l_date s) (l_outs s) (l_base s) (l_near s) (l_rds s) n (l_pc s) (l_day s) (l_bad s).
Definition with_bad (s : lst) : lst :=
  mkl (l_stat s) (l_keys s) (l_sdbs s) (l_date s) (l_outs s) (l_base s) (l_near s) (l_rds s) (l_ncur s) (l_pc s) (l_day s) true.
Definition find_rd (s : lst) (c : Z) : option rd := find (fun r => d_cid r =? c) (l_rds s).
Definition set_rd (s : lst) (c : Z) (r' : rd) : lst :=
  with_rds s (map (fun r => if d_cid r =? c then r' else r) (l_rds s)).
Definition say (r : rd) (ms : list msg) : rd :=
  mkrd (d_cid r) (d_kpat r) (d_spat r) (d_zip r) (d_head r) (d_stat r) (d_isinit r) (d_zs r) (d_cur r) (d_from r) (d_in r ++ ms).
Definition is_stat (a b : stat) : bool :=
  match a, b with StNone, StNone | StInit, StInit | StWork, StWork | StStop, StStop => true | _, _ => false end.

(** sub_whole, snodb_reader.c:71-78 *)
Definition whole (r : rd) : bool := casecmp (d_kpat r) [STAR] && casecmp (d_spat r) [STAR].
(** sis_match_key, sis_utils.c:579-609, and snodb_reader.c:699-703: without a match all keys *)
Definition match_keys (pat : str) (keys : list str) : list str :=
  if casecmp pat [STAR] then keys
  else match filter (fun k => subcmp false k (Some pat)) keys with [] => keys | l => l end.
(** sis_match_sdb_of_sds, sis_utils.c:640-678 *)
Definition match_sdbs (pat : str) (sdbs : list str) : list str :=
  if casecmp pat [STAR] then sdbs else filter (fun k => subcmp true k (Some pat)) sdbs.
(** sis_map_list_get_index by sisdb_incr_get_kidx and _sidx, sisdb_incr.c:76-83: names ignore case *)
Fixpoint index_of (l : list str) (k : str) : option nat :=
  match l with
  | [] => None
  | x :: l' => if casecmp x k then Some O else match index_of l' k with Some n => Some (S n) | None => None end
  end.

(** cb_decode, snodb_reader.c:609-677, the part for packed answers: Some (Some _) goes to the packer,
    Some None is left out; None: a name is read through a null pointer, sisdb_incr.c:88-92 *)
Definition dec_zip (z : zipers) (r : lrec) : option (option lrec) :=
  let '(i, j, p) := r in
  match nth_error (z_us z) j with
  | None => None
  | Some s =>
    match nth_error (z_uk z) i with
    | None => Some None
    | Some k =>
      match index_of (z_zk z) k, index_of (z_zs z) s with
      | Some a, Some b => Some (Some (a, b, p))
      | _, _ => Some None
      end
    end
  end.
(** the part for single records, 614-641: the table is looked up with sisdb_incr_get_kidx, 629 *)
Definition dec_one (z : zipers) (r : lrec) : option (option named) :=
  let '(i, j, p) := r in
  match nth_error (z_us z) j with
  | None => None
  | Some s =>
    match nth_error (z_uk z) i with
    | None => Some None
    | Some k =>
      match index_of (z_zk z) k, index_of (z_zk z) s with
      | Some _, Some _ => Some (Some (k, s, p))
      | _, _ => Some None
      end
    end
  end.
Fixpoint dec_all {A} (f : lrec -> option (option A)) (l : list lrec) : option (list A) :=
  match l with
  | [] => Some []
  | r :: l' =>
    match f r, dec_all f l' with
    | Some (Some x), Some xs => Some (x :: xs)
    | Some None, Some xs => Some xs
    | _, _ => None
    end
  end.

Definition with_z (r : rd) (z : zipers) : rd :=
  mkrd (d_cid r) (d_kpat r) (d_spat r) (d_zip r) (d_head r) (d_stat r) (d_isinit r) (Some z) (d_cur r) (d_from r) (d_in r).
(** cb_output_reader_send, snodb_reader.c:512-529; sisdb_incr_unzip_set, sisdb_incr.c:113-121: at the end of
    a block the packer sends what it has, sis_incrzip.c:188-212; None: a null pointer *)
Definition send (r : rd) (b : lblock) : option rd :=
  if whole r then Some (if d_zip r then say r [MZip (b_init b) (b_recs b)] else r)
  else match d_zs r with
  | None => None
  | Some z =>
    if d_zip r then
      match dec_all (dec_zip z) (b_recs b) with
      | None => None
      | Some [] => Some r
      | Some out => Some (say (with_z r (mkz false (z_uk z) (z_us z) (z_zk z) (z_zs z))) [MZip (z_first z) out])
      end
    else
      match dec_all (dec_one z) (b_recs b) with
      | None => None
      | Some out => Some (say r (map MPub out))
      end
  end.
Definition with_init (r : rd) : rd :=
  mkrd (d_cid r) (d_kpat r) (d_spat r) (d_zip r) (d_head r) (d_stat r) true (d_zs r) (d_cur r) (d_from r) (d_in r).
(** cb_output_reader, snodb_reader.c:530-567; [near]: near_object is this block *)
Definition recv (r : rd) (b : lblock) (near : bool) : option rd :=
  if d_isinit r then send r b
  else if negb (b_init b) then Some r
  else if d_head r || near then send (with_init r) b else Some r.
Definition with_cur (r : rd) (c : option nat) : rd :=
  mkrd (d_cid r) (d_kpat r) (d_spat r) (d_zip r) (d_head r) (d_stat r) (d_isinit r) (d_zs r) c (d_from r) (d_in r).

(** one block by the thread of subscriber [c]; reading a block that is no longer held or a null
    pointer sets [l_bad] *)
Definition read_step (s : lst) (c : Z) : option lst :=
  match find_rd s c with
  | None => None
  | Some r =>
    match d_cur r with
    | None => None
    | Some n =>
      match nth_error (l_outs s) n with
      | None => None
      | Some b =>
        if (n <? l_base s)%nat then Some (with_bad s)
        else match recv r b (match l_near s with Some x => (x =? n)%nat | None => false end) with
             | None => Some (with_bad s)
             | Some r' => Some (set_rd s c (with_cur r' (Some (S n))))
             end
      end
    end
  end.

(** snodb_reader_realtime_start, snodb_reader.c:679-764, and snodb.c:569: status *)
Definition begin_rd (s : lst) (keys sdbs : list str) (r : rd) : rd :=
  let zk := if whole r then keys else match_keys (d_kpat r) keys in
  let zs := if whole r then sdbs else match_sdbs (d_spat r) sdbs in
  let from := match d_cur r with None => l_base s | Some c => c end in
  mkrd (d_cid r) (d_kpat r) (d_spat r) (d_zip r) (d_head r) StWork false
    (if whole r then d_zs r else Some (mkz true keys sdbs zk zs)) (Some from) from
    (d_in r ++ [MStart (l_date s); MKeys zk; MSdbs zs]).

(** snodb_reader_realtime_stop, snodb_reader.c:766-798, in three steps, and snodb.c:450 *)
Definition end1 (s : lst) (r : rd) : rd := say r [MStop (l_date s)].
Definition end2 (r : rd) : rd :=
  mkrd (d_cid r) (d_kpat r) (d_spat r) (d_zip r) (d_head r) (d_stat r) (d_isinit r)
    (if whole r then d_zs r else None) (d_cur r) (d_from r) (d_in r).
Definition end3 (r : rd) : rd :=
  mkrd (d_cid r) (d_kpat r) (d_spat r) (d_zip r) (d_head r) StStop (d_isinit r) (d_zs r) None (d_from r) (d_in r).

(** the next step of the command in work *)
Definition go_step (s : lst) : option lst :=
  match l_pc s with
  | PIdle => None
  | PBegin [] b => Some (with_pc s (PNear b))
  | PBegin (c :: cs) b => (* snodb.c:560-571 *)
    match find_rd s c, l_keys s, l_sdbs s with
    | Some r, Some ks, Some ss =>
      if is_stat (d_stat r) StInit
      then Some (with_ncur (with_pc (set_rd s c (begin_rd s ks ss r)) (PBegin cs b)) (S (l_ncur s)))
      else Some (with_pc s (PBegin cs b))
    | _, _, _ => None
    end
  | PNear b => (* snodb.c:489-494 *)
    Some (with_pc (mkl (l_stat s) (l_keys s) (l_sdbs s) (l_date s) (l_outs s) (l_base s)
      (if b_init b then Some (length (l_outs s)) else l_near s) (l_rds s) (l_ncur s) (l_pc s) (l_day s) (l_bad s)) (PPush b))
  | PPush b => (* snodb.c:495 *)
    Some (with_pc (mkl (l_stat s) (l_keys s) (l_sdbs s) (l_date s) (l_outs s ++ [b]) (l_base s) (l_near s) (l_rds s)
      (l_ncur s) (l_pc s) (l_day s) (l_bad s)) PIdle)
  | PStop [] => (* snodb.c:454; the status is not changed, 455 *)
    Some (with_ncur (with_pc s PIdle) 0)
  | PStop (c :: cs) => (* snodb.c:442-452 *)
    match find_rd s c with
    | None => None
    | Some r => if is_stat (d_stat r) StStop then Some (with_pc s (PStop cs))
                else Some (with_pc (set_rd s c (end1 s r)) (PStop1 c cs))
    end
  | PStop1 c cs =>
    match find_rd s c with None => None | Some r => Some (with_pc (set_rd s c (end2 r)) (PStop2 c cs)) end
  | PStop2 c cs =>
    match find_rd s c with None => None | Some r => Some (with_pc (set_rd s c (end3 r)) (PStop cs)) end
  end.

(** commands of the server, a step of the command in work, a step of a subscriber's thread, and the
    list letting go of blocks all open readers have passed *)
Inductive lact :=
| ASetKeys (ks : list str) | ASetSdbs (ss : list str) | AStart (d : Z) | AStop | AZpub (b : lblock)
| ASub (c : Z) (kpat spat : str) (zip head : bool) | AUnsub (c : Z)
| AGo | ARead (c : Z) | ATrim (n : nat).

(** _snodb_write_start, snodb.c:362-387 *)
Definition start_rd (r : rd) : rd :=
  mkrd (d_cid r) (d_kpat r) (d_spat r) (d_zip r) (d_head r) StInit (d_isinit r) (d_zs r) (d_cur r) (d_from r) [].
Definition do_start (s : lst) (d : Z) : lst :=
  mkl StInit (l_keys s) (l_sdbs s) d (l_outs s) (length (l_outs s)) None (map start_rd (l_rds s)) 0 (l_pc s)
    (length (l_outs s)) (l_bad s).
(** _snodb_write_init, snodb.c:531-556, up to the loop *)
Definition do_zpub (s : lst) (b : lblock) : lst :=
  match l_stat s, l_keys s, l_sdbs s with
  | StNone, _, _ | StStop, _, _ => s
  | StInit, None, _ | StInit, _, None => s
  | _, _, _ =>
    with_pc (mkl StWork (l_keys s) (l_sdbs s) (l_date s) (l_outs s) (l_base s) (l_near s) (l_rds s) (l_ncur s) (l_pc s) (l_day s) (l_bad s))
      (PBegin (if (length (l_rds s) <=? l_ncur s)%nat then [] else map d_cid (l_rds s)) b)
  end.
(** snodb_register_reader, snodb_reader.c:17-99, snodb_reader_new_realtime, 474-485: a number that has a
    subscription keeps the old one; with the status STOP the answer is read from files, 80-90 *)
Definition do_sub (s : lst) (c : Z) (kpat spat : str) (zip head : bool) : lst :=
  match kpat, spat with
  | [], _ | _, [] => s
  | _, _ =>
    if is_stat (l_stat s) StStop then s
    else match find_rd s c with
    | Some _ => s
    | None => with_rds s (l_rds s ++ [mkrd c kpat spat zip head StInit false None None 0 []])
    end
  end.
(** snodb_remove_reader, snodb_reader.c:487-509 *)
Definition do_unsub (s : lst) (c : Z) : lst :=
  match find_rd s c with
  | None => s
  | Some _ => with_ncur (with_rds s (filter (fun r => negb (d_cid r =? c)) (l_rds s))) (pred (l_ncur s))
  end.
Definition do_trim (s : lst) (n : nat) : option lst :=
  if ((l_base s <=? n) && (n <=? length (l_outs s)) &&
      forallb (fun r => match d_cur r with Some c => n <=? c | None => true end) (l_rds s))%nat
  then Some (mkl (l_stat s) (l_keys s) (l_sdbs s) (l_date s) (l_outs s) n (l_near s) (l_rds s) (l_ncur s) (l_pc s) (l_day s) (l_bad s))
  else None.

Definition lstep (s : lst) (a : lact) : option lst :=
  match a with
  | AGo => go_step s
  | ARead c => read_step s c
  | ATrim n => do_trim s n
  | _ =>
    match l_pc s with
    | PIdle =>
      Some match a with
      | ASetKeys ks => mkl (l_stat s) (Some ks) (l_sdbs s) (l_date s) (l_outs s) (l_base s) (l_near s) (l_rds s) (l_ncur s) (l_pc s) (l_day s) (l_bad s)
      | ASetSdbs ss => mkl (l_stat s) (l_keys s) (Some ss) (l_date s) (l_outs s) (l_base s) (l_near s) (l_rds s) (l_ncur s) (l_pc s) (l_day s) (l_bad s)
      | AStart d => do_start s d
      | AStop => (* snodb.c:419-422 *)
        match l_stat s with StNone | StStop => s | _ => with_pc s (PStop (map d_cid (l_rds s))) end
      | AZpub b => do_zpub s b
      | ASub c kpat spat zip head => do_sub s c kpat spat zip head
      | AUnsub c => do_unsub s c
      | _ => s
      end
    | _ => None
    end
  end.
Fixpoint lrun (s : lst) (l : list lact) : option lst :=
  match l with [] => Some s | a :: l' => match lstep s a with Some s' => lrun s' l' | None => None end end.

(** the blocks published since the day started *)
Definition pubs (s : lst) : list lblock := skipn (l_day s) (l_outs s).
(** every open subscriber has read all blocks *)
Definition quiet (s : lst) : bool :=
  forallb (fun r => match d_cur r with Some c => (c =? length (l_outs s))%nat | None => true end) (l_rds s).
