(** Properties C01, C02, C41: the memory buffer and its length prefixes. *)
From Verif Require Import Base S_memory M_memory L_memory.

(** C01.  [stale] is the arbitrary content of memory past the valid bytes. *)
Theorem C01_ssize_roundtrip : forall (stale : nat -> Z) m v tail,
  mem_reach m -> 0 <= v < 2 ^ 64 ->
  mem_live (mem_cat_ssize m v) = mem_live m ++ mem_live (mem_cat_ssize mem_create v)
  /\ length (mem_live (mem_cat_ssize mem_create v)) = ssize_ret v
  /\ exists m',
    mem_get_ssize stale
      (mem_move (mem_cat (mem_cat_ssize m v) tail) (length (mem_live m))) = Some (v, m')
    /\ mem_live m' = tail.
Proof. exact ssize_roundtrip_lemma. Qed.
Print Assumptions C01_ssize_roundtrip.

Example C01_example :
  mem_reach (mem_cat mem_create [1;2;3])
  /\ mem_get_ssize (fun _ => 77)
       (mem_move (mem_cat (mem_cat_ssize (mem_cat mem_create [1;2;3]) 65786) [9]) 3)
     = Some (65786, mkmem [1;2;3;253;250;0;1;0;9] 8 255).
Proof. split; [exists [OpAppend [1;2;3]]; reflexivity | vm_compute; reflexivity]. Qed.

(** C02. *)
Theorem C02_try_ssize_complete : forall (stale : nat -> Z) m v,
  mem_reach m -> 0 <= v < 2 ^ 64 ->
  (forall k, (k < length (mem_live (mem_cat_ssize mem_create v)))%nat ->
     mem_live m = firstn k (mem_live (mem_cat_ssize mem_create v)) -> mem_try_ssize m = false)
  /\ (forall tail, mem_live m = mem_live (mem_cat_ssize mem_create v) ++ tail ->
     mem_try_ssize m = true
     /\ exists m', mem_get_ssize stale m = Some (v, m') /\ mem_live m' = tail).
Proof. exact try_ssize_lemma. Qed.
Print Assumptions C02_try_ssize_complete.

Example C02_example :
  mem_reach (mem_cat mem_create [252; 7])
  /\ mem_live (mem_cat mem_create [252; 7]) = firstn 2 (mem_live (mem_cat_ssize mem_create 513))
  /\ mem_try_ssize (mem_cat mem_create [252; 7]) = false
  /\ mem_try_ssize (mem_cat mem_create [252; 7; 1]) = true.
Proof. split; [exists [OpAppend [252;7]]; reflexivity | vm_compute; auto]. Qed.

(** C41.  After any history of appends, skips and housekeeping, the unread bytes are
    those of a plain byte queue. *)
Theorem C41_buffer_is_byte_queue : forall os,
  mem_live (fold_left mem_step os mem_create) = queue_run [] os.
Proof. exact mem_queue_lemma. Qed.
Print Assumptions C41_buffer_is_byte_queue.

Example C41_example :
  mem_live (fold_left mem_step
    [OpAppend [1;2;3;4]; OpSkip 2; OpCompact; OpAppend [5]; OpReserve 300; OpSkip 1; OpCompact]
    mem_create) = [4;5].
Proof. vm_compute. reflexivity. Qed.
