(** C26, C27, C28: log files. *)
From Verif Require Import Base S_memory M_memory L_memory S_log M_log L_log.
From Coq Require Import ZifyBool ZifyNat.

Lemma whole_recs : forall thr ch rs n, recs_ok thr ch 0 rs -> recs_ok thr ch 0 (whole rec_size n rs).
Proof.
  intros thr ch rs n H o r I. destruct (whole_prefix rs n) as [rs' E]. apply H. rewrite E, starts_log. apply in_or_app. left. exact I.
Qed.
Lemma starts_last : forall rs pre r, rs = pre ++ [r] -> In (length (log_bytes pre), r) (starts rec_size 0 rs).
Proof. intros rs pre r ->. rewrite starts_log. apply in_or_app. right. left. reflexivity. Qed.

(** ** C26.  The log [rs] is cut at byte [n]; opening it keeps exactly the records wholly before the cut, and
    what is appended afterwards follows them.  Missing (see the refutations): records longer than
    65785 bytes whose length field is cut; records of more than 250 bytes whose head lies on the boundary of
    two 16 MB pieces (and records of 1 byte that lie on a boundary); files shorter than the file head. *)
Theorem C26_recover_partial : forall ch stale head rs n rs2, (1 <= ch)%nat -> (forall o i, is_byte (stale o i)) -> length head = HEAD_SIZE ->
  (forall o r, In (o, r) (starts rec_size 0 rs) ->
     Z.of_nat (length r) < 2 ^ 64 /\
     (Z.of_nat (length r) <= 250 \/ in_one_piece ch o (rec_size r - length r)) /\
     (Z.of_nat (length r) <= 65785 \/ (o + (rec_size r - length r) <= n)%nat \/ (n <= o)%nat) /\
     (length r <> 1%nat \/ in_one_piece ch o (rec_size r))) ->
  exists f, open_log ch stale (head ++ firstn n (log_bytes rs)) = Some f /\ f = head ++ log_bytes (whole rec_size n rs) /\
            append f rs2 = head ++ log_bytes (whole rec_size n rs ++ rs2).
Proof.
  intros ch stale head rs n rs2 C S L H.
  assert (R : recs_ok 2 ch 0 rs).
  { intros o r I. destruct (H o r I) as (H1 & H2 & _). split; [exact H1|]. unfold head_ok. rewrite <- hdr_sub.
    destruct H2 as [H2|H2]; [left; rewrite hdr_sub, hdr_small by exact H2; lia|right; exact H2]. }
  destruct (cut_log rs n) as (t & E & T).
  assert (T' : torn 2 ch (length (log_bytes (whole rec_size n rs))) t).
  { destruct T as [T|(r & k & T1 & T2 & T3 & T4)]; [left; exact T|]. destruct (H _ _ T1) as (H1 & H2 & H3 & _).
    destruct (R _ _ T1) as [_ H5]. destruct k as [|k]; [left; exact T2|]. right. exists r, (Datatypes.S k).
    split; [exact T2|]. split; [exact T3|]. split; [exact H1|]. split; [|exact H5].
    rewrite hdr_sub in H3. destruct H3 as [H3|[H3|H3]]; [left; apply hdr_middle, H3|right; lia|lia]. }
  assert (LO : last_ok 2 ch 0 (whole rec_size n rs)).
  { intros pre r X. split; [rewrite rec_size_eq; pose proof (hdr_ge r); lia|].
    destruct (whole_prefix rs n) as [rs' E']. pose proof (starts_last _ _ _ X) as I.
    destruct (H (length (log_bytes pre)) r) as (_ & _ & _ & H4); [rewrite E', starts_log; apply in_or_app; left; exact I|].
    destruct H4 as [H4|H4]; [|right; right; exact H4]. destruct (length r) as [|[|m]]; [left; reflexivity|congruence|right; left; lia]. }
  destruct (scan_spec 2 (fun h => negb (hid h =? HID_MSG_LOG)) stale ch ltac:(lia) eq_refl C S (whole rec_size n rs) t) as (s & A1 & A2 & A3);
    [apply whole_recs, R|exact LO|exact T'|].
  exists (head ++ log_bytes (whole rec_size n rs)). unfold open_log, seek_log. rewrite head_skip, E, A1, A2 by exact L.
  replace (length (head ++ log_bytes (whole rec_size n rs) ++ t) <? HEAD_SIZE)%nat with false by (rewrite app_length; lia).
  split; [|split; [reflexivity|rewrite append_log, log_app, app_assoc; reflexivity]].
  f_equal. rewrite app_assoc, <- L, <- app_length. apply firstn_app_exact.
Qed.
Print Assumptions C26_recover_partial.

(** a cut in the middle of the second record, and in its length field, whatever is left in the buffer *)
Example C26_recover_example : forall stale head, (forall o i, is_byte (stale o i)) -> length head = HEAD_SIZE ->
  let rs := [[1; 2; 3]; repeat 7 600; [9]] in
  open_log 1000 stale (head ++ firstn 100 (log_bytes rs)) = Some (head ++ log_bytes [[1; 2; 3]]) /\
  open_log 1000 stale (head ++ firstn 7 (log_bytes rs)) = Some (head ++ log_bytes [[1; 2; 3]]) /\
  open_log 1000 stale (head ++ firstn 610 (log_bytes rs)) = Some (head ++ log_bytes [[1; 2; 3]; repeat 7 600]).
Proof.
  intros stale head S L rs.
  assert (X : forall n, open_log 1000 stale (head ++ firstn n (log_bytes rs)) = Some (head ++ log_bytes (whole rec_size n rs))).
  { intros n. destruct (C26_recover_partial 1000 stale head rs n [] ltac:(lia) S L) as (f & F & -> & _); [|exact F].
    intros o r I. cbn [starts In] in I. destruct I as [I|[I|[I|[]]]]; apply pair_equal_spec in I; destruct I as [<- <-].
    - split; [vm_compute; reflexivity|]. split; [left; vm_compute; discriminate|]. split; [left; vm_compute; discriminate|]. left. vm_compute. discriminate.
    - split; [vm_compute; reflexivity|]. split; [right; vm_compute; reflexivity|]. split; [left; vm_compute; discriminate|]. left. vm_compute. discriminate.
    - split; [vm_compute; reflexivity|]. split; [left; vm_compute; discriminate|]. split; [left; vm_compute; discriminate|]. right. vm_compute. reflexivity. }
  rewrite !X. split; [|split]; vm_compute; reflexivity.
Qed.

(** A log cut inside a length field of 5 bytes: with zeros behind the end of the buffer it is taken for an
    empty record and kept.  The record appended next is not read any more. *)
Theorem C26_torn_length_refuted : exists r n r2 stale, (forall o i, is_byte (stale o i)) /\
  forall ch head, (100 <= ch)%nat -> length head = HEAD_SIZE ->
  whole rec_size n [r] = [] /\
  exists f, open_log ch stale (head ++ firstn n (log_bytes [r])) = Some f /\ f <> head /\ replay ch stale (append f [r2]) = Some [].
Proof.
  exists (repeat 7 (Z.to_nat 131072)), 4%nat, [1; 2; 3; 4; 5], (fun _ _ => 0). split; [intros; unfold is_byte; lia|].
  intros ch head C L. set (r := repeat 7 (Z.to_nat 131072)).
  assert (LR : Z.of_nat (length r) = 131072) by (unfold r; rewrite repeat_length; apply Z2Nat.id; discriminate).
  clearbody r.
  split; [cbn [whole]; rewrite rec_size_eq; replace (_ <=? 4)%nat with false by lia; reflexivity|].
  assert (F : firstn 4 (log_bytes [r]) = [33; 253; 0; 0]).
  { rewrite log_cons, rec_bytes_eq, LR. reflexivity. }
  rewrite F. exists (head ++ [33; 253; 0; 0]). split; [|split].
  - unfold open_log, seek_log. rewrite head_skip by exact L. replace (_ <? HEAD_SIZE)%nat with false by (rewrite app_length; lia).
    rewrite run_one by (cbn; lia || discriminate).
    replace (outer _ _ _ _ _) with (Some (mkscan [] true 33 0 3 4 [[]])) by (vm_compute; reflexivity).
    cbn [k_off]. rewrite <- L. f_equal. apply firstn_all2. rewrite app_length. cbn [length]. lia.
  - intros X. apply (f_equal (@length Z)) in X. rewrite app_length in X. cbn [length] in X. lia.
  - rewrite append_log, <- app_assoc. unfold replay. rewrite head_skip by exact L.
    replace ([33; 253; 0; 0] ++ log_bytes [[1; 2; 3; 4; 5]]) with [33; 253; 0; 0; 33; 5; 1; 2; 3; 4; 5] by (vm_compute; reflexivity).
    rewrite run_one by (cbn [length]; lia || discriminate). vm_compute. reflexivity.
Qed.
Print Assumptions C26_torn_length_refuted.

Lemma neg0 : forall n, (Z.of_nat n <? 0) = false.
Proof. intros. lia. Qed.

Lemma outer_cons : forall thr ao stale p ps s s2 stop, k_size s = 0 ->
  inner (S (length (k_live s ++ p))) thr ao stale (mkscan (k_live s ++ p) (k_line s) (k_head s) (k_size s) (k_ssize s) (k_off s) (k_out s)) = Some (s2, stop) ->
  outer thr ao stale (p :: ps) s = if stop then Some s2 else outer thr ao stale ps s2.
Proof. intros thr ao stale p ps s s2 stop Z0 I. cbn [outer]. cbn [k_live k_size] in *. rewrite Z0 at 1. rewrite neg0, I. reflexivity. Qed.

(** ** Records whose head lies on the boundary of two pieces *)
Lemma straddle : forall thr ao ch, (thr = 2 \/ thr = 4)%nat -> ao LOG_HEAD = false -> 70000 <= Z.of_nat ch < 2 ^ 32 ->
  let r0 := repeat 7 (ch - 10) in let r1 := repeat 7 (Z.to_nat 131072) in
  exists s, run_scan thr ao ch (fun _ _ => 0) (log_bytes [r0; r1]) = Some s /\ k_off s = (rec_size r0 + 4)%nat /\ k_out s = [r0; []].
Proof.
  intros thr ao ch T A C r0 r1. change (2 ^ 32) with 4294967296 in C.
  assert (L0 : length r0 = (ch - 10)%nat) by apply repeat_length.
  assert (L1 : Z.of_nat (length r1) = 131072) by (unfold r1; rewrite repeat_length; apply Z2Nat.id; discriminate).
  assert (H0 : rec_size r0 = (ch - 4)%nat) by (rewrite rec_size_eq, hdr_big by lia; lia).
  set (p := rec_bytes r0 ++ [33; 253; 0; 0]).
  assert (LP : length p = ch) by (unfold p; rewrite app_length; fold (rec_size r0); cbn [length]; lia).
  assert (B : log_bytes [r0; r1] = p ++ 2 :: 0 :: r1).
  { rewrite !log_cons, (rec_bytes_eq r1), L1. unfold p. rewrite <- app_assoc. cbn [log_bytes map concat]. rewrite app_nil_r. reflexivity. }
  clearbody r1. unfold run_scan. rewrite B.
  assert (P2 : exists a b x f, pieces (length (p ++ 2 :: 0 :: r1)) ch (p ++ 2 :: 0 :: r1) = p :: (2 :: 0 :: a :: b :: x) :: f).
  { rewrite app_length. cbn [length]. replace (length p + S (S (length r1)))%nat with (S (S (length p + length r1))) by lia.
    assert (PC : forall f (l : list Z), l <> [] -> pieces (S f) ch l = firstn ch l :: pieces f ch (skipn ch l))
      by (intros f [|z l] N; [contradiction|reflexivity]).
    assert (FP : firstn ch (p ++ 2 :: 0 :: r1) = p) by (rewrite <- LP; apply firstn_app_exact).
    assert (SP : skipn ch (p ++ 2 :: 0 :: r1) = 2 :: 0 :: r1) by (rewrite <- LP; apply skipn_app_exact).
    rewrite PC by (destruct p; discriminate). rewrite FP, SP, PC by discriminate. clear PC FP SP LP.
    destruct ch as [|[|[|[|ch']]]]; try lia. cbn [firstn skipn].
    destruct r1 as [|a [|b r1]]; cbn [length] in L1; try lia. cbn [firstn skipn]. eexists a, b, _, _. reflexivity. }
  destruct P2 as (a & b & x & f & ->).
  assert (I1 : inner (S (length p)) thr ao (fun _ _ => 0) (mkscan p true 0 0 0 0 []) =
               Some (mkscan [] true 33 0 3 (rec_size r0 + 4) [r0; []], false)).
  { unfold p at 2. rewrite inner_rec by (fold p; try exact A; lia). rewrite LP.
    destruct ch as [|[|ch']]; [lia|lia|]. cbn [inner k_live k_line].
    replace (length [33; 253; 0; 0] <? thr)%nat with false by (cbn [length]; lia). change (ao 33) with (ao LOG_HEAD). rewrite A.
    replace (get_ssize _ [253; 0; 0]) with (Some (0, @nil Z)) by (vm_compute; reflexivity).
    change (Z.of_nat (length (@nil Z)) <? 0) with false. change (negb (hid 33 =? HID_MSG_LOG)) with false.
    cbv iota. unfold take_rec. cbn [k_live k_line k_head k_size k_ssize k_off k_out Z.to_nat skipn firstn length Nat.sub].
    replace (0 <? thr)%nat with true by lia. cbv iota. cbn [app]. replace (0 + rec_size r0 + 1 + 3 + 0)%nat with (rec_size r0 + 4)%nat by lia. replace (4 <? thr)%nat with false by lia. reflexivity. }
  rewrite (outer_cons _ _ _ p _ scan0 _ _ eq_refl I1). cbv iota.
  assert (I2 : exists s2, inner (S (length (2 :: 0 :: a :: b :: x))) thr ao (fun _ _ => 0)
      (mkscan (2 :: 0 :: a :: b :: x) true 33 0 3 (rec_size r0 + 4) [r0; []]) = Some (s2, true) /\
      k_off s2 = (rec_size r0 + 4)%nat /\ k_out s2 = [r0; []]).
  { remember (length (2 :: 0 :: a :: b :: x)) as ln. cbn [inner k_live k_line]. rewrite <- Heqln.
    replace (ln <? thr)%nat with false by (rewrite Heqln; cbn [length]; lia).
    destruct (ao 2); [eexists; split; [reflexivity|split; reflexivity]|].
    change (0 :: a :: b :: x) with (ssize_bytes 0 ++ a :: b :: x). rewrite get_whole by lia.
    rewrite neg0. change (negb (hid 2 =? HID_MSG_LOG)) with true. cbv iota.
    eexists; split; [reflexivity|split; reflexivity]. }
  destruct I2 as (s2 & I2 & E2). exists s2. split; [|exact E2].
  rewrite (outer_cons _ _ _ (2 :: 0 :: a :: b :: x) f (mkscan [] true 33 0 3 (rec_size r0 + 4) [r0; []]) s2 true eq_refl I2). reflexivity.
Qed.

(** An intact log (nothing cut, every record longer than 1000 bytes), read in pieces of any size [ch] from
    70000 to 2^32: opening it destroys the second record. *)
Theorem C26_straddle_refuted : forall ch, 70000 <= Z.of_nat ch < 2 ^ 32 -> exists r0 r1 stale, (forall o i, is_byte (stale o i)) /\
  1000 <= Z.of_nat (length r0) /\ 1000 <= Z.of_nat (length r1) /\
  forall head, length head = HEAD_SIZE ->
  exists f, open_log ch stale (head ++ log_bytes [r0; r1]) = Some f /\ (length f < length (head ++ log_bytes [r0]) + length r1)%nat.
Proof.
  intros ch C. exists (repeat 7 (ch - 10)), (repeat 7 (Z.to_nat 131072)), (fun _ _ => 0). split; [intros; unfold is_byte; lia|].
  rewrite !repeat_length, Z2Nat.id by discriminate. split; [lia|]. split; [lia|]. intros head L.
  destruct (straddle 2 (fun h => negb (hid h =? HID_MSG_LOG)) ch ltac:(lia) eq_refl C) as (s & A1 & A2 & A3).
  eexists. unfold open_log, seek_log. rewrite head_skip, A1 by exact L.
  replace (_ <? HEAD_SIZE)%nat with false by (rewrite app_length; lia). split; [reflexivity|].
  rewrite A2, firstn_length.
  assert (E : length (head ++ log_bytes [repeat 7%Z (ch - 10)]) = (HEAD_SIZE + rec_size (repeat 7%Z (ch - 10)))%nat)
    by (rewrite app_length, L; unfold log_bytes, rec_size; cbn [map concat]; rewrite app_nil_r; reflexivity).
  rewrite E. assert (4 < Z.to_nat 131072)%nat by (apply Nat2Z.inj_lt; rewrite Z2Nat.id; [reflexivity|discriminate]). lia.
Qed.
Print Assumptions C26_straddle_refuted.

(** A new log: the head of the file and an acknowledged record are in the library's buffer when the process is
    killed.  The log is never opened for writing again. *)
Theorem C26_short_file_refuted : exists l r, written l = [r] /\
  forall ch stale head, length head = HEAD_SIZE ->
  open_log ch stale (after_kill (do_steps (mkstream [] head) l)) = None /\
  forall n, (n < HEAD_SIZE)%nat -> open_log ch stale (after_kill (do_steps (mkstream [] head) (l ++ [Flush n]))) = None.
Proof.
  exists [Write [1; 2; 3; 4]], [1; 2; 3; 4]. split; [reflexivity|]. intros ch stale head L. split; [reflexivity|].
  intros n N. cbn [do_steps fold_left app do_step after_kill f_sys f_buf fwrite fsync]. unfold open_log.
  replace (_ <? HEAD_SIZE)%nat with true; [reflexivity|]. rewrite firstn_length. symmetry. apply Nat.ltb_lt. lia.
Qed.
Print Assumptions C26_short_file_refuted.

(** ** C27.  Reading a log, whole or cut at byte [n]. *)
Lemma replay_spec : forall ch stale head rs t, (1 <= ch)%nat -> (forall o i, is_byte (stale o i)) -> length head = HEAD_SIZE ->
  (forall o r, In (o, r) (starts rec_size 0 rs) ->
     Z.of_nat (length r) < 2 ^ 64 /\ (Z.of_nat (length r) <= 65785 \/ in_one_piece ch o (rec_size r - length r))) ->
  last_ok 4 ch 0 rs -> torn 4 ch (length (log_bytes rs)) t -> replay ch stale (head ++ log_bytes rs ++ t) = Some rs.
Proof.
  intros ch stale head rs t C S L H LO T.
  destruct (scan_spec 4 (fun h => hid h =? HID_TAIL) stale ch ltac:(lia) eq_refl C S rs t) as (s & A1 & A2 & A3); [|exact LO|exact T|].
  - intros o r I. destruct (H o r I) as (H1 & H2). split; [exact H1|]. unfold head_ok. rewrite <- hdr_sub.
    destruct H2 as [H2|H2]; [left; rewrite hdr_sub; apply hdr_middle, H2|right; exact H2].
  - unfold replay. rewrite head_skip, A1, A3 by exact L. reflexivity.
Qed.

(** A whole log of any length.  Missing: a last record of 0 or 1 byte, or of 2 or 3 bytes on a boundary;
    records of more than 65785 bytes whose head lies on a boundary. *)
Theorem C27_replay_partial : forall ch stale head rs, (1 <= ch)%nat -> (forall o i, is_byte (stale o i)) -> length head = HEAD_SIZE ->
  (forall o r, In (o, r) (starts rec_size 0 rs) ->
     Z.of_nat (length r) < 2 ^ 64 /\ (Z.of_nat (length r) <= 65785 \/ in_one_piece ch o (rec_size r - length r))) ->
  (forall pre r, rs = pre ++ [r] -> (4 <= length r)%nat \/ (2 <= length r)%nat /\ in_one_piece ch (length (log_bytes pre)) (rec_size r)) ->
  replay ch stale (head ++ log_bytes rs) = Some rs.
Proof.
  intros ch stale head rs C S L H LA. rewrite <- (app_nil_r (log_bytes rs)). apply replay_spec; auto.
  - intros pre r E. pose proof (hdr_ge r). rewrite rec_size_eq at 1. destruct (LA pre r E) as [X|[X Y]]; (split; [lia|]); [right; left; exact X|right; right; exact Y].
  - left. reflexivity.
Qed.
Print Assumptions C27_replay_partial.

(** A log cut at byte [n]: the records wholly before the cut are delivered. *)
Theorem C27_torn_partial : forall ch stale head rs n, (1 <= ch)%nat -> (forall o i, is_byte (stale o i)) -> length head = HEAD_SIZE ->
  (forall o r, In (o, r) (starts rec_size 0 rs) ->
     Z.of_nat (length r) < 2 ^ 64 /\ (Z.of_nat (length r) <= 65785 \/ in_one_piece ch o (rec_size r - length r)) /\
     (Z.of_nat (length r) <= 65785 \/ (o + (rec_size r - length r) <= n)%nat \/ (n <= o)%nat) /\
     ((4 <= length r)%nat \/ (2 <= length r)%nat /\ in_one_piece ch o (rec_size r))) ->
  replay ch stale (head ++ firstn n (log_bytes rs)) = Some (whole rec_size n rs).
Proof.
  intros ch stale head rs n C S L H. destruct (cut_log rs n) as (t & E & T). destruct (whole_prefix rs n) as [rs' E'].
  assert (I : forall o r, In (o, r) (starts rec_size 0 (whole rec_size n rs)) -> In (o, r) (starts rec_size 0 rs)).
  { intros o r X. rewrite E', starts_log. apply in_or_app. left. exact X. }
  rewrite E. apply replay_spec; auto.
  - intros o r X. destruct (H o r (I o r X)) as (H1 & H2 & _). split; [exact H1|exact H2].
  - intros pre r X. destruct (H _ _ (I _ _ (starts_last _ _ _ X))) as (_ & _ & _ & H4). pose proof (hdr_ge r). rewrite rec_size_eq at 1.
    destruct H4 as [H4|[H4 H5]]; (split; [lia|]); [right; left; exact H4|right; right; exact H5].
  - destruct T as [T|(r & k & T1 & T2 & T3 & T4)]; [left; exact T|]. destruct (H _ _ T1) as (H1 & H2 & H3 & _).
    destruct k as [|k]; [left; exact T2|]. right. exists r, (Datatypes.S k). split; [exact T2|]. split; [exact T3|]. split; [exact H1|].
    rewrite hdr_sub in *. split.
    + destruct H3 as [H3|[H3|H3]]; [left; apply hdr_middle, H3|right; lia|lia].
    + destruct H2 as [H2|H2]; [left; apply hdr_middle, H2|right; exact H2].
Qed.
Print Assumptions C27_torn_partial.

(** pieces of 8 bytes: nearly every record and every head lies on a boundary *)
Example C27_replay_example : forall stale head, (forall o i, is_byte (stale o i)) -> length head = HEAD_SIZE ->
  let rs := [[]; [1]; repeat 7 300; [2; 3]; repeat 8 600; []; [4; 5; 6; 7]] in
  replay 8 stale (head ++ log_bytes rs) = Some rs.
Proof.
  intros stale head S L rs. apply C27_replay_partial; auto; [lia| |].
  - intros o r I. repeat (destruct I as [I|I]; [injection I as <- <-; split; [vm_compute; reflexivity|left; vm_compute; discriminate]|]). destruct I.
  - intros pre r E. left. change rs with ([[]; [1]; repeat 7 300; [2; 3]; repeat 8 600; []] ++ [[4; 5; 6; 7]]) in E.
    apply app_inj_tail in E. destruct E as [_ <-]. cbn. lia.
Qed.

(** A last record of one byte, or an empty one, is not delivered. *)
Theorem C27_small_last_refuted : exists r, forall ch stale head, (100 <= ch)%nat -> length head = HEAD_SIZE ->
  replay ch stale (head ++ log_bytes [r]) = Some [] /\ replay ch stale (head ++ log_bytes [[1; 2; 3]; r]) = Some [[1; 2; 3]] /\
  open_log ch stale (head ++ log_bytes [[1; 2; 3]; r]) = Some (head ++ log_bytes [[1; 2; 3]; r]).
Proof.
  exists [7]. intros ch stale head C L. unfold open_log, seek_log, replay. rewrite !head_skip by exact L.
  change (log_bytes [[7]]) with [33; 1; 7]. change (log_bytes [[1; 2; 3]; [7]]) with [33; 3; 1; 2; 3; 33; 1; 7].
  rewrite !run_one by (cbn [length]; lia || discriminate). split; [vm_compute; reflexivity|]. split; [vm_compute; reflexivity|].
  replace (_ <? HEAD_SIZE)%nat with false by (rewrite app_length; lia).
  replace (outer 2 _ _ _ _) with (Some (mkscan [] true 33 0 1 8 [[1; 2; 3]; [7]])) by (vm_compute; reflexivity).
  cbn [k_off]. f_equal. apply firstn_all2. rewrite app_length. cbn [length]. unfold HEAD_SIZE in *. lia.
Qed.
Print Assumptions C27_small_last_refuted.

(** The intact log of C26_straddle_refuted: an empty record is delivered instead of the second one. *)
Theorem C27_straddle_refuted : forall ch, 70000 <= Z.of_nat ch < 2 ^ 32 -> exists r0 r1 stale, (forall o i, is_byte (stale o i)) /\
  1000 <= Z.of_nat (length r0) /\ 1000 <= Z.of_nat (length r1) /\
  forall head, length head = HEAD_SIZE -> replay ch stale (head ++ log_bytes [r0; r1]) = Some [r0; []].
Proof.
  intros ch C. exists (repeat 7 (ch - 10)), (repeat 7 (Z.to_nat 131072)), (fun _ _ => 0). split; [intros; unfold is_byte; lia|].
  rewrite !repeat_length, Z2Nat.id by discriminate. split; [lia|]. split; [lia|]. intros head L.
  destruct (straddle 4 (fun h => hid h =? HID_TAIL) ch ltac:(lia) eq_refl C) as (s & A1 & A2 & A3).
  unfold replay. rewrite head_skip, A1, A3 by exact L. reflexivity.
Qed.
Print Assumptions C27_straddle_refuted.

(** ** C28.  A new log is written; the library hands over parts of its buffer at any time; the process is killed. *)
Lemma steps_inv : forall l sys buf, f_sys (do_steps (mkstream sys buf) l) ++ f_buf (do_steps (mkstream sys buf) l) =
  (sys ++ buf) ++ log_bytes (written l).
Proof.
  induction l as [|a l IH]; intros sys buf; cbn [written]; [unfold do_steps; cbn; now rewrite app_nil_r|].
  unfold do_steps in *. cbn [fold_left]. destruct a as [r|k|]; cbn [do_step].
  - unfold fsync, fwrite. cbn [f_sys f_buf]. rewrite IH, log_cons. unfold rec_bytes. rewrite <- !app_assoc. reflexivity.
  - cbn [f_sys f_buf]. rewrite IH, <- !app_assoc, (app_assoc (firstn k buf)), firstn_skipn. reflexivity.
  - cbn [f_sys f_buf]. rewrite IH, app_nil_r. reflexivity.
Qed.

(** What is left is a prefix of what was written; closing the log keeps everything; and if the file head has
    reached the file, opening the log again gives a prefix of the records written.  Missing: that the records whose
    write has returned are in it (refuted below). *)
Theorem C28_prefix_partial : forall head l,
  prefix_of (after_kill (do_steps (mkstream [] head) l)) (head ++ log_bytes (written l)) /\
  after_kill (do_steps (mkstream [] head) (l ++ [Close])) = head ++ log_bytes (written l) /\
  (forall ch stale, (1 <= ch)%nat -> (forall o i, is_byte (stale o i)) -> length head = HEAD_SIZE ->
    (forall o r, In (o, r) (starts rec_size 0 (written l)) -> Z.of_nat (length r) <= 65785 /\ (2 <= length r)%nat /\
       (Z.of_nat (length r) <= 250 \/ in_one_piece ch o (rec_size r - length r))) ->
    (HEAD_SIZE <= length (after_kill (do_steps (mkstream [] head) l)))%nat ->
    exists rs, prefix_of rs (written l) /\ open_log ch stale (after_kill (do_steps (mkstream [] head) l)) = Some (head ++ log_bytes rs)).
Proof.
  intros head l. pose proof (steps_inv l [] head) as I. cbn [app] in I. unfold after_kill.
  split; [eexists; symmetry; exact I|]. split.
  - unfold do_steps in *. rewrite fold_left_app. cbn [fold_left do_step f_sys]. exact I.
  - intros ch stale C S L H G. set (f := f_sys _) in *. set (b := f_buf _) in *.
    assert (F : f = head ++ firstn (length f - length head) (log_bytes (written l))).
    { pose proof (f_equal (firstn (length f)) I) as X. rewrite firstn_app_exact, firstn_app in X. rewrite X at 1. f_equal.
      apply firstn_all2. lia. }
    exists (whole rec_size (length f - length head) (written l)). split; [apply whole_prefix|].
    destruct (C26_recover_partial ch stale head (written l) (length f - length head) [] C S L) as (g & G1 & G2 & _).
    + intros o r X. destruct (H o r X) as (X1 & X2 & X3). split; [change (2 ^ 64) with 18446744073709551616; lia|].
      split; [exact X3|]. split; [left; exact X1|left; lia].
    + rewrite F at 1. rewrite G1, G2. reflexivity.
Qed.
Print Assumptions C28_prefix_partial.

Example C28_prefix_example : forall head, length head = HEAD_SIZE ->
  after_kill (do_steps (mkstream [] head) [Write [1; 2]; Flush 18; Write [3; 4; 5]]) = head ++ [33; 2] /\
  after_kill (do_steps (mkstream [] head) [Write [1; 2]; Flush 18; Write [3; 4; 5]; Close]) = head ++ log_bytes [[1; 2]; [3; 4; 5]].
Proof.
  intros head L. do 16 (destruct head as [|? head]; [discriminate L|]). destruct head; [|discriminate L]. split; reflexivity.
Qed.

(** Writes have returned and nothing of them is in the file; the next replay delivers none of them. *)
Theorem C28_unflushed_refuted : exists l, written l = [[1; 2; 3; 4]; [5; 6; 7; 8]] /\
  forall head, length head = HEAD_SIZE -> after_kill (do_steps (mkstream [] head) (Flush 16 :: l)) = head /\
  forall ch stale, replay ch stale (after_kill (do_steps (mkstream [] head) (Flush 16 :: l))) = Some [].
Proof.
  exists [Write [1; 2; 3; 4]; Write [5; 6; 7; 8]]. split; [reflexivity|]. intros head L.
  assert (X : after_kill (do_steps (mkstream [] head) [Flush 16; Write [1; 2; 3; 4]; Write [5; 6; 7; 8]]) = head).
  { unfold after_kill, do_steps. cbn [fold_left do_step f_sys f_buf app]. unfold fsync, fwrite. cbn [f_sys].
    apply firstn_all2. rewrite L. apply le_n. }
  split; [exact X|]. intros ch stale. rewrite X. unfold replay. rewrite <- L, skipn_all. reflexivity.
Qed.
Print Assumptions C28_unflushed_refuted.
