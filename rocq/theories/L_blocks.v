(** Lemmas on data files made of blocks. *)
From Verif Require Import Base S_memory M_memory L_memory S_blocks S_log M_log L_log M_blocks.
From Coq Require Import ZifyBool ZifyNat.

(** the bytes of a block *)
Definition bb (b : block) : list Z := b_head b :: ssize_bytes (Z.of_nat (length (b_data b))) ++ b_data b.
Definition bbs (l : list block) : list Z := concat (map bb l).
Definition bhdr (b : block) : nat := (1 + ssize_ret (Z.of_nat (length (b_data b))))%nat.
Lemma bb_length : forall b, length (bb b) = (1 + ssize_ret (Z.of_nat (length (b_data b))) + length (b_data b))%nat.
Proof. intros. unfold bb. cbn [length]. rewrite app_length, ssize_bytes_length. lia. Qed.
Lemma bbs_app : forall a b, bbs (a ++ b) = bbs a ++ bbs b.
Proof. intros. unfold bbs. now rewrite map_app, concat_app. Qed.
Lemma bbs_one : forall b, bbs [b] = bb b.
Proof. intros. unfold bbs. cbn [map concat]. apply app_nil_r. Qed.
Lemma ssize_ret_le : forall v, (ssize_ret v <= 9)%nat.
Proof. intros. unfold ssize_ret. repeat (destruct (_ <? _)%Z); lia. Qed.

(** ** set_nth *)
Lemma set_nth_length : forall A k (x : A) l, length (set_nth k x l) = length l.
Proof. induction k as [|k IH]; intros x [|y l]; cbn [set_nth length]; auto. Qed.
Lemma set_nth_same : forall A k (x : A) l, (k < length l)%nat -> nth_error (set_nth k x l) k = Some x.
Proof. induction k as [|k IH]; intros x [|y l] H; cbn [set_nth length nth_error] in *; try lia; auto. apply IH. lia. Qed.
Lemma set_nth_other : forall A k j (x : A) l, j <> k -> nth_error (set_nth k x l) j = nth_error l j.
Proof.
  induction k as [|k IH]; intros j x [|y l] H; cbn [set_nth]; auto; destruct j as [|j]; cbn [nth_error]; auto; try congruence.
Qed.
Lemma set_nth_last : forall A (x y : A) l, set_nth (length l) x (l ++ [y]) = l ++ [x].
Proof. induction l as [|z l IH]; cbn [length set_nth app]; [reflexivity|]. now rewrite IH. Qed.
Lemma nth_error_last : forall A (x : A) l, nth_error (l ++ [x]) (length l) = Some x.
Proof. intros. rewrite nth_error_app2, Nat.sub_diag by lia. reflexivity. Qed.

(** ** One file *)
Section Files.
Variables (lim max : Z) (head : list Z).
Hypothesis Hhead : length head = HEAD_SIZE.

Definition content (B : list block) : list Z := head ++ bbs B.
Definition closed_file (f : list Z) (B : list block) : Prop :=
  exists rest, length rest = 47%nat /\ f = content B ++ TAIL_HEAD :: rest.
(** a file that is open for writing *)
Definition open_ok (u : funit) (B : list block) : Prop :=
  u_open u = true /\ u_made u = true /\ mem_ok (u_cache u) /\ (u_pos u <= length (u_disk u) <= u_pos u + 48)%nat /\
  firstn (u_pos u) (u_disk u) ++ mem_live (u_cache u) = content B /\ u_off u = length (content B).
Definition shut_ok (u : funit) (B : list block) : Prop := u_open u = false /\ u_made u = true /\ closed_file (u_disk u) B.
(** a file that is no longer the current one *)
Definition past_ok (u : funit) (B : list block) : Prop := shut_ok u B \/ open_ok u B /\ mem_live (u_cache u) = [].

Lemma put_content : forall u b, (u_pos u <= length (u_disk u) <= u_pos u + 48)%nat ->
  firstn (u_pos (put u b)) (u_disk (put u b)) = firstn (u_pos u) (u_disk u) ++ b /\
  (u_pos (put u b) <= length (u_disk (put u b)) <= u_pos (put u b) + 48)%nat.
Proof.
  intros u b H. unfold put; cbn [u_pos u_disk].
  assert (L : length (firstn (u_pos u) (u_disk u)) = u_pos u) by (rewrite firstn_length; lia).
  split.
  - rewrite app_assoc. rewrite <- L at 1. rewrite <- app_length. apply firstn_app_exact.
  - rewrite !app_length, skipn_length, L. lia.
Qed.
Lemma live_nil_sync : forall u, sync_unit u = match mem_live (u_cache u) with [] => u | _ => set_cache (put u (mem_live (u_cache u))) (mem_clear (u_cache u)) end.
Proof. intros. unfold sync_unit. destruct (mem_live (u_cache u)); reflexivity. Qed.
Lemma sync_ok : forall u B, open_ok u B -> open_ok (sync_unit u) B /\ mem_live (u_cache (sync_unit u)) = [].
Proof.
  intros u B (A & M & O & P & C & F). rewrite live_nil_sync. destruct (mem_live (u_cache u)) as [|c l] eqn:E.
  - split; [|exact E]. unfold open_ok. rewrite E in *. auto 10.
  - destruct (mem_clear_spec _ O) as [O' E']. destruct (put_content u (c :: l) P) as [P1 P2]. unfold open_ok. cbn [set_cache put u_open u_made u_cache u_off] in *.
    split; [|exact E']. split; [exact A|]. split; [exact M|]. split; [exact O'|]. split; [exact P2|]. split; [|exact F].
    rewrite E', app_nil_r. etransitivity; [exact P1|exact C].
Qed.
Lemma create_ok : forall u, mem_ok (u_cache u) -> mem_live (u_cache u) = [] -> open_ok (open_create head u) [].
Proof.
  intros u O E. unfold open_ok, open_create, content, bbs. cbn [u_open u_made u_cache u_pos u_disk u_off map concat].
  rewrite E, firstn_all, !app_nil_r. repeat split; try apply O; lia.
Qed.
Lemma write_ok : forall u B b, open_ok u B -> Z.of_nat (length (b_data b)) < 2 ^ 64 ->
  let '(u2, size) := safe_write lim u (b_head b) (b_data b) in
  size = length (bb b) /\ open_ok (set_off u2 (u_off u + size)) (B ++ [b]).
Proof.
  intros u B b (A & M & O & P & C & F) L. unfold safe_write.
  set (z := Z.of_nat (length (b_data b))).
  destruct (mem_cat_spec (u_cache u) [b_head b] O) as [O1 E1].
  destruct (mem_cat_ssize_spec _ z O1 ltac:(lia)) as [O2 E2]. rewrite E1 in E2.
  set (m := mem_cat_ssize _ z) in *. clearbody m.
  assert (LC : content (B ++ [b]) = content B ++ bb b) by (unfold content; rewrite bbs_app, bbs_one, app_assoc; reflexivity).
  assert (CB : bb b = [b_head b] ++ ssize_bytes z ++ b_data b) by reflexivity.
  assert (HZ : z = Z.of_nat (length (b_data b))) by reflexivity. clearbody z.
  assert (SZ : (1 + ssize_ret z + length (b_data b))%nat = length (bb b)) by (rewrite bb_length, HZ; reflexivity).
  destruct (b_data b) as [|x v] eqn:D.
  - split; [exact SZ|]. rewrite <- D in *. unfold open_ok, set_cache, set_off. cbn [u_open u_made u_cache u_pos u_disk u_off].
    split; [exact A|]. split; [exact M|]. split; [exact O2|]. split; [exact P|]. split.
    + rewrite E2, LC, <- C, CB, D, app_nil_r, <- !app_assoc. reflexivity.
    + rewrite LC, app_length, F, SZ. reflexivity.
  - rewrite <- D in *. destruct (lim <? Z.of_nat (mem_get_size m) + z) eqn:Q.
    + destruct (mem_clear_spec m O2) as [O3 E3]. split; [exact SZ|].
      destruct (put_content u (mem_live m) P) as [P1 P2].
      set (u1 := set_cache (put u (mem_live m)) (mem_clear m)).
      destruct (put_content u1 (b_data b) P2) as [P3 P4]. unfold open_ok. cbn [set_off u_open u_made u_cache u_pos u_disk u_off put u1 set_cache] in *.
      split; [exact A|]. split; [exact M|]. split; [exact O3|]. split; [exact P4|]. split.
      * rewrite E3, app_nil_r. etransitivity; [exact P3|]. change (firstn (u_pos u1) (u_disk u1)) with (firstn (u_pos (put u (mem_live m))) (u_disk (put u (mem_live m)))).
        cbn [put u_pos u_disk]. rewrite P1, E2, LC, <- C, CB, <- !app_assoc. reflexivity.
      * rewrite LC, app_length, F, SZ. reflexivity.
    + destruct (mem_cat_spec m (b_data b) O2) as [O3 E3]. split; [exact SZ|].
      unfold open_ok. cbn [set_off set_cache u_open u_made u_cache u_pos u_disk u_off].
      split; [exact A|]. split; [exact M|]. split; [exact O3|]. split; [exact P|]. split.
      * rewrite E3, E2, LC, <- C, CB, <- !app_assoc. reflexivity.
      * rewrite LC, app_length, F, SZ. reflexivity.
Qed.
Lemma close_ok : forall u B rest, past_ok u B -> length rest = 47%nat ->
  u_made (close_unit rest u) = true /\ closed_file (u_disk (close_unit rest u)) B.
Proof.
  intros u B rest [(A & M & C)|[(A & M & O & P & C & F) E]] R; unfold close_unit; rewrite A; [auto|].
  cbn [u_made u_disk put]. unfold tail_bytes. split; [exact M|]. exists rest. split; [exact R|].
  rewrite E, app_nil_r in C. rewrite C. rewrite (skipn_all2 (u_disk u)) by (cbn [length]; rewrite R; lia). now rewrite app_nil_r.
Qed.

(** ** All files *)
Definition last_block_of (BB : list (list block)) (b : block) (BB' : list (list block)) : Prop :=
  (exists Bs B, BB = Bs ++ [B] /\ BB' = Bs ++ [B ++ [b]]) \/ BB' = BB ++ [[b]].
(** file sizes: within the limit, or one block *)
Definition small (B : list block) : Prop :=
  max <= 0 \/ Z.of_nat (length (content B) + 48) <= max + 9 \/ (length B <= 1)%nat.
Definition rep (fs : files) (BB : list (list block)) : Prop :=
  exists us u Bs B, fs_units fs = us ++ [u] /\ BB = Bs ++ [B] /\ fs_cur fs = length us /\ (length us < 256)%nat /\
    Forall2 past_ok us Bs /\ open_ok u B /\ Forall small BB.
Definition at_place (BB : list (list block)) (b : block) (p : place) : Prop :=
  exists B1 B2, nth_error BB (p_file p) = Some (B1 ++ b :: B2) /\ p_off p = length (content B1) /\ p_size p = length (bb b).
Definition ext (BB BB' : list (list block)) : Prop :=
  forall k B, nth_error BB k = Some B -> exists B2, nth_error BB' k = Some (B ++ B2).
Lemma ext_refl : forall BB, ext BB BB.
Proof. intros BB k B H. exists []. rewrite app_nil_r. exact H. Qed.
Lemma ext_trans : forall a b c, ext a b -> ext b c -> ext a c.
Proof. intros a b c H K k B E. destruct (H k B E) as [B2 E2]. destruct (K k _ E2) as [B3 E3]. exists (B2 ++ B3). rewrite app_assoc. exact E3. Qed.
Lemma at_ext : forall BB BB' b p, ext BB BB' -> at_place BB b p -> at_place BB' b p.
Proof.
  intros BB BB' b p E (B1 & B2 & A1 & A2 & A3). destruct (E _ _ A1) as [B3 E3]. exists B1, (B2 ++ B3).
  split; [rewrite E3, <- app_assoc; reflexivity|]. auto.
Qed.
(** the places of all blocks *)
Fixpoint lay1 (k o : nat) (B : list block) : list place :=
  match B with [] => [] | b :: B' => mkplace k o (length (bb b)) :: lay1 k (o + length (bb b)) B' end.
Fixpoint lay (k : nat) (BB : list (list block)) : list place :=
  match BB with [] => [] | B :: BB' => lay1 k HEAD_SIZE B ++ lay (S k) BB' end.
Lemma lay1_app : forall k A B o, lay1 k o (A ++ B) = lay1 k o A ++ lay1 k (o + length (bbs A)) B.
Proof.
  intros k A B. induction A as [|b A IH]; intros o; cbn [lay1 app]; [f_equal; cbn; lia|]. rewrite IH. do 3 f_equal.
  change (bbs (b :: A)) with (bb b ++ bbs A). rewrite app_length. lia.
Qed.
Lemma lay_app : forall A B k, lay k (A ++ B) = lay k A ++ lay (k + length A) B.
Proof.
  induction A as [|X A IH]; intros B k; cbn [lay app length]; [f_equal; lia|]. rewrite IH, <- app_assoc. do 2 f_equal. f_equal. lia.
Qed.
Lemma forall2_len : forall A B (P : A -> B -> Prop) l l', Forall2 P l l' -> length l = length l'.
Proof. intros A B P l l' H. induction H; cbn [length]; auto. Qed.

Lemma saveidx_rep : forall fs BB b, rep fs BB -> Z.of_nat (length (b_data b)) < 2 ^ 64 ->
  exists fs' p, saveidx lim max head fs b = Some (fs', p) /\ (length (fs_units fs) <= length (fs_units fs'))%nat /\
    ((length (fs_units fs') <= 256)%nat -> exists BB', rep fs' BB' /\ ext BB BB' /\ concat BB' = concat BB ++ [b] /\ at_place BB' b p /\ lay 0 BB' = lay 0 BB ++ [p]).
Proof.
  intros fs BB b (us & u & Bs & B & U & EB & C & N & F & O & S) L. unfold saveidx. rewrite U, C, nth_error_last.
  pose proof O as (A & _). rewrite A. cbn [negb]. pose proof (forall2_len _ _ _ _ _ F) as FL.
  destruct ((0 <? max) && (max <? Z.of_nat (u_off u + length (b_data b) + MIN_WSIZE))) eqn:Q.
  - unfold sync. rewrite U, C, nth_error_last, A, set_nth_last. unfold inc_unit. cbn [fs_units fs_cur].
    rewrite app_length. cbn [length]. destruct (Nat.eq_dec (length us) 255) as [W|W].
    + (* the number of the file wraps around *)
      replace (as_cur (length us + 1)) with 0%nat by (rewrite W; reflexivity).
      destruct us as [|u0 us]; [discriminate W|]. cbn [app nth_error set_nth fs_units fs_cur].
      destruct (safe_write lim (open_create head u0) (b_head b) (b_data b)) as [u2 size].
      cbn [set_nth fs_units fs_cur]. eexists _, _. split; [reflexivity|]. cbn [fs_units length] in *. rewrite !app_length in *. cbn [length] in *. lia.
    + replace (as_cur (length us + 1)) with (length us + 1)%nat by (unfold as_cur; symmetry; apply Nat.mod_small; lia).
      assert (E : (length us + 1)%nat = length (us ++ [sync_unit u])) by (rewrite app_length; reflexivity).
      rewrite E, nth_error_last. rewrite set_nth_last. cbn [fs_units fs_cur]. rewrite nth_error_last.
      destruct (sync_ok u B O) as [SO SE].
      pose proof (create_ok new_unit (mem_ok_create_size (SIS_MEMORY_SIZE + SIS_MEMORY_SIZE) ltac:(unfold SIS_MEMORY_SIZE; lia)) eq_refl) as CO.
      pose proof (write_ok (open_create head new_unit) [] b CO L) as WO.
      destruct (safe_write lim (open_create head new_unit) (b_head b) (b_data b)) as [u2 size]. destruct WO as [W1 W2].
      rewrite set_nth_last. eexists _, _. split; [reflexivity|]. cbn [fs_units]. rewrite !app_length. cbn [length]. split; [lia|].
      intros _. exists (BB ++ [[b]]). split; [|split; [|split; [|split]]].
      * exists (us ++ [sync_unit u]), (set_off u2 (u_off (open_create head new_unit) + size)), BB, [b].
        split; [reflexivity|]. split; [reflexivity|]. split; [cbn [fs_cur]; rewrite ?app_length; reflexivity|]. split; [rewrite app_length; cbn [length]; lia|].
        split; [rewrite EB; apply Forall2_app; [exact F|constructor; [right; auto|constructor]]|]. split; [exact W2|].
        apply Forall_app. split; [exact S|]. constructor; [right; right; cbn; lia|constructor].
      * intros k X E2. exists []. rewrite app_nil_r. rewrite nth_error_app1; [exact E2|]. apply nth_error_Some. congruence.
      * rewrite concat_app. reflexivity.
      * exists [], []. cbn [p_file p_off p_size]. rewrite EB. split.
        -- rewrite ?app_length. cbn [length]. replace (length us + 1)%nat with (length (Bs ++ [B])) by (rewrite !app_length; cbn [length]; lia). apply nth_error_last.
        -- split; [|exact W1]. destruct CO as (_ & _ & _ & _ & _ & CO). exact CO.
      * rewrite lay_app. f_equal. cbn [lay lay1]. rewrite app_nil_r, W1, EB. f_equal. unfold open_create; cbn [u_off]. rewrite Hhead, !app_length. cbn [length]. f_equal. lia.
  - rewrite U, C, nth_error_last. pose proof (write_ok u B b O L) as WO.
    destruct (safe_write lim u (b_head b) (b_data b)) as [u2 size]. destruct WO as [W1 W2]. rewrite set_nth_last.
    eexists _, _. split; [reflexivity|]. cbn [fs_units]. rewrite !app_length. cbn [length]. split; [lia|]. intros _.
    exists (Bs ++ [B ++ [b]]). split; [|split; [|split; [|split]]].
    + exists us, (set_off u2 (u_off u + size)), Bs, (B ++ [b]). split; [reflexivity|]. split; [reflexivity|]. split; [reflexivity|]. split; [exact N|].
      split; [exact F|]. split; [exact W2|]. rewrite EB in S. apply Forall_app in S. destruct S as [S1 S2]. apply Forall_app. split; [exact S1|].
      constructor; [|constructor]. unfold small. destruct O as (_ & _ & _ & _ & _ & OF).
      replace (length (content (B ++ [b]))) with (length (content B) + length (bb b))%nat by (unfold content; rewrite bbs_app, bbs_one, !app_length; lia).
      rewrite bb_length. pose proof (ssize_ret_le (Z.of_nat (length (b_data b)))). unfold MIN_WSIZE in Q. lia.
    + rewrite EB. intros k X E2. destruct (Nat.lt_ge_cases k (length Bs)) as [K|K].
      * exists []. rewrite app_nil_r. rewrite nth_error_app1 in * by exact K. exact E2.
      * assert (k = length Bs). { assert (k < length (Bs ++ [B]))%nat by (apply nth_error_Some; congruence). rewrite app_length in *. cbn [length] in *. lia. }
        subst k. rewrite nth_error_last in E2. injection E2 as <-. exists [b]. apply nth_error_last.
    + rewrite EB, !concat_app. cbn [concat]. rewrite !app_nil_r, app_assoc. reflexivity.
    + exists B, []. cbn [p_file p_off p_size]. rewrite FL, nth_error_last. split; [reflexivity|]. split; [|exact W1]. destruct O as (_ & _ & _ & _ & _ & OF). exact OF.
    + rewrite EB, !lay_app. cbn [lay]. rewrite !app_nil_r, lay1_app, app_assoc. f_equal. cbn [lay1]. rewrite W1. f_equal. destruct O as (_ & _ & _ & _ & _ & OF).
      rewrite OF. unfold content. rewrite app_length, Hhead. f_equal. lia.
Qed.

(** what always holds, also after the number has wrapped around *)
Definition weak (fs : files) : Prop :=
  (1 <= length (fs_units fs))%nat /\ Forall (fun u => u_made u = true) (firstn 256 (fs_units fs)) /\ Forall (fun u => u_made u = false) (skipn 256 (fs_units fs)) /\
  (fs_cur fs < 256)%nat /\ exists u, nth_error (fs_units fs) (fs_cur fs) = Some u /\ u_open u = true.
Lemma set_nth_firstn : forall A n k (x : A) l, (k < n)%nat -> firstn n (set_nth k x l) = set_nth k x (firstn n l).
Proof. induction n as [|n IH]; intros k x l H; [lia|]. destruct l as [|y l]; [destruct k; reflexivity|]. destruct k as [|k]; cbn [set_nth firstn]; [reflexivity|]. rewrite IH by lia. reflexivity. Qed.
Lemma set_nth_skipn : forall A n k (x : A) l, (k < n)%nat -> skipn n (set_nth k x l) = skipn n l.
Proof. induction n as [|n IH]; intros k x l H; [lia|]. destruct l as [|y l]; [destruct k; reflexivity|]. destruct k as [|k]; cbn [set_nth skipn]; [reflexivity|]. apply IH. lia. Qed.
Lemma set_nth_forall : forall A (P : A -> Prop) k x l, P x -> Forall P l -> Forall P (set_nth k x l).
Proof. intros A P. induction k as [|k IH]; intros x [|y l] H F; cbn [set_nth]; auto; inversion F; subst; constructor; auto. Qed.
Lemma put_flags : forall u b, u_made (put u b) = u_made u /\ u_open (put u b) = u_open u.
Proof. intros; split; reflexivity. Qed.
Lemma write_flags : forall u h v, u_made (fst (safe_write lim u h v)) = u_made u /\ u_open (fst (safe_write lim u h v)) = u_open u.
Proof. intros. unfold safe_write. destruct v; [split; reflexivity|]. destruct (_ <? _); split; reflexivity. Qed.
Lemma sync_flags : forall u, u_made (sync_unit u) = u_made u /\ u_open (sync_unit u) = u_open u.
Proof. intros. rewrite live_nil_sync. destruct (mem_live (u_cache u)); split; reflexivity. Qed.
Lemma made_of : forall fs u, weak fs -> nth_error (fs_units fs) (fs_cur fs) = Some u -> u_made u = true.
Proof.
  intros fs u (_ & W1 & _ & W3 & _) E. rewrite Forall_forall in W1. apply W1.
  apply (nth_error_In _ (fs_cur fs)). rewrite <- E. revert W3. generalize (fs_cur fs) as k, (fs_units fs) as l, 256%nat as n. clear.
  induction k as [|k IH]; intros [|y l] [|n] H; cbn [firstn nth_error]; try lia; auto. apply IH. lia.
Qed.
Lemma weak_set : forall fs u, weak fs -> u_open u = true -> u_made u = true -> weak (mkfiles (set_nth (fs_cur fs) u (fs_units fs)) (fs_cur fs)).
Proof.
  intros fs u (W0 & W1 & W2 & W3 & x & W4 & W5) A M. unfold weak; cbn [fs_units fs_cur]. rewrite set_nth_length, set_nth_firstn, set_nth_skipn by exact W3.
  split; [exact W0|]. split; [apply set_nth_forall; auto|]. split; [exact W2|]. split; [exact W3|]. exists u. split; [|exact A].
  apply set_nth_same. apply nth_error_Some. congruence.
Qed.
Lemma weak_sync : forall fs, weak fs -> weak (sync fs) /\ length (fs_units (sync fs)) = length (fs_units fs).
Proof.
  intros fs W. pose proof W as (_ & _ & _ & _ & u & E & A). unfold sync. rewrite E, A. cbn [fs_units]. rewrite set_nth_length. split; [|reflexivity].
  destruct (sync_flags u) as [S1 S2]. apply weak_set; [exact W|congruence|]. rewrite S1. exact (made_of fs u W E).
Qed.
Lemma weak_grow : forall fs, weak fs -> exists u2, nth_error (fs_units (inc_unit fs)) (fs_cur (inc_unit fs)) = Some u2 /\
  weak (mkfiles (set_nth (fs_cur (inc_unit fs)) (open_create head u2) (fs_units (inc_unit fs))) (fs_cur (inc_unit fs))).
Proof.
  intros fs (W0 & W1 & W2 & W3 & _). unfold inc_unit; cbn [fs_units fs_cur]. set (us := fs_units fs) in *. set (k := as_cur (length us)).
  assert (K : (k < 256)%nat) by (unfold k, as_cur; apply Nat.mod_upper_bound; discriminate).
  assert (K2 : (k < length (us ++ [new_unit]))%nat).
  { rewrite app_length. unfold k, as_cur. pose proof (Nat.mod_le (length us) 256 ltac:(discriminate)). cbn [length]. lia. }
  destruct (nth_error (us ++ [new_unit]) k) as [u2|] eqn:E; [|apply nth_error_None in E; lia].
  exists u2. split; [reflexivity|]. unfold weak; cbn [fs_units fs_cur]. rewrite set_nth_length, set_nth_firstn, set_nth_skipn by exact K.
  split; [rewrite app_length; lia|]. split.
  - destruct (Nat.lt_ge_cases (length us) 256) as [L|L].
    + assert (KE : k = length us) by (unfold k, as_cur; apply Nat.mod_small; exact L).
      rewrite firstn_all2 by (rewrite app_length; cbn [length]; lia). rewrite KE, set_nth_last. rewrite firstn_all2 in W1 by lia.
      apply Forall_app. split; [exact W1|]. constructor; [reflexivity|constructor].
    + rewrite firstn_app. replace (256 - length us)%nat with 0%nat by lia. cbn [firstn]. rewrite app_nil_r. apply set_nth_forall; [reflexivity|exact W1].
  - split; [|split; [exact K|exists (open_create head u2); split; [apply set_nth_same; exact K2|reflexivity]]].
    rewrite skipn_app. apply Forall_app. split; [exact W2|]. destruct (256 - length us)%nat as [|n]; cbn [skipn]; [|rewrite skipn_nil; constructor].
    constructor; [reflexivity|constructor].
Qed.
Lemma saveidx_weak : forall fs b, weak fs -> exists fs' p, saveidx lim max head fs b = Some (fs', p) /\ weak fs' /\
  (length (fs_units fs) <= length (fs_units fs'))%nat.
Proof.
  intros fs b W. pose proof W as (_ & _ & _ & _ & u & E & A). unfold saveidx. rewrite E, A. cbn [negb].
  assert (D : forall fs1, weak fs1 -> exists fs' p, match nth_error (fs_units fs1) (fs_cur fs1) with
    | Some u1 => let '(u2, size) := safe_write lim u1 (b_head b) (b_data b) in
        Some (mkfiles (set_nth (fs_cur fs1) (set_off u2 (u_off u1 + size)) (fs_units fs1)) (fs_cur fs1), mkplace (fs_cur fs1) (u_off u1) size)
    | None => None end = Some (fs', p) /\ weak fs' /\ length (fs_units fs') = length (fs_units fs1)).
  { intros fs1 W1. pose proof W1 as (_ & _ & _ & _ & u1 & E1 & A1). rewrite E1. destruct (write_flags u1 (b_head b) (b_data b)) as [F1 F2].
    destruct (safe_write lim u1 (b_head b) (b_data b)) as [u2 size]. cbn [fst] in *. eexists _, _. split; [reflexivity|]. cbn [fs_units]. rewrite set_nth_length. split; [|reflexivity].
    apply weak_set; [exact W1|cbn [set_off u_open]; congruence|cbn [set_off u_made]; rewrite F1; exact (made_of fs1 u1 W1 E1)]. }
  destruct (_ && _).
  - destruct (weak_sync fs W) as [W1 L1]. destruct (weak_grow (sync fs) W1) as (u2 & E2 & W2). rewrite E2.
    destruct (D _ W2) as (fs' & p & D1 & D2 & D3). exists fs', p. split; [exact D1|]. split; [exact D2|]. rewrite D3. cbn [fs_units]. rewrite set_nth_length.
    unfold inc_unit. cbn [fs_units]. rewrite app_length. lia.
  - destruct (D fs W) as (fs' & p & D1 & D2 & D3). exists fs', p. split; [exact D1|]. split; [exact D2|]. lia.
Qed.

Definition blocks_fit (bs : list block) : Prop := Forall (fun b => Z.of_nat (length (b_data b)) < 2 ^ 64) bs.
Lemma save_all_spec : forall bs fs, weak fs -> exists fs' ps, save_all lim max head fs bs = Some (fs', ps) /\ weak fs' /\
  (length (fs_units fs) <= length (fs_units fs'))%nat /\
  forall BB, rep fs BB -> blocks_fit bs -> (length (fs_units fs') <= 256)%nat ->
    exists BB', rep fs' BB' /\ ext BB BB' /\ concat BB' = concat BB ++ bs /\ Forall2 (at_place BB') bs ps /\ lay 0 BB' = lay 0 BB ++ ps.
Proof.
  induction bs as [|b bs IH]; intros fs W; cbn [save_all].
  - exists fs, []. split; [reflexivity|]. split; [exact W|]. split; [lia|]. intros BB R _ _. exists BB. split; [exact R|]. split; [apply ext_refl|].
    split; [now rewrite app_nil_r|]. split; [constructor|now rewrite app_nil_r].
  - destruct (saveidx_weak fs b W) as (fs1 & p & S1 & W1 & L1). rewrite S1. destruct (IH fs1 W1) as (fs2 & ps & S2 & W2 & L2 & G). rewrite S2.
    exists fs2, (p :: ps). split; [reflexivity|]. split; [exact W2|]. split; [lia|]. intros BB R F L. inversion F as [|x y F1 F2]; subst.
    destruct (saveidx_rep fs BB b R F1) as (fs1' & p' & S1' & _ & K). rewrite S1 in S1'. injection S1' as <- <-. destruct (K ltac:(lia)) as (BB1 & R1 & X1 & C1 & A1 & Y1).
    destruct (G BB1 R1 F2 L) as (BB2 & R2 & X2 & C2 & A2 & Y2). exists BB2. split; [exact R2|]. split; [exact (ext_trans _ _ _ X1 X2)|].
    split; [rewrite C2, C1, <- app_assoc; reflexivity|]. split; [constructor; [exact (at_ext _ _ _ _ X2 A1)|exact A2]|]. rewrite Y2, Y1, <- app_assoc. reflexivity.
Qed.

(** ** Runs *)
Definition good_files (fl : list (list Z)) (BB : list (list block)) : Prop := Forall2 closed_file fl BB /\ Forall small BB.
Lemma weak_start : forall fl, (length fl <= 256)%nat -> weak (start head fl) /\ (length fl <= length (fs_units (start head fl)))%nat.
Proof.
  intros fl L. destruct fl as [|f fl].
  - unfold start, weak. cbn [start_create fs_units fs_cur length firstn skipn nth_error]. repeat split; try lia.
    + constructor; [reflexivity|constructor].
    + constructor.
    + eexists. split; reflexivity.
  - unfold start, start_append. set (l := f :: fl) in *. assert (N : (1 <= length l)%nat) by (unfold l; cbn [length]; lia).
    destruct (@exists_last _ l ltac:(discriminate)) as (a & x & E). rewrite E in *. rewrite app_length in *. cbn [length] in *.
    replace (length a + 1 - 1)%nat with (length a) by lia. rewrite firstn_app_exact, skipn_app_exact. cbn [map].
    unfold weak; cbn [fs_units fs_cur]. rewrite app_length, map_length. cbn [length].
    replace (as_cur (length a)) with (length a) by (unfold as_cur; symmetry; apply Nat.mod_small; lia).
    rewrite firstn_all2, skipn_all2 by (rewrite app_length, map_length; cbn [length]; lia).
    split; [|lia]. split; [lia|]. split; [|split; [constructor|split; [lia|]]].
    + apply Forall_app. split; [|constructor; [reflexivity|constructor]]. apply Forall_forall. intros u H. apply in_map_iff in H. destruct H as (y & <- & _). reflexivity.
    + eexists. split; [rewrite <- (map_length (fun f => mkunit f 0 false true 0 (u_cache new_unit)) a); apply nth_error_last|reflexivity].
Qed.
Lemma last_split : forall A B (P : A -> B -> Prop) l l' x, Forall2 P (l ++ [x]) l' -> exists m y, l' = m ++ [y] /\ Forall2 P l m /\ P x y.
Proof.
  intros A B P l l' x H. apply Forall2_app_inv_l in H. destruct H as (m & n & H1 & H2 & ->). inversion H2 as [|? y ? ? Pxy N]; subst.
  inversion N; subst. exists m, y. auto.
Qed.
Lemma rep_start : forall fl BB, good_files fl BB -> (length fl <= 256)%nat -> exists BB0, rep (start head fl) BB0 /\ ext BB BB0 /\ concat BB0 = concat BB /\ lay 0 BB0 = lay 0 BB.
Proof.
  intros fl BB [G S] L. destruct fl as [|f fl].
  - inversion G; subst. exists [[]]. split; [|split; [|split; reflexivity]].
    + exists [], (open_create head new_unit), [], []. cbn [start start_create fs_units fs_cur length app]. repeat split; try lia; try constructor.
      all: try (apply create_ok; [apply mem_ok_create_size; unfold SIS_MEMORY_SIZE; lia|reflexivity]).
      * right. right. cbn. lia.
      * constructor.
    + intros k B E. destruct k; discriminate E.
  - unfold start, start_append. set (l := f :: fl) in *.
    destruct (@exists_last _ l ltac:(discriminate)) as (a & x & E). rewrite E in *. rewrite app_length in *. cbn [length] in *.
    replace (length a + 1 - 1)%nat with (length a) by lia. rewrite firstn_app_exact, skipn_app_exact. cbn [map].
    replace (as_cur (length a)) with (length a) by (unfold as_cur; symmetry; apply Nat.mod_small; lia).
    destruct (last_split _ _ _ _ _ _ G) as (Bs & B & EB & F & (rest & R & X)). exists BB. split; [|split; [apply ext_refl|split; reflexivity]].
    assert (LX : (length x = length (content B) + 48)%nat) by (rewrite X, app_length; cbn [length]; lia).
    eexists _, _, Bs, B. split; [reflexivity|]. split; [exact EB|]. cbn [fs_cur]. rewrite map_length. split; [reflexivity|]. split; [lia|]. split; [|split; [|exact S]].
    + clear - F. induction F as [|y B' l' Bs' C F IH]; cbn [map]; constructor; auto. left. unfold shut_ok; cbn. auto.
    + unfold open_ok. cbn [u_open u_made u_cache u_pos u_disk u_off new_unit]. rewrite LX. unfold TAIL_SIZE.
      split; [reflexivity|]. split; [reflexivity|]. split; [apply mem_ok_create_size; unfold SIS_MEMORY_SIZE; lia|]. split; [lia|].
      replace (length (content B) + 48 - 48)%nat with (length (content B)) by lia. split; [|reflexivity].
      rewrite X, firstn_app_exact. cbn. apply app_nil_r.
Qed.
Lemma filter_all : forall A (f : A -> bool) l, Forall (fun x => f x = true) l -> filter f l = l.
Proof. intros A f l H. induction H as [|x l H1 H2 IH]; cbn [filter]; [reflexivity|]. rewrite H1, IH. reflexivity. Qed.
Lemma filter_none : forall A (f : A -> bool) l, Forall (fun x => f x = false) l -> filter f l = [].
Proof. intros A f l H. induction H as [|x l H1 H2 IH]; cbn [filter]; [reflexivity|]. rewrite H1. exact IH. Qed.
Lemma close_made : forall rest u, u_made (close_unit rest u) = u_made u.
Proof. intros. unfold close_unit. destruct (u_open u); reflexivity. Qed.
Lemma stop_length : forall rest fs, weak fs -> length (stop rest fs) = Nat.min 256 (length (fs_units fs)).
Proof.
  intros rest fs W. destruct (weak_sync fs W) as [(W0 & W1 & W2 & _) L]. unfold stop, on_disk. cbn [fs_units]. rewrite map_length.
  rewrite <- (firstn_skipn 256 (fs_units (sync fs))), map_app, filter_app.
  rewrite filter_all, filter_none, app_nil_r, map_length, firstn_length, L; [reflexivity| |].
  - apply Forall_forall. intros u H. apply in_map_iff in H. destruct H as (x & <- & H). rewrite close_made. revert x H. apply Forall_forall. exact W2.
  - apply Forall_forall. intros u H. apply in_map_iff in H. destruct H as (x & <- & H). rewrite close_made. revert x H. apply Forall_forall. exact W1.
Qed.
Lemma stop_rep : forall rest fs BB, rep fs BB -> length rest = 47%nat -> good_files (stop rest fs) BB.
Proof.
  intros rest fs BB (us & u & Bs & B & U & EB & C & N & F & O & S) R. unfold stop, on_disk, sync. pose proof O as (A & _).
  rewrite U, C, nth_error_last, A, set_nth_last. cbn [fs_units]. split; [|exact S]. rewrite EB. destruct (sync_ok u B O) as [SO SE].
  assert (F' : Forall2 past_ok (us ++ [sync_unit u]) (Bs ++ [B])) by (apply Forall2_app; [exact F|constructor; [right; auto|constructor]]).
  revert F'. generalize (us ++ [sync_unit u]) as l, (Bs ++ [B]) as l'. clear - R Hhead. intros l l' H. induction H as [|x y l l' P H IH]; cbn [map filter]; [constructor|].
  destruct (close_ok x y rest P R) as [M D]. rewrite M. cbn [map]. constructor; [exact D|exact IH].
Qed.
Definition run_ok (r : run) : Prop := blocks_fit (r_blocks r) /\ length (r_rest r) = 47%nat.
Lemma one_run_spec : forall fl r, (length fl <= 256)%nat -> exists fl' ps, one_run lim max head fl r = Some (fl', ps) /\
  (length fl <= length fl' <= 256)%nat /\ (1 <= length fl')%nat /\
  forall BB, good_files fl BB -> run_ok r -> (length fl' < 256)%nat ->
    exists BB', good_files fl' BB' /\ ext BB BB' /\ concat BB' = concat BB ++ r_blocks r /\ Forall2 (at_place BB') (r_blocks r) ps /\ lay 0 BB' = lay 0 BB ++ ps.
Proof.
  intros fl r L. unfold one_run. destruct (weak_start fl L) as [W LS]. destruct (save_all_spec (r_blocks r) _ W) as (fs & ps & S & W' & L' & G).
  rewrite S. eexists _, _. split; [reflexivity|]. rewrite (stop_length _ _ W'). pose proof W' as (W0 & _). split; [lia|]. split; [lia|].
  intros BB GF [F R] N. destruct (rep_start fl BB GF L) as (BB0 & R0 & X0 & C0 & Y0). destruct (G BB0 R0 F ltac:(lia)) as (BB' & R1 & X1 & C1 & A1 & Y1).
  exists BB'. split; [exact (stop_rep _ _ _ R1 R)|]. split; [exact (ext_trans _ _ _ X0 X1)|]. split; [rewrite C1, C0; reflexivity|]. split; [exact A1|rewrite Y1, Y0; reflexivity].
Qed.
Lemma all_runs_spec : forall rs fl, (length fl <= 256)%nat -> exists fl' ps, all_runs lim max head fl rs = Some (fl', ps) /\
  (length fl <= length fl' <= 256)%nat /\
  forall BB, good_files fl BB -> Forall run_ok rs -> (length fl' < 256)%nat ->
    exists BB', good_files fl' BB' /\ ext BB BB' /\ concat BB' = concat BB ++ concat (map r_blocks rs) /\ Forall2 (at_place BB') (concat (map r_blocks rs)) ps /\ lay 0 BB' = lay 0 BB ++ ps.
Proof.
  induction rs as [|r rs IH]; intros fl L; cbn [all_runs].
  - exists fl, []. split; [reflexivity|]. split; [lia|]. intros BB G _ _. exists BB. split; [exact G|]. split; [apply ext_refl|]. cbn [map concat]. split; [now rewrite app_nil_r|]. split; [constructor|now rewrite app_nil_r].
  - destruct (one_run_spec fl r L) as (fl1 & p1 & S1 & L1 & _ & G1). rewrite S1. destruct (IH fl1 ltac:(lia)) as (fl2 & p2 & S2 & L2 & G2). rewrite S2.
    exists fl2, (p1 ++ p2). split; [reflexivity|]. split; [lia|]. intros BB G F N. inversion F as [|x y F1 F2]; subst.
    destruct (G1 BB G F1 ltac:(lia)) as (BB1 & A1 & X1 & C1 & P1 & Y1). destruct (G2 BB1 A1 F2 N) as (BB2 & A2 & X2 & C2 & P2 & Y2).
    exists BB2. split; [exact A2|]. split; [exact (ext_trans _ _ _ X1 X2)|]. cbn [map concat]. split; [rewrite C2, C1, <- app_assoc; reflexivity|].
    split; [|rewrite Y2, Y1, <- app_assoc; reflexivity].
    apply Forall2_app; [|exact P2]. clear - P1 X2. induction P1; constructor; auto. exact (at_ext _ _ _ _ X2 H).
Qed.

(** ** Reading by place *)
Lemma read_at : forall stale fl BB b p, good_files fl BB -> at_place BB b p -> Z.of_nat (length (b_data b)) < 2 ^ 64 ->
  read_idx stale fl p = Some (b_head b, b_data b).
Proof.
  intros stale fl BB b p [G _] (B1 & B2 & E & O & Z1) L. unfold read_idx.
  assert (X : exists f, nth_error fl (p_file p) = Some f /\ closed_file f (B1 ++ b :: B2)).
  { revert E. generalize (p_file p) as k. clear - G. induction G as [|f B fl BB C G IH]; intros [|k] E; try discriminate E; cbn [nth_error] in *.
    - injection E as ->. eauto.
    - apply IH, E. }
  destruct X as (f & -> & rest & R & F).
  assert (SK : skipn (p_off p) f = bb b ++ bbs B2 ++ TAIL_HEAD :: rest).
  { rewrite F, O. unfold content. change (b :: B2) with ([b] ++ B2). rewrite !bbs_app, bbs_one, !app_assoc, <- !app_assoc, app_assoc. apply skipn_app_exact. }
  rewrite SK, Z1, firstn_app_exact, Nat.eqb_refl. unfold bb. rewrite get_whole by lia. reflexivity.
Qed.
End Files.
