(** C57, C58: a store of blocks in files that are written in several runs. *)
From Verif Require Import Base S_memory M_memory L_memory S_blocks S_log M_log L_log M_blocks L_blocks L_blockscan.
From Coq Require Import ZifyBool ZifyNat.

Definition good_run (r : run) : Prop := Forall block_ok (r_blocks r) /\ length (r_rest r) = 47%nat.
Definition written_blocks (rs : list run) : list block := concat (map r_blocks rs).
Lemma good_run_ok : forall rs, Forall good_run rs -> Forall run_ok rs.
Proof.
  intros rs H. induction H as [|r rs [H1 H2] H IH]; constructor; auto. split; [|exact H2].
  unfold blocks_fit. clear - H1. induction H1 as [|b l [_ H] L IH]; constructor; auto.
Qed.
Lemma fit_of : forall rs, Forall good_run rs -> Forall (fun b => Z.of_nat (length (b_data b)) < 2 ^ 64) (written_blocks rs).
Proof.
  intros rs H. unfold written_blocks. induction H as [|r rs [H1 H2] H IH]; cbn [map concat]; [constructor|]. apply Forall_app. split; [|exact IH].
  clear - H1. induction H1 as [|b l [_ H] L IH]; constructor; auto.
Qed.
Lemma good_nil : forall max head, good_files max head [] [].
Proof. intros. split; constructor. Qed.

Lemma reads_at : forall max head stale fl BB bs ps, length head = HEAD_SIZE -> good_files max head fl BB -> Forall2 (at_place head BB) bs ps ->
  Forall (fun b => Z.of_nat (length (b_data b)) < 2 ^ 64) bs ->
  Forall2 (fun b p => read_idx stale fl p = Some (b_head b, b_data b)) bs ps.
Proof.
  intros max head stale fl BB bs ps H GF A. induction A as [|b p bs ps A1 A2 IH]; intros F; inversion F; subst; constructor; auto.
  eapply read_at; [exact H|exact GF|exact A1|assumption].
Qed.

(** ** C57.  Every place that was recorded, in any run, reads back the block that was written, after all runs.
    Missing: 256 files or more (refuted below). *)
Theorem C57_index_partial : forall lim max head rs, length head = HEAD_SIZE -> Forall good_run rs ->
  exists fl ps, all_runs lim max head [] rs = Some (fl, ps) /\
    ((length fl < 256)%nat -> forall stale,
       Forall2 (fun b p => read_idx stale fl p = Some (b_head b, b_data b)) (written_blocks rs) ps).
Proof.
  intros lim max head rs H G. destruct (all_runs_spec lim max head H rs [] ltac:(cbn; lia)) as (fl & ps & E & _ & K).
  exists fl, ps. split; [exact E|]. intros N stale. destruct (K [] (good_nil _ _) (good_run_ok _ G) N) as (BB & GF & _ & _ & A & _).
  exact (reads_at max head stale fl BB (written_blocks rs) ps H GF A (fit_of _ G)).
Qed.
Print Assumptions C57_index_partial.

(** No file grows by more than 9 bytes over the limit, except for files of at most one block. *)
Theorem C57_size_partial : forall lim max head rs, length head = HEAD_SIZE -> Forall good_run rs -> 0 < max ->
  exists fl ps, all_runs lim max head [] rs = Some (fl, ps) /\
    ((length fl < 256)%nat -> Forall (fun f => Z.of_nat (length f) <= max + 9 \/ length f = 64%nat \/
       exists b, In b (written_blocks rs) /\ (length f <= 74 + length (b_data b))%nat) fl).
Proof.
  intros lim max head rs H G M. destruct (all_runs_spec lim max head H rs [] ltac:(cbn; lia)) as (fl & ps & E & _ & K).
  exists fl, ps. split; [exact E|]. intros N. destruct (K [] (good_nil _ _) (good_run_ok _ G) N) as (BB & [GF S] & _ & C & _).
  cbn [concat app] in C. change (concat (map r_blocks rs)) with (written_blocks rs) in C. rewrite <- C. clear - GF S M H.
  induction GF as [|f B fl BB (rest & R & X) GF IH]; [constructor|]. inversion S as [|? ? S1 S2]; subst. constructor.
  - assert (LF : length (content head B ++ TAIL_HEAD :: rest) = (length (content head B) + 48)%nat) by (rewrite app_length; cbn [length]; lia).
    rewrite LF. destruct S1 as [S1|[S1|S1]]; [lia|left; exact S1|]. unfold content in *. rewrite app_length, H in *. destruct B as [|b [|? ?]]; cbn [length] in S1; [|right; right|lia].
    + right. left. reflexivity.
    + exists b. split; [cbn; auto|]. rewrite bbs_one, bb_length. pose proof (ssize_ret_le (Z.of_nat (length (b_data b)))). unfold HEAD_SIZE. lia.
  - specialize (IH S2). clear - IH. induction IH as [|f fl [A|[A|(b & A & A')]] IH IH2]; constructor; auto. right. right. exists b. split; [cbn [concat]; apply in_or_app; right; exact A|exact A'].
Qed.
Print Assumptions C57_size_partial.

(** The limit itself is not kept: one byte over. *)
Theorem C57_limit_refuted : exists max rs head, length head = HEAD_SIZE /\ Forall good_run rs /\
  (forall b, In b (written_blocks rs) -> Z.of_nat (HEAD_SIZE + length (b_data b) + 1 + TAIL_SIZE) <= max) /\
  exists fl ps, all_runs SIS_MEMORY_SIZE max head [] rs = Some (fl, ps) /\ exists f, In f fl /\ max < Z.of_nat (length f).
Proof.
  exists 100, [mkrun [mkblock 41 (repeat 7 35)] (repeat 0 47)], (repeat 0 16). split; [reflexivity|]. split.
  { constructor; [|constructor]. split; [|reflexivity]. constructor; [|constructor]. split; [unfold is_byte; cbn; lia|cbn; lia]. }
  split; [intros b [<-|[]]; vm_compute; discriminate|].
  eexists _, _. split; [vm_compute; reflexivity|]. eexists. split; [left; reflexivity|]. vm_compute. reflexivity.
Qed.
Print Assumptions C57_limit_refuted.

(** 257 blocks, each in a file of its own: the number of the file is kept in 8 bits.  The file of the first block
    has been written anew; its place reads the last block. *)
Definition many : run := mkrun (map (fun n => mkblock 41 [Z.of_nat n mod 251]) (seq 0 257)) (repeat 0 47).
Lemma many_good : good_run many.
Proof.
  split; [|reflexivity]. apply Forall_forall. intros b H. unfold many in H. cbn [r_blocks] in H. apply in_map_iff in H.
  destruct H as (n & <- & _). split; [unfold is_byte; cbn [b_head]; lia|cbn [b_data length]; lia].
Qed.
Theorem C57_many_files_refuted : exists rs fl ps b p, Forall good_run rs /\
  all_runs SIS_MEMORY_SIZE 1 (repeat 0 HEAD_SIZE) [] rs = Some (fl, ps) /\
  nth_error (written_blocks rs) 0 = Some b /\ nth_error ps 0 = Some p /\
  forall stale, exists d, read_idx stale fl p = Some (b_head b, d) /\ d <> b_data b.
Proof.
  pose (res := all_runs SIS_MEMORY_SIZE 1 (repeat 0 HEAD_SIZE) [] [many]).
  assert (E : exists fl ps, res = Some (fl, ps) /\ nth_error ps 0 = Some (mkplace 1 16 3) /\ nth_error fl 1 = Some (repeat 0 16 ++ [41; 1; 5] ++ TAIL_HEAD :: repeat 0 47)).
  { unfold res. destruct (all_runs SIS_MEMORY_SIZE 1 (repeat 0 HEAD_SIZE) [] [many]) as [[fl ps]|] eqn:X; [|vm_compute in X; discriminate X].
    exists fl, ps. split; [reflexivity|]. vm_compute in X. injection X as <- <-. split; reflexivity. }
  destruct E as (fl & ps & E & P & F).
  exists [many], fl, ps, (mkblock 41 [0]), (mkplace 1 16 3). split; [constructor; [exact many_good|constructor]|]. split; [exact E|].
  split; [reflexivity|]. split; [exact P|]. intros stale. exists [5]. unfold read_idx. cbn [p_file p_off p_size]. rewrite F. split; [reflexivity|discriminate].
Qed.
Print Assumptions C57_many_files_refuted.

(** Two runs, a limit of 120 bytes: three files; the block of the first run is read from the first file, which the
    second run has gone on to fill. *)
Example C57_example :
  let rs := [mkrun [mkblock 41 (repeat 7 20)] (repeat 0 47); mkrun [mkblock 49 (repeat 8 10); mkblock 41 (repeat 9 60); mkblock 57 []] (repeat 1 47)] in
  Forall good_run rs /\ exists fl ps, all_runs SIS_MEMORY_SIZE 120 (repeat 0 HEAD_SIZE) [] rs = Some (fl, ps) /\
    ps = [mkplace 0 16 22; mkplace 0 38 12; mkplace 1 16 62; mkplace 2 16 2] /\ length fl = 3%nat /\
    read_idx (fun _ => 0) fl (mkplace 0 38 12) = Some (49, repeat 8 10).
Proof.
  split.
  - repeat constructor; cbn; lia.
  - eexists _, _. split; [vm_compute; reflexivity|]. repeat split.
Qed.

(** ** C58.  Reading all files from end to end. *)
Lemma oks_of : forall ch BB k, Forall (fun b => Z.of_nat (length (b_data b)) < 2 ^ 64 /\ is_data b) (concat BB) ->
  Forall2 (fun b p => Z.of_nat (length (b_data b)) <= 65785 \/ in_one_piece ch (p_off p - HEAD_SIZE) (p_size p - length (b_data b))) (concat BB) (lay k BB) ->
  Forall (oks ch 0) BB.
Proof.
  intros ch. induction BB as [|B BB IH]; intros k D F; [constructor|]. cbn [concat lay] in *.
  apply Forall_app in D. destruct D as [D1 D2].
  assert (G : forall B o, Forall (fun b => Z.of_nat (length (b_data b)) < 2 ^ 64 /\ is_data b) B -> forall X Y,
    Forall2 (fun b p => Z.of_nat (length (b_data b)) <= 65785 \/ in_one_piece ch (p_off p - HEAD_SIZE) (p_size p - length (b_data b))) (B ++ X) (lay1 k (HEAD_SIZE + o) B ++ Y) ->
    oks ch o B /\ Forall2 (fun b p => Z.of_nat (length (b_data b)) <= 65785 \/ in_one_piece ch (p_off p - HEAD_SIZE) (p_size p - length (b_data b))) X Y).
  { clear. induction B as [|b B IH]; intros o D X Y F; [split; [exact Logic.I|exact F]|]. cbn [app lay1] in F. inversion F as [|? ? ? ? F1 F2]; subst.
    inversion D as [|? ? [D1 D2] D3]; subst. destruct (IH (o + length (bb b))%nat D3 X Y) as [I1 I2]; [rewrite Nat.add_assoc; exact F2|]. split; [|exact I2].
    cbn [oks]. split; [|exact I1]. split; [exact D1|]. split; [exact D2|]. change (Z.of_nat (length (b_data b)) <= 65785 \/ in_one_piece ch (HEAD_SIZE + o - HEAD_SIZE) (length (bb b) - length (b_data b))) in F1. rewrite bb_hdr in F1.
    replace (HEAD_SIZE + o - HEAD_SIZE)%nat with o in F1 by lia. replace (bhdr b + length (b_data b) - length (b_data b))%nat with (bhdr b) in F1 by lia.
    destruct F1 as [F1|F1]; [left; exact (bhdr_middle b F1)|right; exact F1]. }
  destruct (G B 0%nat D1 (concat BB) (lay (S k) BB)) as [G1 G2].
  - rewrite Nat.add_0_r. exact F.
  - constructor; [exact G1|]. exact (IH (S k) D2 G2).
Qed.

(** All blocks of all runs come out, in the order of writing.  Missing: 256 files or more; blocks of more than 65785
    bytes whose head lies on the boundary of two pieces of [ch] bytes (refuted below). *)
Theorem C58_scan_partial : forall ch lim max head rs, (1 <= ch)%nat -> length head = HEAD_SIZE -> Forall good_run rs ->
  Forall is_data (written_blocks rs) ->
  exists fl ps, all_runs lim max head [] rs = Some (fl, ps) /\
    ((length fl < 256)%nat ->
     Forall2 (fun b p => Z.of_nat (length (b_data b)) <= 65785 \/
                         in_one_piece ch (p_off p - HEAD_SIZE) (p_size p - length (b_data b))) (written_blocks rs) ps ->
     forall stale, read_all ch stale 0 fl = Some (written_blocks rs)).
Proof.
  intros ch lim max head rs CH H G D. destruct (all_runs_spec lim max head H rs [] ltac:(cbn; lia)) as (fl & ps & E & _ & K).
  exists fl, ps. split; [exact E|]. intros N F stale. destruct (K [] (good_nil _ _) (good_run_ok _ G) N) as (BB & [GF _] & _ & C & _ & Y).
  cbn [concat lay app] in C, Y. change (concat (map r_blocks rs)) with (written_blocks rs) in C. rewrite <- C in *. rewrite <- Y in F.
  apply (read_all_spec ch stale head fl BB 0 CH H GF). apply (oks_of ch BB 0); [|exact F].
  pose proof (fit_of _ G) as FT. rewrite <- C in FT. clear - FT D. induction FT; inversion D; subst; constructor; auto.
Qed.
Print Assumptions C58_scan_partial.

Example C58_example :
  let rs := [mkrun [mkblock 41 (repeat 7 20)] (repeat 0 47); mkrun [mkblock 49 (repeat 8 10); mkblock 41 (repeat 9 60); mkblock 57 []] (repeat 1 47)] in
  Forall is_data (written_blocks rs) /\ exists fl ps, all_runs SIS_MEMORY_SIZE 120 (repeat 0 HEAD_SIZE) [] rs = Some (fl, ps) /\
    (length fl < 256)%nat /\ read_all 50 (fun _ _ _ => 0) 0 fl = Some (written_blocks rs).
Proof.
  split.
  - repeat constructor; vm_compute; discriminate.
  - eexists _, _. split; [vm_compute; reflexivity|]. split; [cbn; lia|vm_compute; reflexivity].
Qed.

(** *** Heads of large blocks on a boundary *)
Lemma no_limit : forall lim max head bs fs fs' ps, max <= 0 -> save_all lim max head fs bs = Some (fs', ps) -> length (fs_units fs') = length (fs_units fs).
Proof.
  intros lim max head. induction bs as [|b bs IH]; intros fs fs' ps M E; cbn [save_all] in E; [congruence|].
  destruct (saveidx lim max head fs b) as [[fs1 p]|] eqn:S; [|discriminate E].
  destruct (save_all lim max head fs1 bs) as [[fs2 ps2]|] eqn:A; [|discriminate E]. injection E as <- <-. rewrite (IH fs1 fs2 ps2 M A).
  unfold saveidx in S. replace (0 <? max) with false in S by lia. cbn [andb] in S. destruct (nth_error (fs_units fs) (fs_cur fs)) as [u|]; [|discriminate S].
  destruct (negb (u_open u)); [discriminate S|]. destruct (safe_write lim u (b_head b) (b_data b)). injection S as <- <-. cbn [fs_units]. apply set_nth_length.
Qed.
Lemma one_file : forall lim max head r, max <= 0 -> length head = HEAD_SIZE -> good_run r ->
  exists ps rest, length rest = 47%nat /\ all_runs lim max head [] [r] = Some ([head ++ bbs (r_blocks r) ++ TAIL_HEAD :: rest], ps).
Proof.
  intros lim max head r M H G. destruct (one_run_spec lim max head H [] r ltac:(cbn; lia)) as (fl & ps & E & _ & N & K).
  assert (L : length fl = 1%nat).
  { unfold one_run in E. destruct (save_all lim max head (start head []) (r_blocks r)) as [[fs' ps']|] eqn:S; [|discriminate E]. injection E as <- <-.
    destruct (weak_start head H [] ltac:(cbn; lia)) as [W _]. destruct (save_all_spec lim max head H (r_blocks r) _ W) as (fs2 & ps2 & S2 & W2 & _). rewrite S in S2. injection S2 as <- <-.
    rewrite (stop_length head H _ _ W2), (no_limit _ _ _ _ _ _ _ M S). reflexivity. }
  pose proof (good_run_ok [r] ltac:(constructor; [exact G|constructor])) as GR. inversion GR as [|? ? GR1 _]; subst.
  destruct (K [] (good_nil _ _) GR1 ltac:(lia)) as (BB & [GF _] & _ & C & _). cbn [concat app] in C.
  destruct fl as [|f [|? ?]]; try discriminate L. inversion GF as [|? B ? ? (rest & R & F) GF2]; subst. inversion GF2; subst.
  cbn [concat] in C. rewrite app_nil_r in C. subst B. exists (ps ++ []), rest. split; [exact R|]. cbn [all_runs]. rewrite E. unfold content. rewrite <- app_assoc. reflexivity.
Qed.
Lemma f_inner_blk : forall f stale l h off out b, (4 <= length (bb b ++ l))%nat -> Z.of_nat (length (b_data b)) < 2 ^ 64 -> is_data b ->
  f_inner (S f) stale (mkfscan (bb b ++ l) true h 0 off out) = f_inner f stale (mkfscan l true (b_head b) 0 (off + length (bb b)) (out ++ [b])).
Proof.
  intros f stale l h off out b T F D. cbn [f_inner g_live g_line]. replace (_ <? 4)%nat with false by lia. unfold bb at 1. cbn [app].
  destruct (hid_data b D) as [H1 H2]. rewrite H1, <- app_assoc, get_whole by lia. cbn [g_off g_out].
  rewrite !app_length, ssize_bytes_length. replace (Z.of_nat (length (b_data b) + length l) <? Z.of_nat (length (b_data b))) with false by lia. rewrite H2.
  f_equal. unfold g_take. cbn [g_size g_live g_head g_off g_out]. rewrite Nat2Z.id, skipn_app_exact, firstn_app_exact. f_equal; [|destruct b; reflexivity].
  rewrite bb_length. lia.
Qed.
Lemma gneg0 : forall n, (Z.of_nat n <? 0) = false.
Proof. intros. lia. Qed.
Lemma f_outer_cons : forall stale p ps s, g_size s = 0 -> forall s2, 
  f_inner (S (length (g_live s ++ p))) stale (mkfscan (g_live s ++ p) (g_line s) (g_head s) (g_size s) (g_off s) (g_out s)) = Some (s2, ReadOn) ->
  f_outer stale (p :: ps) s = f_outer stale ps s2.
Proof. intros stale p ps s Z0 s2 I. cbn [f_outer]. cbn [g_live g_size] in *. rewrite Z0 at 1. rewrite gneg0, I. reflexivity. Qed.
Lemma f_outer_stop : forall stale p ps s, g_size s = 0 -> forall s2, 
  f_inner (S (length (g_live s ++ p))) stale (mkfscan (g_live s ++ p) (g_line s) (g_head s) (g_size s) (g_off s) (g_out s)) = Some (s2, ReadStop) ->
  f_outer stale (p :: ps) s = Some (s2, false).
Proof. intros stale p ps s Z0 s2 I. cbn [f_outer]. cbn [g_live g_size] in *. rewrite Z0 at 1. rewrite gneg0, I. reflexivity. Qed.

(** One run, one file, nothing cut, read in pieces of any size [ch] from 70000 to 2^32: the second block comes out empty
    and the reading stops. *)
Theorem C58_straddle_refuted : forall ch, 70000 <= Z.of_nat ch < 2 ^ 32 -> exists b0 b1 stale, (forall n o i, is_byte (stale n o i)) /\
  is_data b0 /\ is_data b1 /\ 1000 <= Z.of_nat (length (b_data b1)) /\
  forall lim head rest, length head = HEAD_SIZE -> length rest = 47%nat ->
  exists fl ps, all_runs lim 0 head [] [mkrun [b0; b1] rest] = Some (fl, ps) /\ read_all ch stale 0 fl = Some [b0; mkblock (b_head b1) []].
Proof.
  intros ch C. exists (mkblock 41 (repeat 7 (ch - 10))), (mkblock 41 (repeat 7 (Z.to_nat 131072))), (fun _ _ _ => 0). split; [intros; unfold is_byte; lia|].
  change (2 ^ 32) with 4294967296 in C.
  set (b0 := mkblock 41 (repeat 7 (ch - 10))). set (b1 := mkblock 41 (repeat 7 (Z.to_nat 131072))).
  assert (D0 : is_data b0) by (vm_compute; split; discriminate). assert (D1 : is_data b1) by (split; discriminate).
  assert (L0 : length (b_data b0) = (ch - 10)%nat) by apply repeat_length.
  assert (L1 : Z.of_nat (length (b_data b1)) = 131072) by (unfold b1; cbn [b_data]; rewrite repeat_length; apply Z2Nat.id; discriminate).
  assert (S7 : exists a b x, b_data b1 = a :: b :: x) by (destruct (b_data b1) as [|a [|b x]] eqn:E; [discriminate L1|discriminate L1|eauto]).
  assert (HB1 : b_head b1 = 41) by reflexivity. assert (HB0 : b_head b0 = 41) by reflexivity.
  split; [exact D0|]. split; [exact D1|]. split; [lia|]. intros lim head rest H R. clearbody b0 b1.
  destruct (one_file lim 0 head (mkrun [b0; b1] rest) ltac:(lia) H) as (ps & rest' & R' & E).
  { split; [|exact R]. repeat constructor; rewrite ?HB0, ?HB1, ?L0, ?L1; lia. }
  eexists _, ps. split; [exact E|]. cbn [r_blocks read_all]. rewrite head_skip by exact H. unfold bbs. cbn [map concat]. rewrite app_nil_r.
  assert (H0 : length (bb b0) = (ch - 4)%nat).
  { rewrite bb_hdr. unfold bhdr, ssize_ret. rewrite L0. change (65535 + 250) with 65785.
    replace (4294967295 <? _) with false by lia. destruct (65785 <? Z.of_nat (ch - 10)) eqn:Q; [lia|lia]. }
  set (p := bb b0 ++ [41; 253; 0; 0]).
  assert (LP : length p = ch) by (unfold p; rewrite app_length; cbn [length]; lia).
  assert (B : (bb b0 ++ bb b1) ++ TAIL_HEAD :: rest' = p ++ 2 :: 0 :: (b_data b1 ++ TAIL_HEAD :: rest')).
  { unfold p. rewrite <- !app_assoc. f_equal. unfold bb. rewrite L1, HB1. cbn [app]. rewrite <- app_assoc. reflexivity. }
  rewrite B. destruct S7 as (a & b & x & ->).
  assert (P2 : exists y f, pieces (length (p ++ 2 :: 0 :: (a :: b :: x) ++ TAIL_HEAD :: rest')) ch (p ++ 2 :: 0 :: (a :: b :: x) ++ TAIL_HEAD :: rest') = p :: (2 :: 0 :: a :: b :: y) :: f).
  { cbn [app]. set (z := x ++ TAIL_HEAD :: rest'). rewrite app_length. cbn [length].
    replace (length p + S (S (S (S (length z)))))%nat with (S (S (length p + S (S (length z))))) by lia.
    assert (PC : forall f (l : list Z), l <> [] -> pieces (S f) ch l = firstn ch l :: pieces f ch (skipn ch l))
      by (intros f [|q l] N; [contradiction|reflexivity]).
    assert (FP : firstn ch (p ++ 2 :: 0 :: a :: b :: z) = p) by (rewrite <- LP; apply firstn_app_exact).
    assert (SP : skipn ch (p ++ 2 :: 0 :: a :: b :: z) = 2 :: 0 :: a :: b :: z) by (rewrite <- LP; apply skipn_app_exact).
    rewrite PC by (destruct p; discriminate). rewrite FP, SP, PC by discriminate. clear PC FP SP LP.
    destruct ch as [|[|[|[|ch']]]]; try lia. cbn [firstn skipn]. eexists _, _. reflexivity. }
  destruct P2 as (y & f & ->).
  assert (I1 : f_inner (S (length p)) (fun _ _ => 0) (mkfscan p true 0 0 0 []) =
               Some (mkfscan [] true 41 0 (length (bb b0) + 4) [b0; mkblock 41 []], ReadOn)).
  { unfold p at 2. rewrite f_inner_blk; [|fold p; lia|lia|exact D0]. rewrite LP.
    destruct ch as [|[|ch']]; [lia|lia|]. cbn [f_inner g_live g_line].
    change (length [41; 253; 0; 0] <? 4)%nat with false. change (hid 41 =? HID_TAIL) with false. cbv iota.
    replace (get_ssize _ [253; 0; 0]) with (Some (0, @nil Z)) by (vm_compute; reflexivity).
    change (Z.of_nat (length (@nil Z)) <? 0) with false. change (hid 41 =? HID_NONE) with false.
    cbv iota. unfold g_take. cbn [g_live g_line g_head g_size g_off g_out Z.to_nat skipn firstn length Nat.sub app].
    change (0 <? 4)%nat with true. cbv iota. replace (0 + length (bb b0) + 1 + 3 + 0)%nat with (length (bb b0) + 4)%nat by lia. reflexivity. }
  rewrite (f_outer_cons _ p _ (mkfscan [] true 0 0 0 []) eq_refl _ I1).
  assert (I2 : exists s2, f_inner (S (length (2 :: 0 :: a :: b :: y))) (fun _ _ => 0) (mkfscan (2 :: 0 :: a :: b :: y) true 41 0 (length (bb b0) + 4) [b0; mkblock 41 []]) = Some (s2, ReadStop) /\ g_out s2 = [b0; mkblock 41 []]).
  { cbn [f_inner g_live g_line]. replace (length (2%Z :: 0%Z :: a :: b :: y) <? 4)%nat with false by (cbn [length]; lia).
    change (hid 2 =? HID_TAIL) with false. cbv iota. change (0 :: a :: b :: y) with (ssize_bytes 0 ++ a :: b :: y). rewrite get_whole by lia.
    rewrite gneg0. change (hid 2 =? HID_NONE) with true. cbv iota. eexists. split; [reflexivity|]. reflexivity. }
  destruct I2 as (s2 & I2 & O2). rewrite (f_outer_stop _ (2 :: 0 :: a :: b :: y) _ (mkfscan [] true 41 0 (length (bb b0) + 4) [b0; mkblock 41 []]) eq_refl _ I2).
  rewrite O2, HB1. reflexivity.
Qed.
Print Assumptions C58_straddle_refuted.

(** *** A run that is killed before it closes its files.  [killed]: the bytes have reached the files
    (sis_disk_ctrl_write_stop, sis_disk.io.c:811), the tail has not been written (855). *)
Definition killed (lim max : Z) (head : list Z) (fl : list (list Z)) (bs : list block) : option (list (list Z)) :=
  match save_all lim max head (start head fl) bs with Some (fs, _) => Some (on_disk (sync fs)) | None => None end.
(** The next run writes over the last 48 bytes.  Its own block is not read back, although it was closed properly, and the
    block of the killed run comes out changed. *)
Theorem C58_killed_refuted : exists b0 b1 rest fl fl1 ps, is_data b0 /\ is_data b1 /\ length rest = 47%nat /\
  killed SIS_MEMORY_SIZE 0 (repeat 0 HEAD_SIZE) [] [b0] = Some fl /\
  one_run SIS_MEMORY_SIZE 0 (repeat 0 HEAD_SIZE) fl (mkrun [b1] rest) = Some (fl1, ps) /\
  forall ch stale, (1000 <= ch)%nat -> exists d, read_all ch stale 0 fl1 = Some [mkblock (b_head b0) d] /\ d <> b_data b0.
Proof.
  pose (b0 := mkblock 41 (repeat 7 100)). pose (b1 := mkblock 49 [1; 2; 3]). pose (rest := repeat 0 47).
  pose (f0 := repeat 0 16 ++ bb b0). pose (f1 := repeat 0 16 ++ 41 :: 100 :: repeat 7 52 ++ [49; 3; 1; 2; 3; 249] ++ repeat 0 47).
  exists b0, b1, rest, [f0], [f1], [mkplace 0 70 5]. split; [vm_compute; split; discriminate|]. split; [vm_compute; split; discriminate|].
  split; [reflexivity|]. split; [vm_compute; reflexivity|]. split; [vm_compute; reflexivity|]. intros ch stale C.
  exists (repeat 7 52 ++ [49; 3; 1; 2; 3; 249] ++ repeat 0 42). split; [|vm_compute; discriminate].
  cbn [read_all]. replace (skipn HEAD_SIZE f1) with (41 :: 100 :: repeat 7 52 ++ [49; 3; 1; 2; 3; 249] ++ repeat 0 47) by reflexivity.
  set (body := 41 :: 100 :: repeat 7 52 ++ [49; 3; 1; 2; 3; 249] ++ repeat 0 47).
  assert (P : pieces (length body) ch body = [body; []]).
  { unfold body at 1. cbn [length]. unfold body. cbn [pieces]. fold body. rewrite firstn_all2, skipn_all2 by (vm_compute length; lia). reflexivity. }
  rewrite P. cbn [f_outer g_live g_line g_size g_head g_off g_out app]. change (Z.of_nat (length body) <? 0) with false. cbv iota.
  assert (I : f_inner (S (length body)) (stale 0%nat) (mkfscan body true 0 0 0 []) =
    Some (mkfscan [0; 0; 0] true 0 0 104 [mkblock 41 (repeat 7 52 ++ [49; 3; 1; 2; 3; 249] ++ repeat 0 42)], ReadStop)) by (vm_compute; reflexivity).
  rewrite I. reflexivity.
Qed.
Print Assumptions C58_killed_refuted.
