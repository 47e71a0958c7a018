(** Lemmas on reading data files from end to end. *)
From Verif Require Import Base S_memory M_memory L_memory S_blocks S_log M_log L_log M_blocks L_blocks.
From Coq Require Import ZifyBool ZifyNat.

Lemma bhdr_ge : forall b, (2 <= bhdr b)%nat.
Proof. intros. unfold bhdr. pose proof (ssize_ret_ge (Z.of_nat (length (b_data b)))). lia. Qed.
Lemma bb_hdr : forall b, length (bb b) = (bhdr b + length (b_data b))%nat.
Proof. intros. rewrite bb_length. unfold bhdr. lia. Qed.
Lemma bhdr_middle : forall b, Z.of_nat (length (b_data b)) <= 65785 -> (bhdr b <= 4)%nat.
Proof. intros b H. exact (hdr_middle (b_data b) H). Qed.

Lemma hid_data : forall b, is_data b -> (hid (b_head b) =? HID_TAIL) = false /\ (hid (b_head b) =? HID_NONE) = false.
Proof. intros b H. unfold is_data, kind, hid, HID_TAIL, HID_NONE in *. lia. Qed.

Section Scan.
Variables (ch : nat) (stale : nat -> nat -> Z).
Hypothesis Hch : (1 <= ch)%nat.

Definition ok1 (o : nat) (b : block) : Prop :=
  Z.of_nat (length (b_data b)) < 2 ^ 64 /\ is_data b /\ ((bhdr b <= 4)%nat \/ in_one_piece ch o (bhdr b)).
Fixpoint oks (o : nat) (B : list block) : Prop :=
  match B with [] => True | b :: B' => ok1 o b /\ oks (o + length (bb b)) B' end.
Definition tail_ok (t : list Z) : Prop := exists r, t = TAIL_HEAD :: r /\ length t = 48%nat.

Inductive gst (s : fscan) (rest t : list Z) : list block -> Prop :=
| g_at_line : forall B, g_line s = true -> g_size s = 0 -> g_live s ++ rest = bbs B ++ t ->
    ends ch (g_off s + length (g_live s)) rest -> oks (g_off s) B -> gst s rest t B
| g_at_data : forall b B, g_line s = false -> g_head s = b_head b -> is_data b -> g_size s = Z.of_nat (length (b_data b)) ->
    g_live s ++ rest = b_data b ++ bbs B ++ t -> ends ch (g_off s + length (g_live s)) rest ->
    oks (g_off s + length (b_data b)) B -> (1 <= length (b_data b))%nat -> gst s rest t (b :: B).
Definition gwaits (s : fscan) : Prop :=
  if g_line s then (length (g_live s) < 4)%nat else Z.of_nat (length (g_live s)) < g_size s \/ (length (g_live s) < 4)%nat.

Lemma f_inner_spec : forall n s rest t B, tail_ok t -> (length (g_live s) <= n)%nat -> gst s rest t B ->
  (g_line s = false -> g_size s <= Z.of_nat (length (g_live s))) ->
  exists s', (f_inner (S n) stale s = Some (s', FileEnd) /\ g_out s' = g_out s ++ B) \/
    exists done B', f_inner (S n) stale s = Some (s', ReadOn) /\ B = done ++ B' /\ gst s' rest t B' /\ gwaits s' /\ g_out s' = g_out s ++ done.
Proof.
  induction n as [n IH] using (well_founded_induction lt_wf); intros s rest t B TO L ST F.
  cbn [f_inner]. destruct (length (g_live s) <? 4)%nat eqn:T.
  { exists s. right. exists [], B. split; [reflexivity|]. split; [reflexivity|]. split; [exact ST|]. split; [unfold gwaits; destruct (g_line s); lia|]. now rewrite app_nil_r. }
  (* the data of a block are complete in the buffer *)
  assert (REC : forall s1 b B1, g_head s1 = b_head b -> is_data b -> g_size s1 = Z.of_nat (length (b_data b)) ->
    g_live s1 ++ rest = b_data b ++ bbs B1 ++ t -> (length (b_data b) <= length (g_live s1))%nat ->
    ends ch (g_off s1 + length (g_live s1)) rest -> oks (g_off s1 + length (b_data b)) B1 ->
    (length (g_live s1) - length (b_data b) < n)%nat ->
    exists s', (f_inner n stale (g_take s1) = Some (s', FileEnd) /\ g_out s' = g_out s1 ++ b :: B1) \/
    exists done B', f_inner n stale (g_take s1) = Some (s', ReadOn) /\ b :: B1 = done ++ B' /\ gst s' rest t B' /\ gwaits s' /\ g_out s' = g_out s1 ++ done).
  { intros s1 b B1 A D Z1 E G H K J. destruct n as [|n]; [lia|].
    destruct (app_split _ _ _ _ E G) as [D1 D2].
    assert (X : g_take s1 = mkfscan (skipn (length (b_data b)) (g_live s1)) true (b_head b) 0 (g_off s1 + length (b_data b)) (g_out s1 ++ [b])).
    { unfold g_take. rewrite A, Z1, Nat2Z.id. f_equal. f_equal. f_equal. rewrite D1, firstn_app_exact. destruct b; reflexivity. }
    rewrite X. clear X.
    destruct (IH n ltac:(lia) (mkfscan (skipn (length (b_data b)) (g_live s1)) true (b_head b) 0 (g_off s1 + length (b_data b)) (g_out s1 ++ [b])) rest t B1 TO)
      as (s' & [[Q1 Q2]|(done & B' & Q1 & Q2 & Q3 & Q4 & Q5)]).
    - cbn [g_live]. rewrite skipn_length. lia.
    - apply g_at_line; cbn [g_live g_line g_size g_off]; auto.
      destruct H as [H|[q H]]; [left; exact H|]. right. exists q. rewrite skipn_length. lia.
    - discriminate.
    - exists s'. left. split; [exact Q1|]. rewrite Q2. cbn [g_out]. rewrite <- app_assoc. reflexivity.
    - exists s'. right. exists (b :: done), B'. split; [exact Q1|]. split; [rewrite Q2; reflexivity|]. split; [exact Q3|]. split; [exact Q4|].
      rewrite Q5. cbn [g_out]. rewrite <- app_assoc. reflexivity. }
  destruct ST as [B A Z0 C D E|b B A H DT Z1 C D E GE].
  - rewrite A. destruct (g_live s) as [|h l] eqn:LV; [cbn [length] in T; lia|].
    destruct B as [|b B].
    + (* the tail *)
      destruct TO as (r & -> & TL). cbn [bbs map concat app] in C. injection C as -> C. change (hid TAIL_HEAD =? HID_TAIL) with true. cbv iota.
      eexists. left. split; [reflexivity|]. cbn [g_out]. now rewrite app_nil_r.
    + destruct E as [(E1 & E2 & E3) E4].
      assert (TL : (1 <= length t)%nat) by (destruct TO as (r & _ & TL); lia).
      assert (W : (bhdr b <= length (h :: l))%nat).
      { destruct E3 as [E3|E3]; [lia|]. destruct D as [D|[q D]].
        - subst rest. rewrite app_nil_r in C. rewrite C. unfold bbs. cbn [map concat]. rewrite !app_length, bb_hdr. lia.
        - pose proof (bhdr_ge b). pose proof (piece_end ch (g_off s) (bhdr b) q Hch ltac:(lia) E3 ltac:(lia)). lia. }
      change (bbs (b :: B)) with (bb b ++ bbs B) in C. unfold bb in C. cbn [app] in C. injection C as -> C.
      destruct (hid_data b E2) as [H1 H2]. rewrite H1, <- !app_assoc in *.
      destruct (app_split _ _ _ _ C) as [C1 C2]; [rewrite ssize_bytes_length; unfold bhdr in W; cbn [length] in W; lia|].
      set (v := Z.of_nat (length (b_data b))) in *.
      assert (LL : length l = (ssize_ret v + length (skipn (length (ssize_bytes v)) l))%nat).
      { rewrite C1 at 1. rewrite app_length, ssize_bytes_length. reflexivity. }
      assert (GG : get_ssize (stale (g_off s)) l = Some (v, skipn (length (ssize_bytes v)) l)).
      { rewrite C1 at 1. apply get_whole. lia. }
      rewrite GG. clear GG. set (l2 := skipn (length (ssize_bytes v)) l) in *.
      assert (OF : (g_off s + 1 + (length l - length l2) = g_off s + bhdr b)%nat) by (unfold bhdr; fold v; lia).
      rewrite OF.
      assert (EN : ends ch (g_off s + bhdr b + length l2) rest).
      { destruct D as [D|[q D]]; [left; exact D|]. right. exists q. unfold bhdr. fold v. cbn [length] in D. lia. }
      assert (E5 : oks (g_off s + bhdr b + length (b_data b)) B).
      { replace (g_off s + bhdr b + length (b_data b))%nat with (g_off s + length (bb b))%nat by (rewrite bb_hdr; lia). exact E4. }
      destruct (Z.of_nat (length l2) <? v) eqn:M.
      * eexists. right. exists [], (b :: B). split; [reflexivity|]. split; [reflexivity|]. split.
        { apply g_at_data; cbn [g_line g_head g_size g_live g_off]; auto. lia. }
        split; [unfold gwaits; cbn [g_line g_live g_size]; left; lia|]. now rewrite app_nil_r.
      * rewrite H2. apply (REC (mkfscan l2 true (b_head b) v (g_off s + bhdr b) (g_out s)) b B); cbn [g_head g_size g_live g_off g_out]; auto; try lia.
        cbn [length] in L. lia.
  - rewrite A. destruct (hid_data b DT) as [_ H2]. rewrite H, H2. specialize (F A). apply (REC s b B); auto; try lia.
Qed.

Lemma f_outer_spec : forall fuel rest s t B, tail_ok t -> (length rest <= fuel)%nat -> gst s rest t B ->
  exists s', f_outer stale (pieces fuel ch rest) s = Some (s', true) /\ g_out s' = g_out s ++ B.
Proof.
  (* one round *)
  assert (ROUND : forall rest s t B p rest', tail_ok t -> gst s rest t B -> rest = p ++ rest' -> (rest' = [] \/ length p = ch) ->
    exists s', ((forall ps, f_outer stale (p :: ps) s = Some (s', true)) /\ g_out s' = g_out s ++ B) \/
    exists done B', (forall ps, f_outer stale (p :: ps) s = f_outer stale ps s') /\ B = done ++ B' /\ gst s' rest' t B' /\ gwaits s' /\ g_out s' = g_out s ++ done).
  { intros rest s t B p rest' TO ST E P.
    set (s1 := mkfscan (g_live s ++ p) (g_line s) (g_head s) (g_size s) (g_off s) (g_out s)).
    assert (EN : forall e, ends ch e rest -> ends ch (e + length p) rest').
    { intros e [X|[q X]].
      - left. rewrite E in X. apply app_eq_nil in X. apply X.
      - destruct P as [P|P]; [left; exact P|]. right. exists (S q). cbn. lia. }
    assert (ST1 : gst s1 rest' t B).
    { destruct ST as [B A Z0 C D E'|b B A H DT Z1 C D E' GE].
      - apply g_at_line; unfold s1; cbn [g_live g_line g_size g_off]; auto.
        + rewrite <- app_assoc, <- E. exact C.
        + rewrite app_length, Nat.add_assoc. apply EN, D.
      - apply g_at_data; unfold s1; cbn [g_live g_line g_size g_off g_head]; auto.
        + rewrite <- app_assoc, <- E. exact C.
        + rewrite app_length, Nat.add_assoc. apply EN, D. }
    destruct (Z.of_nat (length (g_live s1)) <? g_size s1) eqn:Q.
    - exists s1. right. exists [], B. split; [intros ps; cbn [f_outer]; fold s1; rewrite Q; reflexivity|]. split; [reflexivity|]. split; [exact ST1|].
      split; [unfold gwaits; destruct (g_line s1) eqn:LN; [|left; lia]|].
      + destruct ST1; try congruence. lia.
      + now rewrite app_nil_r.
    - destruct (f_inner_spec (length (g_live s1)) s1 rest' t B TO (le_n _) ST1 ltac:(lia)) as (s' & [[I1 I2]|(done & B' & I1 & I2 & I3 & I4 & I5)]).
      + exists s'. left. split; [intros ps; cbn [f_outer]; fold s1; rewrite Q, I1; reflexivity|]. exact I2.
      + exists s'. right. exists done, B'. split; [intros ps; cbn [f_outer]; fold s1; rewrite Q, I1; reflexivity|]. auto. }
  (* nothing is left: the tail has been reached *)
  assert (LAST : forall s t B, tail_ok t -> gst s [] t B -> exists s', f_outer stale [[]] s = Some (s', true) /\ g_out s' = g_out s ++ B).
  { intros s t B TO ST. destruct (ROUND [] s t B [] [] TO ST eq_refl (or_introl eq_refl)) as (s' & [[R1 R2]|(done & B' & R1 & R2 & R3 & R4 & R5)]).
    - exists s'. split; [apply R1|exact R2].
    - exfalso. destruct TO as (r & _ & TL). unfold gwaits in R4. destruct R3 as [B' A Z0 C D E'|b B' A H DT Z1 C D E' GE];
        rewrite A, app_nil_r in *; rewrite C, !app_length in R4; lia. }
  induction fuel as [|fuel IH]; intros rest s t B TO L ST.
  - assert (rest = []) as -> by (destruct rest; [reflexivity|cbn in L; lia]). cbn [pieces]. exact (LAST s t B TO ST).
  - destruct rest as [|x rest]; [cbn [pieces]; exact (LAST s t B TO ST)|].
    cbn [pieces]. set (l := x :: rest) in *.
    destruct (ROUND l s t B (firstn ch l) (skipn ch l) TO ST) as (s1 & [[R1 R2]|(done & B' & R1 & R2 & R3 & R4 & R5)]).
    + symmetry. apply firstn_skipn.
    + destruct (Nat.le_gt_cases (length l) ch); [left; apply skipn_all2; assumption|right; rewrite firstn_length; lia].
    + exists s1. split; [apply R1|exact R2].
    + destruct (IH (skipn ch l) s1 t B' TO) as (s2 & J1 & J2); [rewrite skipn_length; unfold l in *; cbn [length] in *; lia|exact R3|].
      exists s2. rewrite R1. split; [exact J1|]. rewrite J2, R5, R2, app_assoc. reflexivity.
Qed.
End Scan.

Lemma read_all_spec : forall ch stale head fl BB n, (1 <= ch)%nat -> length head = HEAD_SIZE -> Forall2 (closed_file head) fl BB ->
  Forall (oks ch 0) BB -> read_all ch stale n fl = Some (concat BB).
Proof.
  intros ch stale head fl BB n C H F. revert n. induction F as [|f B fl BB (rest & R & E) F IH]; intros n K; [reflexivity|].
  inversion K as [|? ? K1 K2]; subst. cbn [read_all]. unfold content. rewrite <- app_assoc, head_skip by exact H.
  destruct (f_outer_spec ch (stale n) C (length (bbs B ++ TAIL_HEAD :: rest)) (bbs B ++ TAIL_HEAD :: rest) (mkfscan [] true 0 0 0 []) (TAIL_HEAD :: rest) B) as (s & S1 & S2).
  - exists rest. split; [reflexivity|]. cbn [length]. lia.
  - lia.
  - apply g_at_line; cbn [g_live g_line g_size g_off length app]; auto. right. exists 0%nat. reflexivity.
  - rewrite S1, S2, (IH (S n) K2). reflexivity.
Qed.
