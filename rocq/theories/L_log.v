(** Lemmas on reading log files. *)
From Verif Require Import Base S_memory M_memory L_memory S_log M_log.
From Coq Require Import ZifyBool ZifyNat.

Lemma rec_bytes_eq : forall r, rec_bytes r = LOG_HEAD :: ssize_bytes (Z.of_nat (length r)) ++ r.
Proof.
  intros r. unfold rec_bytes.
  assert (O : mem_ok (mem_cat mem_create [LOG_HEAD])) by (vm_compute; split; [lia|discriminate]).
  destruct (mem_cat_ssize_spec (mem_cat mem_create [LOG_HEAD]) (Z.of_nat (length r)) O ltac:(lia)) as [_ ->].
  reflexivity.
Qed.
(** length of the head of a record *)
Definition hdr (r : list Z) : nat := (1 + ssize_ret (Z.of_nat (length r)))%nat.
Lemma rec_size_eq : forall r, rec_size r = (hdr r + length r)%nat.
Proof. intros. unfold rec_size, hdr. rewrite rec_bytes_eq. cbn [length]. rewrite app_length, ssize_bytes_length. lia. Qed.
Lemma ssize_ret_ge : forall v, (1 <= ssize_ret v)%nat.
Proof. intros. unfold ssize_ret. repeat (destruct (_ <? _)%Z); lia. Qed.
Lemma hdr_ge : forall r, (2 <= hdr r)%nat.
Proof. intros. unfold hdr. pose proof (ssize_ret_ge (Z.of_nat (length r))). lia. Qed.
Lemma log_cons : forall r rs, log_bytes (r :: rs) = rec_bytes r ++ log_bytes rs.
Proof. reflexivity. Qed.
Lemma log_app : forall a b, log_bytes (a ++ b) = log_bytes a ++ log_bytes b.
Proof. intros. unfold log_bytes. now rewrite map_app, concat_app. Qed.

Lemma get_whole : forall g v rest, 0 <= v < 2 ^ 64 -> get_ssize g (ssize_bytes v ++ rest) = Some (v, rest).
Proof.
  intros g v rest V. unfold get_ssize. set (m := mkmem _ _ _).
  assert (O : mem_ok m) by (unfold m, mem_ok, msize; cbn [mbuf moff mmax]; lia).
  destruct (mem_get_ssize_spec g m v rest O V eq_refl) as (m' & -> & _ & -> & _). reflexivity.
Qed.

(** a length cut short, marker 251 or 252: at least 250, nothing left *)
Lemma get_torn : forall g v k, (forall i, is_byte (g i)) -> 250 < v <= 65785 -> (1 <= k < ssize_ret v)%nat ->
  exists size, get_ssize g (firstn k (ssize_bytes v)) = Some (size, []) /\ 250 <= size.
Proof.
  intros g v k G V K. unfold ssize_ret in K. unfold ssize_bytes.
  change (65535 + 250) with 65785 in K. change (255 + 250) with 505 in K.
  destruct (4294967295 <? v) eqn:A; [lia|]. destruct (65785 <? v) eqn:B; [lia|].
  destruct (505 <? v) eqn:C.
  - assert (k = 1 \/ k = 2)%nat as [->| ->] by lia; unfold get_ssize; cbn [firstn le_bytes length].
    + unfold mem_get_ssize, mem_get_byte, mem_peek, mem_byte, mem_move, mem_live; cbn [length mbuf moff mmax Nat.ltb Nat.leb nth Z.of_nat Z.add Z.ltb Z.compare Pos.compare Pos.compare_cont Pos.of_succ_nat Pos.succ Pos.add Nat.add le_val].
      change (to_s 64 (252 + 256 * 0)) with 252. cbn [Z.eqb Pos.eqb orb skipn].
      eexists. split; [reflexivity|]. pose proof (G 1%nat) as G1. pose proof (G 2%nat) as G2. unfold is_byte in *.
      rewrite to_s_small by lia. rewrite to_u_small by lia. lia.
    + unfold mem_get_ssize, mem_get_byte, mem_peek, mem_byte, mem_move, mem_live; cbn [length mbuf moff mmax Nat.ltb Nat.leb nth Z.of_nat Z.add Z.ltb Z.compare Pos.compare Pos.compare_cont Pos.of_succ_nat Pos.succ Pos.add Nat.add le_val].
      change (to_s 64 (252 + 256 * 0)) with 252. cbn [Z.eqb Pos.eqb orb skipn].
      eexists. split; [reflexivity|]. pose proof (G 2%nat) as G2. unfold is_byte in *.
      pose proof (Z.mod_pos_bound (v - 250) 256 ltac:(lia)).
      rewrite to_s_small by lia. rewrite to_u_small by lia. lia.
  - destruct (250 <? v) eqn:D; [|lia]. assert (k = 1)%nat as -> by lia. unfold get_ssize; cbn [firstn le_bytes length].
    unfold mem_get_ssize, mem_get_byte, mem_peek, mem_byte, mem_move, mem_live; cbn [length mbuf moff mmax Nat.ltb Nat.leb nth Z.of_nat Z.add Z.ltb Z.compare Pos.compare Pos.compare_cont Pos.of_succ_nat Pos.succ Pos.add Nat.add le_val].
    change (to_s 64 (251 + 256 * 0)) with 251. cbn [Z.eqb Pos.eqb orb skipn].
    eexists. split; [reflexivity|]. pose proof (G 1%nat) as G1. unfold is_byte in *.
    rewrite to_s_small by lia. rewrite to_u_small by lia. lia.
Qed.

Lemma piece_end : forall ch o n q, (1 <= ch)%nat -> (1 <= n)%nat -> in_one_piece ch o n -> (o < q * ch)%nat -> (o + n <= q * ch)%nat.
Proof.
  intros ch o n q C N H L. unfold in_one_piece in H.
  assert (o / ch < q)%nat by (apply Nat.div_lt_upper_bound; lia).
  pose proof (Nat.mul_succ_div_gt (o + n - 1) ch ltac:(lia)). rewrite <- H in *. nia.
Qed.
Lemma app_split : forall (a b c d : list Z), a ++ b = c ++ d -> (length c <= length a)%nat -> a = c ++ skipn (length c) a /\ skipn (length c) a ++ b = d.
Proof.
  intros a b c d E L.
  assert (F : firstn (length c) a = c).
  { pose proof (f_equal (firstn (length c)) E) as F. rewrite firstn_app, firstn_app_exact in F by reflexivity.
    replace (length c - length a)%nat with 0%nat in F by lia. cbn [firstn] in F. rewrite app_nil_r in F. exact F. }
  split; [rewrite <- F at 1; symmetry; apply firstn_skipn|].
  rewrite <- (firstn_skipn (length c) a) in E. rewrite F, <- app_assoc in E. apply app_inv_head in E. exact E.
Qed.
Lemma starts_app : forall size a b o, starts size o (a ++ b) = starts size o a ++ starts size (o + length (concat (map (fun r => repeat 0 (size r)) a))) b.
Proof.
  intros size. induction a as [|r a IH]; intros b o; cbn [starts map concat app]; [f_equal; cbn; lia|].
  rewrite IH, app_length, repeat_length, Nat.add_assoc. reflexivity.
Qed.
Lemma log_length : forall a, length (log_bytes a) = length (concat (map (fun r => repeat 0 (rec_size r)) a)).
Proof. induction a as [|r a IH]; [reflexivity|]. rewrite log_cons, app_length, IH. cbn [map concat]. rewrite app_length, repeat_length. reflexivity. Qed.
Lemma starts_log : forall a b o, starts rec_size o (a ++ b) = starts rec_size o a ++ starts rec_size (o + length (log_bytes a)) b.
Proof. intros. rewrite starts_app, log_length. reflexivity. Qed.

Section Reading.
Variables (thr : nat) (at_once : Z -> bool) (stale : nat -> nat -> Z) (ch : nat).
Hypothesis Hthr : (2 <= thr)%nat.
Hypothesis Hhead : at_once LOG_HEAD = false.
Hypothesis Hch : (1 <= ch)%nat.
Hypothesis Hstale : forall o i, is_byte (stale o i).

Definition fits (r : list Z) : Prop := Z.of_nat (length r) < 2 ^ 64.
Definition head_ok (o : nat) (r : list Z) : Prop := (hdr r <= thr)%nat \/ in_one_piece ch o (hdr r).
Definition recs_ok (o : nat) (rs : list (list Z)) : Prop :=
  forall o' r, In (o', r) (starts rec_size o rs) -> fits r /\ head_ok o' r.
Definition last_ok (o : nat) (rs : list (list Z)) : Prop := forall pre r, rs = pre ++ [r] ->
  (thr <= rec_size r)%nat /\ (length r = 0%nat \/ (thr <= length r)%nat \/ in_one_piece ch (o + length (log_bytes pre)) (rec_size r)).
Definition torn (o : nat) (t : list Z) : Prop :=
  t = [] \/ exists r k, t = firstn k (rec_bytes r) /\ (k < rec_size r)%nat /\ fits r /\ ((hdr r <= 4)%nat \/ (hdr r <= k)%nat) /\ head_ok o r.
Definition ends (e : nat) (rest : list Z) : Prop := rest = [] \/ exists q, e = (q * ch)%nat.

Inductive stage (s : scan) (rest t : list Z) : list (list Z) -> Prop :=
| st_line : forall rs, k_line s = true -> k_size s = 0 -> k_live s ++ rest = log_bytes rs ++ t ->
    ends (k_off s + length (k_live s)) rest -> recs_ok (k_off s) rs -> torn (k_off s + length (log_bytes rs)) t -> stage s rest t rs
| st_rec : forall r rs, k_line s = false -> k_head s = LOG_HEAD -> k_size s = Z.of_nat (length r) ->
    k_ssize s = ssize_ret (Z.of_nat (length r)) -> k_live s ++ rest = r ++ log_bytes rs ++ t ->
    ends (k_off s + hdr r + length (k_live s)) rest -> (1 <= length r)%nat -> ~ in_one_piece ch (k_off s) (rec_size r) ->
    recs_ok (k_off s + rec_size r) rs -> torn (k_off s + rec_size r + length (log_bytes rs)) t -> stage s rest t (r :: rs)
| st_torn : k_line s = false -> Z.of_nat (length (k_live s ++ rest)) < k_size s -> stage s rest t [].
Definition waits (s : scan) : Prop :=
  if k_line s then (length (k_live s) < thr)%nat else Z.of_nat (length (k_live s)) < k_size s \/ (length (k_live s) < thr)%nat.

Lemma head_in : forall o r (live rest : list Z), head_ok o r -> (thr <= length live)%nat -> ends (o + length live) rest ->
  (rest = [] -> (hdr r <= length live)%nat) -> (hdr r <= length live)%nat.
Proof.
  intros o r live rest [H|H] L E W; [lia|]. destruct E as [E|[q E]]; [auto|].
  pose proof (hdr_ge r). pose proof (piece_end ch o (hdr r) q Hch ltac:(lia) H ltac:(lia)). lia.
Qed.

Lemma inner_spec : forall n s rest t rs, (length (k_live s) <= n)%nat -> stage s rest t rs ->
  (k_line s = false -> k_size s <= Z.of_nat (length (k_live s))) ->
  exists s' done rs', inner (S n) thr at_once stale s = Some (s', false) /\ rs = done ++ rs' /\
    stage s' rest t rs' /\ waits s' /\ k_out s' = k_out s ++ done /\ k_off s' = (k_off s + length (log_bytes done))%nat.
Proof.
  induction n as [n IH] using (well_founded_induction lt_wf); intros s rest t rs L ST F.
  cbn [inner]. destruct (length (k_live s) <? thr)%nat eqn:T.
  { exists s, [], rs. split; [reflexivity|]. split; [reflexivity|]. split; [exact ST|]. split; [unfold waits; destruct (k_line s); lia|].
    split; [now rewrite app_nil_r|cbn; lia]. }
  (* a complete record in the buffer *)
  assert (REC : forall s1 r rs1, k_head s1 = LOG_HEAD -> k_size s1 = Z.of_nat (length r) -> k_ssize s1 = ssize_ret (Z.of_nat (length r)) ->
    k_live s1 ++ rest = r ++ log_bytes rs1 ++ t -> (length r <= length (k_live s1))%nat ->
    ends (k_off s1 + hdr r + length (k_live s1)) rest -> recs_ok (k_off s1 + rec_size r) rs1 ->
    torn (k_off s1 + rec_size r + length (log_bytes rs1)) t ->
    (length (k_live s1) - length r < n)%nat ->
    exists s' done rs', inner n thr at_once stale (take_rec s1) = Some (s', false) /\ r :: rs1 = done ++ rs' /\
      stage s' rest t rs' /\ waits s' /\ k_out s' = k_out s1 ++ done /\ k_off s' = (k_off s1 + length (log_bytes done))%nat).
  { intros s1 r rs1 A B C D E G H I J. destruct n as [|n]; [lia|].
    destruct (app_split _ _ _ _ D E) as [D1 D2].
    assert (X : take_rec s1 = mkscan (skipn (length r) (k_live s1)) true LOG_HEAD 0 (k_ssize s1) (k_off s1 + rec_size r) (k_out s1 ++ [r])).
    { unfold take_rec. rewrite A, B, C, Nat2Z.id. f_equal.
      - rewrite rec_size_eq. unfold hdr. lia.
      - f_equal. f_equal. rewrite D1. rewrite firstn_app_exact by reflexivity. reflexivity. }
    rewrite X. clear X.
    destruct (IH n ltac:(lia) (mkscan (skipn (length r) (k_live s1)) true LOG_HEAD 0 (k_ssize s1) (k_off s1 + rec_size r) (k_out s1 ++ [r])) rest t rs1)
      as (s' & done & rs' & Q1 & Q2 & Q3 & Q4 & Q5 & Q6).
    - cbn [k_live]. rewrite skipn_length. lia.
    - apply st_line; cbn [k_live k_line k_size k_off]; auto.
      destruct G as [G|[q G]]; [left; exact G|]. right. exists q. rewrite skipn_length, rec_size_eq. lia.
    - discriminate.
    - cbn [k_out k_off] in *. exists s', (r :: done), rs'. split; [exact Q1|]. split; [rewrite Q2; reflexivity|]. split; [exact Q3|].
      split; [exact Q4|]. split; [rewrite Q5, <- app_assoc; reflexivity|]. rewrite Q6, log_cons, app_length. unfold rec_size. lia. }
  destruct ST as [rs A B C D E G|r rs A B C D E G H I J K|A B].
  - rewrite A. destruct (k_live s) as [|h l] eqn:LV; [cbn [length] in T; lia|].
    destruct rs as [|r rs].
    + (* the cut record *)
      cbn [log_bytes map concat app] in C. destruct G as [G|(r & k & G1 & G2 & G3 & G4 & G5)]; [rewrite G in C; discriminate C|].
      cbn [log_bytes map concat length] in G5. rewrite Nat.add_0_r in G5.
      assert (K : (length (h :: l) + length rest = k)%nat).
      { pose proof (f_equal (@length Z) C) as K. rewrite G1, firstn_length in K. fold (rec_size r) in K.
        cbn [length] in *. rewrite app_length in K. lia. }
      rewrite G1, rec_bytes_eq in C. destruct k as [|k]; [cbn [length] in K; lia|].
      cbn [firstn app] in C. injection C as -> C. rewrite Hhead.
      destruct (Nat.le_gt_cases (hdr r) (length (LOG_HEAD :: l))) as [W|W].
      * assert (C' : l ++ rest = ssize_bytes (Z.of_nat (length r)) ++ firstn (k - ssize_ret (Z.of_nat (length r))) r).
        { rewrite C, firstn_app, ssize_bytes_length. f_equal. apply firstn_all2. rewrite ssize_bytes_length. unfold hdr in W. cbn [length] in *. lia. }
        destruct (app_split _ _ _ _ C') as [C1 C2]; [rewrite ssize_bytes_length; unfold hdr in W; cbn [length] in W; lia|].
        rewrite C1, get_whole by (unfold fits in G3; lia). set (l2 := skipn (length (ssize_bytes (Z.of_nat (length r)))) l) in *.
        assert (M : (length (l2 ++ rest) < length r)%nat).
        { rewrite C2, firstn_length. rewrite rec_size_eq in G2. unfold hdr in *. cbn [length] in *. lia. }
        rewrite app_length in M. replace (Z.of_nat (length l2) <? Z.of_nat (length r)) with true by lia.
        eexists _, [], []. split; [reflexivity|]. split; [reflexivity|]. split; [apply st_torn; [reflexivity|]; cbn [k_live k_size]; rewrite app_length; lia|].
        split; [unfold waits; cbn [k_line k_live k_size]; left; lia|]. split; [now rewrite app_nil_r|cbn; lia].
      * assert (R : rest = []).
        { destruct D as [D|[q D]]; [exact D|]. destruct G5 as [G5|G5]; [cbn [length] in *; lia|].
          pose proof (hdr_ge r). pose proof (piece_end ch (k_off s) (hdr r) q Hch ltac:(lia) G5 ltac:(cbn [length] in *; lia)). lia. }
        subst rest. rewrite app_nil_r in C. cbn [length] in K, W.
        assert (V : 250 < Z.of_nat (length r) <= 65785).
        { unfold hdr, ssize_ret in *. cbn [length] in *. change (65535 + 250) with 65785 in *. change (255 + 250) with 505 in *.
          destruct (4294967295 <? Z.of_nat (length r)) eqn:V1; [lia|]. destruct (65785 <? Z.of_nat (length r)) eqn:V2; [lia|].
          destruct (505 <? Z.of_nat (length r)) eqn:V3; [lia|]. destruct (250 <? Z.of_nat (length r)) eqn:V4; [lia|]. lia. }
        assert (C' : l = firstn k (ssize_bytes (Z.of_nat (length r)))).
        { rewrite C, firstn_app, ssize_bytes_length. replace (k - ssize_ret (Z.of_nat (length r)))%nat with 0%nat by (unfold hdr in W; lia).
          cbn [firstn]. apply app_nil_r. }
        destruct (get_torn (stale (k_off s)) (Z.of_nat (length r)) k (Hstale _) V) as (size & S1 & S2);
          [unfold hdr in W; cbn [length] in *; lia|].
        rewrite C', S1. cbn [length]. replace (Z.of_nat 0 <? size) with true by lia.
        eexists _, [], []. split; [reflexivity|]. split; [reflexivity|]. split; [apply st_torn; [reflexivity|]; cbn [k_live k_size app length]; lia|].
        split; [unfold waits; cbn [k_line k_live k_size length]; left; lia|]. split; [now rewrite app_nil_r|cbn; lia].
    + destruct (E (k_off s) r (or_introl eq_refl)) as [E1 E2].
      assert (W : (hdr r <= length (h :: l))%nat).
      { apply (head_in (k_off s) r (h :: l) rest E2); [lia|exact D|]. intros ->. rewrite app_nil_r in C. rewrite C, log_cons, !app_length.
        fold (rec_size r). rewrite rec_size_eq. lia. }
      rewrite log_cons, rec_bytes_eq in C. cbn [app] in C. injection C as -> C. rewrite Hhead.
      rewrite <- !app_assoc in C. destruct (app_split _ _ _ _ C) as [C1 C2]; [rewrite ssize_bytes_length; unfold hdr in W; cbn [length] in W; lia|].
      assert (LL : length l = (ssize_ret (Z.of_nat (length r)) + length (skipn (length (ssize_bytes (Z.of_nat (length r)))) l))%nat).
      { rewrite C1 at 1. rewrite app_length, ssize_bytes_length. reflexivity. }
      assert (GG : get_ssize (stale (k_off s)) l = Some (Z.of_nat (length r), skipn (length (ssize_bytes (Z.of_nat (length r)))) l)).
      { rewrite C1 at 1. apply get_whole. unfold fits in E1. lia. }
      rewrite GG. clear GG. set (l2 := skipn (length (ssize_bytes (Z.of_nat (length r)))) l) in *.
      assert (E3 : recs_ok (k_off s + rec_size r) rs) by (intros o' x X; apply E; right; exact X).
      replace (k_off s + length (log_bytes (r :: rs)))%nat with (k_off s + rec_size r + length (log_bytes rs))%nat in G
        by (rewrite log_cons, app_length; unfold rec_size; lia).
      destruct (Z.of_nat (length l2) <? Z.of_nat (length r)) eqn:M.
      * eexists _, [], (r :: rs). split; [reflexivity|]. split; [reflexivity|]. split.
        { apply st_rec; cbn [k_line k_head k_size k_ssize k_live k_off]; auto; try lia.
          - destruct D as [D|[q D]]; [left; exact D|]. right. exists q. unfold hdr. cbn [length] in D. lia.
          - intros P. assert (rest <> []).
            { intros ->. pose proof (f_equal (@length Z) C2) as X. rewrite !app_length in X. cbn [length] in X. lia. }
            destruct D as [D|[q D]]; [contradiction|]. pose proof (hdr_ge r). rewrite rec_size_eq in P.
            pose proof (piece_end ch (k_off s) (hdr r + length r) q Hch ltac:(lia) P ltac:(cbn [length] in *; lia)). unfold hdr in *. cbn [length] in *. lia. }
        split; [unfold waits; cbn [k_line k_live k_size]; left; lia|]. split; [now rewrite app_nil_r|cbn; lia].
      * change (negb (hid LOG_HEAD =? HID_MSG_LOG)) with false. cbv iota.
        destruct (REC (mkscan l2 true LOG_HEAD (Z.of_nat (length r)) (length l - length l2) (k_off s) (k_out s)) r rs)
          as (s' & done & rs' & Q); cbn [k_head k_size k_ssize k_live k_off k_out]; auto; try lia.
        { destruct D as [D|[q D]]; [left; exact D|]. right. exists q. unfold hdr. cbn [length] in D. lia. }
        { cbn [length] in L. lia. }
        exists s', done, rs'. exact Q.
  - rewrite A, B. change (negb (hid LOG_HEAD =? HID_MSG_LOG)) with false. cbv iota.
    specialize (F A). apply REC; auto; lia.
  - specialize (F A). rewrite app_length in B. lia.
Qed.

Lemma outer_spec : forall fuel rest s t rs, (length rest <= fuel)%nat -> stage s rest t rs ->
  exists s' done rs', outer thr at_once stale (pieces fuel ch rest) s = Some s' /\ rs = done ++ rs' /\
    stage s' [] t rs' /\ waits s' /\ k_out s' = k_out s ++ done /\ k_off s' = (k_off s + length (log_bytes done))%nat.
Proof.
  (* one round *)
  assert (ROUND : forall rest s t rs p rest', stage s rest t rs -> rest = p ++ rest' -> (rest' = [] \/ length p = ch) ->
    exists s' done rs', (forall ps, outer thr at_once stale (p :: ps) s = outer thr at_once stale ps s') /\ rs = done ++ rs' /\
    stage s' rest' t rs' /\ waits s' /\ k_out s' = k_out s ++ done /\ k_off s' = (k_off s + length (log_bytes done))%nat).
  { intros rest s t rs p rest' ST E P.
    set (s1 := mkscan (k_live s ++ p) (k_line s) (k_head s) (k_size s) (k_ssize s) (k_off s) (k_out s)).
    assert (EN : forall e, ends e rest -> ends (e + length p) rest').
    { intros e [X|[q X]].
      - left. rewrite E in X. apply app_eq_nil in X. apply X.
      - destruct P as [P|P]; [left; exact P|]. right. exists (S q). cbn. lia. }
    assert (ST1 : stage s1 rest' t rs).
    { destruct ST as [rs A B C D E' G|r rs A B C D E' G H I J K|A B].
      - apply st_line; unfold s1; cbn [k_live k_line k_size k_off]; auto.
        + rewrite <- app_assoc, <- E. exact C.
        + rewrite app_length, Nat.add_assoc. apply EN, D.
      - apply st_rec; unfold s1; cbn [k_live k_line k_size k_off k_head k_ssize]; auto.
        + rewrite <- app_assoc, <- E. exact E'.
        + rewrite app_length, Nat.add_assoc. apply EN, G.
      - apply st_torn; unfold s1; cbn [k_live k_line k_size]; auto. rewrite <- app_assoc, <- E. exact B. }
    destruct (Z.of_nat (length (k_live s1)) <? k_size s1) eqn:Q.
    - exists s1, [], rs. split; [intros ps; cbn [outer]; fold s1; rewrite Q; reflexivity|]. split; [reflexivity|]. split; [exact ST1|].
      split; [unfold waits; destruct (k_line s1) eqn:LN; [|left; lia]|].
      + destruct ST1; try congruence. lia.
      + split; [now rewrite app_nil_r|cbn; lia].
    - destruct (inner_spec (length (k_live s1)) s1 rest' t rs (le_n _) ST1 ltac:(lia)) as (s' & done & rs' & I1 & I).
      exists s', done, rs'. split; [intros ps; cbn [outer]; fold s1; rewrite Q, I1; reflexivity|]. exact I. }
  induction fuel as [|fuel IH]; intros rest s t rs L ST.
  - assert (rest = []) as -> by (destruct rest; [reflexivity|cbn in L; lia]).
    destruct (ROUND [] s t rs [] [] ST eq_refl (or_introl eq_refl)) as (s' & done & rs' & R & I). exists s', done, rs'. split; [|exact I].
    cbn [pieces]. rewrite R. reflexivity.
  - destruct rest as [|x rest].
    + destruct (ROUND [] s t rs [] [] ST eq_refl (or_introl eq_refl)) as (s' & done & rs' & R & I). exists s', done, rs'. split; [|exact I].
      cbn [pieces]. rewrite R. reflexivity.
    + cbn [pieces]. set (l := x :: rest) in *.
      destruct (ROUND l s t rs (firstn ch l) (skipn ch l) ST) as (s1 & d1 & r1 & R & I1 & I2 & I3 & I4 & I5).
      * symmetry. apply firstn_skipn.
      * destruct (Nat.le_gt_cases (length l) ch); [left; apply skipn_all2; assumption|right; rewrite firstn_length; lia].
      * destruct (IH (skipn ch l) s1 t r1) as (s2 & d2 & r2 & J1 & J2 & J3 & J4 & J5 & J6);
          [rewrite skipn_length; unfold l in *; cbn [length] in *; lia|exact I2|].
        exists s2, (d1 ++ d2), r2. rewrite R. split; [exact J1|]. split; [rewrite I1, J2, app_assoc; reflexivity|].
        split; [exact J3|]. split; [exact J4|]. split; [rewrite J5, I4, app_assoc; reflexivity|].
        rewrite J6, I5, log_app, app_length. lia.
Qed.

Lemma suffix_last : forall (rs done rs' : list (list Z)), rs = done ++ rs' -> rs' <> [] ->
  exists pre r, rs' = pre ++ [r] /\ rs = (done ++ pre) ++ [r].
Proof.
  intros rs done rs' E N. destruct (exists_last N) as (pre & r & X). exists pre, r. split; [exact X|]. rewrite E, X. apply app_assoc.
Qed.

Theorem scan_spec : forall rs t, recs_ok 0 rs -> last_ok 0 rs -> torn (length (log_bytes rs)) t ->
  exists s, run_scan thr at_once ch stale (log_bytes rs ++ t) = Some s /\ k_off s = length (log_bytes rs) /\ k_out s = rs.
Proof.
  intros rs t R L T. unfold run_scan.
  destruct (outer_spec (length (log_bytes rs ++ t)) (log_bytes rs ++ t) scan0 t rs (le_n _)) as (s & done & rs' & A & B & C & D & E & F).
  { apply st_line; cbn; auto. right. exists 0%nat. reflexivity. }
  exists s. split; [exact A|].
  assert (N : rs' = []).
  { destruct rs' as [|x rs']; [reflexivity|exfalso].
    destruct (suffix_last rs done (x :: rs') B ltac:(discriminate)) as (pre & r & P1 & P2).
    destruct (L _ _ P2) as [L1 L2].
    assert (G : (rec_size r <= length (log_bytes (x :: rs')))%nat).
    { rewrite P1, log_app, app_length. unfold log_bytes at 2. cbn [map concat]. rewrite app_nil_r. unfold rec_size. lia. }
    unfold waits in D. inversion C as [rs0 A1 B1 C1 D1 E1 G1 EQ|r0 rs0 A1 B1 C1 D1 E1 G1 H1 I1 J1 K1 EQ|]; subst.
    - rewrite A1, app_nil_r in *. rewrite C1, app_length in D. lia.
    - rewrite A1, app_nil_r in *. rewrite E1, !app_length, C1 in D.
      destruct pre as [|y pre].
      + cbn [app] in P1. injection P1 as -> ->. rewrite F in I1. cbn [k_off scan0] in I1. rewrite app_nil_r in L2.
        destruct L2 as [L2|[L2|L2]]; [lia|lia|]. apply I1. exact L2.
      + cbn [app] in P1. injection P1 as -> ->.
        assert (rec_size r <= length (log_bytes (pre ++ [r])))%nat.
        { rewrite log_app, app_length. unfold log_bytes at 2. cbn [map concat]. rewrite app_nil_r. unfold rec_size. lia. }
        lia. }
  subst rs'. rewrite app_nil_r in B. subst done. split; [rewrite F; reflexivity|rewrite E; reflexivity].
Qed.
End Reading.

Lemma cut_log : forall rs n, exists t, firstn n (log_bytes rs) = log_bytes (whole rec_size n rs) ++ t /\
  (t = [] \/ exists r k, In (length (log_bytes (whole rec_size n rs)), r) (starts rec_size 0 rs) /\ t = firstn k (rec_bytes r) /\
     (k < rec_size r)%nat /\ n = (length (log_bytes (whole rec_size n rs)) + k)%nat).
Proof.
  assert (SH : forall rs o r a, In (o, r) (starts rec_size 0 rs) -> In ((o + a)%nat, r) (starts rec_size a rs)).
  { intros rs. assert (G : forall b o r a, In (o, r) (starts rec_size b rs) -> In ((o + a)%nat, r) (starts rec_size (b + a) rs)).
    { induction rs as [|x rs IH]; intros b o r a H; [destruct H|]. cbn [starts] in *. destruct H as [H|H].
      - injection H as <- <-. left. reflexivity.
      - right. replace (b + a + rec_size x)%nat with (b + rec_size x + a)%nat by lia. apply IH, H. }
    intros o r a H. exact (G 0%nat o r a H). }
  induction rs as [|r rs IH]; intros n.
  - exists []. rewrite firstn_nil. split; [reflexivity|left; reflexivity].
  - cbn [whole]. rewrite log_cons, firstn_app. fold (rec_size r). destruct (rec_size r <=? n)%nat eqn:L.
    + destruct (IH (n - rec_size r)%nat) as (t & E & T). exists t. rewrite E, log_cons, <- app_assoc, firstn_all2 by (fold (rec_size r); lia).
      split; [reflexivity|]. destruct T as [T|(x & k & T1 & T2 & T3 & T4)]; [left; exact T|right]. exists x, k.
      rewrite app_length. fold (rec_size r). cbn [starts]. split; [right; rewrite Nat.add_comm; apply SH, T1|].
      split; [exact T2|]. split; [exact T3|]. lia.
    + exists (firstn n (rec_bytes r)). replace (n - rec_size r)%nat with 0%nat by lia. cbn [firstn]. rewrite app_nil_r.
      split; [reflexivity|]. right. exists r, n. cbn [log_bytes map concat length starts]. split; [left; reflexivity|]. split; [reflexivity|]. split; [lia|reflexivity].
Qed.
Lemma whole_prefix : forall rs n, exists rs', rs = whole rec_size n rs ++ rs'.
Proof.
  induction rs as [|r rs IH]; intros n; [exists []; reflexivity|]. cbn [whole]. destruct (rec_size r <=? n)%nat.
  - destruct (IH (n - rec_size r)%nat) as [rs' E]. exists rs'. cbn [app]. f_equal. exact E.
  - exists (r :: rs). reflexivity.
Qed.
Lemma whole_all : forall rs, whole rec_size (length (log_bytes rs)) rs = rs.
Proof.
  induction rs as [|r rs IH]; [reflexivity|]. cbn [whole]. rewrite log_cons, app_length. fold (rec_size r).
  replace (rec_size r <=? _)%nat with true by lia. rewrite Nat.add_sub_swap, Nat.sub_diag by lia. cbn. now rewrite IH.
Qed.
Lemma append_log : forall rs f, append f rs = f ++ log_bytes rs.
Proof.
  unfold append. induction rs as [|r rs IH]; intros f; cbn [fold_left]; [now rewrite app_nil_r|].
  rewrite IH, log_cons, app_assoc. reflexivity.
Qed.
Lemma hdr_small : forall r, Z.of_nat (length r) <= 250 -> hdr r = 2%nat.
Proof. intros r H. unfold hdr, ssize_ret. change (65535 + 250) with 65785. change (255 + 250) with 505.
  replace (4294967295 <? _) with false by lia. replace (65785 <? _) with false by lia. replace (505 <? _) with false by lia.
  replace (250 <? _) with false by lia. reflexivity. Qed.
Lemma hdr_middle : forall r, Z.of_nat (length r) <= 65785 -> (hdr r <= 4)%nat.
Proof. intros r H. unfold hdr, ssize_ret. change (65535 + 250) with 65785. change (255 + 250) with 505.
  replace (4294967295 <? _) with false by lia. replace (65785 <? _) with false by lia. destruct (505 <? _); [lia|]. destruct (250 <? _); lia. Qed.
Lemma hdr_big : forall r, 65785 < Z.of_nat (length r) <= 4294967295 -> hdr r = 6%nat.
Proof. intros r H. unfold hdr, ssize_ret. change (65535 + 250) with 65785.
  replace (4294967295 <? _) with false by lia. replace (65785 <? _) with true by lia. reflexivity. Qed.
Lemma hdr_sub : forall r, (rec_size r - length r)%nat = hdr r.
Proof. intros. rewrite rec_size_eq. lia. Qed.
Lemma head_skip : forall (h b : list Z), length h = HEAD_SIZE -> skipn HEAD_SIZE (h ++ b) = b.
Proof. intros h b H. rewrite <- H. apply skipn_app_exact. Qed.

(** a whole record at the front of the buffer *)
Lemma inner_rec : forall f thr ao stale l h ss off out r, (thr <= length (rec_bytes r ++ l))%nat -> ao LOG_HEAD = false ->
  Z.of_nat (length r) < 2 ^ 64 ->
  inner (S f) thr ao stale (mkscan (rec_bytes r ++ l) true h 0 ss off out) =
  inner f thr ao stale (mkscan l true LOG_HEAD 0 (ssize_ret (Z.of_nat (length r))) (off + rec_size r) (out ++ [r])).
Proof.
  intros f thr ao stale l h ss off out r T A F. cbn [inner k_live k_line].
  replace (_ <? _)%nat with false by lia. rewrite rec_bytes_eq. cbn [app]. rewrite A, <- app_assoc, get_whole by lia.
  cbn [k_off k_out k_ssize]. rewrite !app_length, ssize_bytes_length.
  replace (Z.of_nat (length r + length l) <? Z.of_nat (length r)) with false by lia.
  change (negb (hid LOG_HEAD =? HID_MSG_LOG)) with false. cbv iota. f_equal. unfold take_rec. cbn [k_live k_line k_head k_size k_ssize k_off k_out].
  rewrite Nat2Z.id, skipn_app_exact, firstn_app_exact. f_equal; [lia|]. rewrite rec_size_eq. unfold hdr. lia.
Qed.
(** a file that comes in one piece *)
Lemma run_one : forall thr ao ch stale body, (length body <= ch)%nat -> body <> [] ->
  run_scan thr ao ch stale body = outer thr ao stale [body; []] scan0.
Proof.
  intros thr ao ch stale body L N. unfold run_scan. destruct body as [|x body]; [contradiction|]. cbn [length pieces].
  rewrite firstn_all2, skipn_all2 by exact L. destruct (length body); reflexivity.
Qed.
