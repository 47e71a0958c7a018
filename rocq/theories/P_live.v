(** Property C67: a subscriber of the live stream is sent the start of the day, the names, and then
    exactly the records it asked for, without a gap, until the day is over. *)
From Coq Require Import ZArith List Bool Lia ZifyBool ZifyNat String.
From Verif Require Import Base S_server M_server S_sub M_sub L_sub S_live M_live L_live.
Import ListNotations.
Open Scope list_scope.
Open Scope Z_scope.

(** the subscriber has read all that was published and no command is in work *)
Definition caught_up (s : lst) (r : rd) : bool :=
  match l_pc s, d_cur r with PIdle, Some c => (c =? List.length (l_outs s))%nat | _, _ => false end.

(** For all commands and all schedules of the subscribers' threads, as long as names change only
    before the first block of the day, the day starts and ends when every open subscriber has read
    everything, and blocks use known numbers: nothing freed is touched and every subscriber of packed
    data whose keys match something gets what it asked for.  Missing: subscribers of single records,
    and the cases refuted below. *)
Theorem C67_partial : forall d0 l s, calm_run (l0 d0) l -> lrun (l0 d0) l = Some s ->
  l_bad s = false /\
  forall r, In r (l_rds s) -> d_zip r = true ->
    match d_stat r with
    | StNone => False
    | StInit => d_in r = [] \/ d_in r = [MStop (l_date s)]
    | StWork => exists keys sdbs, l_keys s = Some keys /\ l_sdbs s = Some sdbs /\
        (asks_some (d_kpat r) keys -> exists closed, (l_pc s = PIdle -> closed = false) /\
           stream_ok (d_kpat r) (d_spat r) (d_head r) (l_date s) keys sdbs (d_from r - l_day s) (pubs s) closed (caught_up s r) (d_in r))
    | StStop => d_in r = [MStop (l_date s)] \/ exists keys sdbs, l_keys s = Some keys /\ l_sdbs s = Some sdbs /\
        (asks_some (d_kpat r) keys ->
           stream_ok (d_kpat r) (d_spat r) (d_head r) (l_date s) keys sdbs (d_from r - l_day s) (pubs s) true false (d_in r))
    end.
Proof.
  intros d0 l s C R. assert (V := lrun_inv l _ _ (linv0 d0) C R). split; [exact (i_bad s V)|].
  intros r I DZ. assert (IV := i_rd s V r I). unfold rinv in IV. destruct (d_stat r).
  - exact IV.
  - destruct IV as (D & _). destruct (0 <? _)%nat in D; auto.
  - destruct IV as (W & c & keys & sdbs & CU & K & S & LB & LF & _ & CO & NE). exists keys, sdbs. split; [exact K|]. split; [exact S|].
    intros AS. eexists. split; [|apply (core_stream _ _ _ _ _ c); [apply CO; assumption|lia|]].
    + intros ->. reflexivity.
    + unfold caught_up. rewrite CU. destruct (l_pc s) eqn:P; try discriminate. intros Q. split; [lia|].
      intros Q'. destruct (NE Q') as [N|(x & X1 & X2)]; [exact N|]. exfalso.
      destruct (proj2 (i_near s V) x X1) as (A & B & _). destruct (B ltac:(lia)) as (b & PB & _). congruence.
  - destruct IV as (_ & CU & [D|(W & c & keys & sdbs & K & S & LF & CO)]); [left; exact D|right]. exists keys, sdbs.
    split; [exact K|]. split; [exact S|]. intros AS. apply (core_stream _ _ _ _ _ c); [apply CO; assumption|lia|discriminate].
Qed.
Print Assumptions C67_partial.

(** when a block is put into the list, every subscriber has been started (or its day is over) *)
Theorem C67_started : forall d0 l s b, calm_run (l0 d0) l -> lrun (l0 d0) l = Some s -> l_pc s = PPush b ->
  forall r, In r (l_rds s) -> d_stat r = StWork \/ d_stat r = StStop.
Proof.
  intros d0 l s b C R P r I. assert (V := lrun_inv l _ _ (linv0 d0) C R). assert (PC := i_pc s V). rewrite P in PC.
  destruct PC as (_ & NI). specialize (NI r I). assert (IV := i_rd s V r I). unfold rinv in IV. destruct (d_stat r); tauto.
Qed.
Print Assumptions C67_started.

(** an open subscriber who has not read everything can go on, whatever the others do *)
Theorem C67_progress : forall d0 l s r c, calm_run (l0 d0) l -> lrun (l0 d0) l = Some s ->
  In r (l_rds s) -> d_cur r = Some c -> (c < List.length (l_outs s))%nat ->
  exists s' r', lstep s (ARead (d_cid r)) = Some s' /\ In r' (l_rds s') /\ d_cid r' = d_cid r /\ d_cur r' = Some (S c) /\ l_bad s' = false.
Proof.
  intros d0 l s r c C R I CU L. assert (V := lrun_inv l _ _ (linv0 d0) C R).
  assert (FR : find_rd s (d_cid r) = Some r).
  { destruct (find_rd s (d_cid r)) as [x|] eqn:F.
    - destruct (find_some _ _ _ F) as (J & E). f_equal. apply (nodup_cid (l_rds s)); auto. exact (i_cids s V).
    - exfalso. apply (find_none _ _ F). apply in_map. exact I. }
  destruct (nth_error (l_outs s) c) as [b|] eqn:NB; [|apply nth_error_None in NB; lia].
  assert (ST : exists s', lstep s (ARead (d_cid r)) = Some s' /\ (l_bad s' = false -> exists r', In r' (l_rds s') /\ d_cid r' = d_cid r /\ d_cur r' = Some (S c))).
  { cbn [lstep]. unfold read_step. rewrite FR, CU, NB. destruct (c <? l_base s)%nat; [eexists; split; [reflexivity|discriminate]|].
    match goal with |- context [recv r b ?n] => destruct (recv r b n) as [r'|] eqn:RV end; [|eexists; split; [reflexivity|discriminate]].
    eexists. split; [reflexivity|]. intros _. exists (with_cur r' (Some (S c))).
    assert (CI : d_cid r' = d_cid r).
    { unfold recv, send in RV. repeat (match goal with H : context [match ?x with _ => _ end] |- _ => destruct x eqn:? end; try discriminate); injection RV as <-; reflexivity. }
    split; [|split; [exact CI|reflexivity]]. cbn [set_rd with_rds l_rds]. apply in_map_iff. exists r. split; [|exact I].
    rewrite Z.eqb_refl. reflexivity. }
  destruct ST as (s' & E & N). assert (V' := lstep_inv s (ARead (d_cid r)) s' V Logic.I E). destruct (N (i_bad s' V')) as (r' & A & B & D).
  exists s', r'. split; [exact E|]. split; [exact A|]. split; [exact B|]. split; [exact D|exact (i_bad s' V')].
Qed.
Print Assumptions C67_progress.

(** * a concrete day *)
Definition ka := bs "sh600600"%string.
Definition kb := bs "sz000001"%string.
Definition ta := bs "tick"%string.
Definition tb := bs "minute"%string.
Definition star : str := [STAR].
Definition rc (k t : nat) (v : Z) : lrec := (k, t, v).
Definition blk1 := mkblk true [rc 0 0 11; rc 1 0 12; rc 0 1 13].
Definition blk2 := mkblk false [rc 1 1 21; rc 0 0 22].
Definition blk3 := mkblk true [rc 0 0 31].
Definition opening : list lact := [AStart 20240102; ASetKeys [ka; kb]; ASetSdbs [ta; tb]].
(** a block without new subscribers, with one new subscriber, and the end of a day with one subscriber *)
Definition pub0 (b : lblock) : list lact := [AZpub b; AGo; AGo; AGo].
Definition pub1 (b : lblock) : list lact := [AZpub b; AGo; AGo; AGo; AGo].
Definition end1s : list lact := [AStop; AGo; AGo; AGo; AGo].

Ltac calm_here := cbn [calm];
  lazymatch goal with
  | |- True => exact Logic.I
  | |- quiet _ = true => vm_compute; reflexivity
  | |- good_names _ /\ _ => split; [split; [vm_compute; repeat constructor; cbn; intuition discriminate|repeat constructor]|vm_compute; discriminate]
  | _ => intros ks ss EK ES; vm_compute in EK; vm_compute in ES; injection EK as <-; injection ES as <-; eexists; vm_compute; reflexivity
  end.
Lemma calm_cons s a l s' : calm s a -> lstep s a = Some s' -> calm_run s' l -> calm_run s (a :: l).
Proof. intros A E C. cbn [calm_run]. rewrite E. auto. Qed.
Ltac calm_steps :=
  lazymatch goal with
  | |- calm_run _ [] => exact Logic.I
  | |- calm_run ?s (?a :: ?l) => let v := eval vm_compute in (lstep s a) in
      lazymatch v with Some ?s' => apply (calm_cons s a l s'); [calm_here|vm_compute; reflexivity|calm_steps] end
  end.
Ltac calm_tac := lazymatch goal with |- calm_run ?s ?l => let s' := eval vm_compute in s in let l' := eval vm_compute in l in change (calm_run s' l'); calm_steps end.

Definition day1 : list lact := opening ++ [ASub 1 (bs "sh"%string) ta true true] ++ pub1 blk1 ++ [ARead 1] ++ pub0 blk2 ++ [ARead 1] ++ end1s.
Example C67_ex : calm_run (l0 20240101) day1 /\ exists s r, lrun (l0 20240101) day1 = Some s /\ In r (l_rds s) /\ d_stat r = StStop /\
  d_in r = [MStart 20240102; MKeys [ka]; MSdbs [ta]; MZip true [rc 0 0 11]; MZip false [rc 0 0 22]; MStop 20240102].
Proof.
  split.
  - calm_tac.
  - eexists _, _. split; [vm_compute; reflexivity|]. split; [left; reflexivity|]. split; reflexivity.
Qed.

(** * refuted *)
(** what a subscriber of single records is promised: every record it asked for *)
Definition got_single (inbox : list msg) (n : named) : Prop := In (MPub n) inbox.
(** a subscriber of single records gets none: the name of the table is looked up among the keys
    (snodb_reader.c:629) *)
Definition day_chars : list lact := opening ++ [ASub 1 (bs "sh"%string) ta false true] ++ pub1 blk1 ++ [ARead 1].
Theorem C67_single_refuted : exists l s r n, calm_run (l0 20240101) l /\ lrun (l0 20240101) l = Some s /\ In r (l_rds s) /\
  d_stat r = StWork /\ d_zip r = false /\ caught_up s r = true /\
  (exists all, name_all [ka; kb] [ta; tb] (recs_of (pubs s)) = Some all /\ In n all) /\ asks (d_kpat r) (d_spat r) n = true /\
  ~ got_single (d_in r) n /\ d_in r = [MStart 20240102; MKeys [ka]; MSdbs [ta]].
Proof.
  exists day_chars. eexists _, _, (ka, ta, 11). split; [calm_tac|]. split; [vm_compute; reflexivity|]. split; [left; reflexivity|].
  split; [reflexivity|]. split; [reflexivity|]. split; [reflexivity|]. split.
  { eexists. split; [vm_compute; reflexivity|]. left. reflexivity. }
  split; [vm_compute; reflexivity|]. split; [|reflexivity]. vm_compute. intuition discriminate.
Qed.
Print Assumptions C67_single_refuted.

(** the same for everything unpacked ('*.*') *)
Definition day_whole : list lact := opening ++ [ASub 1 star star false true] ++ pub1 blk1 ++ [ARead 1].
Theorem C67_whole_single_refuted : exists l s r n, calm_run (l0 20240101) l /\ lrun (l0 20240101) l = Some s /\ In r (l_rds s) /\
  d_stat r = StWork /\ d_zip r = false /\ caught_up s r = true /\
  (exists all, name_all [ka; kb] [ta; tb] (recs_of (pubs s)) = Some all /\ In n all) /\ asks (d_kpat r) (d_spat r) n = true /\
  ~ got_single (d_in r) n /\ d_in r = [MStart 20240102; MKeys [ka; kb]; MSdbs [ta; tb]].
Proof.
  exists day_whole. eexists _, _, (kb, ta, 12). split; [calm_tac|]. split; [vm_compute; reflexivity|]. split; [left; reflexivity|].
  split; [reflexivity|]. split; [reflexivity|]. split; [reflexivity|]. split.
  { eexists. split; [vm_compute; reflexivity|]. right. left. reflexivity. }
  split; [vm_compute; reflexivity|]. split; [|reflexivity]. vm_compute. intuition discriminate.
Qed.
Print Assumptions C67_whole_single_refuted.

(** who asks for a key that does not exist is sent the records of all keys *)
Definition day_nomatch : list lact := opening ++ [ASub 1 (bs "hk00700"%string) ta true true] ++ pub1 blk1 ++ [ARead 1].
Theorem C67_nomatch_refuted : exists l s r i j v n, calm_run (l0 20240101) l /\ lrun (l0 20240101) l = Some s /\ In r (l_rds s) /\
  ~ asks_some (d_kpat r) [ka; kb] /\ In (MZip true [rc 0 0 11; rc i j v]) (d_in r) /\
  name_rec [ka; kb] [ta] (rc i j v) = Some n /\ asks (d_kpat r) (d_spat r) n = false.
Proof.
  exists day_nomatch. eexists _, _, 1%nat, O, 12, _. split; [calm_tac|]. split; [vm_compute; reflexivity|]. split; [left; reflexivity|].
  split. { cbn [d_kpat]. intros [H|(k & [<-|[<-|[]]] & H)]; vm_compute in H; discriminate. }
  split; [vm_compute; tauto|]. split; vm_compute; reflexivity.
Qed.
Print Assumptions C67_nomatch_refuted.

(** a second subscription of the same client is answered OK and ignored, although by
    snodb_reader.c:94 the later one counts *)
Definition day_second : list lact :=
  opening ++ [ASub 1 (bs "sh"%string) ta true true; ASub 1 (bs "sz"%string) ta true true] ++ pub1 blk1 ++ [ARead 1].
Theorem C67_second_refuted : exists l s r, calm_run (l0 20240101) l /\ lrun (l0 20240101) l = Some s /\ l_rds s = [r] /\
  caught_up s r = true /\ ~ stream_ok (bs "sz"%string) ta true 20240102 [ka; kb] [ta; tb] 0 (pubs s) false true (d_in r).
Proof.
  exists day_second. eexists _, _. split; [calm_tac|]. split; [vm_compute; reflexivity|]. split; [reflexivity|]. split; [reflexivity|].
  intros (ks & ss & data & n & m & all & got & IB & _ & NM & _ & _ & NA & NG & GE & HE & CA).
  cbv [d_in] in IB. injection IB as <- <- IB. destruct data as [|(i, p) data]; [discriminate|]. injection IB as <- <- IB.
  destruct data as [|(i, p) data]; [|discriminate]. vm_compute in NG. injection NG as <-.
  assert (X : In (ka, ta, 11) (filter (asks (bs "sz"%string) ta) all)) by (rewrite <- GE; left; reflexivity).
  apply filter_In in X. destruct X as (_ & X). vm_compute in X. discriminate.
Qed.
Print Assumptions C67_second_refuted.

(** at the end of the day a subscriber who is behind gets blocks after the message that the day is over *)
Definition day_after : list lact := opening ++ [ASub 1 star star true true] ++ pub1 blk1 ++ [AStop; AGo; ARead 1; AGo; AGo; AGo].
Theorem C67_after_end_refuted : exists l s r, lrun (l0 20240101) l = Some s /\ l_rds s = [r] /\ l_pc s = PIdle /\
  d_in r = [MStart 20240102; MKeys [ka; kb]; MSdbs [ta; tb]; MStop 20240102; MZip true (b_recs blk1)].
Proof. exists day_after. eexists _, _. split; [vm_compute; reflexivity|]. split; [reflexivity|]. split; reflexivity. Qed.
Print Assumptions C67_after_end_refuted.

(** or never gets them: its reader is closed, and the block is lost for it *)
Definition day_lost : list lact := opening ++ [ASub 1 star star true true] ++ pub1 blk1 ++ end1s.
Theorem C67_lost_refuted : exists l s r, lrun (l0 20240101) l = Some s /\ l_rds s = [r] /\ l_pc s = PIdle /\
  d_cur r = None /\ pubs s = [blk1] /\ d_in r = [MStart 20240102; MKeys [ka; kb]; MSdbs [ta; tb]; MStop 20240102].
Proof. exists day_lost. eexists _, _. split; [vm_compute; reflexivity|]. split; [reflexivity|]. split; [reflexivity|]. split; [reflexivity|]. split; reflexivity. Qed.
Print Assumptions C67_lost_refuted.

(** or its thread uses the packer that was already destroyed (snodb_reader.c:775-786 before 787-791) *)
Definition day_freed : list lact := opening ++ [ASub 1 (bs "sh"%string) ta true true] ++ pub1 blk1 ++ [AStop; AGo; AGo; ARead 1].
Theorem C67_freed_refuted : exists l s, lrun (l0 20240101) l = Some s /\ l_bad s = true.
Proof. exists day_freed. eexists. split; [vm_compute; reflexivity|reflexivity]. Qed.
Print Assumptions C67_freed_refuted.

(** a subscriber for new data only waits for the newest block that can be unpacked by itself; one who
    is slow misses blocks published after it was told that the day had begun *)
Definition day_late : list lact :=
  opening ++ [ASub 1 star star true false] ++ pub1 blk1 ++ pub0 blk3 ++ [ARead 1; ARead 1].
Theorem C67_late_refuted : exists l s r, calm_run (l0 20240101) l /\ lrun (l0 20240101) l = Some s /\ l_rds s = [r] /\
  caught_up s r = true /\ d_from r = l_day s /\ pubs s = [blk1; blk3] /\ b_init blk1 = true /\
  d_in r = [MStart 20240102; MKeys [ka; kb]; MSdbs [ta; tb]; MZip true (b_recs blk3)].
Proof.
  exists day_late. eexists _, _. split; [calm_tac|]. split; [vm_compute; reflexivity|]. split; [reflexivity|].
  split; [reflexivity|]. split; [reflexivity|]. split; [reflexivity|]. split; reflexivity.
Qed.
Print Assumptions C67_late_refuted.

(** after the end of the day the state stays "at work" (snodb.c:455): who subscribes then is neither
    sent the blocks still held nor those in the files, but nothing *)
Definition day_over : list lact := opening ++ pub0 blk1 ++ [AStop; AGo; ASub 2 star star true true].
Theorem C67_over_refuted : exists l s r, calm_run (l0 20240101) l /\ lrun (l0 20240101) l = Some s /\ l_rds s = [r] /\
  l_pc s = PIdle /\ l_stat s = StWork /\ d_head r = true /\ pubs s = [blk1] /\ d_in r = [] /\ lstep s (ARead 2) = None.
Proof.
  exists day_over. eexists _, _. split; [calm_tac|]. split; [vm_compute; reflexivity|]. split; [reflexivity|].
  split; [reflexivity|]. split; [reflexivity|]. split; [reflexivity|]. split; [reflexivity|]. split; reflexivity.
Qed.
Print Assumptions C67_over_refuted.

(** a new day begun while a subscriber is behind: the list is emptied under its reader *)
Definition day_again : list lact := opening ++ [ASub 1 star star true true] ++ pub1 blk1 ++ [AStart 20240103; ARead 1].
Theorem C67_again_refuted : exists l s, lrun (l0 20240101) l = Some s /\ l_bad s = true.
Proof. exists day_again. eexists. split; [vm_compute; reflexivity|reflexivity]. Qed.
Print Assumptions C67_again_refuted.
