(** Properties of the replay of stored series: C68. *)
From Verif Require Import Base M_time S_time L_time S_table M_table S_sdb L_sdb S_replay M_replay L_replay L_replayt S_list S_lists M_list M_lists L_nodelist.
From Coq Require Import ZifyBool ZifyNat.

Lemma replay_runs : forall now zone l, Forall (fun s => s_blocks s <> [] /\ Forall (fun b => b <> []) (s_blocks s)) l -> Z.of_nat (total l) < 2 ^ 32 ->
  exists us m out, load now zone (scale_of l) l 0 0 = Some (us, m, Q us) /\
    (forall fuel, (2 * total l + 1 < fuel)%nat -> rounds now zone (scale_of l) fuel (mkcx us m (Q us)) = Some (out ++ [Over])) /\
    Forall calm us /\ map u_unit us = map s_unit l /\ R us = total l /\
    (forall i s, nth_error l i = Some s -> of_series i out = s_recs s /\ used i out = length (s_blocks s)) /\
    (forall i, (length l <= i)%nat -> of_series i out = []) /\ Forall cbonly out.
Proof.
  intros now zone l S B. destruct (load_ok now zone (scale_of l) l 0 0 S ltac:(lia) B) as (us & m & E & C & U & RR & P).
  assert (LEN : length us = length l) by (rewrite <- (map_length u_unit us), U; apply map_length).
  destruct (rounds_ok now zone (scale_of l) (2 * total l + 1) (mkcx us m (Q us))) as (out & F & O & X & CB).
  - unfold score. cbn [c_units c_msec]. rewrite RR. destruct (existsb _ us); lia.
  - exact C.
  - reflexivity.
  - cbn [c_units]. rewrite RR. exact B.
  - cbn [c_units] in *. exists us, m, out. rewrite Z.add_0_l in E. split; [exact E|]. split; [exact F|]. split; [exact C|]. split; [exact U|]. split; [exact RR|].
    split; [|split; [|exact CB]].
    + intros i s N. assert (IL : (i < length us)%nat) by (rewrite LEN; apply nth_error_Some; congruence).
      apply nth_error_Some in IL. destruct (nth_error us i) as [u|] eqn:EU; [|congruence].
      destruct (O i u EU) as [-> ->]. exact (P i u s EU N).
    + intros i I. apply X. lia.
Qed.

(** The replay comes to its end, and every series is delivered complete and in its own order, each block being reported as
    used up once; between the start and the end nothing else is reported.  Whatever the times of the records are. *)
Theorem C68_complete : forall now zone l, Forall (fun s => s_blocks s <> [] /\ Forall (fun b => b <> []) (s_blocks s)) l -> Z.of_nat (total l) < 2 ^ 32 ->
  exists out, (forall fuel, (2 * total l + 1 < fuel)%nat -> replay fuel now zone l = Some (Begin :: out ++ [Over])) /\
    (forall i s, nth_error l i = Some s -> of_series i out = s_recs s /\ used i out = length (s_blocks s)) /\
    (forall i, (length l <= i)%nat -> of_series i out = []) /\
    (forall e, In e out -> e <> Begin /\ e <> Over).
Proof.
  intros now zone l S B. destruct (replay_runs now zone l S B) as (us & m & out & E & F & _ & _ & _ & P & X & CB).
  exists out. split; [intros fuel H; unfold replay; rewrite E, (F fuel H); reflexivity|]. split; [exact P|]. split; [exact X|].
  intros e I. rewrite Forall_forall in CB. specialize (CB e I). destruct e; cbn in CB; try contradiction; split; discriminate.
Qed.
Print Assumptions C68_complete.

Lemma recs_one : forall out, (forall i, (1 <= i)%nat -> of_series i out = []) -> recs_of out = map (pair 0%nat) (of_series 0 out).
Proof.
  induction out as [|e out IH]; intros H; [reflexivity|].
  assert (H' : forall i, (1 <= i)%nat -> of_series i out = []).
  { intros i I. specialize (H i I). change (e :: out) with ([e] ++ out) in H. rewrite of_app in H. apply app_eq_nil in H. tauto. }
  change (e :: out) with ([e] ++ out). rewrite recs_app, of_app, map_app, IH by exact H'. f_equal.
  destruct e as [|i r|i|]; try reflexivity. destruct i as [|i]; [reflexivity|].
  specialize (H (S i) ltac:(lia)). cbn in H. rewrite Nat.eqb_refl in H. discriminate.
Qed.
(** One series alone is delivered as it is stored, over any number of blocks. *)
Theorem C68_alone : forall now zone s, s_blocks s <> [] -> Forall (fun b => b <> []) (s_blocks s) -> Z.of_nat (length (s_recs s)) < 2 ^ 32 ->
  exists fuel out, replay fuel now zone [s] = Some out /\ recs_of out = map (pair 0%nat) (s_recs s).
Proof.
  intros now zone s S1 S2 B. destruct (C68_complete now zone [s]) as (out & F & P & X & _).
  - constructor; [auto|constructor].
  - unfold total. cbn [map list_sum fold_right]. rewrite Nat.add_0_r. exact B.
  - exists (2 * total [s] + 2)%nat, (Begin :: out ++ [Over]). split; [apply F; lia|].
    change (Begin :: out ++ [Over]) with ([Begin] ++ out ++ [Over]). rewrite !recs_app. cbn. rewrite app_nil_r.
    rewrite recs_one by (intros; apply X; cbn; lia). now destruct (P 0%nat s eq_refl) as [-> _].
Qed.
Print Assumptions C68_alone.

(** If every series has one block, with its records in order of time, then the records of all series come in order of the
    ends of their times, in all time zones, at equal times in the order of the series.  Tables in minutes and tables in
    seconds may only be mixed if there is a table in milliseconds too. *)
Theorem C68_order_partial : forall now zone l, -86400 < zone < 86400 -> zone mod 60 = 0 ->
  Forall (fun s => exists b, b <> [] /\ s_blocks s = [b]) l -> Forall sorted_series l -> Z.of_nat (total l) < 2 ^ 32 ->
  (has_unit Minutes l -> has_unit Seconds l -> has_unit Milliseconds l) ->
  exists out, (forall fuel, (2 * total l + 1 < fuel)%nat -> replay fuel now zone l = Some (Begin :: out ++ [Over])) /\
    (forall i s, nth_error l i = Some s -> of_series i out = s_recs s) /\
    (forall i, (length l <= i)%nat -> of_series i out = []) /\ in_time zone l (recs_of out).
Proof.
  intros now zone l Z1 Z2 ONE SO B MIX.
  assert (S : Forall solid l).
  { eapply Forall_impl; [|exact ONE]. intros s (b & N & E). unfold solid. rewrite E. split; [discriminate|constructor; [exact N|constructor]]. }
  destruct (replay_runs now zone l S B) as (us & m & out & E & F & C & U & RR & P & X & CB).
  exists out. split; [intros fuel H; unfold replay; rewrite E, (F fuel H); reflexivity|]. split; [intros i s N; apply P; exact N|]. split; [exact X|].
  assert (KS : forall s, In s l -> exists b, s_blocks s = [b] /\ nondecr (map (vmsec now zone (scale_of l) (s_unit s)) b)).
  { intros s IS. rewrite Forall_forall in ONE, SO. destruct (ONE s IS) as (b & N & EB). destruct (SO s IS) as [S1 S2].
    unfold s_recs in S1, S2. rewrite EB in S1, S2. cbn [concat] in S1, S2. rewrite app_nil_r in S1, S2. exists b. split; [exact EB|].
    exact (key_sorted now zone Z1 Z2 l MIX s b IS S1 S2). }
  destruct (load_ord now zone (scale_of l) l 0 0 us m (Q us) E S ltac:(lia) B KS) as (T & L & _).
  set (ku := fun i => match nth_error l i with Some s => s_unit s | None => None end).
  specialize (F (2 * total l + 2)%nat ltac:(lia)).
  assert (KU : forall j u, nth_error us j = Some u -> u_unit u = ku j).
  { intros j u N. unfold ku. assert (A : nth_error (map s_unit l) j = Some (u_unit u)) by (rewrite <- U; now apply map_nth_error).
    rewrite nth_error_map in A. destruct (nth_error l j); cbn in A; [now injection A as <-|discriminate]. }
  destruct (rounds_ord now zone (scale_of l) ku _ (mkcx us m (Q us)) _ T L C KU eq_refl ltac:(cbn [c_units]; rewrite RR; exact B) F) as [FO FK].
  rewrite recs_app in FO. cbn in FO. rewrite app_nil_r in FO.
    assert (IN : forall a s, In a (recs_of out) -> nth_error l (fst a) = Some s -> In (snd a) (s_recs s)).
    { intros a s IA N. destruct (P (fst a) s N) as [<- _]. unfold recs_of in IA. unfold of_series. apply in_flat_map in IA. destruct IA as (e & I1 & I2).
      destruct e as [|i r|i|]; cbn in I2; try contradiction. destruct I2 as [<-|[]]. apply in_flat_map. exists (Rec i r). split; [exact I1|].
      cbn. rewrite Nat.eqb_refl. left. reflexivity. }
    assert (KS2 : forall i s, nth_error l i = Some s -> ku i = s_unit s) by (intros i s N; unfold ku; now rewrite N).
    unfold in_time. clear F FK P X CB. set (o := recs_of out) in *. clearbody o.
    induction FO as [|a o F FO IH]; constructor.
    + rewrite Forall_forall in F |- *. intros b IB s t ea eb NS NT EA EB. specialize (F b IB).
      unfold K in F. assert (KA : ku (@fst nat srec a) = s_unit s) by exact (KS2 (fst a) s NS). assert (KB : ku (@fst nat srec b) = s_unit t) by exact (KS2 (fst b) t NT).
      rewrite KA, KB in F. rewrite Forall_forall in SO.
      assert (RA : right_time (s_unit s) (fst (snd a))).
      { destruct (SO s (nth_error_In _ _ NS)) as [_ R1]. rewrite Forall_forall in R1. apply (R1 (snd a)). apply IN; [left; reflexivity|exact NS]. }
      assert (RB : right_time (s_unit t) (fst (snd b))).
      { destruct (SO t (nth_error_In _ _ NT)) as [_ R1]. rewrite Forall_forall in R1. apply (R1 (snd b)). apply IN; [right; exact IB|exact NT]. }
      destruct (key_order now zone Z1 Z2 l MIX s t (snd a) (snd b) ea eb (nth_error_In _ _ NS) (nth_error_In _ _ NT) RA RB EA EB) as [K1 K2].
      destruct F as [F|[F1 F2]]; [left; exact (K1 F)|right; split; [exact (K2 F1)|exact F2]].
    + apply IH. intros b s IB. apply IN. right. exact IB.
Qed.
Print Assumptions C68_order_partial.

(** three tables in seconds, minutes and milliseconds and one without time, east of Greenwich *)
Definition rc (t v : Z) : srec := (t, [v]).
Example C68_order_case :
  let l := [mkser (Some Seconds) [[rc 65 1; rc 119 2; rc 121 3]]; mkser (Some Minutes) [[rc 1 4; rc 2 5]];
            mkser (Some Milliseconds) [[rc 119999 6; rc 120000 7]]; mkser None [[rc 9 8]];
            mkser (Some Days) [[rc 19710101 9]]] in
  Forall (fun s => exists b, b <> [] /\ s_blocks s = [b]) l /\ Forall sorted_series l /\
  (has_unit Minutes l -> has_unit Seconds l -> has_unit Milliseconds l) /\
  option_map recs_of (replay 30 5 28800 l) =
    Some [(3%nat, rc 9 8); (0%nat, rc 65 1); (0%nat, rc 119 2); (1%nat, rc 1 4); (2%nat, rc 119999 6); (2%nat, rc 120000 7);
          (0%nat, rc 121 3); (1%nat, rc 2 5); (4%nat, rc 19710101 9)].
Proof.
  cbv zeta. split; [repeat constructor; eexists; (split; [|reflexivity]); discriminate|]. split; [|split].
  - assert (D : right_time (Some Days) 19710101).
    { exists (mkdate 1971 1 1). split; [unfold valid; cbn; lia|]. split; [cbn; lia|reflexivity]. }
    repeat (apply Forall_cons; [split; [cbn; try lia; auto|cbn [s_recs s_blocks concat app]; repeat constructor; cbn [fst rc s_unit]; try exact D; cbn; try lia; exact Logic.I]|]).
    constructor.
  - intros _ _. eexists. split; [right; right; left; reflexivity|reflexivity].
  - vm_compute. reflexivity.
Qed.

(** ** what goes wrong *)
Lemma fop_pair : forall A (P : A -> A -> Prop) l a m b n, ForallOrdPairs P (l ++ a :: m ++ b :: n) -> P a b.
Proof.
  induction l as [|x l IH]; intros a m b n H; inversion H as [|? ? F G]; subst.
  - rewrite Forall_forall in F. apply F, in_or_app. right. left. reflexivity.
  - exact (IH a m b n G).
Qed.
(** the blocks of all series begin and end together: every record of a block with a smaller number is earlier *)
Definition in_step (l : list series) : Prop :=
  forall s t i j b c r r', In s l -> In t l -> nth_error (s_blocks s) i = Some b -> nth_error (s_blocks t) j = Some c -> (i < j)%nat ->
    In r b -> In r' c -> fst r < fst r'.

(** Two series in seconds, two blocks each (say, one of each day), the blocks in step: a record comes after a later one of
    the other series, because a series that has just been given its next block is not asked when the next time is
    determined. *)
Definition two_days : list series :=
  [mkser (Some Seconds) [[rc 1 1]; [rc 10 2; rc 20 3]]; mkser (Some Seconds) [[rc 1 4; rc 2 5]; [rc 5 6]]].
Theorem C68_blocks_refuted : exists zone l, Forall sorted_series l /\ in_step l /\ Forall (fun s => s_blocks s <> [] /\ Forall (fun b => b <> []) (s_blocks s)) l /\
  forall now, exists fuel out, replay fuel now zone l = Some out /\ ~ in_time zone l (recs_of out).
Proof.
  exists 0, two_days. split; [|split; [|split]].
  - repeat (apply Forall_cons; [split; [cbn; lia|cbn [s_recs s_blocks concat app]; repeat constructor; cbn; lia]|]). constructor.
  - intros s t i j b c r r' IS IT NB NC LT IR IR'.
    assert (HB : forall s i b r, In s two_days -> nth_error (s_blocks s) i = Some b -> In r b -> (i < 2)%nat /\ if Nat.eqb i 0 then fst r <= 2 else 3 <= fst r).
    { clear. intros s i b r IS NB IR. destruct IS as [<-|[<-|[]]]; destruct i as [|[|i]]; cbn in NB; try (destruct i; discriminate);
        injection NB as <-; cbn in IR; (split; [lia|]); cbn [Nat.eqb]; repeat (destruct IR as [<-|IR]; [cbn; lia|]); destruct IR. }
    destruct (HB s i b r IS NB IR) as [H1 H2]. destruct (HB t j c r' IT NC IR') as [H3 H4].
    destruct i as [|i]; [|lia]. destruct j as [|j]; [lia|]. cbn [Nat.eqb] in *. lia.
  - repeat (apply Forall_cons; [split; [discriminate|repeat constructor; discriminate]|]). constructor.
  - intros now. exists 20%nat. eexists. split; [vm_compute; reflexivity|]. intros H.
    unfold in_time in H. apply (fop_pair _ _ [(0%nat, rc 1 1); (1%nat, rc 1 4); (1%nat, rc 2 5)] (0%nat, rc 10 2) [] (1%nat, rc 5 6) [(0%nat, rc 20 3)]) in H.
    specialize (H _ _ 10999 5999 eq_refl eq_refl eq_refl eq_refl). cbn in H. lia.
Qed.
Print Assumptions C68_blocks_refuted.

(** A record of a minute comes before the records of the seconds of that minute if the finest table is in seconds ... *)
Definition min_sec : list series := [mkser (Some Minutes) [[rc 1 1]]; mkser (Some Seconds) [[rc 65 2; rc 70 3]]].
Theorem C68_minutes_refuted : exists zone l, Forall sorted_series l /\ Forall (fun s => exists b, b <> [] /\ s_blocks s = [b]) l /\
  forall now, exists fuel out, replay fuel now zone l = Some out /\ ~ in_time zone l (recs_of out).
Proof.
  exists 0, min_sec. split; [|split].
  - repeat (apply Forall_cons; [split; [cbn; lia|cbn [s_recs s_blocks concat app]; repeat constructor; cbn; lia]|]). constructor.
  - repeat (apply Forall_cons; [eexists; split; [|reflexivity]; discriminate|]). constructor.
  - intros now. exists 20%nat. eexists. split; [vm_compute; reflexivity|]. intros H.
    unfold in_time in H. apply (fop_pair _ _ [] (0%nat, rc 1 1) [] (1%nat, rc 65 2) [(1%nat, rc 70 3)]) in H.
    specialize (H _ _ 119999 65999 eq_refl eq_refl eq_refl eq_refl). cbn in H. lia.
Qed.
Print Assumptions C68_minutes_refuted.

(** ... and after them if there is a table in milliseconds too: a third series changes the order of the two others. *)
Theorem C68_third_refuted : exists l s, Forall sorted_series (l ++ [s]) /\ forall now zone, exists fuel o1 o2,
  replay fuel now zone l = Some o1 /\ replay fuel now zone (l ++ [s]) = Some o2 /\
  filter (fun a => Nat.ltb (fst a) (length l)) (recs_of o2) <> recs_of o1.
Proof.
  exists min_sec, (mkser (Some Milliseconds) [[rc 5000 9]]). split.
  - repeat (apply Forall_cons; [split; [cbn; try lia; auto|cbn [s_recs s_blocks concat app]; repeat constructor; cbn; lia]|]). constructor.
  - intros now zone. exists 20%nat. eexists. eexists. split; [vm_compute; reflexivity|]. split; [vm_compute; reflexivity|]. vm_compute. discriminate.
Qed.
Print Assumptions C68_third_refuted.

(** A block that gives no record (one that cannot be read) ends its series: the records of the following blocks are never
    delivered, and the replay ends as if all were well. *)
Theorem C68_empty_refuted : exists s, Forall sorted_series [s] /\ In [] (s_blocks s) /\ forall now zone, exists fuel out,
  replay fuel now zone [s] = Some (Begin :: out ++ [Over]) /\ of_series 0 out <> s_recs s.
Proof.
  exists (mkser (Some Seconds) [[rc 1 1]; []; [rc 2 2]]). split; [|split].
  - apply Forall_cons; [split; [cbn; lia|cbn [s_recs s_blocks concat app]; repeat constructor; cbn; lia]|]. constructor.
  - right. left. reflexivity.
  - intros now zone. exists 20%nat, [Rec 0 (rc 1 1); Used 0]. split; [vm_compute; reflexivity|]. discriminate.
Qed.
Print Assumptions C68_empty_refuted.

(** ** the chunked lists of a unit *)
(** what the replay does with them: pushes, reads of the first element, pops when there is one *)
Fixpoint simple {A} (l : list A) (ops : list (qop A)) : Prop :=
  match ops with
  | [] => True
  | QPush x :: ops' => simple (l ++ [x]) ops'
  | QGet i :: ops' => i = 0 /\ simple l ops'
  | QPop :: ops' => match l with [] => False | _ :: l' => simple l' ops' end
  end.
Lemma simple_tame : forall A nc, (0 < nc)%nat -> forall (ops : list (qop A)) l d, simple l ops -> q_tame nc l d ops.
Proof.
  intros A nc N. induction ops as [|op ops IH]; intros l d H; [exact Logic.I|]. destruct op as [x| |i]; cbn [simple q_tame q_step fst] in *.
  - split; [exact Logic.I|apply IH; exact H].
  - destruct l as [|a l]; [destruct H|]. split; [discriminate|apply IH; exact H].
  - destruct H as [-> H]. split; [|apply IH; exact H]. right. pose proof (Z.mod_pos_bound d (Z.of_nat nc) ltac:(lia)). lia.
Qed.
(** Used so, they are queues, whatever the size of the chunks. *)
Theorem C68_queues : forall (A : Type) (junk : nat -> nat -> A) (nc : nat) (ops : list (qop A)), (0 < nc)%nat -> simple [] ops ->
  exists l, nl_run junk nc (nl_create junk nc) ops = Some (l, snd (q_run [] ops)) /\ ncount l = length (fst (q_run [] ops)).
Proof. intros A junk nc ops N H. apply node_list_lemma; [exact N|]. apply simple_tame; assumption. Qed.
Print Assumptions C68_queues.
Example C68_queues_case : simple [] [QPush 1; QPush 2; QGet 0; QPop; QPush 3; QGet 0; QPop; QGet 0; QPop] /\
  snd (q_run [] [QPush 1; QPush 2; QGet 0; QPop; QPush 3; QGet 0; QPop; QGet 0; QPop]) =
  [None; None; Some 1; Some 1; None; Some 2; Some 2; Some 3; Some 3].
Proof. split; [cbn; tauto|reflexivity]. Qed.

(** two series over several blocks *)
Example C68_complete_case : Forall (fun s => s_blocks s <> [] /\ Forall (fun b => b <> []) (s_blocks s)) two_days /\
  replay 20 5 0 two_days = Some [Begin; Rec 0 (rc 1 1); Used 0; Rec 1 (rc 1 4); Rec 1 (rc 2 5); Used 1; Rec 0 (rc 10 2); Rec 1 (rc 5 6); Used 1; Rec 0 (rc 20 3); Used 0; Over].
Proof.
  split; [|vm_compute; reflexivity]. repeat (apply Forall_cons; [split; [discriminate|repeat constructor; discriminate]|]). constructor.
Qed.
Example C68_alone_case : let s := mkser (Some Minutes) [[rc 7 1]; [rc 7 2; rc 6 3]; [rc 9 4]] in
  option_map recs_of (replay 20 5 0 [s]) = Some (map (pair 0%nat) (s_recs s)).
Proof. vm_compute. reflexivity. Qed.

(** A series without blocks, among whatever others, stops the replay at a null pointer: no record of any series is sent. *)
Theorem C68_no_blocks_refuted : exists s, sorted_series s /\ forall l l' fuel now zone, replay fuel now zone (l ++ s :: l') = None.
Proof.
  exists (mkser (Some Seconds) []). split; [split; constructor|].
  assert (H : forall now zone scale l l' m n, load now zone scale (l ++ mkser (Some Seconds) [] :: l') m n = None).
  { intros now zone scale. induction l as [|t l IH]; intros l' m n; [reflexivity|]. cbn [app load]. destruct (s_blocks t) as [|b more]; [reflexivity|].
    destruct (push now zone scale (mkun (s_unit t) [] more) m n b) as [[u m1] n1]. now rewrite IH. }
  intros l l' fuel now zone. unfold replay. cbv zeta. now rewrite H.
Qed.
Print Assumptions C68_no_blocks_refuted.
