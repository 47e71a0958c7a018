(** The store for one day at a time (C75). *)
From Coq Require Import String ZifyBool ZifyNat.
From Verif Require Import Base S_server S_map S_sub M_dynamic M_sub L_sub S_frwdb M_frwdb L_frwdb.
Open Scope list_scope. Open Scope Z_scope.

(** * the events *)
(** the commands among them *)
Definition cmds (es : list event) : list cmd :=
  flat_map (fun e => match e with Do _ _ c => [c] | Auto _ _ => [Stop] | _ => [] end) es.
Definition lives (e : event) : Prop := match e with Restart _ _ => False | _ => True end.
Definition sizes (tabs : list (list Z * nat)) : Prop := Forall (fun x => (0 < snd x)%nat) tabs.
(** no crash, names fit, no table changes its size *)
Definition normal (tabs : list (list Z * nat)) (es : list event) : Prop :=
  sizes tabs /\ Forall lives es /\ Forall fits (cmds es) /\ steady tabs (cmds es).
Definition now (tabs : list (list Z * nat)) (es : list event) : day := day_run (day0 tabs) (cmds es).
(** a key and a table as given in requests *)
Definition plain (k t : list Z) : Prop := k <> [] /\ t <> [] /\ exist_ch (subj k t) [STAR; COMMA] = false /\ has DOT k = false.
Definition as_answer (text : bool) (b : list Z) : answer := match b with [] => ANil | _ => AMem text b end.

Lemma day_tabs d c : d_tabs (day_step d c) = match c with Create s n => (s, n) :: d_tabs d | _ => d_tabs d end.
Proof.
  destruct c; cbn [day_step]; try reflexivity.
  - destruct (d_open d); [|reflexivity]. destruct (_ || _); reflexivity.
  - destruct (size_of _ _); [|reflexivity]. destruct b; [reflexivity|]. destruct (d_open d); [reflexivity|]. destruct text; reflexivity.
  - destruct (d_open d); reflexivity.
Qed.
Lemma inv_step d s e : inv d s -> lives e -> Forall fits (cmds [e]) -> steady (d_tabs d) (cmds [e]) ->
  exists s', step s e = Some s' /\ inv (day_run d (cmds [e])) s'.
Proof.
  intros I L F S. destruct e as [today ok c|today ok| | |today tabs]; cbn [cmds flat_map app step day_run fold_left] in *.
  - inversion F; subst. destruct S as [S _]. apply inv_proc; [apply inv_wlog; exact I|assumption|exact S].
  - apply inv_proc; [exact I|exact Logic.I|exact Logic.I].
  - destruct (s_open s); eexists; (split; [reflexivity|]); [apply inv_take|]; exact I.
  - destruct (s_open s); [|exists s; auto]. destruct (inv_file d s I) as (s' & A & B & _). eauto.
  - destruct L.
Qed.
Lemma cmds_cons e es : cmds (e :: es) = cmds [e] ++ cmds es.
Proof. unfold cmds. cbn [flat_map]. now rewrite app_nil_r. Qed.
Lemma cmds_app a b : cmds (a ++ b) = cmds a ++ cmds b.
Proof. apply flat_map_app. Qed.
Lemma steady_app d a : forall b, steady (d_tabs d) (a ++ b) -> steady (d_tabs d) a /\ steady (d_tabs (day_run d a)) b.
Proof.
  revert d. induction a as [|c a IH]; intros d b S; [exact (conj Logic.I S)|]. cbn [app steady] in S. destruct S as [S1 S2]. cbn [steady].
  rewrite <- day_tabs in S2 |- *. destruct (IH (day_step d c) b S2) as [A B]. split; [exact (conj S1 A)|exact B].
Qed.
Lemma inv_run es : forall d s, inv d s -> Forall lives es -> Forall fits (cmds es) -> steady (d_tabs d) (cmds es) ->
  exists s', run s es = Some s' /\ inv (day_run d (cmds es)) s'.
Proof.
  induction es as [|e es IH]; intros d s I L F S; [exists s; auto|]. inversion L; subst. rewrite cmds_cons in *.
  apply Forall_app in F as [F1 F2]. apply steady_app in S as [S1 S2]. destruct (inv_step d s e I H1 F1 S1) as (s1 & A & B).
  cbn [run]. rewrite A. destruct (IH _ s1 B H2 F2 S2) as (s2 & C & D). exists s2. split; [exact C|]. unfold day_run in *. rewrite fold_left_app. exact D.
Qed.
Lemma normal_inv tabs es : normal tabs es -> exists s, run (st0 tabs) es = Some s /\ inv (now tabs es) s.
Proof. intros (A & B & C & D). apply inv_run; [apply inv_start; exact A|exact B|exact C|exact D]. Qed.

Lemma get_ok d s k t date text : inv d s -> d_open d = true -> s_queue s = [] -> s_read s = [] -> plain k t ->
  date = None \/ date = Some (d_date d) -> get s date text (subj k t) = as_answer text (content (later (d_now d)) k t).
Proof.
  intros (O & DT & TB & TO & KS & filed & lf & N & DO & F & C & V) OP Q R (K0 & T0 & NS & DK) DD. rewrite Q, R in F. inversion F; subst lf.
  rewrite app_nil_r in N. rewrite N, <- V by exact DK. unfold get. rewrite NS, divide_sds_spec by apply subj_dot.
  destruct (subj_split k t DK) as [-> ->]. cbn [app]. unfold sds_part. destruct k; [congruence|]. destruct t; [congruence|].
  replace (negb ((match date with Some x => x | None => s_date s end) =? s_date s) || negb (s_open s)) with false.
  - unfold val. destruct (find_data _ _) as [[n recs]|]; [|reflexivity]. unfold as_answer. destruct (List.concat recs); reflexivity.
  - rewrite O, OP. destruct DD as [->| ->]; [|rewrite DT]; rewrite Z.eqb_refl; reflexivity.
Qed.

(** * what is read *)
(** Nothing is accessed outside of the memory.  While the day runs and the thread has filed everything, a request for the current day
    gives exactly the records accepted, except for the first batch of each key. *)
Theorem C75_content : forall tabs es, normal tabs es ->
  exists s, run (st0 tabs) es = Some s /\ s_open s = d_open (now tabs es) /\
    (d_open (now tabs es) = true -> s_queue s = [] -> s_read s = [] ->
     forall k t date text, plain k t -> date = None \/ date = Some (d_date (now tabs es)) ->
     get s date text (subj k t) = as_answer text (content (later (d_now (now tabs es))) k t)).
Proof.
  intros tabs es H. destruct (normal_inv tabs es H) as (s & A & B). exists s. split; [exact A|]. split; [exact (proj1 B)|].
  intros OP Q R k t date text P D. now apply (get_ok (now tabs es)).
Qed.
Print Assumptions C75_content.
Definition T1 : list (list Z * nat) := [(bs "t"%string, 2%nat); (bs "u"%string, 3%nat)].
Definition es1 : list event :=
  [Do 5 true (Start 7); Do 5 true (Put false (bs "k.t"%string) [1; 2; 3; 4]); Take; Do 5 true (Put true (bs "K.T"%string) [5; 6]);
   Do 5 true (Put false (bs "k.u"%string) [7; 8; 9; 10]); File; Take; File; File].
Example C75_content_example : normal T1 es1 /\ d_open (now T1 es1) = true /\ plain (bs "k"%string) (bs "t"%string) /\
  content (later (d_now (now T1 es1))) (bs "k"%string) (bs "t"%string) = [5; 6] /\
  content (later (d_now (now T1 es1))) (bs "k"%string) (bs "u"%string) = [7; 8; 9] /\
  option_map (fun s => (s_queue s, s_read s, get s None false (bs "k.t"%string))) (run (st0 T1) es1) = Some ([], [], AMem false [5; 6]).
Proof.
  split; [split; [repeat constructor|]; split; [repeat constructor|]; split; [vm_compute; repeat constructor; lia|cbn; auto 20]|].
  split; [reflexivity|]. split; [split; [discriminate|]; split; [discriminate|]; split; reflexivity|]. vm_compute. repeat split.
Qed.

(** The thread empties the queue: as many steps as there are items, whatever was there before. *)
Theorem C75_progress : forall tabs es, normal tabs es -> d_open (now tabs es) = true ->
  exists s n s', run (st0 tabs) es = Some s /\ n = List.length (s_queue s) /\
    run s (repeat File (List.length (s_read s)) ++ [Take] ++ repeat File n) = Some s' /\ s_queue s' = [] /\ s_read s' = [] /\
    forall k t text, plain k t -> get s' None text (subj k t) = as_answer text (content (later (d_now (now tabs es))) k t).
Proof.
  intros tabs es H OP. destruct (normal_inv tabs es H) as (s & A & I). exists s, (List.length (s_queue s)).
  assert (D : forall n s, inv (now tabs es) s -> n = List.length (s_read s) ->
    exists s', run s (repeat File n) = Some s' /\ inv (now tabs es) s' /\ s_read s' = [] /\ s_queue s' = s_queue s).
  { clear -OP. induction n as [|n IH]; intros s I L.
    - exists s. split; [reflexivity|]. split; [exact I|]. split; [destruct (s_read s); [reflexivity|discriminate]|reflexivity].
    - destruct (inv_file _ s I) as (s1 & B & I1 & R1 & Q1 & _). destruct (IH s1 I1) as (s2 & C & I2 & R2 & Q2).
      + rewrite R1. destruct (s_read s); [discriminate|]. cbn [tl List.length] in *. lia.
      + exists s2. cbn [repeat run step]. rewrite (proj1 I), OP, B. split; [exact C|]. split; [exact I2|]. split; [exact R2|congruence]. }
  assert (RA : forall a b s s1, run s a = Some s1 -> run s (a ++ b) = run s1 b).
  { clear. induction a as [|e a IH]; intros b s s1 E; cbn [run app] in *; [congruence|]. destruct (step s e); [|discriminate]. now apply IH. }
  destruct (D _ s I eq_refl) as (s1 & B1 & I1 & R1 & Q1).
  destruct (D (List.length (s_queue s)) (take s1)) as (s2 & B2 & I2 & R2 & Q2).
  { now apply inv_take. }
  { unfold take. rewrite R1. cbn. now rewrite Q1. }
  exists s2. split; [exact A|]. split; [reflexivity|]. rewrite (RA _ _ _ _ B1). cbn [app run step]. rewrite (proj1 I1), OP. split; [exact B2|].
  assert (Q3 : s_queue s2 = []) by (rewrite Q2; unfold take; rewrite R1; reflexivity).
  split; [exact Q3|]. split; [exact R2|]. intros k t text P. apply (get_ok (now tabs es)); auto.
Qed.
Print Assumptions C75_progress.
Example C75_progress_example : exists s s', run (st0 T1) (firstn 5 es1) = Some s /\ List.length (s_read s) = 1%nat /\ List.length (s_queue s) = 2%nat /\
  run s (repeat File 1 ++ [Take] ++ repeat File 2) = Some s' /\ get s' None false (bs "k.t"%string) = AMem false [5; 6].
Proof. eexists. eexists. vm_compute. repeat split. Qed.

(** * what is written *)
(** The end of the day, by command or by the clock, hands exactly these records to the file worker, whatever is still in the queue:
    once per key and table, and nothing empty.  Then the memory is empty. *)
Definition ends (d : day) (e : event) : Prop :=
  match e with
  | Do _ true Stop | Auto _ true => True
  | Do _ true (Start x) => x <> d_date d /\ 0 < d_date d
  | _ => False
  end.
Theorem C75_written : forall tabs es e, normal tabs es -> d_open (now tabs es) = true -> ends (now tabs es) e ->
  exists s s' w, run (st0 tabs) es = Some s /\ run s [e] = Some s' /\ s_saved s' = s_saved s ++ w /\
    (forall k t, has DOT k = false -> written w k t = content (later (d_now (now tabs es))) k t) /\
    NoDup (map (fun x => map lower (fst (fst x) ++ DOT :: snd (fst x))) w) /\ Forall (fun x => snd x <> []) w /\
    s_data s' = [] /\ s_queue s' = [] /\ s_read s' = [].
Proof.
  intros tabs es e H OP E. destruct (normal_inv tabs es H) as (s & A & I). pose proof I as (O & DT & _).
  assert (ST : forall s today, inv (now tabs es) s -> exists w s1, write_stop false true today s = Some s1 /\ s_saved s1 = s_saved s ++ w /\
    (forall k t, has DOT k = false -> written w k t = content (later (d_now (now tabs es))) k t) /\
    NoDup (map (fun x => map lower (fst (fst x) ++ DOT :: snd (fst x))) w) /\ Forall (fun x => snd x <> []) w /\
    s_data s1 = [] /\ s_queue s1 = [] /\ s_read s1 = []).
  { intros s0 today I0. destruct (stop_ok _ s0 false true today I0) as (data & w & _ & B & V & ND & F). exists w. eexists. split; [exact B|].
    split; [reflexivity|]. split; [exact V|]. split; [exact ND|]. split; [|repeat split]. eapply Forall_impl; [|exact F]. intros x [X _]. exact X. }
  destruct e as [today ok c|today ok| | |]; try destruct E.
  - destruct ok; [|destruct E]. destruct (ST (wlog today c s) today (inv_wlog _ _ today c I)) as (w & s1 & B & P).
    destruct c; try destruct E.
    + exists s, (with_day true d s1), w. split; [exact A|]. cbn [run step proc]. change (s_open (wlog today (Start d) s)) with (s_open s). rewrite O, OP.
      change (s_date (wlog today (Start d) s)) with (s_date s). rewrite DT. replace (d =? d_date (now tabs es)) with false by lia.
      replace (0 <? d_date (now tabs es)) with true by lia. rewrite B. split; [reflexivity|exact P].
    + exists s, (with_day false 0 s1), w. split; [exact A|]. cbn [run step proc]. change (s_open (wlog today Stop s)) with (s_open s). rewrite O, OP, B.
      split; [reflexivity|exact P].
  - destruct ok; [|destruct E]. destruct (ST s today I) as (w & s1 & B & P). exists s, (with_day false 0 s1), w. split; [exact A|].
    cbn [run step proc]. rewrite O, OP, B. split; [reflexivity|exact P].
Qed.
Print Assumptions C75_written.
Example C75_written_example : ends (now T1 (firstn 5 es1)) (Do 5 true Stop) /\
  option_map s_saved (run (st0 T1) (firstn 5 es1 ++ [Do 5 true Stop])) = Some [(bs "k"%string, bs "t"%string, [5; 6]); (bs "k"%string, bs "u"%string, [7; 8; 9])].
Proof. split; [exact Logic.I|vm_compute; reflexivity]. Qed.

(** What is lost is at most one batch per key in the whole time of the program, and nothing of a day whose keys were known. *)
Theorem C75_once : forall tabs cs,
  NoDup (map (fun e => map lower (e_key e)) (filter e_first (d_now (day_run (day0 tabs) cs)))) /\
  (Forall (fun e => e_first e = false) (d_now (day_run (day0 tabs) cs)) ->
   forall k t, content (later (d_now (day_run (day0 tabs) cs))) k t = content (d_now (day_run (day0 tabs) cs)) k t).
Proof.
  intros tabs cs. split.
  - set (P d := NoDup (map (fun e => map lower (e_key e)) (filter e_first (d_now d))) /\ Forall (fun e => seen (d_keys d) (e_key e) = true) (d_now d)).
    enough (H : P (day_run (day0 tabs) cs)) by exact (proj1 H). assert (P (day0 tabs)) by (split; constructor). revert H. generalize (day0 tabs).
    induction cs as [|c cs IH]; intros d H; [exact H|]. cbn [day_run fold_left]. apply IH. clear IH cs tabs. destruct H as [N F].
    assert (SM : forall k l, Forall (fun e => seen (d_keys d) (e_key e) = true) l -> Forall (fun e => seen (k :: d_keys d) (e_key e) = true) l).
    { intros k l. apply Forall_impl. intros e E. unfold seen in *. cbn [existsb]. rewrite E. apply orb_true_r. }
    assert (SS : forall k l, seen (k :: l) k = true) by (intros; unfold seen; cbn [existsb]; rewrite same_refl'; reflexivity).
    destruct c as [| | text subject b| |]; cbn [day_step].
    + exact (conj N F).
    + destruct (d_open d); [|exact (conj N F)]. destruct (_ || _); [exact (conj N F)|split; constructor].
    + destruct (size_of _ _); [|exact (conj N F)]. destruct b as [|b0 b]; [exact (conj N F)|]. set (k := before_dot subject).
      destruct (d_open d); [|destruct text; [exact (conj N F)|]].
      * split; cbn [d_now d_keys]; [|apply Forall_app; split; [apply SM, F|constructor; [apply SS|constructor]]].
        rewrite filter_app, map_app. cbn [filter e_first]. destruct (seen (d_keys d) k) eqn:E; cbn [negb map]; [rewrite app_nil_r; exact N|].
        apply nodup_snoc; [exact N|]. intros J. apply in_map_iff in J as (e & J1 & J2). apply filter_In in J2 as [J2 _].
        rewrite Forall_forall in F. specialize (F _ J2). cbn [e_key] in J1. unfold seen in *. enough (existsb (same_name k) (d_keys d) = true) by congruence.
        apply existsb_exists in F as (y & F1 & F2). apply existsb_exists. exists y. split; [exact F1|]. apply same_low in F2. apply same_low. unfold low in *. congruence.
      * split; cbn [d_now d_keys]; [|apply Forall_app; split; [apply SM, F|constructor; [apply SS|constructor]]].
        rewrite filter_app, map_app. cbn [filter e_first map]. rewrite app_nil_r. exact N.
    + destruct (d_open d); [split; constructor|exact (conj N F)].
    + exact (conj N F).
  - generalize (d_now (day_run (day0 tabs) cs)). intros l F k t. f_equal. induction F as [|e l E F IH]; [reflexivity|]. unfold later in *. cbn [filter]. rewrite E. cbn [negb]. now rewrite IH.
Qed.
Print Assumptions C75_once.
Example C75_once_example : let d := day_run (day0 T1) (cmds es1) in let d' := day_run d [Stop; Start 8; Put true (bs "k.t"%string) [1; 2]] in
  List.length (filter e_first (d_now d)) = 1%nat /\ filter e_first (d_now d') = [] /\ content (d_now d') (bs "k"%string) (bs "t"%string) = [1; 2].
Proof. vm_compute. repeat split. Qed.

(** * after a crash *)
(** on one day and while no day is ended: the log of the day is exactly the list of the commands *)
Definition quiet (d : day) (c : cmd) : Prop :=
  match c with
  | Stop => d_open d = false
  | Start x => d_open d = false \/ x = d_date d \/ d_date d <= 0
  | _ => True
  end.
Fixpoint quiets (d : day) (cs : list cmd) : Prop := match cs with [] => True | c :: r => quiet d c /\ quiets (day_step d c) r end.
Definition on (today : Z) (e : event) : Prop := match e with Do t _ _ => t = today | Auto _ _ | Restart _ _ => False | _ => True end.

Definition logged (today : Z) (cs : list cmd) (s : st) : Prop :=
  log_of today (s_logs s) = cs /\ (s_log s = true -> s_mark s = today).
Lemma append_log_of today c l : log_of today (append_log today c l) = log_of today l ++ [c].
Proof.
  induction l as [|[d cs] l IH]; cbn [append_log log_of]; [now rewrite Z.eqb_refl|]. destruct (today =? d) eqn:E; cbn [log_of]; rewrite E; [reflexivity|exact IH].
Qed.
Lemma proc_log d s c ok today : inv d s -> quiet d c -> forall s', proc false ok today s c = Some s' ->
  s_logs s' = s_logs s /\ s_log s' = s_log s /\ s_mark s' = s_mark s.
Proof.
  intros (O & DT & _) Q s'. destruct c as [t n|x|text subject b| |]; cbn [proc].
  - intros [= <-]. auto.
  - rewrite O. destruct (d_open d) eqn:OD; [|intros [= <-]; auto]. cbn [quiet] in Q. rewrite OD in Q.
    destruct (x =? s_date s) eqn:E; [intros [= <-]; auto|]. destruct (0 <? s_date s) eqn:P; [|intros [= <-]; auto]. exfalso. destruct Q as [Q|[Q|Q]]; [discriminate| |]; lia.
  - destruct b; [intros [= <-]; auto|]. destruct (text && _); [intros [= <-]; auto|]. destruct (divide _ _ _) as [[[? ?] ?]|]; [|discriminate].
    destruct (geti _ _) as [[? ?]|]; [|intros [= <-]; auto]. destruct (s_open s); [intros [= <-]; auto|]. destruct (make_data _ _ _ _ _); [|discriminate]. intros [= <-]. auto.
  - rewrite O. cbn [quiet] in Q. rewrite Q. intros [= <-]. auto.
  - destruct (s_open s); [intros [= <-]; auto|]. destruct (writes _); [|discriminate]. intros [= <-]. auto.
Qed.
Lemma log_step today d s e cs : inv d s -> on today e -> quiets d (cmds [e]) -> logged today cs s -> forall s', step s e = Some s' -> logged today (cs ++ cmds [e]) s'.
Proof.
  intros I O Q (L & M) s'. destruct e as [t ok c|t ok| | |t tabs]; cbn [on cmds flat_map app step] in *.
  - subst t. intros E. destruct Q as [Q _]. destruct (proc_log d _ c ok today (inv_wlog _ _ today c I) Q _ E) as (A & B & C). unfold logged. rewrite A, B, C. unfold wlog. cbn.
    destruct (s_log s) eqn:S.
    + rewrite (M eq_refl), append_log_of, L. auto.
    + rewrite append_log_of, L. auto.
  - destruct O.
  - rewrite app_nil_r. destruct (s_open s); intros [= <-]; [|exact (conj L M)]. unfold take. destruct (s_read s); exact (conj L M).
  - rewrite app_nil_r. destruct (s_open s); [|intros [= <-]; exact (conj L M)]. unfold file_one. destruct (s_read s); [intros [= <-]; exact (conj L M)|].
    destruct (file_item _ _ _ _); [|discriminate]. intros [= <-]. exact (conj L M).
  - destruct O.
Qed.
Lemma quiets_app d a : forall b, quiets d (a ++ b) -> quiets d a /\ quiets (day_run d a) b.
Proof.
  revert d. induction a as [|c a IH]; intros d b Q; [exact (conj Logic.I Q)|]. cbn [app quiets] in *. destruct Q as [Q1 Q2]. destruct (IH _ b Q2) as [A B]. cbn [day_run fold_left]. tauto.
Qed.
Lemma log_run today : forall es d s cs, inv d s -> Forall lives es -> Forall fits (cmds es) -> steady (d_tabs d) (cmds es) -> Forall (on today) es -> quiets d (cmds es) ->
  logged today cs s -> forall s', run s es = Some s' -> logged today (cs ++ cmds es) s'.
Proof.
  induction es as [|e es IH]; intros d s cs I L F S O Q LG s' E.
  - cbn in E. injection E as <-. cbn. rewrite app_nil_r. exact LG.
  - rewrite cmds_cons in *. apply Forall_app in F as [F1 F2]. apply steady_app in S as [S1 S2]. apply quiets_app in Q as [Q1 Q2]. inversion L; subst. inversion O; subst.
    destruct (inv_step d s e I H1 F1 S1) as (s1 & A & B). cbn [run] in E. rewrite A in E. rewrite app_assoc.
    apply (IH (day_run d (cmds [e])) s1 (cs ++ cmds [e])); trivial. exact (log_step today d s e cs I H3 Q1 LG s1 A).
Qed.
Lemma procs_ok today : forall cs d s, inv d s -> Forall fits cs -> steady (d_tabs d) cs -> exists s', procs today s cs = Some s' /\ inv (day_run d cs) s'.
Proof.
  induction cs as [|c cs IH]; intros d s I F S; [exists s; auto|]. inversion F; subst. destruct S as [S1 S2]. rewrite <- day_tabs in S2.
  destruct (inv_proc d s c true true today I H1 S1) as (s1 & A & B). cbn [procs]. rewrite A. destruct (IH _ s1 B H2 S2) as (s2 & C & D). exists s2. auto.
Qed.
(** If the program ends at any moment and is started again on the same day, the log brings everything back: the open day, its date
    and, as soon as the thread has filed everything, the same answers. *)
Theorem C75_restart : forall tabs es today, normal tabs es -> Forall (on today) es -> quiets (day0 tabs) (cmds es) -> d_open (now tabs es) = true ->
  exists s s', run (st0 tabs) (es ++ [Restart today tabs]) = Some s /\ s_open s = true /\ s_date s = d_date (now tabs es) /\
    run s ([Take] ++ repeat File (List.length (s_queue s))) = Some s' /\ s_queue s' = [] /\ s_read s' = [] /\
    forall k t text, plain k t -> get s' None text (subj k t) = as_answer text (content (later (d_now (now tabs es))) k t).
Proof.
  intros tabs es today N ON Q OP. pose proof N as (SZ & LV & FT & ST). destruct (normal_inv tabs es N) as (s0 & A & I).
  destruct (log_run today es (day0 tabs) (st0 tabs) [] (inv_start tabs SZ) LV FT ST ON Q (conj eq_refl (fun e : false = true => False_ind _ (Bool.diff_false_true e))) s0 A) as [LG _].
  cbn [app] in LG. assert (RA : forall a b s s1, run s a = Some s1 -> run s (a ++ b) = run s1 b).
  { clear. induction a as [|e a IH]; intros b s s1 E; cbn [run app] in *; [congruence|]. destruct (step s e); [|discriminate]. now apply IH. }
  rewrite (RA _ _ _ _ A). cbn [run step]. unfold restart. rewrite LG.
  assert (I0 : inv (day0 tabs) (mks false 0 [] tabs [] [] [] false 0 (s_logs s0) (s_saved s0))) by exact (inv_start tabs SZ).
  destruct (procs_ok today (cmds es) (day0 tabs) _ I0 FT ST) as (s & B & J). rewrite B. exists s.
  assert (RD : s_read s = []).
  { assert (PR : forall cs s s1, s_read s = [] -> procs today s cs = Some s1 -> s_read s1 = []).
    { clear. induction cs as [|c cs IH]; intros s s1 R E; cbn [procs] in E; [congruence|]. destruct (proc true true today s c) as [s2|] eqn:P; [|discriminate].
      apply (IH s2); [|exact E]. clear -P R. destruct c as [t n|x|text subject b| |]; cbn [proc] in P.
      - injection P as <-. exact R.
      - destruct (s_open s); [|injection P as <-; exact R]. destruct (x =? s_date s); [injection P as <-; exact R|]. destruct (0 <? s_date s); [|injection P as <-; exact R].
        unfold write_stop in P. destruct (file_all _ _ _ _); [|discriminate]. destruct (writes _); [|discriminate]. cbn in P. injection P as <-. reflexivity.
      - destruct b; [injection P as <-; exact R|]. destruct (text && _); [injection P as <-; exact R|]. destruct (divide _ _ _) as [[[? ?] ?]|]; [|discriminate].
        destruct (geti _ _) as [[? ?]|]; [|injection P as <-; exact R]. destruct (s_open s); [injection P as <-; exact R|]. destruct (make_data _ _ _ _ _); [|discriminate]. injection P as <-. exact R.
      - destruct (s_open s); [|injection P as <-; exact R].
        unfold write_stop in P. destruct (file_all _ _ _ _); [|discriminate]. destruct (writes _); [|discriminate]. cbn in P. injection P as <-. reflexivity.
      - destruct (s_open s); [injection P as <-; exact R|]. destruct (writes _); [|discriminate]. injection P as <-. exact R. }
    exact (PR _ (mks false 0 [] tabs [] [] [] false 0 (s_logs s0) (s_saved s0)) _ eq_refl B). }
  assert (D : forall n s, inv (now tabs es) s -> n = List.length (s_read s) ->
    exists s', run s (repeat File n) = Some s' /\ inv (now tabs es) s' /\ s_read s' = [] /\ s_queue s' = s_queue s).
  { clear -OP. induction n as [|n IH]; intros s I L.
    - exists s. split; [reflexivity|]. split; [exact I|]. split; [destruct (s_read s); [reflexivity|discriminate]|reflexivity].
    - destruct (inv_file _ s I) as (s1 & B & I1 & R1 & Q1 & _). destruct (IH s1 I1) as (s2 & C & I2 & R2 & Q2).
      + rewrite R1. destruct (s_read s); [discriminate|]. cbn [tl List.length] in *. lia.
      + exists s2. cbn [repeat run step]. rewrite (proj1 I), OP, B. split; [exact C|]. split; [exact I2|]. split; [exact R2|congruence]. }
  destruct (D (List.length (s_queue s)) (take s)) as (s2 & B2 & I2 & R2 & Q2).
  { apply inv_take. exact J. }
  { unfold take. rewrite RD. reflexivity. }
  exists s2. split; [reflexivity|]. split; [rewrite (proj1 J); exact OP|]. split; [exact (proj1 (proj2 J))|].
  split; [cbn [app run step]; rewrite (proj1 J); change (d_open (day_run (day0 tabs) (cmds es))) with (d_open (now tabs es)); rewrite OP; exact B2|].
  assert (Q3 : s_queue s2 = []) by (rewrite Q2; unfold take; rewrite RD; reflexivity).
  split; [exact Q3|]. split; [exact R2|]. intros k t text P. apply (get_ok (now tabs es)); auto.
Qed.
Print Assumptions C75_restart.
Example C75_restart_example : normal T1 es1 /\ Forall (on 5) es1 /\ quiets (day0 T1) (cmds es1) /\
  option_map (fun s => (s_date s, List.length (s_queue s), s_data s)) (run (st0 T1) (es1 ++ [Restart 5 T1])) = Some (7, 3%nat, []) /\
  option_map (fun s => get s None true (bs "k.t"%string)) (run (st0 T1) (es1 ++ [Restart 5 T1; Take; File; File; File])) = Some (AMem true [5; 6]).
Proof.
  split; [exact (proj1 C75_content_example)|]. split; [repeat constructor|]. split; [cbn; auto 20|]. split; vm_compute; reflexivity.
Qed.

(** * what fails *)
(** The first batch of every new key is lost: the number of the key, looked up before it is added (frwdb.c:464-471, 526-533), is -1, and the
    thread drops it. *)
Theorem C75_first_refuted : exists tabs es s, normal tabs es /\ run (st0 tabs) es = Some s /\ s_open s = true /\ s_queue s = [] /\ s_read s = [] /\
  content (d_now (now tabs es)) (bs "k"%string) (bs "t"%string) = [1; 2; 3; 4] /\ get s None false (bs "k.t"%string) = ANil /\
  option_map s_saved (run s [Do 5 true Stop]) = Some [].
Proof.
  exists T1, [Do 5 true (Start 7); Do 5 true (Put false (bs "k.t"%string) [1; 2; 3; 4]); Take; File]. eexists. split.
  - split; [repeat constructor|]. split; [repeat constructor|]. split; [vm_compute; repeat constructor; lia|cbn; auto 20].
  - split; [vm_compute; reflexivity|]. vm_compute. repeat split.
Qed.
Print Assumptions C75_first_refuted.
(** A request in the default format, JSON, is answered with the bytes of the records, marked as a text. *)
Theorem C75_format_refuted : exists tabs es s b, normal tabs es /\ run (st0 tabs) es = Some s /\ get s None true (bs "k.t"%string) = AMem true b /\
  b = [0; 255] /\ hd 0 b <> 91 /\ hd 0 b <> 123.
Proof.
  exists T1, [Do 5 true (Start 7); Do 5 true (Put false (bs "k.t"%string) [1; 2]); Do 5 true (Put false (bs "k.t"%string) [0; 255]); Take; File; File].
  eexists. eexists. split.
  - split; [repeat constructor|]. split; [repeat constructor|]. split; [vm_compute; repeat constructor; lia|cbn; auto 20].
  - split; [vm_compute; reflexivity|]. split; [vm_compute; reflexivity|]. split; [reflexivity|]. split; discriminate.
Qed.
Print Assumptions C75_format_refuted.
(** Names of together more than 126 bytes: two tables of a key share one list, and requests find nothing. *)
Theorem C75_long_refuted : exists k tabs es s, List.length k = 125%nat /\ sizes tabs /\ Forall lives es /\ run (st0 tabs) es = Some s /\ s_open s = true /\
  s_queue s = [] /\ s_read s = [] /\ content (later (d_now (now tabs es))) k (bs "ab"%string) = [1] /\ content (later (d_now (now tabs es))) k (bs "ac"%string) = [2] /\
  get s None false (k ++ bs ".ab"%string) = ANil /\ option_map s_saved (run s [Do 5 true Stop]) = Some [(k, bs "a"%string, [1; 2])].
Proof.
  pose (k := repeat 107 125).
  exists k, [(bs "ab"%string, 1%nat); (bs "ac"%string, 1%nat)],
    [Do 5 true (Start 7); Do 5 true (Put false (k ++ bs ".ab"%string) [0]); Do 5 true (Put false (k ++ bs ".ab"%string) [1]); Do 5 true (Put false (k ++ bs ".ac"%string) [2]); Take; File; File; File].
  eexists. split; [reflexivity|]. split; [repeat constructor|]. split; [repeat constructor|]. split; [vm_compute; reflexivity|]. vm_compute. repeat split.
Qed.
Print Assumptions C75_long_refuted.
(** A table created again with shorter records while the day runs: its list keeps copying the old size, past the end of what was sent. *)
Theorem C75_resize_refuted : exists tabs es, sizes tabs /\ Forall lives es /\ Forall fits (cmds es) /\ run (st0 tabs) es = None.
Proof.
  exists [(bs "t"%string, 4%nat)], [Do 5 true (Start 7); Do 5 true (Put false (bs "k.t"%string) [1; 2; 3; 4]); Do 5 true (Put false (bs "k.t"%string) [5; 6; 7; 8]); Take; File; File;
    Do 5 true (Create (bs "t"%string) 2); Do 5 true (Put false (bs "k.t"%string) [1; 2]); Take; File].
  split; [repeat constructor|]. split; [repeat constructor|]. split; [vm_compute; repeat constructor; lia|]. vm_compute. reflexivity.
Qed.
Print Assumptions C75_resize_refuted.
(** A new day begun while one runs: the beginning is logged first and the log is removed with the old day, so that after a crash the
    records of the new day are refused. *)
Theorem C75_newday_refuted : exists tabs es s, normal tabs es /\ Forall (on 5) es /\ d_open (now tabs es) = true /\
  content (later (d_now (now tabs es))) (bs "k"%string) (bs "t"%string) = [3; 4] /\
  run (st0 tabs) (es ++ [Restart 5 tabs]) = Some s /\ s_open s = false /\ s_queue s = [] /\ s_data s = [] /\
  get s None false (bs "k.t"%string) = ADisk.
Proof.
  exists T1, [Do 5 true (Start 7); Do 5 true (Put true (bs "k.t"%string) [1; 2]); Do 5 true (Start 8); Do 5 true (Put true (bs "k.t"%string) [3; 4])]. eexists. split.
  - split; [repeat constructor|]. split; [repeat constructor|]. split; [vm_compute; repeat constructor; lia|cbn; auto 20].
  - split; [repeat constructor|]. split; [reflexivity|]. split; [vm_compute; reflexivity|]. split; [vm_compute; reflexivity|]. vm_compute. repeat split.
Qed.
Print Assumptions C75_newday_refuted.
(** The log is kept under the day of its first command but looked for under the day of the restart: after midnight nothing comes back. *)
Theorem C75_midnight_refuted : exists tabs es s, normal tabs es /\ Forall (on 5) es /\ quiets (day0 tabs) (cmds es) /\ d_open (now tabs es) = true /\
  content (later (d_now (now tabs es))) (bs "k"%string) (bs "t"%string) = [3; 4] /\
  run (st0 tabs) (es ++ [Restart 6 tabs]) = Some s /\ s_open s = false /\ s_queue s = [] /\ s_data s = [] /\ s_saved s = [].
Proof.
  exists T1, [Do 5 true (Start 5); Do 5 true (Put true (bs "k.t"%string) [1; 2]); Do 5 true (Put true (bs "k.t"%string) [3; 4])]. eexists. split.
  - split; [repeat constructor|]. split; [repeat constructor|]. split; [vm_compute; repeat constructor; lia|cbn; auto 20].
  - split; [repeat constructor|]. split; [cbn; auto 10|]. split; [reflexivity|]. split; [vm_compute; reflexivity|]. split; [vm_compute; reflexivity|]. vm_compute. repeat split.
Qed.
Print Assumptions C75_midnight_refuted.
(** On a later day the keys are known and nothing is lost; after a crash they are new again and the first batch in the log is lost. *)
Theorem C75_keys_refuted : exists tabs es s s', normal tabs es /\ Forall (fun e => e_first e = false) (d_now (now tabs es)) /\
  run (st0 tabs) es = Some s /\ get s None false (bs "k.t"%string) = AMem false [3; 4] /\
  run s [Restart 8 tabs; Take; File; File] = Some s' /\ s_open s' = true /\ s_queue s' = [] /\ s_read s' = [] /\ get s' None false (bs "k.t"%string) = ANil.
Proof.
  exists T1, [Do 7 true (Start 7); Do 7 true (Put true (bs "k.t"%string) [1; 2]); Do 7 true Stop; Do 8 true (Start 8); Do 8 true (Put true (bs "k.t"%string) [3; 4]); Take; File].
  eexists. eexists. split.
  - split; [repeat constructor|]. split; [repeat constructor|]. split; [vm_compute; repeat constructor; lia|cbn; auto 20].
  - split; [repeat constructor|]. split; [vm_compute; reflexivity|]. split; [vm_compute; reflexivity|]. split; [vm_compute; reflexivity|]. vm_compute. repeat split.
Qed.
Print Assumptions C75_keys_refuted.
(** If the file worker cannot be made at the end of the day, the memory is cleared and the log removed all the same. *)
Theorem C75_failed_refuted : exists tabs es s, normal tabs es /\ d_open (now tabs es) = true /\
  content (later (d_now (now tabs es))) (bs "k"%string) (bs "t"%string) = [3; 4] /\
  run (st0 tabs) (es ++ [Do 5 false Stop]) = Some s /\ s_saved s = [] /\ s_data s = [] /\ s_logs s = [].
Proof.
  exists T1, [Do 5 true (Start 7); Do 5 true (Put true (bs "k.t"%string) [1; 2]); Do 5 true (Put true (bs "k.t"%string) [3; 4])]. eexists. split.
  - split; [repeat constructor|]. split; [repeat constructor|]. split; [vm_compute; repeat constructor; lia|cbn; auto 20].
  - split; [reflexivity|]. split; [vm_compute; reflexivity|]. split; [vm_compute; reflexivity|]. vm_compute. repeat split.
Qed.
Print Assumptions C75_failed_refuted.
(** * the change of the thread *)
(** a thread that has ended its day never touches anything again once its pointer is cleared by itself before the server goes on *)
Definition patient (h : hand) (t : turn) : Prop :=
  match t with TMain => h_main h = MReset -> Forall (fun x => x <> TClear) (h_thr h) | _ => True end.
Fixpoint patients (h : hand) (l : list turn) : Prop :=
  match l with
  | [] => True
  | t :: r => patient h t /\ match t with TMain => patients (main_step h) r
                                        | TThr i => match thr_step h i with Some h' => patients h' r | None => True end end
  end.
(** all but the last thread have ended; what the last one and the server do fits together *)
Definition hinv (h : hand) : Prop :=
  exists n x, h_thr h = repeat TEnd n ++ [x] /\ List.length (h_stat h) = S n /\
    match h_main h with
    | MServe => h_ptr h = Some n /\ nth_error (h_stat h) n = Some WWork /\ x = TLoop
    | MJoin p => p = n /\ ((h_ptr h = Some n /\ nth_error (h_stat h) n = Some WExit /\ (x = TLoop \/ x = TRest)) \/
                           (nth_error (h_stat h) n = Some WNone /\ (x = TClear \/ x = TEnd)))
    | MReset => x = TClear \/ x = TEnd
    | MMake => h_ptr h = None /\ x = TEnd
    | MOpen i => i = n /\ h_ptr h = Some n /\ (x = TBegin /\ nth_error (h_stat h) n = Some WNone \/ x = TLoop /\ nth_error (h_stat h) n = Some WWork)
    end.
Lemma nth_last {A} (l : list A) x n : List.length l = n -> nth_error (l ++ [x]) n = Some x.
Proof. intros <-. rewrite nth_error_app2 by lia. rewrite Nat.sub_diag. reflexivity. Qed.
Lemma upd_last (x y : tpc) n : upd (repeat TEnd n ++ [x]) n y = repeat TEnd n ++ [y].
Proof.
  unfold upd. rewrite firstn_app, repeat_length, Nat.sub_diag, firstn_all2, app_nil_r by (rewrite repeat_length; lia).
  rewrite skipn_all2 by (rewrite app_length, repeat_length; cbn; lia). reflexivity.
Qed.
Lemma upd_nth {A} (l : list A) n y : (n < List.length l)%nat -> nth_error (upd l n y) n = Some y /\ List.length (upd l n y) = List.length l.
Proof.
  intros L. unfold upd. split.
  - rewrite nth_error_app2; rewrite firstn_length; [|lia]. replace (n - Nat.min n (List.length l))%nat with O by lia. reflexivity.
  - rewrite app_length, firstn_length. cbn [List.length]. rewrite skipn_length. lia.
Qed.
Lemma hinv_thr h i : hinv h -> exists h', thr_step h i = Some h' /\ hinv h'.
Proof.
  intros (n & x & T & S & M). unfold thr_step. destruct (Nat.eq_dec i n) as [->|NE].
  - rewrite T, nth_last by apply repeat_length. destruct h as [p st th m]. cbn [h_ptr h_stat h_thr h_main] in *. subst th.
    assert (LS : (n < List.length st)%nat) by lia.
    assert (K : forall y q st', List.length st' = List.length st ->
      (match m with
       | MServe => q = Some n /\ nth_error st' n = Some WWork /\ y = TLoop
       | MJoin p => p = n /\ ((q = Some n /\ nth_error st' n = Some WExit /\ (y = TLoop \/ y = TRest)) \/ (nth_error st' n = Some WNone /\ (y = TClear \/ y = TEnd)))
       | MReset => y = TClear \/ y = TEnd
       | MMake => q = None /\ y = TEnd
       | MOpen i => i = n /\ q = Some n /\ (y = TBegin /\ nth_error st' n = Some WNone \/ y = TLoop /\ nth_error st' n = Some WWork)
       end) -> hinv (mkh q st' (upd (repeat TEnd n ++ [x]) n y) m)).
    { intros y q st' L H. exists n, y. cbn [h_ptr h_stat h_thr h_main]. split; [apply upd_last|]. split; [lia|exact H]. }
    assert (SELF : hinv (mkh p st (repeat TEnd n ++ [x]) m)) by (exists n, x; auto).
    destruct x.
    + (* TBegin *) destruct m as [|q| | |i]; [destruct M as (_ & _ & M); discriminate|destruct M as (_ & [(_ & _ & [M|M])|(_ & [M|M])]); discriminate|destruct M; discriminate|destruct M; discriminate|].
      destruct M as (-> & -> & _). eexists. split; [reflexivity|]. apply K; [exact (proj2 (upd_nth st n WWork LS))|]. split; [reflexivity|]. split; [reflexivity|]. right. split; [reflexivity|exact (proj1 (upd_nth st n WWork LS))].
    + (* TLoop *) destruct m as [|q| | |i].
      * destruct M as (-> & W & _). rewrite W. eexists. split; [reflexivity|exact SELF].
      * destruct M as (-> & [(-> & W & _)|(_ & [M|M])]); [|discriminate|discriminate]. rewrite W. eexists. split; [reflexivity|]. apply K; [reflexivity|]. split; [reflexivity|]. left. auto.
      * destruct M; discriminate.
      * destruct M; discriminate.
      * destruct M as (-> & -> & [[M _]|(_ & W)]); [discriminate|]. rewrite W. eexists. split; [reflexivity|exact SELF].
    + (* TRest *) destruct m as [|q| | |i]; [destruct M as (_ & _ & M); discriminate| |destruct M; discriminate|destruct M; discriminate|destruct M as (_ & _ & [[M _]|[M _]]); discriminate].
      destruct M as (-> & [(-> & W & _)|(_ & [M|M])]); [|discriminate|discriminate]. eexists. split; [reflexivity|].
      apply K; [exact (proj2 (upd_nth st n WNone LS))|]. split; [reflexivity|]. right. split; [exact (proj1 (upd_nth st n WNone LS))|now left].
    + (* TClear *) destruct m as [|q| | |i]; [destruct M as (_ & _ & M); discriminate| | |destruct M; discriminate|destruct M as (_ & _ & [[M _]|[M _]]); discriminate].
      * destruct M as (-> & [(_ & _ & [M|M])|(W & _)]); [discriminate|discriminate|]. eexists. split; [reflexivity|]. apply K; [reflexivity|]. split; [reflexivity|]. right. auto.
      * eexists. split; [reflexivity|]. apply K; [reflexivity|]. now right.
    + eexists. split; [reflexivity|exact SELF].
  - assert (E : nth_error (h_thr h) i = Some TEnd \/ nth_error (h_thr h) i = None).
    { rewrite T. destruct (Nat.lt_ge_cases i n) as [L|L]; [left|right].
      - rewrite nth_error_app1 by (rewrite repeat_length; exact L). apply nth_error_repeat. exact L.
      - apply nth_error_None. rewrite app_length, repeat_length. cbn [List.length]. lia. }
    exists h. split; [destruct E as [-> | ->]; reflexivity|]. exists n, x. auto.
Qed.
Lemma hinv_main h : hinv h -> patient h TMain -> hinv (main_step h).
Proof.
  intros (n & x & T & S & M) P. cbn [patient] in P. unfold main_step. destruct h as [p st th m]. cbn [h_ptr h_stat h_thr h_main] in *. subst th.
  assert (LS : (n < List.length st)%nat) by lia. destruct m as [|q| | |i].
  - destruct M as (-> & W & ->). rewrite W. destruct (upd_nth st n WExit LS) as [A B]. exists n, TLoop. cbn. split; [reflexivity|]. split; [lia|]. split; [reflexivity|]. left. auto.
  - destruct M as (-> & M). destruct M as [(-> & W & X)|(W & X)]; rewrite W.
    + exists n, x. cbn. split; [reflexivity|]. split; [lia|]. split; [reflexivity|]. left. auto.
    + exists n, x. cbn. split; [reflexivity|]. split; [lia|exact X].
  - exists n, x. cbn. split; [reflexivity|]. split; [lia|]. split; [reflexivity|]. destruct M as [->|M]; [|exact M]. exfalso. specialize (P eq_refl). rewrite Forall_app in P. destruct P as [_ P].
    inversion P; subst. congruence.
  - destruct M as (-> & ->). exists (Datatypes.S n), TBegin. rewrite app_length, repeat_length. cbn [List.length]. cbn [h_ptr h_stat h_thr h_main].
    replace (n + 1)%nat with (Datatypes.S n) by lia. split; [change (repeat TEnd (Datatypes.S n)) with (TEnd :: repeat TEnd n); rewrite (repeat_cons n TEnd); reflexivity|]. split; [rewrite app_length; cbn; lia|]. split; [reflexivity|]. split; [reflexivity|]. left. split; [reflexivity|]. apply nth_last. lia.
  - destruct M as (-> & -> & X). destruct X as [(-> & W)|(-> & W)].
    + rewrite W. exists n, TBegin. cbn. split; [reflexivity|]. split; [lia|]. auto.
    + rewrite W. exists n, TLoop. cbn. split; [reflexivity|]. split; [lia|]. auto.
Qed.
(** If the server goes on only when the old thread has cleared the pointer, no thread ever finds it cleared under its feet. *)
Theorem C75_thread_partial : forall l, patients hand0 l -> turns hand0 l <> None.
Proof.
  assert (G : forall l h, hinv h -> patients h l -> turns h l <> None).
  { induction l as [|[|i] l IH]; intros h I P; cbn [turns patients] in *; [discriminate| |].
    - destruct P as [P Q]. apply IH; [now apply hinv_main|exact Q].
    - destruct P as [_ Q]. destruct (hinv_thr h i I) as (h' & E & I'). rewrite E in *. now apply IH. }
  intros l. apply G. exists 0%nat, TLoop. cbn. auto.
Qed.
Print Assumptions C75_thread_partial.
Example C75_thread_example : patients hand0 [TMain; TThr 0; TThr 0; TMain; TThr 0; TMain; TMain; TThr 1; TMain; TThr 1] /\
  option_map h_ptr (turns hand0 [TMain; TThr 0; TThr 0; TMain; TThr 0; TMain; TMain; TThr 1; TMain; TThr 1]) = Some (Some 1%nat).
Proof.
  split; [|vm_compute; reflexivity]. vm_compute. repeat split; intros; try discriminate; repeat constructor; discriminate.
Qed.
(** But it goes on as soon as the old thread says that it is done: the old thread then clears the pointer of the new one. *)
Theorem C75_thread_refuted : exists l, turns hand0 l = None.
Proof. exists [TMain; TThr 0; TThr 0; TMain; TMain; TMain; TThr 0; TThr 1]. vm_compute. reflexivity. Qed.
Print Assumptions C75_thread_refuted.
