(** C81: what users of each level may do with each kind of data set. *)
From Coq Require Import ZArith List Bool Lia ZifyBool String.
From Verif Require Import Base S_server M_server L_map S_memdb M_memdb S_access M_access.
Import ListNotations.
Open Scope list_scope.
Open Scope Z_scope.

(** a request runs: it is executed and not refused *)
Definition runs (logs : bool) (s : srv) (k : nat) (cid : Z) (r : req) : Prop :=
  exists s' t fl, process logs s k cid r = Some (s', t) /\ In (TExec k cid fl r) t.

Lemma find_none {V} (l : list (str * V)) c : ci_find l c = None <-> forall n v, In (n, v) l -> casecmp n c = false.
Proof.
  induction l as [|[n v] l IH]; cbn [ci_find]; [split; [intros _ ? ? []|trivial]|]. destruct (casecmp n c) eqn:E.
  - split; [discriminate|]. intros H. specialize (H n v (or_introl eq_refl)). congruence.
  - rewrite IH. split.
    + intros H n' v' [X|X]; [injection X as <- <-; trivial|eauto].
    + intros H n' v' X. apply (H n' v'). now right.
Qed.
Lemma find_some {V} (l : list (str * V)) c v : ci_find l c = Some v -> exists n, In (n, v) l /\ casecmp n c = true.
Proof.
  induction l as [|[n w] l IH]; cbn [ci_find]; [discriminate|]. destruct (casecmp n c) eqn:E.
  - intros X. injection X as <-. exists n. split; [now left|trivial].
  - intros X. destruct (IH X) as (m & I & C). exists m. split; [now right|trivial].
Qed.
Lemma find_in (l : list (str * Z)) : NoDup (map (fun e => map lower (fst e)) l) -> forall n v c, In (n, v) l -> ci_eq c n ->
  ci_find l c = Some v.
Proof.
  unfold ci_eq. induction l as [|[m w] l IH]; intros N n v c I E; [contradiction|]. cbn [ci_find map fst] in *. inversion N as [|? ? N1 N2]; subst.
  destruct I as [I|I].
  - injection I as -> ->. assert (C : casecmp n c = true) by now apply casecmp_lower. now rewrite C.
  - destruct (casecmp m c) eqn:C; [|eauto]. exfalso. apply casecmp_lower in C. apply N1. apply in_map_iff. exists (n, v). split; [|trivial].
    cbn. congruence.
Qed.

(** a command runs for a client that is logged in exactly when it is in the table with flags that let
    it pass *)
Lemma runs_find logs s k cid sv ms c info : 0 <= get_access s cid -> ci_find (s_works s) sv = Some ms ->
  (runs logs s k cid (mkreq (Some sv) (Some c) info) <->
   exists fl, ci_find ms c = Some fl /\ access_method fl (get_access s cid) = true).
Proof.
  intros A W. unfold runs, process. cbn [r_service r_cmd]. replace (get_access s cid <? 0) with false by lia. cbn [andb]. rewrite W. cbn [ci_find_o].
  destruct (ci_find ms c) as [fl|] eqn:F.
  - destruct (access_method fl (get_access s cid)) eqn:M.
    + split; [intros _; eauto|]. intros _. eexists _, _, fl. split; [reflexivity|]. apply in_or_app. right. now left.
    + split.
      * intros (s' & t & f & X & I). injection X as <- <-. destruct I as [I|[]]. discriminate.
      * intros (f & X & Y). injection X as <-. congruence.
  - split.
    + intros (s' & t & f & X & I). injection X as <- <-. destruct I as [I|[]]. discriminate.
    + intros (f & X & _). discriminate.
Qed.

(** the tables and the description hold the same names; [pass] says which effects the flags let pass *)
Definition lined (ms : list (str * Z)) (cs : list (str * effect)) (lv : Z) (ok : str -> effect -> bool) : bool :=
  forallb (fun e => existsb (fun x => (if list_eq_dec Z.eq_dec (fst x) (fst e) then true else false) &&
                                      Bool.eqb (access_method (snd e) lv) (ok (fst x) (snd x))) cs) ms &&
  forallb (fun x => existsb (fun e => (if list_eq_dec Z.eq_dec (fst x) (fst e) then true else false) &&
                                      Bool.eqb (access_method (snd e) lv) (ok (fst x) (snd x))) ms) cs.
Fixpoint nodupb (l : list str) : bool :=
  match l with [] => true | x :: t => negb (existsb (fun y => if list_eq_dec Z.eq_dec x y then true else false) t) && nodupb t end.
Lemma nodupb_ok l : nodupb l = true -> NoDup l.
Proof.
  induction l as [|x l IH]; [constructor|]. cbn. rewrite andb_true_iff. intros (A & B). constructor; [|auto].
  intros I. apply negb_true_iff in A. apply not_true_iff_false in A. apply A. apply existsb_exists. exists x. split; trivial.
  destruct (list_eq_dec Z.eq_dec x x); trivial. contradiction.
Qed.
Lemma lined_ok ms cs lv ok c : lined ms cs lv ok = true -> nodupb (map (fun e => map lower (fst e)) ms) = true ->
  (exists fl, ci_find ms c = Some fl /\ access_method fl lv = true) <-> (exists n e, In (n, e) cs /\ ci_eq c n /\ ok n e = true).
Proof.
  unfold lined. rewrite andb_true_iff, !forallb_forall. intros (A & B) N. apply nodupb_ok in N. split.
  - intros (fl & F & M). destruct (find_some _ _ _ F) as (n & I & C). specialize (A _ I). apply existsb_exists in A. destruct A as ((m & e) & J & X).
    cbn [fst snd] in X. apply andb_true_iff in X. destruct X as (X & Y). destruct (list_eq_dec Z.eq_dec m n) as [->|]; [|discriminate].
    apply eqb_prop in Y. exists n, e. split; trivial. split; [|congruence]. unfold ci_eq. symmetry. now apply casecmp_lower.
  - intros (n & e & I & C & O). specialize (B _ I). apply existsb_exists in B. destruct B as ((m & fl) & J & X). cbn [fst snd] in X.
    apply andb_true_iff in X. destruct X as (X & Y). destruct (list_eq_dec Z.eq_dec n m) as [->|]; [|discriminate]. apply eqb_prop in Y.
    exists fl. split; [|congruence]. eapply find_in; eauto.
Qed.

Definition readsb (e : effect) : bool := match e with Reads => true | _ => false end.
Definition insideb (e : effect) : bool := match e with Inside => true | _ => false end.
(** the commands without access flags that do more than read *)
Definition unguarded (k : kind) : list str :=
  match k with
  | KTables => []
  | KDays | KStream => [bs "rlog"%string; bs "wlog"%string]
  | KPublish => [bs "wlog"%string]
  | KTexts => [bs "set"%string; bs "pub"%string; bs "init"%string]
  end.
Definition openb (k : kind) (n : str) : bool := existsb (fun m => if list_eq_dec Z.eq_dec n m then true else false) (unguarded k).
Lemma openb_in k n : openb k n = true <-> In n (unguarded k).
Proof.
  unfold openb. rewrite existsb_exists. split.
  - intros (m & I & E). destruct (list_eq_dec Z.eq_dec n m) as [->|]; [trivial|discriminate].
  - intros I. exists n. split; trivial. destruct (list_eq_dec Z.eq_dec n n); trivial. contradiction.
Qed.

(** C81: on data sets of tables a user who may only read runs exactly the commands that read .. *)
Theorem C81_reader_tables : forall logs s k cid sv c info,
  get_access s cid = LV_READ -> ci_find (s_works s) sv = Some (methods_of KTables) ->
  (runs logs s k cid (mkreq (Some sv) (Some c) info) <-> does KTables c Reads).
Proof.
  intros logs s k cid sv c info A W. rewrite (runs_find logs s k cid sv _ c info ltac:(rewrite A; now vm_compute) W), A.
  rewrite (lined_ok (methods_of KTables) (commands KTables) LV_READ (fun _ e => readsb e) c); [|vm_compute; reflexivity|vm_compute; reflexivity].
  unfold does. split.
  - intros (n & e & I & C & O). destruct e; try discriminate. eauto.
  - intros (n & I & C). exists n, Reads. auto.
Qed.
Print Assumptions C81_reader_tables.
(** .. and on the other kinds these and the commands without flags, whatever they do *)
Theorem C81_reader_partial : forall kd logs s k cid sv c info,
  get_access s cid = LV_READ -> ci_find (s_works s) sv = Some (methods_of kd) ->
  (runs logs s k cid (mkreq (Some sv) (Some c) info) <->
   does kd c Reads \/ exists n, In n (unguarded kd) /\ ci_eq c n).
Proof.
  intros kd logs s k cid sv c info A W. rewrite (runs_find logs s k cid sv _ c info ltac:(rewrite A; now vm_compute) W), A.
  rewrite (lined_ok (methods_of kd) (commands kd) LV_READ (fun n e => readsb e || openb kd n) c);
    [|destruct kd; vm_compute; reflexivity|destruct kd; vm_compute; reflexivity].
  unfold does. split.
  - intros (n & e & I & C & O). apply orb_true_iff in O. destruct O as [O|O]; [destruct e; try discriminate; left; eauto|].
    right. apply openb_in in O. eauto.
  - intros [(n & I & C)|(n & O & C)]; [exists n, Reads; auto|].
    assert (E : exists e, In (n, e) (commands kd)).
    { destruct kd; cbn [unguarded In] in O; try contradiction; repeat (destruct O as [<-|O]; [eexists; vm_compute; repeat (try (left; reflexivity); right)|]); contradiction. }
    destruct E as (e & I). exists n, e. split; trivial. split; trivial. apply openb_in in O. rewrite O. apply orb_true_r.
Qed.
Print Assumptions C81_reader_partial.
(** whoever is logged in with another level runs everything that is not meant for calls inside the
    process, and the commands without flags (C30 has this as a violation for users who may write) *)
Theorem C81_others_partial : forall kd logs s k cid sv c info,
  get_access s cid = LV_WRITE \/ get_access s cid = LV_WORKER \/ get_access s cid = LV_ADMIN ->
  ci_find (s_works s) sv = Some (methods_of kd) ->
  (runs logs s k cid (mkreq (Some sv) (Some c) info) <->
   does kd c Reads \/ does kd c Changes \/ exists n, In n (unguarded kd) /\ ci_eq c n).
Proof.
  intros kd logs s k cid sv c info A W.
  assert (P : 0 <= get_access s cid) by (destruct A as [->|[->| ->]]; now vm_compute).
  rewrite (runs_find logs s k cid sv _ c info P W).
  rewrite (lined_ok (methods_of kd) (commands kd) (get_access s cid) (fun n e => negb (insideb e) || openb kd n) c);
    [|destruct A as [->|[->| ->]]; destruct kd; vm_compute; reflexivity|destruct kd; vm_compute; reflexivity].
  unfold does. split.
  - intros (n & e & I & C & O). apply orb_true_iff in O. destruct O as [O|O].
    + destruct e; [left|right; left|discriminate]; eauto.
    + right. right. apply openb_in in O. eauto.
  - intros [(n & I & C)|[(n & I & C)|(n & O & C)]]; [exists n, Reads; auto|exists n, Changes; auto|].
    assert (E : exists e, In (n, e) (commands kd)).
    { destruct kd; cbn [unguarded In] in O; try contradiction; repeat (destruct O as [<-|O]; [eexists; vm_compute; repeat (try (left; reflexivity); right)|]); contradiction. }
    destruct E as (e & I). exists n, e. split; trivial. split; trivial. apply openb_in in O. rewrite O. apply orb_true_r.
Qed.
Print Assumptions C81_others_partial.

Definition ex_kinds : srv :=
  srv_start [(bs "t"%string, sisdb_methods); (bs "d"%string, frwdb_methods); (bs "s"%string, snodb_methods);
             (bs "p"%string, subdb_methods); (bs "m"%string, memdb_methods)]
    [(bs "guest"%string, mkuser (bs "g"%string) LV_READ); (bs "root"%string, mkuser (bs "r"%string) LV_ADMIN)].
Definition ex_in (n : string) : srv := set_access ex_kinds [(1, bs n)].
Example C81_ex :
  get_access (ex_in "guest") 1 = LV_READ /\ get_access (ex_in "root") 1 = LV_ADMIN /\
  ci_find (s_works (ex_in "guest")) (bs "T"%string) = Some (methods_of KTables) /\
  does KTables (bs "GET"%string) Reads /\ ~ does KTables (bs "wlog"%string) Reads /\ ~ does KTables (bs "pack"%string) Reads.
Proof.
  split; [vm_compute; reflexivity|]. split; [vm_compute; reflexivity|]. split; [vm_compute; reflexivity|]. split.
  - exists (bs "get"%string). split; [vm_compute; tauto|vm_compute; reflexivity].
  - split; intros (n & I & C); vm_compute in I; repeat (destruct I as [I|I]; [first [discriminate I|injection I as <-; vm_compute in C; discriminate C]|]); contradiction.
Qed.

(** so a user who may only read calls rlog and wlog, which in data sets of tables are reserved for calls
    inside the process: wlog writes the request into the log (subdb.c:398-408, frwdb.c:626-650; in
    snodb.c it does nothing), rlog loads the log again (frwdb.c:612-624, snodb.c:701-711) *)
Theorem C81_log_refuted : forall kd, kd = KDays \/ kd = KStream \/ kd = KPublish ->
  does kd (bs "wlog"%string) Inside /\
  exists s sv, get_access s 1 = LV_READ /\ ci_find (s_works s) sv = Some (methods_of kd) /\
    forall logs k info, runs logs s k 1 (mkreq (Some sv) (Some (bs "wlog"%string)) info) /\
      (kd <> KPublish -> runs logs s k 1 (mkreq (Some sv) (Some (bs "rlog"%string)) info)).
Proof.
  intros kd D. split.
  - exists (bs "wlog"%string). split; [|reflexivity]. destruct D as [->|[->| ->]]; vm_compute; tauto.
  - exists (ex_in "guest"), (match kd with KDays => bs "d"%string | KStream => bs "s"%string | _ => bs "p"%string end).
    assert (W : ci_find (s_works (ex_in "guest")) (match kd with KDays => bs "d"%string | KStream => bs "s"%string | _ => bs "p"%string end) = Some (methods_of kd))
      by (destruct D as [->|[->| ->]]; vm_compute; reflexivity).
    split; [vm_compute; reflexivity|]. split; [exact W|]. intros logs k info. split.
    + apply (C81_reader_partial kd); [vm_compute; reflexivity|exact W|]. right. exists (bs "wlog"%string). split; [|reflexivity].
      destruct D as [->|[->| ->]]; vm_compute; tauto.
    + intros N. apply (C81_reader_partial kd); [vm_compute; reflexivity|exact W|]. right. exists (bs "rlog"%string). split; [|reflexivity].
      destruct D as [->|[->| ->]]; [vm_compute; tauto|vm_compute; tauto|contradiction].
Qed.
Print Assumptions C81_log_refuted.
