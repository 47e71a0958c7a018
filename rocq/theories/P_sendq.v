(** C54: the server's send queue. *)
From Coq Require Import ZArith List Bool Lia ZifyBool ZifyNat.
From Verif Require Import S_sendq M_sendq L_sendq.
Import ListNotations.
Open Scope Z_scope.

(** Every client gets its own bytes in order, none twice, whatever the order of the steps of the
    senders, the reader thread and the loop; nothing freed is read; at most one write is in flight and
    its buffers stay.  Missing: a client that leaves, or a write that fails, while the reader thread
    or libuv is at that client's node (calm_run); see the refutations below. *)
Theorem C54_partial : forall acts s, calm_run acts init -> run acts init = Some s ->
  faithful (log s) /\ justified (log s) /\ bad s = false /\ (List.length (fly s) <= 1)%nat /\
  forall k i b, In (k, i, b) (fly s) -> In i (nds s) /\ rd s i = b.
Proof.
  intros acts s C R. pose proof (run_inv acts init s init_inv C R) as V.
  split; [exact (i_pre _ V)|]. split; [exact (i_just _ V)|]. split; [exact (i_bad _ V)|].
  pose proof (i_wrk _ V) as WK.
  destruct (i_job _ V) as [(_ & F & _)|(i & B1 & _ & _ & [(_ & F & _)|[(_ & F & _)|(_ & _ & k & F & _)]])]; rewrite F.
  - split; [cbn; lia | intros ? ? ? []].
  - split; [cbn; lia | intros ? ? ? []].
  - split; [cbn; lia | intros ? ? ? []].
  - split; [cbn; lia|]. intros k' i' b' [H|[]]. injection H as _ <- <-. rewrite B1 in WK. split; [exact WK | reflexivity].
Qed.
Print Assumptions C54_partial.

(** Nothing gets stuck: from every state of a calm run, steps of the reader thread and the loop alone
    bring out every byte handed over for a session still open, closing none. *)
Theorem C54_delivered_partial : forall acts s, calm_run acts init -> run acts init = Some s ->
  exists more s', Forall own more /\ run more s = Some s' /\ settled (log s') /\
    (forall k, sent (log s') k = sent (log s) k) /\ (forall k, In (Closed k) (log s') <-> In (Closed k) (log s)).
Proof.
  intros acts s C R. pose proof (run_inv acts init s init_inv C R) as V.
  destruct (settle s V) as (a1 & s1 & F1 & R1 & V1 & T1 & P1).
  destruct (drain (waiting s1) s1 (le_n _) V1 T1 P1) as (a2 & s2 & F2 & R2 & V2 & T2 & W2).
  assert (F12 : Forall own (a1 ++ a2)) by (apply Forall_app; split; assumption).
  assert (R12 : run (a1 ++ a2) s = Some s2) by (rewrite run_app, R1; exact R2).
  exists (a1 ++ a2), s2. split; [exact F12|]. split; [exact R12|]. split; [exact (drained s2 V2 T2 W2)|].
  destruct (own_log _ _ _ V F12 R12) as (tr & E & G). destruct (only_got tr G) as [G1 G2]. rewrite E. split.
  - intros k. rewrite sent_app, G1. apply app_nil_r.
  - intros k. rewrite in_app_iff. split; [intros [H|H]; [exact H | exfalso; exact (G2 k H)] | tauto].
Qed.
Print Assumptions C54_delivered_partial.

(** Clients take turns: while bytes wait for a session, no more writes go out before its own than
    there are sessions bytes were ever handed over for. *)
Theorem C54_turns_partial : forall acts s more s' tr k l,
  calm_run acts init -> run acts init = Some s -> calm_run more s -> run more s = Some s' ->
  log s' = log s ++ tr -> ~ In (Closed k) (log s) -> got (log s) k <> sent (log s) k ->
  ~ closes tr -> ~ served tr k -> covers l (log s') -> (writes tr <= List.length l)%nat.
Proof.
  intros acts s more s' tr k l C R C' R' E NC NS NX NV CO.
  pose proof (run_inv acts init s init_inv C R) as V.
  assert (N0 : noted init) by (intros i k0 []).
  pose proof (run_noted acts init s init_inv C N0 R) as N.
  pose proof (run_inv more s s' V C' R') as V'. pose proof (run_noted more s s' V C' N R') as N'.
  destruct (i_gone _ V k) as [(c & K)|[H|(H1 & H2)]]; [|contradiction | congruence].
  destruct (i_open _ V c k K) as [O _]. unfold pend in O.
  destruct (find_cid s c) as [x|] eqn:F; [|rewrite app_nil_r in O; contradiction].
  destruct (find_cid_some _ _ _ F) as [X XC].
  assert (HD : has_data s x = true).
  { destruct (has_data s x) eqn:E1; [reflexivity|]. apply has_data_no in E1. destruct E1 as [E1 E2].
    rewrite E1, E2, app_nil_r in O. contradiction. }
  destruct (phi_some s x V X HD) as (n & PH & PL).
  assert (KX : ses s (cid s x) = Some k) by (rewrite XC; exact K).
  pose proof (turns more s s' x k n tr V C' R' X HD KX PH E) as T.
  pose proof (nodes_covered s' l V' N' CO).
  assert (writes tr + List.length (nds s) <= n + List.length (nds s'))%nat; [|lia].
  apply T; [intros j J; apply NX; exists j; exact J | intros b B; apply NV; exists b; exact B].
Qed.
Print Assumptions C54_turns_partial.

Definition logs (acts : list act) : option (list sev) := option_map log (run acts init).
Lemma run_gives : forall (A : Type) (f : st -> A) acts x, option_map f (run acts init) = Some x ->
  exists s, run acts init = Some s /\ f s = x.
Proof. intros A f acts x H. destruct (run acts init) as [s|]; [|discriminate]. injection H as H. exists s. split; [reflexivity | exact H]. Qed.

Definition turn4 : list act := [AReader; AReader; AReader; AReader].

(** two clients; the second leaves between two writes, a third takes its slot and its write fails *)
Definition ok_acts : list act :=
  [AConnect 0; AConnect 1; ASend 0 [1; 2]; ASend 1 [7]; ASend 0 [3]] ++ turn4 ++ [AAsync true; ASend 0 [4]; ADone 1 true] ++
  [AEnd 1; AConnect 1; ASend 1 [8]; ASend 1 [9]] ++ turn4 ++ [AAsync true; ADone 2 false] ++
  turn4 ++ [ASend 0 [5]; AReader; AAsync true; AReader; ADone 0 true].

Example C54_ok : calm_run ok_acts init /\
  logs ok_acts = Some [Sent 0 [1; 2]; Sent 1 [7]; Sent 0 [3]; Sent 0 [4]; Got 1 [7]; Asked 1; Closed 1; Sent 2 [8]; Sent 2 [9];
                       Failed 2; Closed 2; Sent 0 [5]; Got 0 [1; 2; 3; 4]].
Proof.
  split; [|vm_compute; reflexivity].
  vm_compute. repeat split.
Qed.

(** the turns of three clients: one write each before the fourth's *)
Definition turn_acts : list act :=
  [AConnect 0; AConnect 1; AConnect 2; ASend 0 [1]] ++ turn4 ++ [ASend 1 [2]; ASend 2 [3]].
Example C54_turns_ok :
  calm_run turn_acts init /\
  option_map (fun s => (got (log s) 1, sent (log s) 1)) (run turn_acts init) = Some ([], [2]) /\
  option_map (fun s => log s) (run (turn_acts ++ [AAsync true; ADone 0 true; ASend 0 [4]] ++ turn4 ++ [AAsync true; ASend 2 [5]; ADone 2 true]) init)
    = Some [Sent 0 [1]; Sent 1 [2]; Sent 2 [3]; Got 0 [1]; Sent 0 [4]; Sent 2 [5]; Got 2 [3]].
Proof. vm_compute. repeat split. Qed.

(** Refuted: a client is closed only for its own reasons.  A client leaves while a write to it is in
    flight: its node is freed, work_node becomes another client's (238-241), libuv reports the write
    as cancelled, and cb_server_write_after closes that other client (784-803). *)
Definition other_acts : list act :=
  [AConnect 0; AConnect 1; ASend 0 [1]] ++ turn4 ++ [AAsync true; ADone 0 true; ASend 1 [2]] ++ turn4 ++
  [AAsync true; AEnd 1; ADone 1 false].
Theorem C54_other_closed_refuted : exists acts s, run acts init = Some s /\ ~ justified (log s).
Proof.
  destruct (run_gives _ log other_acts [Sent 0 [1]; Got 0 [1]; Sent 1 [2]; Asked 1; Closed 1; Failed 1; Closed 0])
    as (s & R & E); [vm_compute; reflexivity|].
  exists other_acts, s. split; [exact R|]. intro J. destruct (J 0) as [H|H]; rewrite E in *.
  - do 6 right. left. reflexivity.
  - cbn [In] in H. repeat (destruct H as [H|H]; [discriminate|]). exact H.
  - cbn [In] in H. repeat (destruct H as [H|H]; [discriminate|]). exact H.
Qed.
Print Assumptions C54_other_closed_refuted.

(** Refuted: every client gets its bytes.  The same, but the write had gone out before: its report
    makes sis_net_uv_catch_stop throw away what was just taken for the other client (310-317), which
    is never written; later bytes are. *)
Definition lost_acts : list act :=
  [AConnect 0; AConnect 1; ASend 0 [1]] ++ turn4 ++ [AAsync true; ADone 0 true; ASend 1 [2]] ++ turn4 ++
  [AAsync true; AEnd 1; ASend 0 [3; 4]] ++ turn4 ++ [ADone 1 true; AAsync true; ASend 0 [5]] ++ turn4 ++ [AAsync true; ADone 0 true].
Theorem C54_other_loses_refuted : exists acts s, run acts init = Some s /\ ~ faithful (log s) /\
  ~ In (Closed 0) (log s).
Proof.
  destruct (run_gives _ log lost_acts
    [Sent 0 [1]; Got 0 [1]; Sent 1 [2]; Asked 1; Closed 1; Sent 0 [3; 4]; Got 1 [2]; Sent 0 [5]; Got 0 [5]])
    as (s & R & E); [vm_compute; reflexivity|].
  exists lost_acts, s. split; [exact R|]. rewrite E. split.
  - intro J. destruct (J 0) as [c H]. vm_compute in H. discriminate.
  - intro H. cbn [In] in H. repeat (destruct H as [H|H]; [discriminate|]). exact H.
Qed.
Print Assumptions C54_other_loses_refuted.

(** Refuted: nothing freed is read.  The reader thread keeps the node it read from work_node without
    the lock (82-93); the client leaves in between. *)
Definition freed_acts : list act := [AConnect 0; ASend 0 [1]; AReader; AEnd 0; AReader].
Theorem C54_freed_refuted : exists acts s, run acts init = Some s /\ bad s = true.
Proof.
  destruct (run_gives _ bad freed_acts true) as (s & R & E); [vm_compute; reflexivity|]. exists freed_acts, s. split; assumption.
Qed.
Print Assumptions C54_freed_refuted.

(** Refuted: the buffers of a write in flight stay.  When the client leaves they are freed at once
    (243), before libuv has given up the write. *)
Definition buffers_acts : list act := [AConnect 0; ASend 0 [1]] ++ turn4 ++ [AAsync true; AEnd 0].
Theorem C54_buffers_refuted : exists acts s k i b, run acts init = Some s /\ In (k, i, b) (fly s) /\ ~ In i (nds s).
Proof.
  destruct (run_gives _ (fun s => (fly s, nds s)) buffers_acts ([(0, 0, [1])], [])) as (s & R & E); [vm_compute; reflexivity|].
  injection E as E1 E2.
  exists buffers_acts, s, 0, 0, [1]. split; [exact R|]. rewrite E1, E2. split; [left; reflexivity | intros []].
Qed.
Print Assumptions C54_buffers_refuted.

(** Refuted: at most one write is in flight: after a client left, the next is written to before libuv
    has given up the first. *)
Definition two_acts : list act :=
  [AConnect 0; AConnect 1; ASend 0 [1]] ++ turn4 ++ [AAsync true; ADone 0 true; ASend 1 [2]] ++ turn4 ++
  [AAsync true; AEnd 1; ASend 0 [3; 4]] ++ turn4 ++ [AAsync true].
Theorem C54_one_write_refuted : exists acts s, run acts init = Some s /\ List.length (fly s) = 2%nat.
Proof.
  destruct (run_gives _ (fun s => List.length (fly s)) two_acts 2%nat) as (s & R & E); [vm_compute; reflexivity|]. exists two_acts, s. split; assumption.
Qed.
Print Assumptions C54_one_write_refuted.
