(** Request handling of the server: C29 (login before commands), C30 (levels), C31 (passwords),
    C32 (log before execution). *)
From Verif Require Import Base S_server M_server L_server.
From Coq Require Import String.

(** a data set with the methods of sisdb.c:14-42 used below *)
Definition ex_works : list (str * list (str * Z)) :=
  [(bs "db", [(bs "get", 1); (bs "set", 3); (bs "dels", 7); (bs "save", Z.lor 7 0x200); (bs "clear", 0x100)])].
Definition ex_users : list (str * user) :=
  [(bs "alice", mkuser (bs "secret") LV_READ); (bs "bob", mkuser (bs "pw") LV_WRITE)].
Definition ex_start := srv_start ex_works ex_users.
Definition ex_login n p := mkreq None (Some (bs "auth")) (RJson (Some (bs n)) (Some (bs p)) None).
Definition ex_cmd c := mkreq (Some (bs "db")) (Some (bs c)) RBadInfo.

(** C29, partial: if no connection number is ever used twice, whatever is logged or executed,
    other than login, belongs to a connection, the [k]-th opened, that has itself logged in
    before, as a user of the table with the password stored there up to case. *)
Theorem C29_login_first_partial : forall logs works users es s t1 e t2 k cid r,
  users <> [] -> NoDup (opened es) ->
  srv_run logs 0 (srv_start works users) es = Some (s, t1 ++ e :: t2) ->
  ran e k cid r -> ~ is_auth r ->
  nth_error (opened es) k = Some cid /\
  exists n p nm u, In (TLogin k cid n p) t1 /\
    In (nm, u) (s_users s) /\ ci_eq nm n /\ ci_eq (u_pw u) p.
Proof.
  intros logs works users es s t1 e t2 k cid r Hu Hd H R Ha.
  destruct (c29_main _ _ _ _ _ _ _ _ _ _ _ Hu H R Ha) as [K [k' [n [p [nm [u [_ [A [B C]]]]]]]]].
  rewrite (B Hd) in A. split; [exact K|]. exists n, p, nm, u. exact (conj A C).
Qed.
Print Assumptions C29_login_first_partial.

(** C29, partial, with numbers used again: some connection with that number has logged in. *)
Theorem C29_number_login_partial : forall logs works users es s t1 e t2 k cid r,
  users <> [] ->
  srv_run logs 0 (srv_start works users) es = Some (s, t1 ++ e :: t2) ->
  ran e k cid r -> ~ is_auth r ->
  nth_error (opened es) k = Some cid /\
  exists k' n p, nth_error (opened es) k' = Some cid /\ In (TLogin k' cid n p) t1.
Proof.
  intros logs works users es s t1 e t2 k cid r Hu H R Ha.
  destruct (c29_main _ _ _ _ _ _ _ _ _ _ _ Hu H R Ha) as [K [k' [n [p [nm [u [K' [A _]]]]]]]].
  exact (conj K (ex_intro _ k' (ex_intro _ n (ex_intro _ p (conj K' A))))).
Qed.
Print Assumptions C29_number_login_partial.

Example C29_example :
  let es := [EOpen 1; EOpen 2; ERecv 1 (ex_cmd "get"); ERecv 2 (ex_login "alice" "secret"); EProc; EProc;
             ERecv 2 (ex_cmd "get"); EProc] in
  NoDup (opened es) /\
  match srv_run (fun _ => true) 0 ex_start es with
  | Some (_, t) => t = [TRefuse 0 1 (ex_cmd "get"); TExec 1 2 1 (ex_login "alice" "secret");
                        TLogin 1 2 (bs "alice") (bs "secret"); TExec 1 2 1 (ex_cmd "get")]
  | None => False
  end.
Proof.
  split.
  - cbn. constructor; [intros [H|[]]; discriminate|constructor; [easy|constructor]].
  - vm_compute. reflexivity.
Qed.

(** C29 fails: a connection ended by an unreadable frame keeps its login; the next connection
    with its number runs commands without logging in. *)
Theorem C29_inherited_login_refuted : exists es s t k cid fl r,
  srv_run (fun _ => true) 0 ex_start es = Some (s, t) /\ In (TExec k cid fl r) t /\ ~ is_auth r /\
  forall c n p, ~ In (TLogin k c n p) t.
Proof.
  exists [EOpen 1; ERecv 1 (ex_login "bob" "pw"); EProc; EBad 1; EClose 1; EOpen 1; ERecv 1 (ex_cmd "set"); EProc].
  eexists. exists [TExec 0 1 1 (ex_login "bob" "pw"); TLogin 0 1 (bs "bob") (bs "pw"); TLog 1 1 (ex_cmd "set"); TExec 1 1 3 (ex_cmd "set")].
  exists 1%nat, 1, 3, (ex_cmd "set"). split; [vm_compute; reflexivity|]. split; [do 3 right; now left|]. split.
  - intros [c [H1 H2]]. injection H1 as <-. vm_compute in H2. discriminate.
  - intros c n p [H|[H|[H|[H|[]]]]]; discriminate.
Qed.
Print Assumptions C29_inherited_login_refuted.

(** C29 fails also without any bad frame: a login still waiting when its client disconnects is
    entered afterwards. *)
Theorem C29_late_login_refuted : exists es s t k cid fl r,
  (forall c, ~ In (EBad c) es) /\
  srv_run (fun _ => true) 0 ex_start es = Some (s, t) /\ In (TExec k cid fl r) t /\ ~ is_auth r /\
  forall c n p, ~ In (TLogin k c n p) t.
Proof.
  exists [EOpen 1; ERecv 1 (ex_login "bob" "pw"); EClose 1; EProc; EOpen 1; ERecv 1 (ex_cmd "set"); EProc].
  eexists. exists [TExec 0 1 1 (ex_login "bob" "pw"); TLogin 0 1 (bs "bob") (bs "pw"); TLog 1 1 (ex_cmd "set"); TExec 1 1 3 (ex_cmd "set")].
  exists 1%nat, 1, 3, (ex_cmd "set"). split; [|split; [vm_compute; reflexivity|split; [do 3 right; now left|split]]].
  - intros c [H|[H|[H|[H|[H|[H|[H|[]]]]]]]]; discriminate.
  - intros [c [H1 H2]]. injection H1 as <-. vm_compute in H2. discriminate.
  - intros c n p [H|[H|[H|[H|[]]]]]; discriminate.
Qed.
Print Assumptions C29_late_login_refuted.

(** C30, partial: nothing reserved for calls inside the process is run for a client, and nothing
    that writes or deletes for a reader. *)
Theorem C30_reader_partial : forall logs s k cid r s' t fl r',
  process logs s k cid r = Some (s', t) -> In (TExec k cid fl r') t ->
  ~ has fl FL_NONET /\ (get_access s cid = LV_READ -> ~ has fl FL_WRITE /\ ~ has fl FL_DEL).
Proof. exact process_access. Qed.
Print Assumptions C30_reader_partial.

Example C30_example :
  let es c := [EOpen 1; ERecv 1 (ex_login "alice" "secret"); ERecv 1 (ex_cmd c); EProc; EProc] in
  (exists s t, srv_run (fun _ => true) 0 ex_start (es "get"%string) = Some (s, t) /\ In (TExec 0 1 1 (ex_cmd "get")) t /\ get_access s 1 = LV_READ) /\
  (exists s t, srv_run (fun _ => true) 0 ex_start (es "set"%string) = Some (s, t) /\ In (TRefuse 0 1 (ex_cmd "set")) t) /\
  (exists s t, srv_run (fun _ => true) 0 ex_start (es "clear"%string) = Some (s, t) /\ In (TRefuse 0 1 (ex_cmd "clear")) t).
Proof.
  split; [|split]; eexists; eexists; (split; [vm_compute; reflexivity|]).
  - split; [do 2 right; now left|vm_compute; reflexivity].
  - do 2 right; now left.
  - do 2 right; now left.
Qed.

(** C30 fails: a writer runs deleting methods, and makes itself an administrator. *)
Theorem C30_writer_refuted : exists es s t fl r,
  srv_run (fun _ => true) 0 ex_start es = Some (s, t) /\ In (TExec 0 1 fl r) t /\
  In (bs "bob", mkuser (bs "pw") LV_WRITE) (s_users ex_start) /\ ~ permitted LV_WRITE fl /\
  In (TLogin 0 1 (bs "bob") (bs "pw")) t /\ In (bs "bob", mkuser (bs "pw") LV_ADMIN) (s_users s).
Proof.
  pose (su := mkreq None (Some (bs "setuser")) (RJson (Some (bs "bob")) None (Some (bs "admin")))).
  exists [EOpen 1; ERecv 1 (ex_login "bob" "pw"); ERecv 1 su; EProc; EProc].
  eexists. exists [TExec 0 1 1 (ex_login "bob" "pw"); TLogin 0 1 (bs "bob") (bs "pw"); TExec 0 1 7 su].
  exists 7, su. split; [vm_compute; reflexivity|].
  split; [do 2 right; now left|]. split; [right; now left|].
  split; [|split; [right; now left|right; now left]].
  intros [_ [_ H]]. apply (H eq_refl). vm_compute. discriminate.
Qed.
Print Assumptions C30_writer_refuted.

(** C31, partial: a login succeeds only for a user of the table and with its password up to
    case. *)
Theorem C31_login_checked_partial : forall logs s k cid r s' t n p,
  process logs s k cid r = Some (s', t) -> In (TLogin k cid n p) t ->
  exists nm u lv, r_info r = RJson (Some n) (Some p) lv /\ In (nm, u) (s_users s) /\ ci_eq nm n /\ ci_eq (u_pw u) p.
Proof.
  intros logs s k cid r s' t n p H Hin. apply process_shape in H.
  destruct H as [->|f pre -> Ha Hau Hs Hpre|f Ha Hau Hs Hs'|f n0 p0 Ha Hau Hs Hen Hch ->].
  - destruct Hin as [Hin|[]]; easy.
  - subst pre. apply in_app_or in Hin. destruct Hin as [Hin|[Hin|[]]]; [|easy].
    destruct (negb (Z.land f FL_WRITE =? 0) && (Z.land f FL_NOLOG =? 0) && logs)%bool; [|easy].
    destruct Hin as [Hin|[]]; easy.
  - destruct Hin as [Hin|[]]; easy.
  - destruct Hin as [Hin|[Hin|[]]]; [easy|]. injection Hin as <- <-. now apply auth_check_spec.
Qed.
Print Assumptions C31_login_checked_partial.

(** and the right name and password do log in, in every state *)
Theorem C31_login_accepted_partial : forall logs s k cid nm u n p lv,
  s_auth s = true ->
  (forall a x b y, In (a, x) (s_users s) -> In (b, y) (s_users s) -> ci_eq a b -> x = y) ->
  In (nm, u) (s_users s) -> ci_eq nm n -> ci_eq (u_pw u) p ->
  exists s' fl, process logs s k cid (mkreq None (Some (bs "auth")) (RJson (Some n) (Some p) lv))
    = Some (s', [TExec k cid fl (mkreq None (Some (bs "auth")) (RJson (Some n) (Some p) lv)); TLogin k cid n p]) /\
    In (cid, n) (s_access s').
Proof. exact login_complete. Qed.
Print Assumptions C31_login_accepted_partial.

Example C31_example :
  match process true ex_start 0 1 (ex_login "alice" "secreT2") with
  | Some (s, t) => s_access s = [] /\ t = [TExec 0 1 1 (ex_login "alice" "secreT2")] | None => False end /\
  match process true ex_start 0 1 (ex_login "Alice" "secret") with
  | Some (s, t) => s_access s = [(1, bs "Alice")] | None => False end.
Proof. vm_compute. repeat split. Qed.

(** C31 fails: the case of the password does not matter *)
Theorem C31_case_refuted : exists s t p u,
  process true ex_start 0 1 (ex_login "alice" "SECRET") = Some (s, t) /\ In (TLogin 0 1 (bs "alice") p) t /\
  In (bs "alice", u) (s_users ex_start) /\ u_pw u <> p.
Proof.
  eexists. eexists. exists (bs "SECRET"), (mkuser (bs "secret") LV_READ).
  split; [vm_compute; reflexivity|]. split; [right; now left|]. split; [now left|]. vm_compute. discriminate.
Qed.
Print Assumptions C31_case_refuted.

(** C31 fails in every state: a login attempt with a name the table does not have, or without
    content, ends the server; nobody needs to be logged in *)
Theorem C31_unknown_name_crash : forall logs s k cid n p lv,
  s_auth s = true -> (forall nm u, In (nm, u) (s_users s) -> ~ ci_eq nm n) ->
  process logs s k cid (mkreq None (Some (bs "auth")) (RJson (Some n) p lv)) = None /\
  process logs s k cid (mkreq None (Some (bs "auth")) RNoInfo) = None.
Proof.
  intros logs s k cid n p lv Ha Hn.
  exact (conj (auth_crash _ _ _ _ _ Ha (unknown_crash _ _ _ _ Hn)) (auth_crash _ _ _ _ RNoInfo Ha eq_refl)).
Qed.
Print Assumptions C31_unknown_name_crash.

Theorem C31_crash_refuted : exists es, srv_run (fun _ => true) 0 ex_start es = None.
Proof. exists [EOpen 1; ERecv 1 (ex_login "mallory" "x"); EProc]. vm_compute. reflexivity. Qed.
Print Assumptions C31_crash_refuted.

(** C32, partial: if every append to the log succeeds, the requests logged are exactly the
    requests executed on data sets by logged writing methods, in the same order; *)
Theorem C32_same_order_partial : forall logs es n s s' t,
  (forall i, logs i = true) -> srv_run logs n s es = Some (s', t) -> logged t = written t.
Proof. intros logs es n s s' t HL H. exact (proj1 (run_logs _ _ _ _ _ _ H) HL). Qed.
Print Assumptions C32_same_order_partial.

(** and whatever happens to appends, what is logged is executed right after, hence nothing
    refused is logged. *)
Theorem C32_logged_then_run_partial : forall logs es n s s' t1 k c r t2,
  srv_run logs n s es = Some (s', t1 ++ TLog k c r :: t2) -> exists fl t2', t2 = TExec k c fl r :: t2'.
Proof. intros logs es n s s' t1 k c r t2 H. exact (proj2 (run_logs _ _ _ _ _ _ H) _ _ _ _ _ eq_refl). Qed.
Print Assumptions C32_logged_then_run_partial.

Example C32_example :
  match srv_run (fun _ => true) 0 ex_start
    [EOpen 1; ERecv 1 (ex_login "bob" "pw"); ERecv 1 (ex_cmd "set"); ERecv 1 (ex_cmd "get"); ERecv 1 (ex_cmd "dels"); EProc; EProc; EProc; EProc] with
  | Some (_, t) => written t = [(0%nat, 1, ex_cmd "set"); (0%nat, 1, ex_cmd "dels")] /\ List.length t = 7%nat
  | None => False
  end.
Proof. vm_compute. split; reflexivity. Qed.

(** C32 fails: if the append fails the command runs all the same *)
Theorem C32_failed_append_refuted : exists es s t,
  srv_run (fun _ => false) 0 ex_start es = Some (s, t) /\ In (TExec 0 1 3 (ex_cmd "set")) t /\ logged t = [].
Proof.
  exists [EOpen 1; ERecv 1 (ex_login "bob" "pw"); ERecv 1 (ex_cmd "set"); EProc; EProc].
  eexists. eexists. split; [vm_compute; reflexivity|]. split; [do 2 right; now left|reflexivity].
Qed.
Print Assumptions C32_failed_append_refuted.
