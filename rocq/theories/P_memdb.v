(** C80: the store of shared texts. *)
From Coq Require Import ZArith List Bool Lia ZifyBool ZifyNat Sorting.Permutation String.
From Verif Require Import Base S_server M_server L_map S_sub M_sub L_sub P_sub S_memdb M_memdb.
Import ListNotations.
Open Scope list_scope.
Open Scope Z_scope.

Lemma cstr_plain v : ~ In 0 v -> cstr v = v.
Proof.
  induction v as [|c v IH]; [reflexivity|]. intros N. cbn [cstr]. destruct (c =? 0) eqn:E.
  - exfalso. apply N. left. lia.
  - rewrite IH; [reflexivity|]. intros J. apply N. now right.
Qed.
Lemma key_get_replace n v m s : key_get m (Some n) <> None ->
  key_get (key_replace m (Some n) v) (Some s) = if same s n then Some v else key_get m (Some s).
Proof.
  induction m as [|[k w] m IH]; [intros N; now contradiction N|]. cbn [key_get key_replace casecmp_o]. rewrite !casecmp_same.
  destruct (same n k) eqn:E; intros N; cbn [key_get casecmp_o]; rewrite casecmp_same.
  - rewrite (same_sym s n), (same_cong n k s E), (same_sym k s). destruct (same s k); reflexivity.
  - rewrite IH by trivial. destruct (same s k) eqn:F; [|reflexivity]. destruct (same s n) eqn:G; [|reflexivity].
    rewrite (same_cong s n k G) in F. congruence.
Qed.
Lemma key_get_set n v m s :
  key_get (key_set m (Some n) v) (Some s) = if same s n then Some v else key_get m (Some s).
Proof.
  unfold key_set. destruct (key_get m (Some n)) as [w|] eqn:E.
  - apply key_get_replace. congruence.
  - cbn [key_get casecmp_o]. now rewrite casecmp_same.
Qed.
Lemma key_get_none m : key_get m None = None.
Proof. induction m as [|[k v] m IH]; [reflexivity|]. cbn. exact IH. Qed.

(** the names of the store hold what was set last, and the subscriptions are those in force *)
Definition minv (H : str -> bool) (x : mdb) (pre : list mreq) : Prop :=
  (forall n, key_get (d_keys x) (Some n) = stored pre n) /\
  (forall n v, stored pre n = Some v -> plain_text v) /\
  sinv H (d_subs x) (force pre) /\ d_out x = true.
Definition good_req (H : str -> bool) (r : mreq) : Prop :=
  match r with
  | MSet _ n (Some v) => n <> None /\ plain_text v
  | MSub c h n => clear_req H (RSub c h n)
  | MUnsub c => c <> -1
  | MGone _ | MReset _ => False
  | MPub _ n => short_name n
  | _ => True
  end.
Lemma good_all rs : good_reqs rs -> exists H, Forall (good_req H) rs.
Proof.
  intros (S & C & U & Z & P). destruct (clear_all _ C) as (H & F). exists H. apply Forall_forall. intros r I.
  rewrite Forall_forall in F.
  assert (G : forall q, sub_part r = Some q -> clear_req H q).
  { intros q E. apply F. apply in_flat_map. exists r. split; trivial. rewrite E. now left. }
  destruct r as [|c n|c n v|c h n|c n|c|c|c]; cbn; trivial.
  - destruct v as [v|]; trivial. exact (S _ _ _ I).
  - exact (G _ eq_refl).
  - exact (P _ _ I).
  - intros ->. contradiction.
  - exact (G _ eq_refl).
  - exact (Z _ I).
Qed.
Lemma stored_snoc pre r : stored (pre ++ [r]) = store_step (stored pre) r.
Proof. unfold stored. now rewrite fold_left_app. Qed.
Lemma force_snoc pre r : force (pre ++ [r]) = force_step (force pre) r.
Proof. unfold force. now rewrite fold_left_app. Qed.

Lemma mstep_ok H ord x pre r : (forall m, Permutation (ord m) m) -> minv H x pre -> good_req H r ->
  exists y a, mstep ord x r = Some (y, a) /\ right pre r a /\ minv H y (pre ++ [r]).
Proof.
  intros O (K & T & S & D) G. unfold minv. rewrite stored_snoc, force_snoc.
  destruct r as [|c n|c n v|c h n|c n|c|c|c]; cbn [mstep right store_step force_step sub_part good_req] in *.
  - eexists _, _. split; [reflexivity|]. split; [reflexivity|]. cbn [d_keys d_subs]. split; [reflexivity|]. split; [discriminate|split; [apply sinv0|reflexivity]].
  - eexists _, _. split; [reflexivity|]. split; [|auto]. destruct n as [n|]; [|now rewrite key_get_none].
    rewrite K. destruct (stored pre n) as [v|] eqn:E; [|reflexivity]. destruct (T _ _ E) as (N & _). destruct v; [now contradiction N|reflexivity].
  - destruct v as [v|]; cbn [unit_create].
    + destruct G as (N & P). destruct n as [n|]; [|now contradiction N]. eexists _, _. split; [reflexivity|]. split; [reflexivity|].
      cbn [d_keys d_subs d_out]. split; [|split; [|auto]].
      * intros s. rewrite key_get_set, K, cstr_plain by apply P. reflexivity.
      * intros s w. destruct (same s n); [|apply T]. intros E. injection E as <-. exact P.
    + eexists _, _. split; [reflexivity|]. split; [reflexivity|]. destruct n; auto.
  - destruct (sstep_inv H _ _ (RSub c h n) S G ltac:(discriminate)) as (y & E & I). cbn [sreq_step] in E. rewrite E.
    eexists _, _. split; [reflexivity|]. split; [reflexivity|]. auto.
  - destruct (pub_spec H _ _ 0 n _ S G (O _)) as (out & E & _). rewrite E, D. eexists _, _. split; [reflexivity|]. split; [|auto].
    exists out. split; [reflexivity|]. intros k. destruct (pub_spec H _ _ k n _ S G (O _)) as (out' & E' & W).
    rewrite E in E'. injection E' as <-. exact W.
  - destruct (sstep_inv H _ _ (RUnsub c) S Logic.I) as (y & E & I).
    { intros X. injection X as X. contradiction. }
    cbn [sreq_step] in E. destruct (cxt_unsub (d_subs x) c) as (z, o). injection E as -> ->.
    eexists _, _. split; [reflexivity|]. split; [reflexivity|]. auto.
  - contradiction.
  - contradiction.
Qed.
Lemma mrun_ok H ord : (forall i m, Permutation (ord i m) m) -> forall rs i x pre, minv H x pre -> Forall (good_req H) rs ->
  exists y l, mrun ord i x rs = Some (y, l) /\ List.length l = List.length rs /\
    forall before r after, rs = before ++ r :: after ->
    exists a, nth_error l (List.length before) = Some a /\ right (pre ++ before) r a.
Proof.
  intros O. induction rs as [|r rs IH]; intros i x pre V F.
  - exists x, []. split; [reflexivity|]. split; [reflexivity|]. intros b q t E. destruct b; discriminate.
  - inversion F as [|? ? G F']; subst. destruct (mstep_ok H (ord i) x pre r (O i) V G) as (y & a & E & R & V').
    destruct (IH (S i) y (pre ++ [r]) V' F') as (z & l & E' & L & A). cbn [mrun]. rewrite E, E'.
    exists z, (a :: l). split; [reflexivity|]. split; [cbn [List.length]; lia|]. intros b q t X. destruct b as [|b0 b].
    + injection X as <- <-. exists a. split; [reflexivity|]. now rewrite app_nil_r.
    + injection X as <- X. destruct (A b q t X) as (a' & N & R'). exists a'. split; [exact N|]. now rewrite <- app_assoc in R'.
Qed.

(** C80: in every good history, whatever the order of the loops, no request crashes the service and
    each one is answered as it should be after the requests before it: a name gives the content set
    last under it by anybody, or nothing; a published message goes to each client once for each of
    its subscriptions that covers it, and is not stored; subscriptions are counted. *)
Theorem C80_partial : forall ord rs, (forall i m, Permutation (ord i m) m) -> good_reqs rs ->
  exists x l, mrun ord 0 mdb0 rs = Some (x, l) /\ List.length l = List.length rs /\
    forall before r after, rs = before ++ r :: after ->
    exists a, nth_error l (List.length before) = Some a /\ right before r a.
Proof.
  intros ord rs O G. destruct (good_all rs G) as (H & F). apply (mrun_ok H ord O rs 0%nat mdb0 []); trivial.
  split; [reflexivity|]. split; [discriminate|]. split; [apply sinv0|reflexivity].
Qed.
Print Assumptions C80_partial.

Definition ex_mem : list mreq :=
  [MSet 1 (Some (bs "Rate"%string)) (Some (bs "1.5"%string)); MSub 2 true (bs "ra"%string); MGet 3 (Some (bs "rate"%string));
   MPub 1 (bs "rate"%string); MSet 3 (Some (bs "rate"%string)) (Some (bs "1.6"%string)); MGet 1 (Some (bs "Rate"%string));
   MGet 1 (Some (bs "other"%string)); MSet 1 (Some (bs "other"%string)) None; MUnsub 2; MPub 1 (bs "rate"%string); MInit;
   MGet 1 (Some (bs "Rate"%string))].
Example C80_ex : good_reqs ex_mem /\
  match mrun (fun _ m => m) 0 mdb0 ex_mem with
  | Some (_, l) => l = [AOk; AInt 1; AText (Some (bs "1.5"%string)); ASent [2]; AOk; AText (Some (bs "1.6"%string)); ANil; AError; AInt 1; ASent []; ADone; ANil]
  | None => False
  end.
Proof.
  split; [|vm_compute; reflexivity]. split; [|split; [|split; [|split]]].
  - intros c n v I. unfold ex_mem in I. cbn [In] in I.
    repeat (destruct I as [I|I]; [first [discriminate I|injection I as <- <- <-; split; [discriminate|split; [discriminate|vm_compute; lia]]]|]). contradiction.
  - split; [|split].
    + intros c h p [I|[I|[]]]; [injection I as <- <- <-|discriminate I]. split; [now left|discriminate].
    + intros c [I|[I|[]]]; discriminate I.
    + exists (fun _ => true). intros c h p [I|[I|[]]]; [now injection I as <- <- <-|discriminate I].
  - intros I. unfold ex_mem in I. cbn [In] in I. repeat (destruct I as [I|I]; [discriminate I|]). contradiction.
  - intros c I. unfold ex_mem in I. cbn [In] in I. repeat (destruct I as [I|I]; [discriminate I|]). contradiction.
  - intros c n I. unfold ex_mem in I. cbn [In] in I.
    repeat (destruct I as [I|I]; [first [discriminate I|injection I as <- <-; vm_compute; repeat split; lia]|]). contradiction.
Qed.

(** every content is cut at its first zero byte, and one that begins with a zero comes back as an
    answer without content *)
Theorem C80_cut : forall ord i x c n a b, ~ In 0 a ->
  exists y, mrun ord i x [MSet c (Some n) (Some (a ++ 0 :: b)); MGet c (Some n)] =
    Some (y, [AOk; AText (match a with [] => None | _ => Some a end)]).
Proof.
  intros ord i x c n a b N. cbn [mrun mstep unit_create d_keys d_subs].
  rewrite key_get_set, same_refl.
  assert (E : cstr (a ++ 0 :: b) = a).
  { induction a as [|k a IH]; [reflexivity|]. cbn [app cstr]. destruct (k =? 0) eqn:F; [exfalso; apply N; left; lia|].
    rewrite IH; [reflexivity|]. intros J. apply N. now right. }
  rewrite E. eexists. reflexivity.
Qed.
Print Assumptions C80_cut.
Theorem C80_zero_refuted : exists ord rs c n v y, rs = [MSet c (Some n) (Some v); MGet c (Some n)] /\
  stored rs n = Some v /\ v = [7; 0; 8] /\ mrun ord 0 mdb0 rs = Some (y, [AOk; AText (Some [7])]).
Proof.
  exists (fun _ m => m). eexists _, 1, (bs "a"%string), [7; 0; 8], _. split; [reflexivity|]. split; [vm_compute; reflexivity|].
  split; [reflexivity|]. vm_compute. reflexivity.
Qed.
Print Assumptions C80_zero_refuted.

(** two names that differ only in case hold one content: setting one loses the other *)
Theorem C80_case_refuted : exists ord n m v w y, n <> m /\ v <> w /\
  mrun ord 0 mdb0 [MSet 1 (Some n) (Some v); MSet 2 (Some m) (Some w); MGet 1 (Some n)] = Some (y, [AOk; AOk; AText (Some w)]).
Proof.
  exists (fun _ m => m), (bs "a"%string), (bs "A"%string), (bs "x"%string), (bs "y"%string). eexists.
  split; [discriminate|]. split; [discriminate|]. vm_compute. reflexivity.
Qed.
Print Assumptions C80_case_refuted.

(** without a name: every set is answered with OK and takes another entry, and nothing is ever read
    back without a name *)
Theorem C80_no_name : forall ord i x c v, exists y,
  mrun ord i x [MSet c None (Some v); MGet c None] = Some (y, [AOk; ANil]) /\
  List.length (d_keys y) = S (List.length (d_keys x)).
Proof.
  intros ord i x c v. cbn [mrun mstep unit_create]. rewrite key_get_none. eexists. split; [reflexivity|].
  cbn [d_keys]. unfold key_set. now rewrite key_get_none.
Qed.
Print Assumptions C80_no_name.
Theorem C80_no_name_refuted : exists y, mrun (fun _ m => m) 0 mdb0
  [MSet 1 None (Some [65]); MSet 1 None (Some [66]); MGet 1 None] = Some (y, [AOk; AOk; ANil]) /\ List.length (d_keys y) = 2%nat.
Proof. eexists. split; vm_compute; reflexivity. Qed.
Print Assumptions C80_no_name_refuted.

(** a closed connection keeps its subscriptions: whoever gets its number next is sent the messages *)
Theorem C80_gone_refuted : exists ord rs c n y, rs = [MSub c false n; MGone c; MPub 9 n] /\ short_name n /\
  wanted (force [MSub c false n; MGone c]) c n = 0%nat /\ mrun ord 0 mdb0 rs = Some (y, [AInt 1; ADone; ASent [c]]).
Proof.
  exists (fun _ m => m). eexists _, 3, (bs "now"%string), _. split; [reflexivity|]. split; [vm_compute; repeat split; lia|].
  split; vm_compute; reflexivity.
Qed.
Print Assumptions C80_gone_refuted.

(** the commands carry no access flags, so anybody logged in, at whatever level, may call each of them
    over the network and nothing is logged .. *)
Theorem C80_anyone : forall logs s k cid c info,
  0 <= get_access s cid -> ci_find (s_works s) (bs "memdb"%string) = Some memdb_methods -> In c (map fst memdb_methods) ->
  let r := mkreq (Some (bs "memdb"%string)) (Some c) info in
  process logs s k cid r = Some (s, [TExec k cid 0 r]).
Proof.
  intros logs s k cid c info A W I r. unfold process, r. cbn [r_service r_cmd]. replace (get_access s cid <? 0) with false by lia.
  cbn [andb]. rewrite W. cbn [ci_find_o].
  assert (E : ci_find memdb_methods c = Some 0).
  { cbn [map fst memdb_methods In] in I. repeat (destruct I as [<-|I]; [vm_compute; reflexivity|]). contradiction. }
  rewrite E. reflexivity.
Qed.
Print Assumptions C80_anyone.
(** .. so a user who may only read sets contents, and calls init, which is meant for calls inside the
    process (the others reserve it, sisdb.c:36, frwdb.c:30, snodb.c:17) *)
Theorem C80_reader_refuted : exists s s' t set init,
  s = srv_start [(bs "memdb"%string, memdb_methods)] [(bs "guest"%string, mkuser (bs "g"%string) LV_READ)] /\
  r_cmd set = Some (bs "set"%string) /\ r_cmd init = Some (bs "init"%string) /\
  srv_run (fun _ => true) 0 s
    [EOpen 1; ERecv 1 (mkreq None (Some (bs "auth"%string)) (RJson (Some (bs "guest"%string)) (Some (bs "g"%string)) None)); EProc;
     ERecv 1 set; EProc; ERecv 1 init; EProc] = Some (s', t) /\
  In (TExec 0 1 0 set) t /\ In (TExec 0 1 0 init) t.
Proof.
  eexists _, _, _, (mkreq (Some (bs "memdb"%string)) (Some (bs "set"%string)) RBadInfo), (mkreq (Some (bs "memdb"%string)) (Some (bs "init"%string)) RNoInfo).
  split; [reflexivity|]. split; [reflexivity|]. split; [reflexivity|]. split; [vm_compute; reflexivity|]. cbn. tauto.
Qed.
Print Assumptions C80_reader_refuted.
(** .. and a client that calls init empties the store, ends the subscriptions of all clients, and from
    then on nothing published reaches anybody, new subscribers included *)
Theorem C80_init_refuted : exists ord c n v y,
  let pre := [MSet 1 (Some n) (Some v); MReset c] in
  stored pre n = Some v /\ wanted (force (pre ++ [MGet 1 (Some n); MSub 2 false n])) 2 n = 1%nat /\
  mrun ord 0 mdb0 (pre ++ [MGet 1 (Some n); MSub 2 false n; MPub 1 n]) = Some (y, [AOk; ADone; ANil; AInt 1; ASent []]).
Proof.
  exists (fun _ m => m), 9, (bs "now"%string), (bs "x"%string). eexists. split; [vm_compute; reflexivity|].
  split; vm_compute; reflexivity.
Qed.
Print Assumptions C80_init_refuted.
(** nothing is sent again before the service itself begins anew *)
Theorem C80_silent : forall ord rs i x c y l, ~ In MInit rs -> mrun ord i x (MReset c :: rs) = Some (y, l) ->
  forall out, In (ASent out) l -> out = [].
Proof.
  assert (W : forall ord rs i x y l, d_out x = false -> ~ In MInit rs -> mrun ord i x rs = Some (y, l) ->
    forall out, In (ASent out) l -> out = []).
  { intros ord. induction rs as [|r rs IH]; intros i x y l D N R out J; cbn [mrun] in R.
    - injection R as <- <-. contradiction.
    - destruct (mstep (ord i) x r) as [[z a]|] eqn:E; [|discriminate]. destruct (mrun ord (S i) z rs) as [[w m]|] eqn:F; [|discriminate].
      injection R as <- <-. cbn [In] in N.
      assert (G : d_out z = false /\ forall o, a = ASent o -> o = []).
      { destruct r as [|c n|c n v|c h n|c n|c|c|c]; cbn [mstep] in E.
        - exfalso. apply N. now left.
        - injection E as <- <-. split; trivial. intros o X. destruct (key_get (d_keys x) n); discriminate.
        - destruct (unit_create v); injection E as <- <-; split; trivial; discriminate.
        - destruct (cxt_sub (d_subs x) c h n) as [[q o]|]; [|discriminate]. injection E as <- <-. split; trivial; discriminate.
        - destruct (cxt_pub (d_subs x) _ n) as [o|]; [|discriminate]. rewrite D in E. injection E as <- <-. split; trivial. intros o' X. now injection X as <-.
        - destruct (cxt_unsub (d_subs x) c) as (q, o). injection E as <- <-. split; trivial; discriminate.
        - injection E as <- <-. split; trivial; discriminate.
        - injection E as <- <-. split; trivial; discriminate. }
      destruct G as (G1 & G2). destruct J as [J|J]; [now apply G2|]. exact (IH _ _ _ _ G1 (fun X => N (or_intror X)) F out J). }
  intros ord rs i x c y l N R out J. cbn [mrun mstep] in R.
  destruct (mrun ord (S i) (mkmdb [] scxt0 false) rs) as [[w m]|] eqn:F; [|discriminate]. injection R as <- <-.
  destruct J as [J|J]; [discriminate|]. eapply W; eauto. reflexivity.
Qed.
Print Assumptions C80_silent.
Example C80_silent_ex : exists y, mrun (fun _ m => m) 0 mdb0 [MReset 9; MSub 2 false (bs "a"%string); MPub 1 (bs "a"%string)] = Some (y, [ADone; AInt 1; ASent []]).
Proof. eexists. vm_compute. reflexivity. Qed.
