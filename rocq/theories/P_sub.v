(** C53: subscriptions. *)
From Coq Require Import ZArith List Bool Lia ZifyBool ZifyNat Sorting.Permutation String.
From Verif Require Import Base S_server M_server L_map S_sub M_sub L_sub.
Import ListNotations.
Open Scope list_scope.
Open Scope Z_scope.

Lemma sinv0 H : sinv H scxt0 [].
Proof. split; [split; constructor|split; [split; constructor|constructor]]. Qed.
Lemma srun_inv H rs : forall x A, sinv H x A -> Forall (clear_req H) rs ->
  exists y os, srun x rs = Some (y, os) /\ sinv H y (fold_left in_force_step rs A) /\
    (~ In (RUnsub (-1)) rs -> os = answers A rs).
Proof.
  induction rs as [|r rs IH]; intros x A I F; [exists x, []; auto|]. inversion F as [|? ? C F']; subst.
  cbn [srun fold_left answers].
  assert (D : {r = RUnsub (-1)} + {r <> RUnsub (-1)}).
  { destruct r as [c h p|c|c]; try (right; discriminate). destruct (Z.eq_dec c (-1)) as [->|N]; [now left|right; congruence]. }
  destruct D as [->|D].
  - destruct (sstep_all H x A) as (I' & E). rewrite E. destruct (IH _ _ I' F') as (y & os & R & J & _).
    cbn [sreq_step]. destruct (cxt_unsub x (-1)) as (z, n). cbn [fst] in *. rewrite R.
    exists y, (n :: os). split; [reflexivity|]. split; [trivial|]. intros N. exfalso. apply N. now left.
  - destruct (sstep_inv H x A r I C D) as (z & E & I'). rewrite E. destruct (IH _ _ I' F') as (y & os & R & J & K). rewrite R.
    exists y, (answer A r :: os). split; [reflexivity|]. split; [trivial|]. intros N. f_equal. apply K. intros X. apply N. now right.
Qed.
Lemma clear_all rs : clear_requests rs -> exists H, Forall (clear_req H) rs.
Proof.
  intros (P & G & (H & U)). exists H. apply Forall_forall. intros r I. destruct r as [c h p|c|c]; cbn; trivial.
  - split; [now apply (P c)|now apply (U c)].
  - now apply (G c).
Qed.

(** C53: after any clear requests nothing has crashed, and a message published under a short name
    goes to each client once for each of its subscriptions in force that covers the name - so to
    nobody else - whatever the order in which the loop meets the patterns. *)
Theorem C53_partial : forall rs s, clear_requests rs -> short_name s ->
  exists x os, srun scxt0 rs = Some (x, os) /\
    forall es, Permutation es (s_mul x) ->
    exists out, cxt_pub x es s = Some out /\ forall c, count_occ Z.eq_dec out c = wanted (in_force rs) c s.
Proof.
  intros rs s C SN. destruct (clear_all rs C) as (H & F). destruct (srun_inv H rs scxt0 [] (sinv0 H) F) as (x & os & R & I & _).
  exists x, os. split; trivial. intros es P. destruct (pub_spec H x _ 0 s es I SN P) as (out & E & _). exists out. split; trivial.
  intros c. destruct (pub_spec H x _ c s es I SN P) as (out' & E' & CO). rewrite E in E'. injection E' as <-. exact CO.
Qed.
Print Assumptions C53_partial.

(** the answer to a request is the number of subscriptions it added or ended *)
Theorem C53_answers_partial : forall rs, clear_requests rs -> ~ In (RUnsub (-1)) rs ->
  exists x, srun scxt0 rs = Some (x, answers [] rs).
Proof.
  intros rs C N. destruct (clear_all rs C) as (H & F). destruct (srun_inv H rs scxt0 [] (sinv0 H) F) as (x & os & R & _ & A).
  exists x. now rewrite R, (A N).
Qed.
Print Assumptions C53_answers_partial.

(** after any requests at all, a client that has given up its subscriptions gets nothing *)
Theorem C53_unsubscribed : forall rs c x os es s out,
  srun scxt0 rs = Some (x, os) -> Permutation es (s_mul (fst (cxt_unsub x c))) ->
  cxt_pub (fst (cxt_unsub x c)) es s = Some out -> ~ In c out.
Proof.
  intros rs c x os es s out R P E. destruct (srun_nodup rs scxt0 x os ltac:(constructor) ltac:(constructor) R) as (A & B).
  unfold cxt_unsub in *. pose proof (nodup_unsub c _ 0 A) as (_ & U1). pose proof (nodup_unsub c _ 0 B) as (_ & U2).
  destruct (unsub_notice (s_one x) c 0) as (a, na). destruct (unsub_notice (s_mul x) c 0) as (b, nb). cbn [fst s_one s_mul] in *.
  unfold cxt_pub in E. destruct (pub_mul es s) as [o|] eqn:PM; [|discriminate]. injection E as <-. cbn [s_one] in *.
  intros I. apply in_app_or in I. destruct I as [I|I].
  - destruct (find_unit a s) as [u|] eqn:F; [|contradiction]. destruct (find_unit_some _ _ _ F) as (k & J & _).
    rewrite Forall_forall in U1. exact (U1 _ J I).
  - eapply (pub_mul_none c s es o); eauto. apply Forall_forall. intros e J. rewrite Forall_forall in U2. apply U2. now apply (Permutation_in _ P).
Qed.
Print Assumptions C53_unsubscribed.

Definition ex_subs : list sreq :=
  [RSub 1 false (bs "SH600000.stk"%string); RSub 2 false (bs "sh600000.STK"%string); RSub 3 true (bs "sh6,sz.stk"%string);
   RSub 4 false (bs "*"%string); RSub 5 false (bs "sh600000,sz000001.stk,minu"%string); RSub 6 true (bs "*.min"%string);
   RSub 7 true (bs "sh,sz"%string); RSub 1 false (bs "sh600000.stk"%string); RUnsub 2; RSub 8 false (bs "now,then"%string)].
Example C53_ok :
  clear_requests ex_subs /\ short_name (bs "sh600000.stk"%string) /\ ~ In (RUnsub (-1)) ex_subs /\
  answers [] ex_subs = [1; 1; 1; 1; 1; 1; 1; 0; 1; 1] /\
  map (fun c => wanted (in_force ex_subs) c (bs "sh600000.stk"%string)) [1; 2; 3; 4; 5; 6; 7; 8] = [1; 0; 1; 1; 1; 0; 1; 0]%nat /\
  map (fun c => wanted (in_force ex_subs) c (bs "sz000001.minute"%string)) [1; 2; 3; 4; 5; 6; 7; 8] = [0; 0; 0; 1; 0; 1; 1; 0]%nat /\
  map (fun c => wanted (in_force ex_subs) c (bs "THEN"%string)) [1; 2; 3; 4; 5; 6; 7; 8] = [0; 0; 0; 1; 0; 0; 0; 1]%nat.
Proof.
  split; [|split; [|split; [|repeat split; vm_compute; reflexivity]]].
  - split; [|split].
    + intros c h p I. try unfold ex_subs in I. cbn [In] in I. repeat (destruct I as [I|I]; [first [discriminate I|injection I as <- <- <-; split; [vm_compute; first [left; reflexivity|right; left; reflexivity|right; right; left; reflexivity|right; right; right; left; reflexivity|right; right; right; right; reflexivity]|vm_compute; intros; first [discriminate|split; discriminate]]]|]). contradiction.
    + intros c I. try unfold ex_subs in I. cbn [In] in I. repeat (destruct I as [I|I]; [discriminate|]). contradiction.
    + exists (fun p => existsb (same p) [bs "sh6,sz.stk"%string; bs "*.min"%string; bs "sh,sz"%string]).
      intros c h p I. try unfold ex_subs in I. cbn [In] in I. repeat (destruct I as [I|I]; [first [discriminate I|injection I as <- <- <-]; vm_compute; intuition congruence|]). contradiction.
  - vm_compute. repeat split; lia.
  - intros I. try unfold ex_subs in I. cbn [In] in I. repeat (destruct I as [I|I]; [discriminate|]). contradiction.
Qed.

(** a star for all keys or all tables in an exact subscription: nothing is ever delivered *)
Theorem C53_star_side_refuted : exists rs s c x os,
  rs = [RSub c false (bs "*.stk"%string)] /\ short_name s /\ srun scxt0 rs = Some (x, os) /\
  wanted (in_force rs) c s = 1%nat /\ cxt_pub x (s_mul x) s = Some [].
Proof.
  exists [RSub 7 false (bs "*.stk"%string)], (bs "sh600000.stk"%string), 7.
  eexists _, _. split; [reflexivity|]. split; [vm_compute; repeat split; lia|]. split; [vm_compute; reflexivity|]. split; vm_compute; reflexivity.
Qed.
Print Assumptions C53_star_side_refuted.

(** the same list subscribed exactly by one client and by heads by another: the second is treated as
    the first, so it misses names *)
Theorem C53_one_use_refuted : exists rs s x os,
  rs = [RSub 1 false (bs "sh60,sz00"%string); RSub 2 true (bs "sh60,sz00"%string)] /\ short_name s /\
  srun scxt0 rs = Some (x, os) /\ wanted (in_force rs) 2 s = 1%nat /\ cxt_pub x (s_mul x) s = Some [].
Proof.
  eexists _, (bs "sh600000"%string), _, _. split; [reflexivity|]. split; [vm_compute; repeat split; lia|].
  split; [vm_compute; reflexivity|]. split; vm_compute; reflexivity.
Qed.
Print Assumptions C53_one_use_refuted.
(** .. and the other way round it gets names it did not ask for *)
Theorem C53_one_use_more_refuted : exists rs s x os,
  rs = [RSub 2 true (bs "sh60,sz00"%string); RSub 1 false (bs "sh60,sz00"%string)] /\ short_name s /\
  srun scxt0 rs = Some (x, os) /\ wanted (in_force rs) 1 s = 0%nat /\ cxt_pub x (s_mul x) s = Some [2; 1].
Proof.
  eexists _, (bs "sh600000"%string), _, _. split; [reflexivity|]. split; [vm_compute; repeat split; lia|].
  split; [vm_compute; reflexivity|]. split; vm_compute; reflexivity.
Qed.
Print Assumptions C53_one_use_more_refuted.

(** one message, one client, two copies: each covering subscription sends its own *)
Theorem C53_once_refuted : exists rs s c x os,
  clear_requests rs /\ short_name s /\ srun scxt0 rs = Some (x, os) /\
  forall es, Permutation es (s_mul x) -> exists out, cxt_pub x es s = Some out /\ count_occ Z.eq_dec out c = 2%nat.
Proof.
  exists [RSub 1 false (bs "now"%string); RSub 1 false (bs "*"%string)], (bs "now"%string), 1.
  eexists _, _. split; [|split; [vm_compute; repeat split; lia|split; [vm_compute; reflexivity|]]].
  - split; [|split].
    + intros c h p I. try unfold ex_subs in I. cbn [In] in I. repeat (destruct I as [I|I]; [first [discriminate I|injection I as <- <- <-; split; [vm_compute; first [left; reflexivity|right; left; reflexivity|right; right; left; reflexivity|right; right; right; left; reflexivity|right; right; right; right; reflexivity]|vm_compute; intros; first [discriminate|split; discriminate]]]|]). contradiction.
    + intros c I. try unfold ex_subs in I. cbn [In] in I. repeat (destruct I as [I|I]; [discriminate|]). contradiction.
    + exists (fun _ => false). intros c h p I. try unfold ex_subs in I. cbn [In] in I. repeat (destruct I as [I|I]; [injection I as <- <- <-; vm_compute; intuition congruence|]). contradiction.
  - intros es P. cbn in P. apply Permutation_sym, Permutation_length_1_inv in P. subst es. eexists. split; vm_compute; reflexivity.
Qed.
Print Assumptions C53_once_refuted.

(** a published name with 128 bytes before or after its dot is written past a buffer on the stack as
    soon as anybody has a pattern of two sides *)
Theorem C53_long_name_refuted : exists rs x os,
  rs = [RSub 1 true (bs "k.t"%string)] /\ clear_requests rs /\ srun scxt0 rs = Some (x, os) /\
  forall s t, (128 <= List.length s)%nat -> has DOT s = false -> cxt_pub x (s_mul x) (s ++ t) = None.
Proof.
  eexists _, _, _. split; [reflexivity|]. split; [|split; [vm_compute; reflexivity|]].
  - split; [|split].
    + intros c h p [I|[]]. injection I as <- <- <-. split; [now left|discriminate].
    + intros c [I|[]]. discriminate.
    + exists (fun _ => true). intros c h p [I|[]]. now injection I as <- <- <-.
  - assert (G : forall s t one, (128 <= List.length one + List.length s)%nat -> has DOT s = false -> divide 128 (s ++ t) one = None).
    { induction s as [|c s IH]; intros t one L D.
      - cbn [List.length] in L. destruct t as [|c t]; cbn [app divide].
        + replace (_ <? 128) with false by lia. reflexivity.
        + replace (Z.of_nat (List.length one) <? 128) with false by lia. cbn [andb]. destruct (c =? DOT); reflexivity.
      - unfold has in D. cbn [existsb] in D. apply orb_false_iff in D. destruct D as (D1 & D2). cbn [app divide].
        rewrite Z.eqb_sym, D1. destruct (Z.of_nat (List.length one) <? 128) eqn:E; trivial. apply IH; trivial.
        rewrite app_length. cbn [List.length] in *. lia. }
    intros s t L D. unfold cxt_pub. cbn [s_mul pub_mul notice u_type u_keys u_sdbs]. rewrite G; trivial.
Qed.
Print Assumptions C53_long_name_refuted.

(** an exact subscription whose name begins or ends with its dot crashes the server *)
Theorem C53_empty_side_refuted :
  (forall c t, has STAR t = false -> has COMMA t = false -> srun scxt0 [RSub c false (DOT :: t)] = None) /\
  exists c p, has STAR p = false /\ p = bs "now."%string /\ srun scxt0 [RSub c false p] = None.
Proof.
  split.
  - intros c t S C. cbn [srun sreq_step]. rewrite cxt_sub_ne by discriminate. rewrite exist_two. unfold has in *. cbn [existsb].
    rewrite S, C. cbn [orb]. unfold sub_notice. cbn [s_one scxt0 find_unit]. unfold set_type.
    assert (E1 : casecmp (DOT :: t) [STAR] = false) by reflexivity.
    assert (E2 : casecmp (DOT :: t) [STAR; DOT; STAR] = false) by reflexivity.
    rewrite E1, E2, exist_one. unfold has. cbn [existsb]. rewrite Z.eqb_refl. cbn [orb divide_sds]. rewrite Z.eqb_refl. reflexivity.
  - exists 1, (bs "now."%string). repeat split.
Qed.
Print Assumptions C53_empty_side_refuted.

(** a closed connection keeps its subscriptions: the next client with its number gets the messages *)
Theorem C53_gone_refuted : exists rs s c x os,
  rs = [RSub c false (bs "now"%string); RGone c] /\ short_name s /\ srun scxt0 rs = Some (x, os) /\
  wanted (in_force rs) c s = 0%nat /\ cxt_pub x (s_mul x) s = Some [c].
Proof.
  exists [RSub 3 false (bs "now"%string); RGone 3], (bs "now"%string), 3. eexists _, _.
  split; [reflexivity|]. split; [vm_compute; repeat split; lia|]. split; [vm_compute; reflexivity|]. split; vm_compute; reflexivity.
Qed.
Print Assumptions C53_gone_refuted.
(** ending all subscriptions answers with the number of subscribers of one pattern *)
Theorem C53_count_refuted : exists rs x, clear_requests rs /\ srun scxt0 rs = Some (x, [1; 1; 1; 1]) /\ answers [] rs = [1; 1; 1; 3].
Proof.
  exists [RSub 1 false (bs "a"%string); RSub 1 false (bs "b"%string); RSub 2 false (bs "c"%string); RUnsub (-1)]. eexists. split; [|split; vm_compute; reflexivity].
  split; [|split].
  - intros c h p I. try unfold ex_subs in I. cbn [In] in I. repeat (destruct I as [I|I]; [first [discriminate I|injection I as <- <- <-; split; [vm_compute; first [left; reflexivity|right; left; reflexivity|right; right; left; reflexivity|right; right; right; left; reflexivity|right; right; right; right; reflexivity]|vm_compute; intros; first [discriminate|split; discriminate]]]|]). contradiction.
  - intros c I. try unfold ex_subs in I. cbn [In] in I. repeat (destruct I as [I|I]; [discriminate|]). contradiction.
  - exists (fun _ => false). intros c h p I. try unfold ex_subs in I. cbn [In] in I. repeat (destruct I as [I|I]; [first [discriminate I|injection I as <- <- <-]; vm_compute; intuition congruence|]). contradiction.
Qed.
Print Assumptions C53_count_refuted.
