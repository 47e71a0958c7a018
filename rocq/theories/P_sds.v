(** C72: a dynamic string holds exactly the bytes that were put into it, followed by a zero, and no operation leaves its memory. *)
From Coq Require Import String.
From Coq Require Import ZifyBool ZifyNat.
From Verif Require Import Base S_csv M_csv S_server S_sds M_sds L_sds.
Open Scope list_scope. Open Scope Z_scope.

(** Any sequence of operations on a string made from any bytes, whatever the memory held before, stays inside of the memory
    requested and leaves exactly the bytes that the operations are specified to make, with a zero behind them. *)
Theorem C72_ops : forall j t os, small (len t) -> allowed t os ->
  exists s0 s c, newlen (j O) t = Some s0 /\ run j 1 s0 os = Some s /\ effects t os c /\ seen s = Some (c, 0).
Proof.
  intros j t os SM Al. destruct (new_ok (j O) t SM) as (s0 & E0 & I0). destruct (run_ok os j 1 s0 t I0 Al) as (s & c & E & I & Ef).
  exists s0, s, c. split; [exact E0|]. split; [exact E|]. split; [exact Ef|]. apply seen_ok. exact I.
Qed.
Print Assumptions C72_ops.

(** A string made without bytes holds zeros only. *)
Theorem C72_zeros : forall j n, small n -> exists s, newzero j n = Some s /\ seen s = Some (repeat 0 (Z.to_nat n), 0).
Proof.
  intros j n SM. set (t := repeat 0 (Z.to_nat n)). assert (Lt : len t = n) by (subst t; rewrite repeat_length; unfold small in SM; lia).
  destruct (new_ok j t) as (s & E & I); [rewrite Lt; exact SM|]. exists s. split; [|apply seen_ok; exact I]. rewrite <- E. unfold newzero, newlen. rewrite Lt. cbv zeta.
  set (ty := if (req_type n =? 0) && (n =? 0) then 1 else req_type n).
  assert (B : forall a, s_buf (setalloc (setlen (mk ty 0 0 a) n) n) = a) by (intros a; unfold setalloc, setlen; cbn [s_ty s_len s_buf]; destruct (ty =? 0); reflexivity).
  set (s1 := setalloc _ _). assert (B1 : s_buf s1 = fresh j (n + 1)) by apply B. unfold small in SM.
  destruct (fresh_split j (n + 1) (length t)) as (m & r & F & Lm); [lia|lia|]. pose proof (fresh_len j (n + 1) ltac:(lia)) as FL. rewrite F, app_length in FL.
  destruct r as [|y [|y' r]]; cbn [length] in FL; [lia| |lia]. unfold with_put. rewrite B1, F.
  replace (m ++ [y]) with ((m ++ [y]) ++ []) at 1 by apply app_nil_r. replace (Z.to_nat (n + 1)) with (Z.to_nat n + 1)%nat by lia. rewrite repeat_app. fold t.
  rewrite put0 by (rewrite !app_length; cbn [length repeat]; lia). rewrite put0 by (symmetry; exact Lm). cbn [obind repeat].
  cbn [s_buf s_ty s_len s_alloc]. rewrite app_nil_r. rewrite <- Lt.
  pose proof (put_ok t [0] [] [0] eq_refl) as Q1. pose proof (put_ok t [y] [] [0] eq_refl) as Q2. cbn [app] in Q1, Q2. rewrite Q1, Q2. reflexivity.
Qed.
Print Assumptions C72_zeros.

(** A format that ends with a single percent sign is read beyond its end. *)
Theorem C72_percent_refuted : exists fmt, ~ In 0 fmt /\ forall j, obind (newlen j []) (fun s => catfmt j s fmt []) = None.
Proof. exists (bs "100%"%string). split; [vm_compute; intuition congruence|]. intros j. vm_compute. reflexivity. Qed.
Print Assumptions C72_percent_refuted.

(** A string appended to itself reads memory that has been given back. *)
Theorem C72_self_refuted : exists t, forall j, obind (newlen j t) (fun s => catself j s) = None.
Proof. exists (bs "ab"%string). intros j. vm_compute. reflexivity. Qed.
Print Assumptions C72_self_refuted.

(** Trimming takes zeros away although they are not in the set. *)
Theorem C72_trim_refuted : exists c cs c', ~ In 0 cs /\ (forall j, exists s, obind (newlen j c) (fun s => trim s cs) = Some s /\ seen s = Some (c', 0)) /\ ~ trimmed cs c c'.
Proof.
  exists [0; 97], [32], [97]. split; [cbn; intuition congruence|]. split.
  - intros j. eexists. split; [vm_compute; reflexivity|vm_compute; reflexivity].
  - intros (a & b & E & Fa & Fb & _). destruct a as [|x a]; [discriminate E|]. inversion E. subst. inversion Fa as [|? ? [K|[]] _]. discriminate K.
Qed.
Print Assumptions C72_trim_refuted.

(** A range that ends before the first byte leaves the first byte. *)
Theorem C72_range_refuted : exists c a b c', (forall j, exists s, obind (newlen j c) (fun s => range s a b) = Some s /\ seen s = Some (c', 0)) /\ ~ effect c (ORange a b) c'.
Proof.
  exists (bs "abc"%string), 0, (-5), (bs "a"%string). split.
  - intros j. eexists. split; [vm_compute; reflexivity|vm_compute; reflexivity].
  - vm_compute. discriminate.
Qed.
Print Assumptions C72_range_refuted.

(** Counting no bytes after providing room for none ends the program when the string is short, but not when it is long or empty. *)
Theorem C72_fill_refuted : exists t, forall j, obind (newlen j t) (fun s => exec j s (OFill 0 [])) = None /\
  (exists s, obind (newlen j []) (fun s => exec j s (OFill 0 [])) = Some s) /\
  exists s, obind (newlen j (t ++ repeat 97 31)) (fun s => exec j s (OFill 0 [])) = Some s.
Proof.
  exists (bs "a"%string). intros j. split; [vm_compute; reflexivity|]. split; eexists; vm_compute; reflexivity.
Qed.
Print Assumptions C72_fill_refuted.

(** The least number of 64 bits cannot be written. *)
Theorem C72_least_refuted : exists v, - 2 ^ 63 <= v < 2 ^ 63 /\ forall j, obind (newlen j []) (fun s => catfmt j s (format [PPut (ALong v)]) [ALong v]) = None.
Proof. exists (- 2 ^ 63). split; [split; [apply Z.le_refl|reflexivity]|]. intros j. vm_compute. reflexivity. Qed.
Print Assumptions C72_least_refuted.

(** ---- examples ---- *)
Definition ex_ops : list sop :=
  [OCat (bs "-def"%string); OUpper; ORange 1 (-2); ORoom 100; OFill 10 [1; 0; 2]; OGrow 9; OFit; OFmt [PChar 61; PPut (AInt (-15)); POther 37; POther 113; PPut (ATxt (bs "x"%string ++ [0; 5])); PPut (ASds [0; 7])]].
Definition ex_j : nat -> nat -> Z := fun k i => Z.of_nat (k + 3 * i).
Example ex_ops_allowed : small (len (bs "abc"%string)) /\ allowed (bs "abc"%string) ex_ops.
Proof.
  split; [vm_compute; split; [discriminate|reflexivity]|]. unfold ex_ops. cbn [allowed].
  split; [vm_compute; split; [discriminate|reflexivity]|]. intros c1 E1. cbn [effect] in E1. subst c1.
  split; [exact Logic.I|]. intros c2 E2. cbn [effect] in E2. subst c2.
  split; [vm_compute; repeat split; discriminate|]. intros c3 E3. cbn [effect] in E3. subst c3.
  split; [vm_compute; repeat split; discriminate|]. intros c4 E4. cbn [effect] in E4. subst c4.
  split; [vm_compute; repeat split; discriminate|]. intros c5 E5. cbn [effect] in E5. subst c5.
  split; [vm_compute; repeat split; discriminate|]. intros c6 E6. cbn [effect] in E6. subst c6.
  split; [exact Logic.I|]. intros c7 E7. cbn [effect] in E7. subst c7.
  split; [|intros; exact Logic.I]. split; [|vm_compute; split; [discriminate|reflexivity]].
  repeat (constructor; [cbn [good_piece good_arg]; try lia; try exact Logic.I; vm_compute; intuition congruence|]). constructor.
Qed.
Example ex_ops_run : obind (obind (newlen (ex_j O) (bs "abc"%string)) (fun s => run ex_j 1 s ex_ops)) seen =
  Some (bs "BC-DE"%string ++ [1; 0; 2; 0] ++ bs "=-15%qx"%string ++ [0; 7], 0).
Proof. vm_compute. reflexivity. Qed.
Example ex_trim : trimmed [32; 9] (bs "  a b "%string) (bs "a b"%string) /\
  obind (obind (newlen (ex_j O) (bs "  a b "%string)) (fun s => run ex_j 1 s [OTrim [32; 9]; OCut 1; OUpdate; OCpy [5]; OClear; OLower; OCat [65]])) seen = Some ([65], 0).
Proof.
  split; [|vm_compute; reflexivity]. exists (bs "  "%string), (bs " "%string). split; [reflexivity|].
  split; [repeat (constructor; [vm_compute; auto|]); constructor|]. split; [repeat (constructor; [vm_compute; auto|]); constructor|]. right. split; vm_compute; intuition congruence.
Qed.
Example ex_zeros : obind (newzero (ex_j O) 3) seen = Some ([0; 0; 0], 0) /\ small 3.
Proof. split; [vm_compute; reflexivity|]. vm_compute. split; [discriminate|reflexivity]. Qed.
