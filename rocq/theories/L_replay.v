(** Lemmas for the replay of stored series. *)
From Verif Require Import Base M_time S_time S_table M_table S_sdb S_replay M_replay.
From Coq Require Import ZifyBool ZifyNat.

Definition pend (u : sunit) : list srec := map snd (u_q u) ++ concat (u_more u).
Definition calm (u : sunit) : Prop := (u_q u = [] -> u_more u = []) /\ Forall (fun b => b <> []) (u_more u).
Definition nblk (u : sunit) : nat := ((if Nat.eqb (length (u_q u)) 0 then 0 else 1) + length (u_more u))%nat.
Definition B32 : Z := 2 ^ 32.
Lemma u32 : forall v, 0 <= v < B32 -> to_u 32 v = v.
Proof. intros v H. apply to_u_small; exact H. Qed.
#[global] Opaque B32.

Lemma of_app : forall i a b, of_series i (a ++ b) = of_series i a ++ of_series i b.
Proof. intros. unfold of_series. apply flat_map_app. Qed.
Lemma recs_app : forall a b, recs_of (a ++ b) = recs_of a ++ recs_of b.
Proof. intros. unfold recs_of. apply flat_map_app. Qed.
Lemma used_app : forall i a b, used i (a ++ b) = (used i a + used i b)%nat.
Proof. intros. unfold used. rewrite filter_app, app_length. reflexivity. Qed.
Lemma of_recs : forall i o, of_series i (map (Rec i) o) = o.
Proof. intros i o. unfold of_series. induction o; cbn; [reflexivity|]. rewrite Nat.eqb_refl. cbn. now rewrite IHo. Qed.
Lemma of_recs_other : forall i j o, j <> i -> of_series j (map (Rec i) o) = [].
Proof. intros i j o N. unfold of_series. induction o; cbn; [reflexivity|]. apply Nat.eqb_neq in N. rewrite N. exact IHo. Qed.
Lemma used_recs : forall i j o, used j (map (Rec i) o) = 0%nat.
Proof. intros. unfold used. induction o; cbn; [reflexivity|exact IHo]. Qed.

Lemma drain_ok : forall q curr sums, Z.of_nat (length q) <= sums < B32 ->
  exists p rest x, drain (length q) curr q sums = Some (map snd p, rest, sums - Z.of_nat (length p), x) /\
    q = p ++ rest /\ Forall (fun a => fst a <= curr) p /\
    ((rest = [] /\ x = None) \/ (exists v r rest', rest = (v, r) :: rest' /\ curr < v /\ x = Some v)).
Proof.
  induction q as [|[v r] q IH]; intros curr sums H.
  - exists [], [], None. cbn. rewrite Z.sub_0_r. repeat split; auto.
  - cbn [length drain]. destruct (Z.leb_spec v curr) as [L|L].
    + cbn [length] in H. rewrite u32 by lia.
      destruct (IH curr (sums - 1) ltac:(lia)) as (p & rest & x & E & A & B & C). rewrite E.
      exists ((v, r) :: p), rest, x. cbn [map snd length]. split; [do 2 f_equal; f_equal; lia|].
      split; [now rewrite A|]. split; [constructor; assumption|exact C].
    + exists [], ((v, r) :: q), (Some v). cbn. rewrite Z.sub_0_r. split; [reflexivity|]. split; [reflexivity|].
      split; [constructor|]. right. exists v, r, q. auto.
Qed.

Section L.
Variables now zone scale : Z.
Notation visit := (visit now zone scale). Notation scan := (scan now zone scale).
Notation round := (round now zone scale). Notation rounds := (rounds now zone scale).
Notation vmsec := (vmsec now zone scale). Notation push := (push now zone scale). Notation refill := (refill now zone scale).

Definition ready (curr : Z) (u : sunit) : bool := match u_q u with (v, _) :: _ => v <=? curr | [] => false end.
Definition head (u : sunit) : option Z := match u_q u with (v, _) :: _ => Some v | [] => None end.
Definition cbonly (e : event) : Prop := match e with Rec _ _ | Used _ => True | _ => False end.

Lemma map_snd_length : forall (q : list (Z * srec)), length (map snd q) = length q.
Proof. intros. apply map_length. Qed.

Lemma visit_ok : forall i curr u msec sums other, calm u -> sums = Z.of_nat (length (u_q u)) + other -> 0 <= other ->
  Z.of_nat (length (pend u)) + other < B32 ->
  exists u1 m1 x out, visit i curr u msec sums = Some (u1, m1, Z.of_nat (length (u_q u1)) + other, x, out) /\
    calm u1 /\ u_unit u1 = u_unit u /\ pend u = of_series i out ++ pend u1 /\ nblk u = (used i out + nblk u1)%nat /\
    (forall j, j <> i -> of_series j out = [] /\ used j out = 0%nat) /\ Forall cbonly out /\
    (if ready curr u then of_series i out <> [] else u1 = u /\ m1 = msec /\ x = head u /\ out = []).
Proof.
  intros i curr u msec sums other [C1 C2] -> O B. unfold M_replay.visit.
  assert (LP : Z.of_nat (length (u_q u)) + other < B32).
  { unfold pend in B. rewrite app_length, map_length in B. lia. }
  destruct (drain_ok (u_q u) curr (Z.of_nat (length (u_q u)) + other) ltac:(lia)) as (p & rest & x & E & Q & P & X).
  rewrite E. clear E. destruct (Nat.ltb_spec 0 (length (u_q u))) as [N|N].
  - destruct (Nat.ltb_spec (length rest) 1) as [R|R]; cbn [andb].
    + destruct rest; [clear R|cbn in R; lia]. rewrite app_nil_r in Q. subst p.
      destruct X as [[_ ->]|(v & r & rest' & D & _)]; [|discriminate].
      assert (RD : ready curr u = true).
      { unfold ready. destruct (u_q u) as [|[v r] q]; [cbn in N; lia|]. inversion P; subst. cbn in H1. lia. }
      rewrite RD. unfold M_replay.refill. cbn [u_more u_unit u_q].
      assert (NE : map snd (u_q u) <> []) by (destruct (u_q u); [cbn in N; lia|discriminate]).
      destruct (u_more u) as [|b more] eqn:EM.
      * eexists _, _, _, _. split; [f_equal; f_equal; f_equal; f_equal; cbn [u_q length]; lia|]. cbn [u_unit u_q].
        rewrite of_app, of_recs. cbn [of_series flat_map]. rewrite app_nil_r.
        split; [split; [cbn; auto|constructor]|]. split; [reflexivity|].
        split; [unfold pend; rewrite EM; cbn; now rewrite !app_nil_r|].
        split. { unfold nblk. rewrite EM. cbn [u_q u_more length]. rewrite used_app, used_recs. unfold used. cbn. rewrite Nat.eqb_refl.
          cbn. destruct (Nat.eqb_spec (length (u_q u)) 0); lia. }
        split. { intros j J. rewrite of_app, used_app, used_recs, (of_recs_other i j) by exact J. unfold used. cbn.
          apply Nat.eqb_neq in J. rewrite J. auto. }
        split; [|cbn [app]; rewrite ?app_nil_r; exact NE]. apply Forall_app. split; [apply Forall_map, Forall_forall; intros; exact Logic.I|repeat constructor].
      * inversion C2 as [|? ? B1 B2]; subst. unfold M_replay.push. cbn [u_more u_unit u_q app].
        destruct b as [|r0 b]; [congruence|].
        assert (LB : Z.of_nat (length (r0 :: b)) + other < B32).
        { unfold pend in B. rewrite EM, app_length, map_length in B. cbn [concat] in B. rewrite app_length in B. lia. }
        eexists _, _, _, _. split.
        { f_equal. f_equal. f_equal. f_equal. cbn [u_q]. rewrite map_length. rewrite u32; lia. }
        cbn [u_unit u_q]. rewrite of_app, of_recs. cbn [of_series flat_map]. rewrite app_nil_r.
        split; [split; [cbn; discriminate|exact B2]|]. split; [reflexivity|].
        split. { unfold pend. rewrite EM. cbn [u_q u_more concat]. rewrite map_map. cbn [snd]. now rewrite map_id. }
        split. { unfold nblk. rewrite EM. cbn [u_q u_more length]. rewrite map_length. rewrite used_app, used_recs. unfold used. cbn. rewrite Nat.eqb_refl.
          cbn. destruct (Nat.eqb_spec (length (u_q u)) 0); lia. }
        split. { intros j J. rewrite of_app, used_app, used_recs, (of_recs_other i j) by exact J. unfold used. cbn.
          apply Nat.eqb_neq in J. rewrite J. auto. }
        split; [|cbn [app]; rewrite ?app_nil_r; exact NE]. apply Forall_app. split; [apply Forall_map, Forall_forall; intros; exact Logic.I|repeat constructor].
    + destruct X as [[-> _]|(v & r & rest' & D & V & XX)]; [cbn in R; lia|]. subst x.
      eexists _, _, _, _. split. { f_equal. f_equal. f_equal. f_equal. cbn [u_q]. rewrite Q, app_length. lia. }
      cbn [u_unit]. rewrite of_recs.
      split; [split; [cbn [u_q]; rewrite D; discriminate|exact C2]|]. split; [reflexivity|].
      split; [unfold pend; cbn [u_q u_more]; rewrite Q, map_app, app_assoc; reflexivity|].
      split. { unfold nblk. cbn [u_q u_more]. rewrite used_recs. destruct (Nat.eqb_spec (length rest) 0); [lia|].
        destruct (Nat.eqb_spec (length (u_q u)) 0); lia. }
      split; [intros j J; rewrite (of_recs_other i j) by exact J; split; [reflexivity|apply used_recs]|].
      split; [apply Forall_map, Forall_forall; intros; exact Logic.I|].
      unfold ready, head. destruct (u_q u) as [|[v0 r0] q] eqn:EQ; [cbn in N; lia|].
      destruct p as [|a p].
      * cbn in Q. rewrite D in Q. injection Q as -> -> ->. destruct (Z.leb_spec v curr); [lia|].
        subst rest. repeat split. destruct u; cbn in *; congruence.
      * cbn in Q. injection Q as <- Q. inversion P as [|? ? P1 P2]; subst. cbn in P1. destruct (Z.leb_spec v0 curr); [|lia]. discriminate.
  - assert (EQ : u_q u = []) by (destruct (u_q u); [reflexivity|cbn in N; lia]). cbn [andb].
    rewrite EQ in Q. destruct p; [|discriminate]. destruct rest; [|discriminate].
    destruct X as [[_ ->]|(v & r & rest' & D & _)]; [|discriminate].
    assert (EU : mkun (u_unit u) [] (u_more u) = u) by (destruct u; cbn in *; congruence).
    eexists _, _, _, _. split. { f_equal. f_equal. f_equal. f_equal. rewrite EQ. cbn. lia. }
    rewrite EU. split; [split; assumption|]. unfold ready, head. rewrite EQ. cbn. auto 10.
Qed.

Definition Q (us : list sunit) : Z := Z.of_nat (list_sum (map (fun u => length (u_q u)) us)).
Definition R (us : list sunit) : nat := list_sum (map (fun u => length (pend u)) us).
Lemma Q_le_R : forall us, Q us <= Z.of_nat (R us).
Proof.
  induction us as [|u us IH]; unfold Q, R in *; cbn [map list_sum fold_right]; [lia|].
  fold (list_sum (map (fun u => length (u_q u)) us)). fold (list_sum (map (fun u => length (pend u)) us)).
  unfold pend at 1. rewrite app_length, map_length. lia.
Qed.
Lemma Q_cons : forall u us, Q (u :: us) = Z.of_nat (length (u_q u)) + Q us.
Proof. intros. unfold Q. cbn [map list_sum fold_right]. fold (list_sum (map (fun u => length (u_q u)) us)). lia. Qed.
Lemma R_cons : forall u us, R (u :: us) = (length (pend u) + R us)%nat.
Proof. reflexivity. Qed.
Lemma Q_nonneg : forall us, 0 <= Q us.
Proof. intros. unfold Q. lia. Qed.

Lemma scan_ok : forall us i curr msec next other, Forall calm us -> 0 <= other -> Z.of_nat (R us) + other < B32 ->
  exists us1 m1 next1 out, scan i curr us msec (Q us + other) next = Some (us1, m1, Q us1 + other, next1, out) /\
    Forall calm us1 /\ map u_unit us1 = map u_unit us /\ (R us1 <= R us)%nat /\
    (forall j u u1, nth_error us j = Some u -> nth_error us1 j = Some u1 ->
      pend u = of_series (i + j) out ++ pend u1 /\ nblk u = (used (i + j) out + nblk u1)%nat) /\
    (forall k, (k < i)%nat \/ (i + length us <= k)%nat -> of_series k out = [] /\ used k out = 0%nat) /\ Forall cbonly out /\
    (if existsb (ready curr) us then (R us1 < R us)%nat
     else us1 = us /\ m1 = msec /\ out = [] /\ (0 < Q us \/ next <> None -> next1 <> None) /\
          (forall n, next1 = Some n -> next = Some n \/ exists u, In u us /\ head u = Some n)).
Proof.
  induction us as [|u us IH]; intros i curr msec next other C O B.
  - exists [], msec, next, []. cbn [M_replay.scan existsb]. split; [reflexivity|]. split; [constructor|]. split; [reflexivity|]. split; [lia|].
    split; [intros j; destruct j; discriminate|]. split; [intros; split; reflexivity|]. split; [constructor|].
    repeat split; auto. unfold Q. cbn. intros [H|H]; [lia|exact H].
  - inversion C as [|? ? C1 C2]; subst. rewrite R_cons in B.
    pose proof (Q_le_R us) as QL. pose proof (Q_nonneg us) as QN.
    destruct (visit_ok i curr u msec (Q (u :: us) + other) (Q us + other) C1) as
      (u1 & m1 & x & out & E & K1 & UU & P & NB & OT & CB & RD); [rewrite Q_cons; lia|lia|lia|].
    cbn [M_replay.scan]. rewrite E.
    assert (PL : (length (pend u1) <= length (pend u))%nat) by (rewrite P, app_length; lia).
    replace (Z.of_nat (length (u_q u1)) + (Q us + other)) with (Q us + (Z.of_nat (length (u_q u1)) + other)) by lia.
    assert (LQ : Z.of_nat (length (u_q u1)) <= Z.of_nat (length (pend u1))).
    { unfold pend. rewrite app_length, map_length. lia. }
    destruct (IH (S i) curr m1 (take_next x next) (Z.of_nat (length (u_q u1)) + other) C2) as
      (us1 & m2 & next1 & out2 & E2 & K2 & UU2 & RL & PP & OT2 & CB2 & RD2); [lia|lia|].
    rewrite E2. exists (u1 :: us1), m2, next1, (out ++ out2).
    split. { rewrite Q_cons. f_equal. f_equal. f_equal. f_equal. lia. }
    split; [constructor; assumption|]. split; [cbn [map]; now rewrite UU, UU2|].
    split; [rewrite !R_cons; lia|].
    split. { intros [|j] a a1 H H1; cbn [nth_error] in H, H1.
      - injection H as <-. injection H1 as <-. rewrite Nat.add_0_r. destruct (OT2 i ltac:(lia)) as [A1 A2].
        rewrite of_app, used_app, A1, A2, app_nil_r, Nat.add_0_r. auto.
      - destruct (PP j a a1 H H1) as [A1 A2]. destruct (OT (i + S j)%nat ltac:(lia)) as [B1 B2].
        rewrite of_app, used_app, B1, B2. cbn [app Nat.add]. replace (i + S j)%nat with (S i + j)%nat by lia. auto. }
    split. { intros k K. cbn [length] in K. destruct (OT k ltac:(lia)) as [A1 A2]. destruct (OT2 k ltac:(lia)) as [B1 B2].
      rewrite of_app, used_app, A1, A2, B1, B2. auto. }
    split; [apply Forall_app; auto|]. cbn [existsb]. rewrite !R_cons.
    destruct (ready curr u) eqn:EU; cbn [orb].
    + assert (length (of_series i out) <> 0)%nat by (destruct (of_series i out); [congruence|discriminate]).
      rewrite P, app_length in PL |- *. lia.
    + destruct RD as (-> & -> & -> & ->). destruct (existsb (ready curr) us); [lia|].
      destruct RD2 as (-> & -> & -> & N1 & N2). repeat split.
      * intros H. apply N1. rewrite Q_cons in H. unfold head. destruct (u_q u) as [|[v r] q]; cbn [take_next length] in *; [|right].
        -- destruct H as [H|H]; [left; lia|right; exact H].
        -- destruct next; [destruct (_ <? _)|]; discriminate.
      * intros n H. destruct (N2 n H) as [A|(w & W1 & W2)]; [|right; exists w; split; [right; exact W1|exact W2]].
        destruct (head u) as [v|] eqn:EH; cbn [take_next] in A; [|left; exact A].
        destruct next as [n0|]; [destruct (v <? n0)|]; (injection A as <-; right; exists u; split; [left; reflexivity|exact EH]) || (left; exact A).
Qed.

Definition score (c : cxt) : nat := (2 * R (c_units c) + (if existsb (ready (c_msec c)) (c_units c) then 0 else 1))%nat.

Lemma empty_all : forall us, Forall calm us -> Q us = 0 -> R us = 0%nat /\ Forall (fun u => nblk u = 0%nat) us.
Proof.
  induction us as [|u us IH]; intros C H; [split; [reflexivity|constructor]|].
  inversion C as [|? ? [C1 C3] C2]; subst. rewrite Q_cons in H. pose proof (Q_nonneg us).
  destruct (IH C2 ltac:(lia)) as [A B].
  assert (EQ : u_q u = []) by (destruct (u_q u) as [|a q] eqn:EQ; [reflexivity|cbn [length] in H; lia]).
  specialize (C1 EQ). split; [rewrite R_cons, A; unfold pend; rewrite EQ, C1; reflexivity|].
  constructor; [unfold nblk; rewrite EQ, C1; reflexivity|exact B].
Qed.

Lemma nth_map_unit : forall (us us1 : list sunit) j u, map u_unit us1 = map u_unit us -> nth_error us j = Some u ->
  exists u1, nth_error us1 j = Some u1 /\ u_unit u1 = u_unit u.
Proof.
  intros us us1 j u H N. assert (A : nth_error (map u_unit us1) j = Some (u_unit u)) by (rewrite H; now apply map_nth_error).
  rewrite nth_error_map in A. destruct (nth_error us1 j) as [u1|]; [|discriminate]. exists u1. split; [reflexivity|]. now injection A.
Qed.
Lemma pend_nil : forall us j u, R us = 0%nat -> nth_error us j = Some u -> pend u = [].
Proof.
  induction us as [|a us IH]; intros j u H N; [destruct j; discriminate|]. rewrite R_cons in H.
  destruct j as [|j]; cbn in N; [injection N as <-; destruct (pend a); [reflexivity|discriminate]|apply (IH j); [lia|exact N]].
Qed.

Lemma rounds_ok : forall n c, (score c <= n)%nat -> Forall calm (c_units c) -> c_sums c = Q (c_units c) -> Z.of_nat (R (c_units c)) < B32 ->
  exists out, (forall fuel, (n < fuel)%nat -> rounds fuel c = Some (out ++ [Over])) /\
    (forall j u, nth_error (c_units c) j = Some u -> of_series j out = pend u /\ used j out = nblk u) /\
    (forall k, (length (c_units c) <= k)%nat -> of_series k out = []) /\ Forall cbonly out.
Proof.
  induction n as [n IH] using lt_wf_ind. intros [us msec sums] S C E B. cbn [c_units c_msec c_sums] in *. unfold score in S. cbn [c_units c_msec] in S.
  destruct (scan_ok us 0 msec msec None 0 C ltac:(lia) ltac:(lia)) as (us1 & m1 & next1 & out & ES & C1 & UU & RL & PP & OT & CB & RD).
  rewrite !Z.add_0_r in ES.
  assert (LEN : length us1 = length us) by (rewrite <- (map_length u_unit us1), UU; apply map_length).
  destruct (Z.eqb_spec (Q us1) 0) as [Z0|Z0].
  - destruct (empty_all us1 C1 Z0) as [R0 N0].
    exists out. split. { intros [|fuel] F; [lia|]. cbn [M_replay.rounds]. unfold M_replay.round. cbn [c_units c_msec c_sums]. rewrite E, ES, Z0. reflexivity. }
    split. { intros j u N. destruct (nth_map_unit us us1 j u UU N) as (u1 & N1 & _). destruct (PP j u u1 N N1) as [A1 A2]. cbn [Nat.add] in A1, A2.
      rewrite A1, A2, (pend_nil us1 j u1 R0 N1), app_nil_r. rewrite Forall_forall in N0. rewrite (N0 u1 (nth_error_In _ _ N1)). auto. }
    split; [|exact CB]. intros k K. apply OT. right. exact K.
  - set (c1 := mkcx us1 (if msec =? m1 then match next1 with Some n => n | None => 0 end else m1) (Q us1)).
    assert (SC : (score c1 < score (mkcx us msec sums))%nat).
    { unfold score, c1. cbn [c_units c_msec]. destruct (existsb (ready msec) us) eqn:EX.
      - destruct (existsb _ us1); lia.
      - destruct RD as (-> & -> & -> & N1 & N2). rewrite Z.eqb_refl. pose proof (Q_nonneg us). destruct next1 as [n1|]; [|exfalso; apply N1; [left; lia|reflexivity]].
        destruct (N2 n1 eq_refl) as [A|(u & U1 & U2)]; [discriminate|].
        replace (existsb (ready n1) us) with true; [lia|]. symmetry. apply existsb_exists. exists u. split; [exact U1|].
        unfold ready, head in *. destruct (u_q u) as [|[v r] q]; [discriminate|]. injection U2 as ->. lia. }
    unfold score at 2 in SC. cbn [c_units c_msec] in SC.
    destruct (IH (n - 1)%nat ltac:(lia) c1) as (out2 & F2 & P2 & O2 & CB2); [lia|exact C1|reflexivity|unfold c1; cbn [c_units]; lia|].
    exists (out ++ out2). split. { intros [|fuel] F; [lia|]. cbn [M_replay.rounds]. unfold M_replay.round. cbn [c_units c_msec c_sums].
      rewrite E, ES. destruct (Z.eqb_spec (Q us1) 0); [lia|]. fold c1. rewrite (F2 fuel) by lia. now rewrite app_assoc. }
    split. { intros j u N. destruct (nth_map_unit us us1 j u UU N) as (u1 & N1 & _). destruct (PP j u u1 N N1) as [A1 A2]. cbn [Nat.add] in A1, A2.
      destruct (P2 j u1 N1) as [A3 A4]. rewrite of_app, used_app, A3, A4. auto. }
    split; [|apply Forall_app; auto]. intros k K. rewrite of_app. destruct (OT k ltac:(lia)) as [-> _]. rewrite O2; [reflexivity|].
    unfold c1. cbn [c_units]. lia.
Qed.
End L.

Section Load.
Variables now zone scale : Z.
Definition solid (s : series) : Prop := s_blocks s <> [] /\ Forall (fun b => b <> []) (s_blocks s).
Lemma total_cons : forall s l, total (s :: l) = (length (s_recs s) + total l)%nat.
Proof. reflexivity. Qed.
Lemma load_ok : forall l msec sums, Forall solid l -> 0 <= sums -> sums + Z.of_nat (total l) < B32 ->
  exists us m, load now zone scale l msec sums = Some (us, m, sums + Q us) /\ Forall calm us /\ map u_unit us = map s_unit l /\
    R us = total l /\ (forall j u s, nth_error us j = Some u -> nth_error l j = Some s -> pend u = s_recs s /\ nblk u = length (s_blocks s)).
Proof.
  induction l as [|s l IH]; intros msec sums S H B.
  - exists [], msec. cbn [load]. split; [f_equal; f_equal; unfold Q; cbn; lia|]. split; [constructor|]. split; [reflexivity|]. split; [reflexivity|].
    intros [|j]; discriminate.
  - inversion S as [|? ? [S1 S2] S3]; subst. rewrite total_cons in B. cbn [load]. unfold s_recs in B.
    destruct (s_blocks s) as [|b more] eqn:EB; [congruence|]. cbn [concat] in B. rewrite app_length in B. unfold push. cbn [u_q u_unit u_more app].
    rewrite u32 by lia.
    destruct b as [|r b]; [inversion S2; congruence|].
    destruct (IH (set_msec (vmsec now zone scale (s_unit s) r) msec sums) (sums + Z.of_nat (length (r :: b))) S3) as
      (us & m & E & C & U & RR & P); [lia|lia|]. rewrite E.
    eexists _, m. split. { f_equal. f_equal. rewrite Q_cons. cbn [u_q]. rewrite map_length. lia. }
    split. { constructor; [|exact C]. split; [cbn; discriminate|]. cbn [u_more]. now inversion S2. }
    split; [cbn [map u_unit]; now rewrite U|].
    assert (PE : forall q, pend (mkun (s_unit s) (map (fun r => (q r, r)) (r :: b)) more) = s_recs s).
    { intros q. unfold pend, s_recs. rewrite EB. cbn [u_q u_more concat]. rewrite map_map. cbn [snd]. now rewrite map_id. }
    split; [rewrite R_cons, total_cons, PE, RR; reflexivity|].
    intros [|j] u0 s0 N N'; cbn [nth_error] in N, N'; [|exact (P j u0 s0 N N')]. injection N as <-. injection N' as <-.
    split; [exact (PE (vmsec now zone scale (s_unit s)))|]. unfold nblk. cbn [u_q u_more length Nat.eqb]. now rewrite EB.
Qed.
End Load.

Section Order.
Variables now zone scale : Z.
Variable ku : nat -> option unit_of_time.
Notation visit := (visit now zone scale). Notation scan := (scan now zone scale).
Notation round := (round now zone scale). Notation rounds := (rounds now zone scale).
Notation vmsec := (vmsec now zone scale).
Definition K (a : nat * srec) : Z := vmsec (ku (fst a)) (snd a).
Definition tidy (u : sunit) : Prop :=
  u_more u = [] /\ nondecr (map fst (u_q u)) /\ Forall (fun p => fst p = vmsec (u_unit u) (snd p)) (u_q u).
Definition above (c : Z) (u : sunit) : Prop := Forall (fun p => c < fst p) (u_q u).
Definition least (c : Z) (u : sunit) : Prop := Forall (fun p => c <= fst p) (u_q u).
Definition leo (a : option Z) (v : Z) : Prop := match a with Some n => n <= v | None => False end.

Lemma nd_app : forall l m, nondecr (l ++ m) -> nondecr m.
Proof. induction l as [|a l IH]; intros m H; [exact H|]. apply IH. cbn in H. destruct (l ++ m); [exact Logic.I|]. tauto. Qed.
Lemma nd_first : forall l a, nondecr (a :: l) -> Forall (fun b => a <= b) l.
Proof.
  induction l as [|b l IH]; intros a H; [constructor|]. destruct H as [H1 H2]. constructor; [exact H1|].
  eapply Forall_impl; [|exact (IH b H2)]. cbn. intros; lia.
Qed.

Lemma visit_ord : forall i curr u msec sums u1 m1 s1 x out, tidy u -> least curr u -> Z.of_nat (length (u_q u)) <= sums < B32 ->
  visit i curr u msec sums = Some (u1, m1, s1, x, out) ->
  tidy u1 /\ u_unit u1 = u_unit u /\ m1 = msec /\ above curr u1 /\ x = head u1 /\ (forall p, In p (u_q u1) -> In p (u_q u)) /\
  (exists o, recs_of out = map (pair i) o /\ Forall (fun r => vmsec (u_unit u) r = curr /\ In (curr, r) (u_q u)) o).
Proof.
  intros i curr u msec sums u1 m1 s1 x out (T1 & T2 & T3) L S E. unfold M_replay.visit in E.
  destruct (drain_ok (u_q u) curr sums S) as (p & rest & y & D & Q0 & P & X). rewrite D in E. clear D.
  assert (OUT : recs_of (map (Rec i) (map snd p)) = map (pair i) (map snd p)).
  { unfold recs_of. clear. induction p as [|a p IH]; cbn; [reflexivity|]. now rewrite IH. }
  assert (OK : Forall (fun r => vmsec (u_unit u) r = curr /\ In (curr, r) (u_q u)) (map snd p)).
  { apply Forall_forall. intros r IR. apply in_map_iff in IR. destruct IR as ([v r'] & <- & IR). cbn [snd].
    assert (IQ : In (v, r') (u_q u)) by (rewrite Q0; apply in_or_app; left; exact IR).
    rewrite Forall_forall in P, T3. unfold least in L. rewrite Forall_forall in L. specialize (P _ IR). specialize (T3 _ IQ). specialize (L _ IQ).
    cbn [fst snd] in *. split; [lia|]. replace curr with v by lia. exact IQ. }
  assert (REST : forall v r rest', rest = (v, r) :: rest' -> curr < v -> Forall (fun p => curr < fst p) rest).
  { intros v r rest' -> V. rewrite Q0, map_app in T2. apply nd_app in T2. cbn [map fst] in T2. apply nd_first in T2.
    constructor; [exact V|]. rewrite Forall_map in T2. eapply Forall_impl; [|exact T2]. cbn. intros; lia. }
  assert (TR : nondecr (map fst rest)) by (rewrite Q0, map_app in T2; apply nd_app in T2; exact T2).
  assert (T3' : Forall (fun p => fst p = vmsec (u_unit u) (snd p)) rest) by (rewrite Q0, Forall_app in T3; tauto).
  assert (SUB : forall p, In p rest -> In p (u_q u)) by (intros; rewrite Q0; apply in_or_app; right; assumption).
  destruct (Nat.ltb 0 (length (u_q u)) && Nat.ltb (length rest) 1) eqn:EB.
  - unfold refill in E. cbn [u_more] in E. rewrite T1 in E. injection E as <- <- <- <- <-. cbn [u_unit u_q].
    destruct rest; [|apply andb_prop in EB; destruct EB as [_ EB]; apply Nat.ltb_lt in EB; cbn in EB; lia].
    split; [split; [reflexivity|]; split; [exact Logic.I|constructor]|]. split; [reflexivity|]. split; [reflexivity|].
    split; [constructor|]. split; [destruct X as [[_ ->]|(? & ? & ? & ? & _)]; [reflexivity|discriminate]|]. split; [intros ? []|].
    exists (map snd p). split; [|exact OK]. rewrite recs_app, OUT. cbn. apply app_nil_r.
  - injection E as <- <- <- <- <-. cbn [u_unit u_q].
    split; [split; [exact T1|]; split; [exact TR|exact T3']|]. split; [reflexivity|]. split; [reflexivity|].
    split; [unfold above; cbn [u_q]; destruct X as [[-> _]|(v & r & rest' & E & V & _)]; [constructor|exact (REST _ _ _ E V)]|].
    split; [unfold head; cbn [u_q]; destruct X as [[-> ->]|(v & r & rest' & -> & V & ->)]; reflexivity|]. split; [exact SUB|].
    exists (map snd p). split; [exact OUT|exact OK].
Qed.

Lemma fop_app : forall A (P : A -> A -> Prop) l m, ForallOrdPairs P l -> ForallOrdPairs P m -> (forall a b, In a l -> In b m -> P a b) ->
  ForallOrdPairs P (l ++ m).
Proof.
  intros A P l m H. induction H as [|a l F H IH]; intros M X; [exact M|]. cbn [app]. constructor.
  - apply Forall_app. split; [exact F|]. apply Forall_forall. intros b IB. apply X; [left; reflexivity|exact IB].
  - apply IH; [exact M|]. intros; apply X; [right; assumption|assumption].
Qed.
Lemma fop_map : forall A B (f : A -> B) (P : B -> B -> Prop) l, (forall a b, P (f a) (f b)) -> ForallOrdPairs P (map f l).
Proof. intros A B f P l H. induction l; constructor; [apply Forall_map, Forall_forall; auto|exact IHl]. Qed.

Lemma scan_ord : forall us i curr msec sums next us1 m1 s1 next1 out, Forall tidy us -> Forall (least curr) us -> Forall calm us ->
  (forall j u, nth_error us j = Some u -> u_unit u = ku (i + j)%nat) ->
  forall other, 0 <= other -> sums = Q us + other -> Z.of_nat (R us) + other < B32 ->
  scan i curr us msec sums next = Some (us1, m1, s1, next1, out) ->
  m1 = msec /\ Forall tidy us1 /\ Forall (above curr) us1 /\ (forall v, leo next v -> leo next1 v) /\
  (forall u p, In u us1 -> In p (u_q u) -> leo next1 (fst p)) /\
  Forall (fun a => K a = curr /\ (i <= fst a)%nat /\ exists u, In u us /\ In (curr, snd a) (u_q u)) (recs_of out) /\
  ForallOrdPairs (fun a b => (fst a <= fst b)%nat) (recs_of out) /\
  (forall u1 p, In u1 us1 -> In p (u_q u1) -> exists u, In u us /\ In p (u_q u)).
Proof.
  induction us as [|u us IH]; intros i curr msec sums next us1 m1 s1 next1 out T L C KU other O -> B E.
  - injection E as <- <- <- <- <-. repeat split; try constructor; try (intros ? ? []); auto.
  - inversion T as [|? ? T1 T2]; inversion L as [|? ? L1 L2]; inversion C as [|? ? C1 C2]; subst. rewrite R_cons in B.
    pose proof (Q_le_R us) as QL. pose proof (Q_nonneg us) as QN.
    cbn [M_replay.scan] in E.
    assert (LQ : Z.of_nat (length (u_q u)) <= Z.of_nat (length (pend u))) by (unfold pend; rewrite app_length, map_length; lia).
    destruct (visit_ok now zone scale i curr u msec (Q (u :: us) + other) (Q us + other) C1) as
      (u1 & m2 & x & out1 & EV & K1 & UU & P & _); [rewrite Q_cons; lia|lia|lia|]. rewrite EV in E.
    destruct (visit_ord i curr u msec (Q (u :: us) + other) _ _ _ _ _ T1 L1 ltac:(rewrite Q_cons; lia) EV) as (V1 & V2 & -> & V3 & V4 & V5 & o & V6 & V7).
    assert (PL : (length (pend u1) <= length (pend u))%nat) by (rewrite P, app_length; lia).
    assert (LQ1 : Z.of_nat (length (u_q u1)) <= Z.of_nat (length (pend u1))) by (unfold pend; rewrite app_length, map_length; lia).
    destruct (scan (S i) curr us msec (Z.of_nat (length (u_q u1)) + (Q us + other)) (take_next x next)) as [[[[[us2 m3] s3] next2] out2]|] eqn:ES; [|discriminate].
    injection E as <- <- <- <- <-.
    destruct (IH (S i) curr msec (Z.of_nat (length (u_q u1)) + (Q us + other)) (take_next x next) us2 m3 s3 next2 out2 T2 L2 C2) with (other := Z.of_nat (length (u_q u1)) + other) as
      (-> & W1 & W2 & W3 & W4 & W5 & W6 & W7); [|lia|lia|lia|exact ES|].
    { intros j w N. rewrite (KU (S j) w N). f_equal. lia. }
    split; [reflexivity|]. split; [constructor; assumption|]. split; [constructor; assumption|].
    assert (NX : forall v, leo next v -> leo (take_next x next) v).
    { intros v. unfold take_next, leo. destruct x as [y|], next as [n|]; try tauto. destruct (Z.ltb_spec y n); lia. }
    split; [intros v H; apply W3, NX, H|].
    split. { intros w p [<-|IW] IP; [|exact (W4 w p IW IP)]. apply W3. unfold head in V4. destruct V1 as (_ & V1 & _).
      destruct (u_q u1) as [|[v r] q]; [destruct IP|]. cbn [map fst] in V1. apply nd_first in V1. rewrite Forall_map, Forall_forall in V1.
      assert (v <= fst p) by (destruct IP as [<-|IP]; [cbn; lia|exact (V1 p IP)]).
      subst x. cbn [take_next leo]. destruct next as [n|]; cbn [leo]; [destruct (Z.ltb_spec v n); cbn [leo]; lia|lia]. }
    assert (F1 : Forall (fun a => K a = curr /\ fst a = i /\ exists w, In w (u :: us) /\ In (curr, snd a) (u_q w)) (recs_of out1)).
    { rewrite V6. apply Forall_map. eapply Forall_impl; [|exact V7]. intros r [A1 A2]. unfold K. cbn [fst snd].
      rewrite <- (Nat.add_0_r i) at 1. rewrite <- (KU 0%nat u eq_refl). split; [exact A1|]. split; [reflexivity|]. exists u. split; [left; reflexivity|exact A2]. }
    split. { rewrite recs_app. apply Forall_app. split.
      - eapply Forall_impl; [|exact F1]. cbn. intros a (A1 & A2 & A3). rewrite A2. auto.
      - eapply Forall_impl; [|exact W5]. cbn. intros a (A1 & A2 & w & A3 & A4). split; [exact A1|]. split; [lia|]. exists w. auto. }
    split. { rewrite recs_app. apply fop_app; [rewrite V6; apply fop_map; cbn; lia|exact W6|]. intros a b IA IB.
      rewrite Forall_forall in F1, W5. destruct (F1 a IA) as (_ & A & _). destruct (W5 b IB) as (_ & A' & _). lia. }
    intros w p [<-|IW] IP; [exists u; split; [left; reflexivity|exact (V5 p IP)]|]. destruct (W7 w p IW IP) as (z & Z1 & Z2). exists z. split; [right; exact Z1|exact Z2].
Qed.

Lemma rounds_ord : forall fuel c out, Forall tidy (c_units c) -> Forall (least (c_msec c)) (c_units c) -> Forall calm (c_units c) ->
  (forall j u, nth_error (c_units c) j = Some u -> u_unit u = ku j) ->
  c_sums c = Q (c_units c) -> Z.of_nat (R (c_units c)) < B32 -> rounds fuel c = Some out ->
  ForallOrdPairs (fun a b => K a < K b \/ (K a = K b /\ (fst a <= fst b)%nat)) (recs_of out) /\
  Forall (fun a => exists u v, In u (c_units c) /\ In (v, snd a) (u_q u) /\ K a = v) (recs_of out).
Proof.
  induction fuel as [|fuel IH]; intros [us msec sums] out T L C KU SS B E; [discriminate|].
  cbn [c_units c_msec c_sums] in *. cbn [M_replay.rounds] in E. unfold M_replay.round in E. cbn [c_units c_msec c_sums] in E.
  destruct (scan_ok now zone scale us 0 msec msec None 0 C ltac:(lia) ltac:(lia)) as (us1 & m1 & next1 & o1 & ES & C1 & UU & RL & _).
  rewrite Z.add_0_r, <- SS in ES. rewrite ES in E.
  destruct (scan_ord us 0 msec msec sums None us1 m1 _ next1 o1 T L C KU 0 ltac:(lia) ltac:(lia) ltac:(lia) ES) as
    (-> & T1 & A1 & _ & N1 & F1 & P1 & S1).
  rewrite Z.add_0_r in E.
  assert (F1' : Forall (fun a => exists u v, In u us /\ In (v, snd a) (u_q u) /\ K a = v) (recs_of o1)).
  { eapply Forall_impl; [|exact F1]. cbn. intros a (X1 & _ & u & X2 & X3). exists u, msec. auto. }
  assert (P1' : ForallOrdPairs (fun a b => K a < K b \/ (K a = K b /\ (fst a <= fst b)%nat)) (recs_of o1)).
  { clear - F1 P1. induction P1 as [|a l F P IHP]; constructor.
    - inversion F1 as [|? ? G1 G2]; subst. rewrite Forall_forall in F, G2 |- *. intros b IB. right. split; [|exact (F b IB)].
      destruct (G2 b IB) as (G3 & _). destruct G1 as (G1 & _). congruence.
    - apply IHP. now inversion F1. }
  destruct (Z.eqb_spec (Q us1) 0) as [Z0|Z0].
  - injection E as <-. rewrite recs_app. cbn. rewrite app_nil_r. auto.
  - rewrite Z.eqb_refl in E.
    destruct (rounds fuel (mkcx us1 (match next1 with Some n => n | None => 0 end) (Q us1))) as [o2|] eqn:ER; [|discriminate]. injection E as <-.
    destruct (IH (mkcx us1 (match next1 with Some n => n | None => 0 end) (Q us1)) o2) as [P2 F2]; cbn [c_units c_msec c_sums]; auto.
    { apply Forall_forall. intros u IU. apply Forall_forall. intros p IP. specialize (N1 u p IU IP). destruct next1; [exact N1|destruct N1]. }
    { intros j u N. destruct (nth_map_unit us1 us j u (eq_sym UU) N) as (u0 & N0 & <-). apply KU. exact N0. }
    { lia. }
    cbn [c_units] in F2. rewrite recs_app. split.
    + apply fop_app; [exact P1'|exact P2|]. intros a b IA IB. left. rewrite Forall_forall in F1, F2. destruct (F1 a IA) as (-> & _).
      destruct (F2 b IB) as (u & v & U1 & U2 & ->). rewrite Forall_forall in A1. specialize (A1 u U1). unfold above in A1. rewrite Forall_forall in A1.
      exact (A1 _ U2).
    + apply Forall_app. split; [exact F1'|]. eapply Forall_impl; [|exact F2]. cbn. intros a (u & v & U1 & U2 & U3).
      destruct (S1 u _ U1 U2) as (w & W1 & W2). exists w, v. auto.
Qed.

(** the first blocks: the least time is found *)
Lemma load_ord : forall l msec sums us m n, load now zone scale l msec sums = Some (us, m, n) -> Forall solid l -> 0 <= sums -> sums + Z.of_nat (total l) < B32 ->
  (forall s, In s l -> exists b, s_blocks s = [b] /\ nondecr (map (vmsec (s_unit s)) b)) ->
  Forall tidy us /\ Forall (least m) us /\ (sums <> 0 -> m <= msec).
Proof.
  induction l as [|s l IH]; intros msec sums us m n E S H B ONE.
  - injection E as <- <- <-. repeat split; try constructor. intros _. lia.
  - inversion S as [|? ? [S1 S2] S3]; subst. rewrite total_cons in B. cbn [load] in E.
    destruct (ONE s (or_introl eq_refl)) as (b & EB & ND). unfold s_recs in B. rewrite EB in *. cbn [concat] in B. rewrite app_nil_r in B.
    unfold push in E. cbn [u_q u_unit u_more app] in E. rewrite u32 in E by lia.
    destruct b as [|r b]; [inversion S2; congruence|].
    destruct (load now zone scale l _ _) as [[[us2 m2] n2]|] eqn:EL; [|discriminate]. injection E as <- <- <-.
    destruct (IH _ _ _ _ _ EL S3 ltac:(lia) ltac:(lia)) as (T & L & M); [intros; apply ONE; right; assumption|].
    specialize (M ltac:(cbn [length]; lia)).
    assert (M1 : m2 <= vmsec (s_unit s) r /\ (sums <> 0 -> m2 <= msec)).
    { unfold set_msec in M. destruct (Z.ltb_spec (vmsec (s_unit s) r) msec); cbn [orb] in M; [lia|]. destruct (Z.eqb_spec sums 0); lia. }
    split; [|split; [|tauto]].
    + constructor; [|exact T]. split; [reflexivity|]. cbn [u_q u_unit map fst]. rewrite map_map. cbn [fst]. split; [exact ND|].
      constructor; [reflexivity|]. apply Forall_map, Forall_forall. reflexivity.
    + constructor; [|exact L]. unfold least. cbn [u_q]. cbn [map] in ND. apply nd_first in ND. rewrite Forall_map in ND.
      constructor; [exact (proj1 M1)|]. apply Forall_map. cbn [fst]. eapply Forall_impl; [|exact ND]. cbn. intros; lia.
Qed.
End Order.
