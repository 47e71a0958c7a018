(** Lemmas about the configuration parser. *)
From Coq Require Import ZArith List Lia Bool ZifyBool ZifyNat.
From Verif Require Import Base S_json S_conf M_netmsg M_json M_conf L_json.
Import ListNotations.
Open Scope Z_scope.

(** ** Nothing is read behind the buffer. *)
Definition two (p : list Z) : Prop := exists a, p = a ++ [0; 0].
Lemma two_cons : forall c t, c <> 0 -> two (c :: t) -> two t.
Proof.
  intros c t N ([|d a] & E); [injection E as -> _; lia|]. injection E as -> ->. exists a. reflexivity.
Qed.
Lemma two_ne : forall p, two p -> p <> [].
Proof. intros p (a & ->) E. destruct a; discriminate. Qed.
Lemma two_tl0 : forall c t, two (c :: t) -> t = [0] \/ two t.
Proof.
  intros c t ([|d a] & E); [injection E as _ ->; left; reflexivity|]. injection E as -> ->. right. exists a. reflexivity.
Qed.
Lemma cskip_two : forall p b, two p ->
  exists c r, cskip b p = Some (c :: r) /\ two (c :: r) /\ (length (c :: r) <= length p)%nat.
Proof.
  induction p as [|c t IH]; intros b T; [elim (two_ne [] T); reflexivity|].
  cbn [cskip]. destruct (Z.eqb_spec c 0) as [->|N].
  - exists 0, t. split; [reflexivity|]. split; [exact T|lia].
  - assert (T' := two_cons c t N T).
    assert (G : forall b, exists c0 r, cskip b t = Some (c0 :: r) /\ two (c0 :: r) /\ (length (c0 :: r) <= length (c :: t))%nat).
    { intros b'. destruct (IH b' T') as (c0 & r & A & B & C). exists c0, r. cbn [length] in *. split; [exact A|]. split; [exact B|lia]. }
    destruct b; [apply G|]. destruct (c <=? 32); [apply G|]. destruct (c =? 35); [apply G|].
    exists c, t. split; [reflexivity|]. split; [exact T|lia].
Qed.
Lemma scan_two : forall stop p, two p ->
  exists a c r, scan stop p = Some (a, c :: r) /\ two (c :: r) /\ p = a ++ c :: r /\ (c = 0 \/ stop c = true).
Proof.
  intros stop. induction p as [|c t IH]; intros T; [elim (two_ne [] T); reflexivity|].
  cbn [scan]. destruct (Z.eqb_spec c 0) as [->|N]; cbn [orb].
  - exists [], 0, t. split; [reflexivity|]. split; [exact T|]. split; [reflexivity|left; reflexivity].
  - destruct (stop c) eqn:S.
    + exists [], c, t. split; [reflexivity|]. split; [exact T|]. split; [reflexivity|right; exact S].
    + destruct (IH (two_cons c t N T)) as (a & d & r & A & B & C & D). rewrite A.
      exists (c :: a), d, r. split; [reflexivity|]. split; [exact B|]. split; [rewrite C; reflexivity|exact D].
Qed.

(** a result of a call on [p] *)
Definition good {A} (p : list Z) (r : cres A) : Prop :=
  match r with
  | CFault | CFuel => False
  | CDeep => True
  | COk _ (Some q) _ => two q /\ (length q < length p)%nat
  | COk _ None _ => True
  end.
Definition stops {A} (r : cres A) : Prop := match r with CDeep | COk _ None _ => True | _ => False end.
Lemma good_skip : forall A p (r : cres A), good p r -> good p (skip_res r).
Proof.
  intros A p [| | |a [q|] e] G; cbn [skip_res good] in *; auto.
  destruct G as (T & L). destruct (cskip_two q false T) as (c & t & E & T' & L'). rewrite E. cbn [good]. split; [exact T'|lia].
Qed.
Lemma stops_skip : forall A (r : cres A), stops r -> stops (skip_res r).
Proof. intros A [| | |a [q|] e] G; cbn [skip_res stops] in *; auto; contradiction. Qed.
Lemma good_len : forall A p q (r : cres A), good q r -> (length q <= length p)%nat -> good p r.
Proof. intros A p q [| | |a [x|] e] G L; cbn [good] in *; auto. destruct G; split; [assumption|lia]. Qed.

Lemma pstring_good : forall n p, two p -> good p (pstring n p).
Proof.
  intros n p T. unfold pstring. destruct p as [|c t]; [elim (two_ne [] T); reflexivity|].
  destruct (Z.eqb_spec c 34) as [->|N].
  - assert (T' : two t) by (apply (two_cons 34); [lia|exact T]).
    destruct (scan_two stop_quoted t T') as (s & d & r & E & Tr & Et & D). rewrite E. cbn [hd List.tl].
    assert (T2 : two (if d =? 34 then r else d :: r)).
    { destruct (Z.eqb_spec d 34) as [->|]; [apply (two_cons 34); [lia|exact Tr]|exact Tr]. }
    assert (L : (length (if (d =? 34)%Z then r else d :: r) <= length t)%nat).
    { rewrite Et, app_length. destruct (d =? 34); cbn [length]; lia. }
    destruct (scan_two stop_word _ T2) as (s2 & d2 & r2 & E2 & Tr2 & Et2 & D2). rewrite E2.
    destruct s as [|x s]; cbn [good]; [exact Logic.I|]. split; [exact Tr2|].
    rewrite Et2, app_length in L. cbn [length] in *. lia.
  - destruct (scan_two stop_word _ T) as (s & d & r & E & Tr & Et & D). rewrite E.
    destruct s as [|x s]; cbn [good]; [exact Logic.I|]. split; [exact Tr|]. rewrite Et, app_length. cbn [length]. lia.
Qed.
Lemma pnumber_good : forall n c t, (c =? 45) || ((48 <=? c) && (c <=? 57)) = true -> two (c :: t) -> good (c :: t) (pnumber n (c :: t)).
Proof.
  intros n c t N T. unfold pnumber. destruct (scan_two stop_num _ T) as (s & d & r & E & Tr & Et & D). rewrite E.
  cbn [good]. split; [exact Tr|]. rewrite Et, app_length.
  destruct s as [|x s]; [|cbn [length]; lia]. injection Et as <- _. unfold stop_num in D. lia.
Qed.
(** a key ends with the final 0 at worst *)
Definition goodk (p : list Z) (r : cres jnode) : Prop :=
  match r with
  | COk _ (Some q) _ => (q = [0] \/ two q) /\ (length q < length p)%nat
  | _ => good p r
  end.
Lemma pkey_good : forall n p, two p -> goodk p (pkey n p).
Proof.
  intros n p T. unfold pkey. destruct (scan_two stop_key p T) as (k & d & r & E & Tr & Et & D). rewrite E.
  destruct k as [|x k]; [exact Logic.I|].
  destruct (scan_two stop_colon _ Tr) as (k2 & d2 & r2 & E2 & Tr2 & Et2 & D2). rewrite E2.
  destruct ((d2 =? 0) || (d2 =? 58)); [|exact Logic.I]. unfold goodk. split; [exact (two_tl0 d2 r2 Tr2)|].
  rewrite Et, app_length, Et2, app_length. cbn [length]. lia.
Qed.
Lemma starts_two : forall w p, Forall (fun d => lower d <> 0) w -> two p -> starts_ci p w = true ->
  two (skipn (length w) p) /\ (length (skipn (length w) p) + length w = length p)%nat.
Proof.
  induction w as [|d w IH]; intros p F T S; [cbn [length skipn]; split; [exact T|lia]|].
  destruct p as [|c t]; [discriminate|]. cbn [starts_ci] in S. apply andb_prop in S as [S1 S2].
  inversion F as [|d' w' Hd Fw]; subst. cbn [length skipn].
  assert (N : c <> 0). { intros ->. apply Z.eqb_eq in S1. unfold lower in S1 at 1. cbn in S1. congruence. }
  destruct (IH t Fw (two_cons c t N T) S2) as (A & B). split; [exact A|lia].
Qed.

Section Safe.
Variable fs : list Z -> option (list Z).
Variable path : list Z.
Section Steps.
Variable pv : jnode -> list Z -> cres jnode.
Variable pi : jnode -> list Z -> cres (list jnode).
Hypothesis PV : forall n p, two p -> good p (pv n p).
Hypothesis PV0 : forall n, stops (pv n [0]).
Hypothesis PI : forall n p, two p -> at_include p = true -> good p (pi n p).

Lemma pentry_good : forall n p, two p -> good p (pentry pv n p).
Proof.
  intros n p T. unfold pentry. pose proof (pkey_good n p T) as G.
  destruct (pkey n p) as [| | |n' [q|] e]; cbn [skip_res goodk good] in *; auto.
  destruct G as ([->|Tq] & L).
  - cbn [cskip]. change (0 =? 0) with true. cbv iota. pose proof (stops_skip _ _ (PV0 n')) as S.
    destruct (skip_res (pv n' [0])) as [| | |a [x|] e']; cbn [stops good] in *; auto; contradiction.
  - destruct (cskip_two q false Tq) as (c & r & E & Tr & L'). rewrite E.
    apply (good_len _ p (c :: r)); [|lia]. apply good_skip. apply PV. exact Tr.
Qed.
(** what the loops call on the text *)
Lemma item_good : forall n p, two p ->
  good p (if at_include p then skip_res (pi n p)
          else match pentry pv n p with
               | COk n q e => COk [n] q e
               | CFault => CFault | CDeep => CDeep | CFuel => CFuel
               end).
Proof.
  intros n p T. destruct (at_include p) eqn:A.
  - apply good_skip. apply PI; assumption.
  - pose proof (pentry_good n p T) as G. destruct (pentry pv n p) as [| | |a [q|] e]; exact G.
Qed.

Lemma arr_good : forall f idx done child p, (length p < f)%nat -> two p -> good p (arr_loop pv f idx done child p).
Proof.
  induction f as [|f IH]; intros idx done child p L T; [lia|].
  cbn [arr_loop]. destruct p as [|c0 t0]; [elim (two_ne [] T); reflexivity|]. set (p := c0 :: t0) in *.
  destruct (c0 =? 0); [exact Logic.I|].
  destruct (cskip_two p false T) as (c & r & E & Tr & L'). rewrite E.
  destruct (at_include (c :: r)); [exact Logic.I|].
  pose proof (good_skip _ _ _ (PV (set_key child (lldtoa idx)) (c :: r) Tr)) as G.
  destruct (skip_res (pv (set_key child (lldtoa idx)) (c :: r))) as [| | |ch [q|] e]; cbn [good] in G; try contradiction; try exact Logic.I.
  destruct G as (Tq & Lq). destruct q as [|d q]; [elim (two_ne [] Tq); reflexivity|].
  destruct (Z.eqb_spec d 0) as [D0|D0]; [exact Logic.I|].
  assert (T' := two_cons d q D0 Tq). cbn [length] in *.
  destruct (d =? 93); [cbn [good]; split; [exact T'|cbn [length]; lia]|].
  destruct (d =? 44).
  - apply (good_len _ _ q); [apply IH; [cbn [length] in *; lia|exact T']|cbn [length]; lia].
  - apply (good_len _ _ (d :: q)); [apply IH; [cbn [length] in *; lia|exact Tq]|cbn [length]; lia].
Qed.
Lemma obj_good : forall f done child p, (length p < f)%nat -> two p -> good p (obj_loop pv pi f done child p).
Proof.
  induction f as [|f IH]; intros done child p L T; [lia|].
  cbn [obj_loop]. destruct p as [|c0 t0]; [elim (two_ne [] T); reflexivity|]. set (p := c0 :: t0) in *.
  destruct (c0 =? 0); [exact Logic.I|].
  destruct (cskip_two p false T) as (c & r & E & Tr & L'). rewrite E.
  pose proof (item_good child (c :: r) Tr) as G. revert G.
  match goal with |- good _ ?X -> _ => destruct X as [| | |ns [q|] e] end; intros G; cbn [good] in G; try contradiction; try exact Logic.I.
  destruct G as (Tq & Lq). destruct q as [|d q]; [elim (two_ne [] Tq); reflexivity|].
  destruct (Z.eqb_spec d 0) as [D0|D0]; [exact Logic.I|].
  assert (T' := two_cons d q D0 Tq). cbn [length] in *.
  destruct (d =? 125); [cbn [good]; split; [exact T'|cbn [length]; lia]|].
  destruct (d =? 44).
  - apply (good_len _ _ q); [apply IH; [cbn [length] in *; lia|exact T']|cbn [length]; lia].
  - apply (good_len _ _ (d :: q)); [apply IH; [cbn [length] in *; lia|exact Tq]|cbn [length]; lia].
Qed.
Definition ends {A} (r : cres A) : Prop := match r with CFault | CFuel => False | _ => True end.
Lemma file_good : forall f done child p, (length p < f)%nat -> two p -> ends (file_loop pv pi f done child p).
Proof.
  induction f as [|f IH]; intros done child p L T; [lia|].
  cbn [file_loop]. destruct p as [|c0 t0]; [elim (two_ne [] T); reflexivity|]. set (p := c0 :: t0) in *.
  destruct (c0 =? 0); [exact Logic.I|].
  destruct (cskip_two p false T) as (c & r & E & Tr & L'). rewrite E.
  pose proof (item_good child (c :: r) Tr) as G. revert G.
  match goal with |- good _ ?X -> _ => destruct X as [| | |ns [q|] e] end; intros G; cbn [good] in G; try contradiction; try exact Logic.I.
  destruct G as (Tq & Lq). destruct q as [|d q]; [elim (two_ne [] Tq); reflexivity|].
  destruct (d =? 0); [exact Logic.I|]. apply IH; [cbn [length] in *; lia|exact Tq].
Qed.
Lemma root_good : forall f done p, (length p < f)%nat -> two p -> ends (root_loop pv pi f done p).
Proof.
  induction f as [|f IH]; intros done p L T; [lia|].
  cbn [root_loop]. destruct p as [|c0 t0]; [elim (two_ne [] T); reflexivity|]. set (p := c0 :: t0) in *.
  destruct (c0 =? 0); [exact Logic.I|].
  destruct (cskip_two p false T) as (c & r & E & Tr & L'). rewrite E.
  pose proof (item_good new_node (c :: r) Tr) as G. revert G.
  match goal with |- good _ ?X -> _ => destruct X as [| | |ns [q|] e] end; intros G; cbn [good] in G; try contradiction; try exact Logic.I.
  destruct G as (Tq & Lq). apply IH; [cbn [length] in *; lia|exact Tq].
Qed.
Lemma value_good : forall n p, two p -> good p (value_body pv pi n p).
Proof.
  intros n p T. unfold value_body. destruct p as [|c t]; [elim (two_ne [] T); reflexivity|].
  destruct ((c =? 45) || ((48 <=? c) && (c <=? 57))) eqn:N; [apply pnumber_good; assumption|].
  destruct (Z.eqb_spec c 91) as [->|N1].
  - assert (T' : two t) by (apply (two_cons 91); [lia|exact T]).
    unfold parray. destruct (jkey n) as [kk|]; [|exact Logic.I]. cbn [List.tl].
    destruct (cskip_two t false T') as (d & r & E & Tr & L). rewrite E.
    destruct (Z.eqb_spec d 93) as [->|].
    + cbn [good]. split; [apply (two_cons 93); [lia|exact Tr]|cbn [length] in *; lia].
    + pose proof (arr_good (S (length (d :: r))) 0 [] new_node (d :: r) ltac:(lia) Tr) as G.
      destruct (arr_loop pv (S (length (d :: r))) 0 [] new_node (d :: r)) as [| | |l [q|] e]; cbn [good] in *; try assumption.
      destruct G; split; [assumption|cbn [length] in *; lia].
  - destruct (Z.eqb_spec c 123) as [->|N2].
    + assert (T' : two t) by (apply (two_cons 123); [lia|exact T]).
      unfold pobject. cbn [List.tl]. destruct (cskip_two t false T') as (d & r & E & Tr & L). rewrite E.
      destruct (Z.eqb_spec d 125) as [->|].
      * cbn [good]. split; [apply (two_cons 125); [lia|exact Tr]|cbn [length] in *; lia].
      * pose proof (obj_good (S (length (d :: r))) [] new_node (d :: r) ltac:(lia) Tr) as G.
        destruct (obj_loop pv pi (S (length (d :: r))) [] new_node (d :: r)) as [| | |l [q|] e]; cbn [good] in *; try assumption.
        destruct G; split; [assumption|cbn [length] in *; lia].
    + apply pstring_good. exact T.
Qed.
Lemma include_good : forall n p, two p -> at_include p = true -> good p (include_body fs path pv pi n p).
Proof.
  intros n p T A. unfold include_body.
  destruct (starts_two [105; 110; 99; 108; 117; 100; 101] p ltac:(repeat constructor; cbv; discriminate) T A) as (T' & L).
  cbn [length] in T', L.
  destruct (cskip_two _ false T') as (c & r & E & Tr & L'). rewrite E.
  destruct (scan_two stop_word _ Tr) as (nm & d & r2 & E2 & Tr2 & Et & D). rewrite E2.
  unfold read_file. destruct (fs (firstn 1023 (path ++ nm))) as [[|x xs]|]; try exact Logic.I.
  destruct (cskip_two ((x :: xs) ++ [0; 0]) false) as (c3 & r3 & E3 & Tr3 & L3); [exists (x :: xs); reflexivity|].
  rewrite E3. pose proof (file_good (S (length (c3 :: r3))) [] n (c3 :: r3) ltac:(lia) Tr3) as G.
  destruct (file_loop pv pi (S (length (c3 :: r3))) [] n (c3 :: r3)) as [| | |ns q e]; cbn [ends good] in *; try assumption.
  destruct e; cbn [good]; [exact Logic.I|]. split; [exact Tr2|].
  assert (length (c :: r) = length nm + length (d :: r2))%nat by (rewrite Et, app_length; reflexivity). lia.
Qed.
End Steps.

Lemma parse_good : forall d,
  (forall n p, two p -> good p (pvalue fs path d n p)) /\ (forall n, stops (pvalue fs path d n [0])) /\
  (forall n p, two p -> at_include p = true -> good p (pinclude fs path d n p)).
Proof.
  induction d as [|d (A & B & C)]; [split; [|split]; intros; exact Logic.I|].
  split; [|split].
  - intros n p T. apply value_good; assumption.
  - intros n. exact Logic.I.
  - intros n p T I. apply include_good; assumption.
Qed.
Lemma conf_parse_good : forall d c, ends (conf_parse fs path d (c ++ [0; 0])).
Proof.
  intros d c. destruct (parse_good d) as (A & B & C). unfold conf_parse.
  destruct (cskip_two (c ++ [0; 0]) false) as (x & r & E & T & L); [exists c; reflexivity|]. rewrite E.
  apply root_good; [assumption|assumption|assumption|lia|exact T].
Qed.
Lemma open_good : forall fn d, conf_open fs path fn d <> HFault /\ conf_open fs path fn d <> HFuel.
Proof.
  intros fn d. unfold conf_open, read_file. destruct (fs fn) as [[|x xs]|]; try (split; discriminate).
  pose proof (conf_parse_good d (x :: xs)) as G.
  destruct (conf_parse fs path d ((x :: xs) ++ [0; 0])) as [| | |l q e]; cbn [ends] in G; try contradiction; try (split; discriminate).
  destruct e; split; discriminate.
Qed.
End Safe.

(** ** Words and gaps. *)
Lemma cskip_note : forall t c g, note t -> eol c -> cskip true (t ++ c :: g) = cskip false g.
Proof.
  induction t as [|d t IH]; intros c g N E; cbn [app cskip].
  - replace (c =? 0) with false by (unfold eol in E; lia). replace ((c =? 10) || (c =? 13)) with true by (unfold eol in E; lia). reflexivity.
  - inversion N as [|d' t' (D0 & DE) Nt]; subst. replace (d =? 0) with false by lia.
    replace ((d =? 10) || (d =? 13)) with false by (unfold eol in DE; lia). cbn [negb]. apply IH; assumption.
Qed.
Lemma cskip_gap : forall g, gap g -> forall r, cskip false (g ++ r) = cskip false r.
Proof.
  intros g G. induction G as [|c g C G IH|t c g N E G IH]; intros r; [reflexivity| |].
  - cbn [app cskip]. replace (c =? 0) with false by lia. replace (c <=? 32) with true by lia. apply IH.
  - cbn [app cskip]. change (35 =? 0) with false. change (35 <=? 32) with false. change (35 =? 35) with true. cbv iota.
    rewrite <- app_assoc. cbn [app]. rewrite cskip_note by assumption. apply IH.
Qed.
Lemma cskip_note_end : forall t z, note t -> cskip true (t ++ 0 :: z) = Some (0 :: z).
Proof.
  induction t as [|d t IH]; intros z N; cbn [app cskip]; [reflexivity|].
  inversion N as [|d' t' (D0 & DE) Nt]; subst. replace (d =? 0) with false by lia.
  replace ((d =? 10) || (d =? 13)) with false by (unfold eol in DE; lia). cbn [negb]. apply IH; assumption.
Qed.
Lemma cskip_tail : forall u z, tail u -> cskip false (u ++ 0 :: z) = Some (0 :: z).
Proof.
  intros u z T. destruct T as [g G|g t G N].
  - rewrite cskip_gap by exact G. reflexivity.
  - rewrite <- app_assoc, cskip_gap by exact G. cbn [app cskip].
    change (35 =? 0) with false. change (35 <=? 32) with false. change (35 =? 35) with true. cbv iota.
    apply cskip_note_end. exact N.
Qed.
Lemma cskip_stay : forall c t, 32 < c -> c <> 35 -> cskip false (c :: t) = Some (c :: t).
Proof.
  intros c t L N. cbn [cskip]. replace (c =? 0) with false by lia. replace (c <=? 32) with false by lia.
  replace (c =? 35) with false by lia. reflexivity.
Qed.
(** the skip ends at a 0 or at a byte of a word *)
Lemma cskip_stop : forall p b q, cskip b p = Some q -> exists c r, q = c :: r /\ (c = 0 \/ 32 < c /\ c <> 35) /\ (length q <= length p)%nat.
Proof.
  induction p as [|c t IH]; intros b q E; [discriminate|]. cbn [cskip] in E.
  assert (G : forall b', cskip b' t = Some q -> exists c0 r, q = c0 :: r /\ (c0 = 0 \/ 32 < c0 /\ c0 <> 35) /\ (length q <= length (c :: t))%nat).
  { intros b' E'. destruct (IH b' q E') as (c0 & r & A & B & C). exists c0, r. cbn [length]. repeat (split; [assumption|]). lia. }
  destruct (Z.eqb_spec c 0) as [->|N0].
  { injection E as <-. exists 0, t. repeat split; [left; reflexivity|lia]. }
  destruct b; [apply (G _ E)|]. destruct (Z.leb_spec c 32); [apply (G _ E)|]. destruct (Z.eqb_spec c 35) as [->|N]; [apply (G _ E)|].
  injection E as <-. exists c, t. split; [reflexivity|]. split; [right; split; assumption|lia].
Qed.
Lemma cskip_idem : forall p b q, cskip b p = Some q -> cskip false q = Some q.
Proof.
  intros p b q E. destruct (cskip_stop p b q E) as (c & r & -> & [->|(A & B)] & _); [reflexivity|]. apply cskip_stay; assumption.
Qed.
Lemma scan_word : forall stop a d r, Forall (fun c => c <> 0 /\ stop c = false) a -> d = 0 \/ stop d = true ->
  scan stop (a ++ d :: r) = Some (a, d :: r).
Proof.
  intros stop a d r F D. induction F as [|c a (N & S) F IH]; cbn [app scan].
  - replace ((d =? 0) || stop d) with true; [reflexivity|]. destruct D as [->|D]; [reflexivity|rewrite D; lia].
  - replace ((c =? 0) || stop c) with false by (rewrite S; lia). rewrite IH. reflexivity.
Qed.

(** what ends a word *)
Definition delim (u : list Z) : Prop := exists d r, u = d :: r /\ (0 <= d <= 32 \/ d = 35 \/ d = 44 \/ d = 93 \/ d = 125).
Lemma delim_stop : forall d, 0 <= d <= 32 \/ d = 35 \/ d = 44 \/ d = 93 \/ d = 125 -> d = 0 \/ stop_word d = true.
Proof. intros d D. right. unfold stop_word. lia. Qed.
Lemma wordc_stop : forall s, Forall wordc s -> Forall (fun c => c <> 0 /\ stop_word c = false) s.
Proof. intros s F. eapply Forall_impl; [|exact F]. intros c W. unfold wordc in W. unfold stop_word. split; lia. Qed.

(** ** The word include. *)
Lemma starts_split : forall w p, starts_ci p w = true -> exists a r, p = a ++ r /\ map low a = map lower w.
Proof.
  induction w as [|d w IH]; intros p S; [exists [], p; split; reflexivity|].
  destruct p as [|c p]; [discriminate|]. cbn [starts_ci] in S. apply andb_prop in S as [S1 S2]. apply Z.eqb_eq in S1.
  destruct (IH p S2) as (a & r & -> & M). exists (c :: a), r. split; [reflexivity|]. cbn [map]. rewrite M.
  change (low c) with (lower c). rewrite S1. reflexivity.
Qed.
Lemma starts_yes : forall w a r, map low a = map lower w -> starts_ci (a ++ r) w = true.
Proof.
  induction w as [|d w IH]; intros a r M; [reflexivity|]. destruct a as [|c a]; [discriminate|].
  cbn [map] in M. injection M as M1 M2. cbn [app starts_ci]. change (lower c) with (low c). rewrite M1, Z.eqb_refl. apply IH. exact M2.
Qed.
Definition incl7 : list Z := [105; 110; 99; 108; 117; 100; 101].
Lemma letter_low : forall c, In (low c) incl7 -> 65 <= c.
Proof. intros c H. unfold low, incl7 in H. cbn [In] in H. destruct ((65 <=? c) && (c <=? 90)) eqn:E; lia. Qed.
Lemma inc_letters : forall a, map low a = incl7 -> Forall (fun c => 65 <= c) a.
Proof.
  intros a M. apply Forall_forall. intros c I. apply letter_low. rewrite <- M. apply in_map. exact I.
Qed.
Lemma not_include : forall t d r, ~ starts_inc t -> d < 65 \/ d = 93 \/ d = 125 -> at_include (t ++ d :: r) = false.
Proof.
  intros t d r N D. destruct (at_include (t ++ d :: r)) eqn:A; [|reflexivity]. exfalso. apply N.
  unfold at_include in A. destruct (starts_split _ _ A) as (a & x & E & M). change (map lower _) with incl7 in M.
  assert (F := inc_letters a M).
  assert (G : exists y, t = a ++ y).
  { assert (ND : ~ In d a).
    { intros I. assert (IL : In (low d) incl7) by (rewrite <- M; apply in_map; exact I).
      unfold low, incl7 in IL. cbn [In] in IL. destruct D as [D|[->| ->]].
      - pose proof (proj1 (Forall_forall _ _) F d I). cbv beta in H. lia.
      - cbn in IL. lia.
      - cbn in IL. lia. }
    clear A M F N. revert t E. induction a as [|c a IH]; intros t E; [exists t; reflexivity|].
    destruct t as [|e t].
    - cbn [app] in E. injection E as -> _. elim ND. left. reflexivity.
    - cbn [app] in E. injection E as -> E. destruct (IH (fun I => ND (or_intror I)) t E) as (y & ->). exists y. reflexivity. }
  destruct G as (y & ->). exists a, y. split; [reflexivity|exact M].
Qed.

(** ** Numbers. *)
Lemma floaty_frac : forall s, floaty s = true <-> frac s.
Proof.
  induction s as [|c t IH].
  - split; [discriminate|]. intros (a & d & b & E & _). destruct a; discriminate.
  - cbn [floaty]. split.
    + intros H. apply orb_prop in H as [H|H].
      * destruct t as [|d t]; [cbn [hd] in H; lia|]. cbn [hd] in H. exists [], d, t.
        split; [cbn [app]; f_equal; lia|unfold digit; lia].
      * apply IH in H as (a & d & b & -> & D). exists (c :: a), d, b. split; [reflexivity|exact D].
    + intros (a & d & b & E & D). destruct a as [|x a].
      * cbn [app] in E. injection E as -> ->. cbn [hd]. unfold digit in D. lia.
      * cbn [app] in E. injection E as -> ->. replace (floaty (a ++ 46 :: d :: b)) with true; [lia|].
        symmetry. apply IH. exists a, d, b. split; [reflexivity|exact D].
Qed.
