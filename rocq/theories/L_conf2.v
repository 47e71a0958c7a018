(** The configuration parser on the texts of S_conf. *)
From Coq Require Import ZArith List Lia Bool ZifyBool ZifyNat.
From Verif Require Import Base S_json S_conf M_netmsg M_json M_conf L_json L_conf.
Import ListNotations.
Open Scope Z_scope.

Fixpoint lvs (l : list (list Z * jv)) : nat := match l with [] => O | (_, v) :: l' => Nat.max (levels v) (lvs l') end.
Lemma levels_obj : forall l, levels (JObj l) = S (lvs l).
Proof. intros l. reflexivity. Qed.
Lemma lvs_app : forall a b, lvs (a ++ b) = Nat.max (lvs a) (lvs b).
Proof. induction a as [|(k, v) a IH]; intros b; [reflexivity|]. cbn [app lvs]. rewrite IH. lia. Qed.
Lemma obj_shape_app : forall a b ks ls, obj_shape a ks -> obj_shape b ls -> obj_shape (a ++ b) (ks ++ ls).
Proof.
  induction a as [|(k, v) a IH]; intros b [|c ks] ls A B; cbn [obj_shape app] in *; try contradiction; [exact B|].
  destruct A as (A1 & A2). split; [exact A1|]. apply IH; assumption.
Qed.
Lemma obj_shape_len : forall a ks, obj_shape a ks -> length a = length ks.
Proof.
  induction a as [|(k, v) a IH]; intros [|c ks] A; cbn [obj_shape length] in *; try contradiction; [reflexivity|].
  f_equal. apply IH. apply A.
Qed.

Section Texts.
Variable fs : list Z -> option (list Z).
Variable path : list Z.
Notation vtext := (vtext fs path).
Notation elems := (elems fs path).
Notation members := (members fs path).
Notation member := (member fs path).
Notation entries := (entries fs path).

Scheme vtext_m := Minimality for S_conf.vtext Sort Prop
  with elems_m := Minimality for S_conf.elems Sort Prop
  with members_m := Minimality for S_conf.members Sort Prop
  with member_m := Minimality for S_conf.member Sort Prop
  with entries_m := Minimality for S_conf.entries Sort Prop.
Combined Scheme texts_m from vtext_m, elems_m, members_m, member_m, entries_m.

Lemma vtext_hd : forall i v t, vtext i v t -> exists c r, t = c :: r /\ 32 < c /\ c <> 35 /\ c <> 44 /\ c <> 93.
Proof.
  intros i v t V. destruct V as [s (H & F)|s (N & F & H)|s (N & F)|g G|l t L E|g G|l t E].
  - destruct s as [|c r]; [cbn [hd] in H; unfold digit in H; lia|]. exists c, r. cbn [hd] in H. unfold digit in H. split; [reflexivity|]. lia.
  - destruct s as [|c r]; [elim N; reflexivity|]. exists c, r. inversion F as [|? ? W]; subst. unfold wordc in W. split; [reflexivity|]. lia.
  - exists 34, (s ++ [34]). split; [reflexivity|lia].
  - exists 91, (g ++ [93]). split; [reflexivity|lia].
  - exists 91, (t ++ [93]). split; [reflexivity|lia].
  - exists 123, (g ++ [125]). split; [reflexivity|lia].
  - exists 123, (t ++ [125]). split; [reflexivity|lia].
Qed.
Lemma member_false : forall es t, member false es t -> exists k v, es = [(k, v)].
Proof. intros es t M. inversion M; subst; [eexists; eexists; reflexivity|discriminate]. Qed.

Definition b2n (b : bool) : nat := if b then 1%nat else O.
(** what the loops do with one entry *)
Definition item (d : nat) (n : jnode) (p : list Z) : cres (list jnode) :=
  if at_include p then skip_res (pinclude fs path d n p)
  else match pentry (pvalue fs path d) n p with
       | COk n q e => COk [n] q e
       | CFault => CFault | CDeep => CDeep | CFuel => CFuel
       end.

Definition PV (i : bool) (v : jv) (t : list Z) : Prop := forall d k rest,
  (levels v + b2n i <= d)%nat -> delim rest -> (k <> None \/ exists l, v = JObj l) ->
  exists n', pvalue fs path d (JN 0 k None []) (t ++ rest) = COk n' (Some rest) false /\ shaped v k n'.
Definition PE (i : bool) (l : list jv) (t : list Z) : Prop := forall d f idx done rest p,
  (list_max (map levels l) + b2n i <= d)%nat -> cskip false (t ++ 93 :: rest) = Some p -> (length p < f)%nat -> 0 <= idx -> idx + Z.of_nat (length l) <= 2 ^ 31 ->
  exists ks, arr_loop (pvalue fs path d) f idx done new_node p = COk (done ++ ks) (Some rest) false /\ arr_shape idx l ks.
Definition PMs (i : bool) (es : list (list Z * jv)) (t : list Z) : Prop := forall d f done rest p,
  (lvs es + b2n i <= d)%nat -> cskip false (t ++ 125 :: rest) = Some p -> (length p < f)%nat ->
  exists ks, obj_loop (pvalue fs path d) (pinclude fs path d) f done new_node p = COk (done ++ ks) (Some rest) false /\ obj_shape es ks.
Definition PM (i : bool) (es : list (list Z * jv)) (t : list Z) : Prop := forall d rest,
  (lvs es + b2n i <= d)%nat -> delim rest ->
  exists c r ns, cskip false (t ++ rest) = Some (c :: r) /\ 32 < c /\ c <> 35 /\ c <> 125 /\ (length rest < length (c :: r) <= length (t ++ rest))%nat /\
    hd 0 (t ++ rest) <> 0 /\
    item d new_node (c :: r) = skip_res (COk ns (Some rest) false) /\ obj_shape es ns /\ es <> [].
Definition PF (i : bool) (es : list (list Z * jv)) (t : list Z) : Prop :=
  (forall d f done z p, (lvs es + b2n i <= d)%nat -> cskip false (t ++ 0 :: z) = Some p -> (length p < f)%nat ->
    exists ks, root_loop (pvalue fs path d) (pinclude fs path d) f done p = COk (done ++ ks) None false /\ obj_shape es ks) /\
  (i = false -> es <> [] -> forall d f done z p, (lvs es <= d)%nat -> cskip false (t ++ 0 :: z) = Some p -> (length p < f)%nat ->
    exists ks, file_loop (pvalue fs path d) (pinclude fs path d) f done new_node p = COk (done ++ ks) None false /\ obj_shape es ks).

Lemma pvalue_S : forall d n p, pvalue fs path (S d) n p = value_body (pvalue fs path d) (pinclude fs path d) n p.
Proof. reflexivity. Qed.

Lemma case_num : forall i s, number s -> PV i (JNum s) s.
Proof.
  intros i s (H & F) d k rest L (x & r & -> & D) _. cbn [levels] in L. destruct d as [|d]; [lia|]. rewrite pvalue_S.
  destruct s as [|c s]; [cbn [hd] in H; unfold digit in H; lia|]. cbn [hd] in H. unfold value_body. cbn [app].
  replace ((c =? 45) || ((48 <=? c) && (c <=? 57))) with true by (unfold digit in H; lia).
  unfold pnumber. change (c :: s ++ x :: r) with ((c :: s) ++ x :: r).
  rewrite scan_word; [|eapply Forall_impl; [|exact F]; intros y Y; unfold numc, digit in Y; unfold stop_num; split; lia|unfold stop_num; lia].
  eexists. split; [reflexivity|]. set (S := c :: s). cbn [set_val shaped jkey jty jval jkids]. split; [reflexivity|]. split; [|split; reflexivity].
  destruct (floaty S) eqn:E.
  - left. split; [reflexivity|]. apply floaty_frac. exact E.
  - right. split; [reflexivity|]. intros K. apply floaty_frac in K. congruence.
Qed.
Lemma case_bare : forall i s, bare s -> PV i (JStr s) s.
Proof.
  intros i s (N & F & H1 & H2 & H3 & H4) d k rest L (x & r & -> & D) _. cbn [levels] in L. destruct d as [|d]; [lia|]. rewrite pvalue_S.
  destruct s as [|c s]; [elim N; reflexivity|]. cbn [hd] in *. unfold value_body. cbn [app].
  replace ((c =? 45) || ((48 <=? c) && (c <=? 57))) with false by (unfold digit in H1; lia).
  replace (c =? 91) with false by lia. replace (c =? 123) with false by lia.
  unfold pstring. replace (c =? 34) with false by lia. change (c :: s ++ x :: r) with ((c :: s) ++ x :: r).
  rewrite scan_word; [|apply wordc_stop; exact F|apply delim_stop; exact D].
  eexists. split; [reflexivity|]. cbn [set_val shaped jkey jty jval jkids]. auto.
Qed.
Lemma case_quoted : forall i s, inner s -> PV i (JStr s) (34 :: s ++ [34]).
Proof.
  intros i s (N & F) d k rest L (x & r & -> & D) _. cbn [levels] in L. destruct d as [|d]; [lia|]. rewrite pvalue_S.
  unfold value_body. cbn [app]. change ((34 =? 45) || ((48 <=? 34) && (34 <=? 57))) with false. change (34 =? 91) with false. change (34 =? 123) with false. cbv iota.
  unfold pstring. change (34 =? 34) with true. cbv iota. rewrite <- app_assoc. cbn [app].
  rewrite scan_word; [|eapply Forall_impl; [|exact F]; intros y Y; cbv beta in Y; unfold stop_quoted; split; lia|right; reflexivity].
  cbn [hd List.tl]. change (34 =? 34) with true. cbv iota.
  change (x :: r) with ([] ++ x :: r) at 1. rewrite scan_word; [|constructor|apply delim_stop; exact D].
  destruct s as [|c s]; [elim N; reflexivity|]. eexists. split; [reflexivity|]. cbn [set_val shaped jkey jty jval jkids]. auto.
Qed.
Lemma case_arr0 : forall i g, gap g -> PV i (JArr []) (91 :: g ++ [93]).
Proof.
  intros i g G d k rest L D K. destruct d as [|d]; [cbn [levels] in L; lia|]. rewrite pvalue_S. unfold value_body. cbn [app].
  change ((91 =? 45) || ((48 <=? 91) && (91 <=? 57))) with false. change (91 =? 91) with true. cbv iota.
  unfold parray. cbn [jkey]. destruct k as [k|]; [|destruct K as [K|(l & K)]; [elim K; reflexivity|discriminate]].
  cbn [List.tl]. rewrite <- app_assoc, cskip_gap by exact G. cbn [app].
  rewrite cskip_stay by lia. change (93 =? 93) with true. cbv iota.
  eexists. split; [reflexivity|]. cbn [set_type shaped jkey jty jval jkids]. auto.
Qed.
Lemma case_obj0 : forall i g, gap g -> PV i (JObj []) (123 :: g ++ [125]).
Proof.
  intros i g G d k rest L D K. destruct d as [|d]; [cbn [levels] in L; lia|]. rewrite pvalue_S. unfold value_body. cbn [app].
  change ((123 =? 45) || ((48 <=? 123) && (123 <=? 57))) with false. change (123 =? 91) with false. change (123 =? 123) with true. cbv iota.
  unfold pobject. cbn [List.tl]. rewrite <- app_assoc, cskip_gap by exact G. cbn [app].
  rewrite cskip_stay by lia. change (125 =? 125) with true. cbv iota.
  eexists. split; [reflexivity|]. cbn [set_type shaped jkey jty jval jkids]. auto.
Qed.
(** the gap before the first entry may be passed before the loop starts *)
Lemma arr_skip : forall d f idx done child p c r, hd 0 p <> 0 -> cskip false p = Some (c :: r) -> c <> 0 ->
  arr_loop (pvalue fs path d) f idx done child (c :: r) = arr_loop (pvalue fs path d) f idx done child p.
Proof.
  intros d [|f] idx done child p c r H E C; [reflexivity|]. cbn [arr_loop]. destruct p as [|x p]; [discriminate|]. cbn [hd] in H.
  replace (c =? 0) with false by lia. replace (x =? 0) with false by lia.
  rewrite E, (cskip_idem _ _ _ E). reflexivity.
Qed.
Lemma obj_skip : forall d f done child p c r, hd 0 p <> 0 -> cskip false p = Some (c :: r) -> c <> 0 ->
  obj_loop (pvalue fs path d) (pinclude fs path d) f done child (c :: r) = obj_loop (pvalue fs path d) (pinclude fs path d) f done child p.
Proof.
  intros d [|f] done child p c r H E C; [reflexivity|]. cbn [obj_loop]. destruct p as [|x p]; [discriminate|]. cbn [hd] in H.
  replace (c =? 0) with false by lia. replace (x =? 0) with false by lia.
  rewrite E, (cskip_idem _ _ _ E). reflexivity.
Qed.
Lemma gap_hd : forall g p, gap g -> hd 0 p <> 0 -> hd 0 (g ++ p) <> 0.
Proof. intros g p G H. destruct G; cbn [app hd]; [exact H|lia|lia]. Qed.

Lemma elems_start : forall i l t u, elems i l t -> exists c r, cskip false (t ++ u) = Some (c :: r) /\ c <> 0 /\ c <> 93 /\ hd 0 (t ++ u) <> 0.
Proof.
  intros i l t u E. destruct E as [g v t g' G V N G'|g v t g' l u' G V N G' E];
    destruct (vtext_hd _ _ _ V) as (c & r & -> & C1 & C2 & C3 & C4).
  - exists c, (r ++ g' ++ u). rewrite <- !app_assoc, cskip_gap by exact G. cbn [app]. rewrite cskip_stay by lia.
    split; [reflexivity|]. split; [lia|]. split; [lia|]. apply gap_hd; [exact G|]. cbn [hd]. lia.
  - exists c, (r ++ g' ++ 44 :: u' ++ u). rewrite <- !app_assoc, cskip_gap by exact G. cbn [app]. rewrite cskip_stay by lia.
    split; [reflexivity|]. split; [lia|]. split; [lia|]. apply gap_hd; [exact G|]. cbn [hd]. lia.
Qed.

Lemma case_arr : forall i l t, Z.of_nat (length l) < 2 ^ 31 -> elems i l t -> PE i l t -> PV i (JArr l) (91 :: t ++ [93]).
Proof.
  intros i l t B E IH d k rest L D K. cbn [levels] in L. destruct d as [|d]; [lia|]. rewrite pvalue_S. unfold value_body. cbn [app].
  change ((91 =? 45) || ((48 <=? 91) && (91 <=? 57))) with false. change (91 =? 91) with true. cbv iota.
  unfold parray. cbn [jkey]. destruct k as [k|]; [|destruct K as [K|(l' & K)]; [elim K; reflexivity|discriminate]].
  cbn [List.tl]. rewrite <- app_assoc. cbn [app].
  destruct (elems_start i l t (93 :: rest) E) as (c & r & Ec & C0 & C93 & H).
  rewrite Ec. replace (c =? 93) with false by lia.
  destruct (IH d (S (length (c :: r))) 0 [] rest (c :: r) ltac:(lia) Ec ltac:(lia) ltac:(lia) ltac:(lia)) as (ks & R & Sh).
  rewrite R. eexists. split; [reflexivity|]. apply shaped_arr. cbn [set_type set_kids jkey jty jval jkids app]. auto.
Qed.
Lemma value_then : forall i v t g' u d k, PV i v t -> (levels v + b2n i <= d)%nat -> gap g' -> delim u -> (k <> None \/ exists l, v = JObj l) ->
  exists n', skip_res (pvalue fs path d (JN 0 k None []) (t ++ g' ++ u)) = skip_res (COk n' (Some u) false) /\ shaped v k n'.
Proof.
  intros i v t g' u d k P L G D K.
  assert (D' : delim (g' ++ u)).
  { destruct G as [|c g C G|t' c g N E G]; [exact D| |].
    - exists c, (g ++ u). split; [reflexivity|lia].
    - exists 35, ((t' ++ c :: g) ++ u). split; [reflexivity|lia]. }
  destruct (P d k (g' ++ u) L D' K) as (n' & E & Sh). exists n'. split; [|exact Sh]. rewrite E. cbn [skip_res]. rewrite cskip_gap by exact G. reflexivity.
Qed.
Lemma case_e1 : forall i g v t g', gap g -> vtext i v t -> PV i v t -> ~ starts_inc t -> gap g' -> PE i [v] (g ++ t ++ g').
Proof.
  intros i g v t g' G V IH N G' d f idx done rest p L E F I B. destruct (vtext_hd _ _ _ V) as (c & r & Et & C1 & C2 & C3 & C4).
  rewrite <- !app_assoc, cskip_gap in E by exact G. rewrite Et in E. cbn [app] in E. rewrite cskip_stay in E by lia. injection E as <-.
  destruct f as [|f]; [lia|]. cbn [arr_loop]. replace (c =? 0) with false by lia. rewrite cskip_stay by lia.
  change (c :: r ++ g' ++ 93 :: rest) with ((c :: r) ++ g' ++ 93 :: rest). rewrite <- Et.
  cbn [map list_max fold_right] in L. rewrite Nat.max_0_r in L.
  assert (A : at_include (t ++ g' ++ 93 :: rest) = false).
  { destruct G' as [|x g' X G'|t' x g' X Y G']; cbn [app]; apply not_include; try exact N; lia. }
  rewrite A. cbn [set_key new_node].
  destruct (value_then i v t g' (93 :: rest) d (Some (lldtoa idx)) IH ltac:(lia) G') as (n' & R & Sh).
  { exists 93, rest. split; [reflexivity|lia]. } { left. discriminate. }
  change (set_key new_node (lldtoa idx)) with (JN 0 (Some (lldtoa idx)) None []). rewrite R. cbn [skip_res]. rewrite cskip_stay by lia.
  change (93 =? 0) with false. change (93 =? 93) with true. cbv iota. exists [n']. split; [reflexivity|].
  cbn [arr_shape]. split; [|exact Logic.I]. exists (lldtoa idx). split; [|exact Sh]. apply lldtoa_dec. cbn [length] in B. lia.
Qed.
Lemma case_e2 : forall i g v t g' l u, gap g -> vtext i v t -> PV i v t -> ~ starts_inc t -> gap g' -> elems i l u -> PE i l u ->
  PE i (v :: l) (g ++ t ++ g' ++ 44 :: u).
Proof.
  intros i g v t g' l u G V IH N G' El IHl d f idx done rest p L E F I B. destruct (vtext_hd _ _ _ V) as (c & r & Et & C1 & C2 & C3 & C4).
  rewrite <- !app_assoc, cskip_gap in E by exact G. rewrite Et in E. cbn [app] in E. rewrite cskip_stay in E by lia. injection E as <-.
  destruct f as [|f]; [lia|]. cbn [arr_loop]. replace (c =? 0) with false by lia. rewrite cskip_stay by lia.
  set (U := u ++ 93 :: rest) in *.
  change (c :: r ++ g' ++ 44 :: U) with ((c :: r) ++ g' ++ 44 :: U) in *. rewrite <- Et in *.
  cbn [map list_max fold_right] in L.
  assert (A : at_include (t ++ g' ++ 44 :: U) = false).
  { destruct G' as [|x g' X G'|t' x g' X Y G']; cbn [app]; apply not_include; try exact N; lia. }
  rewrite A.
  destruct (value_then i v t g' (44 :: U) d (Some (lldtoa idx)) IH ltac:(lia) G') as (n' & R & Sh).
  { exists 44, U. split; [reflexivity|lia]. } { left. discriminate. }
  change (set_key new_node (lldtoa idx)) with (JN 0 (Some (lldtoa idx)) None []). rewrite R. cbn [skip_res]. rewrite cskip_stay by lia.
  change (44 =? 0) with false. change (44 =? 93) with false. change (44 =? 44) with true. cbv iota.
  destruct (elems_start i l u (93 :: rest) El) as (c2 & r2 & Ec & C20 & C293 & H). fold U in Ec, H.
  rewrite <- (arr_skip d f (idx + 1) (done ++ [n']) new_node U c2 r2 H Ec C20).
  assert (LU : (length (c2 :: r2) < f)%nat).
  { destruct (cskip_stop _ _ _ Ec) as (x & y & Ex & _ & LL). rewrite !app_length in F. cbn [length] in F, LL |- *. lia. }
  destruct (IHl d f (idx + 1) (done ++ [n']) rest (c2 :: r2)) as (ks & R2 & Sh2); [unfold list_max; lia|exact Ec|exact LU|lia|cbn [length] in B; lia|].
  exists (n' :: ks). split; [rewrite R2, <- app_assoc; reflexivity|].
  cbn [arr_shape]. split; [|exact Sh2]. exists (lldtoa idx). split; [|exact Sh]. apply lldtoa_dec. cbn [length] in B. lia.
Qed.

(** ** Entries. *)
Lemma key_read : forall k s u n, key k -> spaces s -> pkey n (k ++ s ++ 58 :: u) = COk (set_key n k) (Some u) false.
Proof.
  intros k s u n (N & F & _) Sp. unfold pkey.
  assert (X : exists x y, s ++ 58 :: u = x :: y /\ (x = 0 \/ stop_key x = true)).
  { destruct s as [|x s]; [exists 58, u; split; [reflexivity|right; reflexivity]|].
    exists x, (s ++ 58 :: u). inversion Sp; subst. split; [reflexivity|right; reflexivity]. }
  destruct X as (x & y & Ex & X). rewrite Ex.
  rewrite scan_word; [|eapply Forall_impl; [|exact F]; intros c C; cbv beta in C; unfold stop_key; split; lia|exact X].
  destruct k as [|c k]; [elim N; reflexivity|]. rewrite <- Ex.
  rewrite scan_word; [|eapply Forall_impl; [|exact Sp]; intros z ->; split; [lia|reflexivity]|right; reflexivity].
  change ((58 =? 0) || (58 =? 58)) with true. reflexivity.
Qed.
Lemma case_set : forall i g k s g1 v t, gap g -> key k -> spaces s -> gap g1 -> vtext i v t -> PV i v t ->
  PM i [(k, v)] (g ++ k ++ s ++ 58 :: g1 ++ t).
Proof.
  intros i g k s g1 v t G K Sp G1 V IH d rest L D. pose proof K as (N & F & H35 & H125 & NI).
  cbn [lvs] in L. rewrite Nat.max_0_r in L.
  destruct k as [|c k']; [elim N; reflexivity|]. set (k := c :: k') in *. cbn [hd] in H35, H125. change (hd 0 k) with c in *.
  assert (C : 32 < c /\ c <> 58) by (inversion F; subst; assumption).
  assert (Ea : (g ++ k ++ s ++ 58 :: g1 ++ t) ++ rest = g ++ k ++ s ++ 58 :: g1 ++ t ++ rest).
  { rewrite <- !app_assoc. cbn [app]. rewrite <- !app_assoc. reflexivity. }
  rewrite Ea. exists c, (k' ++ s ++ 58 :: g1 ++ t ++ rest).
  destruct (IH d (Some k) rest ltac:(lia) D ltac:(left; discriminate)) as (n' & R & Sh).
  exists [n']. rewrite cskip_gap by exact G. unfold k at 1. cbn [app]. rewrite cskip_stay by lia.
  split; [reflexivity|]. split; [lia|]. split; [lia|]. split; [lia|]. split.
  { unfold k. cbn [length app]. rewrite !app_length. cbn [length]. rewrite !app_length. cbn [length]. rewrite !app_length. lia. }
  split; [apply gap_hd; [exact G|unfold k; cbn [app hd]; lia]|].
  change (c :: k' ++ s ++ 58 :: g1 ++ t ++ rest) with (k ++ s ++ 58 :: g1 ++ t ++ rest).
  split.
  - unfold item.
    assert (A : at_include (k ++ s ++ 58 :: g1 ++ t ++ rest) = false).
    { destruct s as [|x s]; cbn [app]; apply not_include; try exact NI; [lia|]. inversion Sp; subst. lia. }
    rewrite A. unfold pentry. rewrite key_read by assumption. cbn [skip_res]. rewrite cskip_gap by exact G1.
    destruct (vtext_hd _ _ _ V) as (x & y & Et & X1 & X2 & _).
    replace (cskip false (t ++ rest)) with (Some (t ++ rest)) by (rewrite Et; cbn [app]; rewrite cskip_stay by lia; reflexivity).
    change (set_key new_node k) with (JN 0 (Some k) None []). rewrite R. cbn [skip_res]. destruct (cskip false rest); reflexivity.
  - split; [|discriminate]. cbn [obj_shape]. split; [exact Sh|exact Logic.I].
Qed.
Lemma member_start : forall i es t u, member i es t -> exists c r, cskip false (t ++ u) = Some (c :: r) /\ c <> 0 /\ c <> 125 /\ hd 0 (t ++ u) <> 0.
Proof.
  intros i es t u M. destruct M as [g k s g1 v t G (N & F & H35 & H125 & NI) Sp G1 V|g w g1 nm c es I G W G1 Nm B Fs Ne En].
  - destruct k as [|c k]; [elim N; reflexivity|]. inversion F as [|? ? C]; subst. cbn [hd] in *.
    eexists c, _. rewrite <- app_assoc, cskip_gap by exact G. cbn [app]. rewrite cskip_stay by lia. split; [reflexivity|].
    split; [lia|]. split; [lia|]. apply gap_hd; [exact G|]. cbn [hd]. lia.
  - destruct w as [|c0 w]; [discriminate|]. pose proof (inc_letters _ W) as FF. inversion FF; subst.
    assert (C125 : c0 <> 125). { unfold inc_word in W. cbn [map] in W. injection W as W _. intros ->. cbn in W. discriminate. }
    eexists c0, _. rewrite <- app_assoc, cskip_gap by exact G. cbn [app]. rewrite cskip_stay by lia. split; [reflexivity|].
    split; [lia|]. split; [lia|]. apply gap_hd; [exact G|]. cbn [hd]. lia.
Qed.
Lemma entries_nil : forall i es, entries i es [] -> es = [].
Proof.
  intros i es E. inversion E as [u T|es' t l u M P E' Q W]; subst; [reflexivity|]. exfalso.
  apply app_eq_nil in W as (-> & _). destruct (member_start i es' [] [] M) as (c & r & _ & _ & _ & H). apply H. reflexivity.
Qed.
Lemma inc_len : forall w, inc_word w -> length w = 7%nat.
Proof. intros w W. pose proof (map_length low w) as M. unfold inc_word in W. rewrite W in M. cbn [length] in M. lia. Qed.
Lemma case_inc : forall i g w g1 nm c es, i = true -> gap g -> inc_word w -> gap g1 -> fname nm ->
  Z.of_nat (length (path ++ nm)) < 1024 -> fs (path ++ nm) = Some c -> es <> [] ->
  entries false es c -> PF false es c -> PM i es (g ++ w ++ g1 ++ nm).
Proof.
  intros i g w g1 nm c es -> G W G1 (N & F) B Fs Ne En (_ & IH) d rest L (x & y & -> & D).
  cbn [b2n] in L. destruct d as [|d]; [lia|]. pose proof (inc_len w W) as L7.
  assert (Ea : (g ++ w ++ g1 ++ nm) ++ x :: y = g ++ w ++ g1 ++ nm ++ x :: y) by (rewrite <- !app_assoc; reflexivity).
  rewrite Ea. destruct w as [|c0 w']; [discriminate|]. set (w := c0 :: w') in *.
  assert (C0 : 65 <= c0). { pose proof (inc_letters w W) as FF. inversion FF; assumption. }
  assert (C125 : c0 <> 125). { unfold inc_word in W. cbn [map] in W. injection W as W _. intros ->. cbn in W. discriminate. }
  exists c0, (w' ++ g1 ++ nm ++ x :: y).
  rewrite cskip_gap by exact G. unfold w at 1. cbn [app]. rewrite cskip_stay by lia.
  assert (Cne : c <> []) by (intros ->; apply Ne; exact (entries_nil _ _ En)).
  set (buf := c ++ [0; 0]).
  destruct (cskip_two buf false) as (c3 & r3 & E3 & T3 & L3); [exists c; reflexivity|].
  destruct (IH eq_refl Ne d (S (length (c3 :: r3))) [] [0] (c3 :: r3) ltac:(lia) E3 ltac:(lia)) as (ks & R & Sh).
  exists ks. split; [reflexivity|]. split; [lia|]. split; [lia|]. split; [lia|]. split.
  { unfold w. cbn [length app]. repeat (rewrite !app_length; cbn [length]). lia. }
  split; [apply gap_hd; [exact G|unfold w; cbn [app hd]; lia]|].
  change (c0 :: w' ++ g1 ++ nm ++ x :: y) with (w ++ g1 ++ nm ++ x :: y).
  split; [|split; [exact Sh|exact Ne]].
  unfold item. unfold at_include. rewrite starts_yes by exact W.
  change (pinclude fs path (S d) new_node) with (include_body fs path (pvalue fs path d) (pinclude fs path d) new_node).
  f_equal. unfold include_body.
  replace (skipn 7 (w ++ g1 ++ nm ++ x :: y)) with (g1 ++ nm ++ x :: y)
    by (rewrite <- L7, skipn_app, skipn_all, Nat.sub_diag; reflexivity).
  rewrite cskip_gap by exact G1.
  replace (cskip false (nm ++ x :: y)) with (Some (nm ++ x :: y)).
  2:{ destruct nm as [|z nm]; [elim N; reflexivity|]. inversion F as [|? ? Wz]; subst. unfold wordc in Wz. cbn [app]. rewrite cskip_stay by lia. reflexivity. }
  rewrite scan_word; [|apply wordc_stop; exact F|apply delim_stop; exact D].
  rewrite firstn_all2 by lia. unfold read_file. rewrite Fs. destruct c as [|a c]; [elim Cne; reflexivity|]. fold buf.
  rewrite E3, R. reflexivity.
Qed.

Lemma members_start : forall i es t u, members i es t -> exists c r, cskip false (t ++ u) = Some (c :: r) /\ c <> 0 /\ c <> 125 /\ hd 0 (t ++ u) <> 0.
Proof. intros i es t u M. destruct M; rewrite <- app_assoc; eapply member_start; eassumption. Qed.

Lemma gap_delim : forall g u, gap g -> delim u -> delim (g ++ u).
Proof.
  intros g u G D. destruct G as [|c g C G|t' c g N E G]; [exact D| |].
  - exists c, (g ++ u). split; [reflexivity|lia].
  - exists 35, ((t' ++ c :: g) ++ u). split; [reflexivity|lia].
Qed.
Lemma case_m1 : forall i es t g', PM i es t -> gap g' -> PMs i es (t ++ g').
Proof.
  intros i es t g' IH G' d f done rest p L E F.
  rewrite <- app_assoc in E.
  destruct (IH d (g' ++ 125 :: rest) L) as (c & r & ns & Ec & C1 & C2 & C3 & Len & H & R & Sh & Ne).
  { apply gap_delim; [exact G'|]. exists 125, rest. split; [reflexivity|lia]. }
  rewrite Ec in E. injection E as <-. destruct f as [|f]; [lia|]. cbn [obj_loop]. replace (c =? 0) with false by lia.
  rewrite cskip_stay by lia. unfold item in R. rewrite R. cbn [skip_res]. rewrite cskip_gap by exact G'. rewrite cskip_stay by lia.
  change (125 =? 0) with false. change (125 =? 125) with true. cbv iota. exists ns. split; [reflexivity|exact Sh].
Qed.
Lemma case_m2 : forall i es t g' l u, PM i es t -> gap g' -> members i l u -> PMs i l u -> PMs i (es ++ l) (t ++ g' ++ 44 :: u).
Proof.
  intros i es t g' l u IH G' M IHl d f done rest p L E F. rewrite lvs_app in L.
  rewrite <- !app_assoc in E. cbn [app] in E. set (U := u ++ 125 :: rest) in *.
  destruct (IH d (g' ++ 44 :: U)) as (c & r & ns & Ec & C1 & C2 & C3 & Len & H & R & Sh & Ne); [lia| |].
  { apply gap_delim; [exact G'|]. exists 44, U. split; [reflexivity|lia]. }
  rewrite Ec in E. injection E as <-. destruct f as [|f]; [lia|]. cbn [obj_loop]. replace (c =? 0) with false by lia.
  rewrite cskip_stay by lia. unfold item in R. rewrite R. cbn [skip_res]. rewrite cskip_gap by exact G'. rewrite cskip_stay by lia.
  change (44 =? 0) with false. change (44 =? 125) with false. change (44 =? 44) with true. cbv iota.
  destruct (members_start i l u (125 :: rest) M) as (c2 & r2 & Ec2 & C20 & C2125 & H2). fold U in Ec2, H2.
  rewrite <- (obj_skip d f (done ++ ns) new_node U c2 r2 H2 Ec2 C20).
  assert (LU : (length (c2 :: r2) < f)%nat).
  { destruct (cskip_stop _ _ _ Ec2) as (x & y & Ex & _ & LL). rewrite app_length in Len. cbn [length] in *. lia. }
  destruct (IHl d f (done ++ ns) rest (c2 :: r2)) as (ks & R2 & Sh2); [lia|exact Ec2|exact LU|].
  exists (ns ++ ks). split; [rewrite R2, <- app_assoc; reflexivity|]. apply obj_shape_app; assumption.
Qed.
Lemma case_obj : forall i l t, members i l t -> PMs i l t -> PV i (JObj l) (123 :: t ++ [125]).
Proof.
  intros i l t M IH d k rest L D K. rewrite levels_obj in L. destruct d as [|d]; [lia|]. rewrite pvalue_S. unfold value_body. cbn [app].
  change ((123 =? 45) || ((48 <=? 123) && (123 <=? 57))) with false. change (123 =? 91) with false. change (123 =? 123) with true. cbv iota.
  unfold pobject. cbn [List.tl]. rewrite <- app_assoc. cbn [app].
  destruct (members_start i l t (125 :: rest) M) as (c & r & Ec & C0 & C125 & H).
  rewrite Ec. replace (c =? 125) with false by lia.
  destruct (IH d (S (length (c :: r))) [] rest (c :: r) ltac:(lia) Ec ltac:(lia)) as (ks & R & Sh).
  rewrite R. eexists. split; [reflexivity|]. apply shaped_obj. cbn [set_type set_kids jkey jty jval jkids app]. auto.
Qed.

(** ** Files. *)
Lemma case_end : forall i u, tail u -> PF i [] u.
Proof.
  intros i u T. split; [|intros _ N; elim N; reflexivity].
  intros d f done z p L E F. rewrite cskip_tail in E by exact T. injection E as <-. destruct f as [|f]; [lia|].
  cbn [root_loop]. change (0 =? 0) with true. cbv iota. exists []. rewrite app_nil_r. split; [reflexivity|exact Logic.I].
Qed.
Lemma parted_delim : forall u z, parted u -> delim (u ++ 0 :: z).
Proof.
  intros [|c u] z P; [exists 0, z; split; [reflexivity|lia]|]. exists c, (u ++ 0 :: z). split; [reflexivity|].
  destruct P as [P|[P|P]]; [discriminate|cbn [hd] in P; lia|cbn [hd] in P; lia].
Qed.
Lemma entries_skip : forall i es u z, entries i es u -> exists c r, cskip false (u ++ 0 :: z) = Some (c :: r) /\ (es = [] -> c = 0) /\ (es <> [] -> c <> 0).
Proof.
  intros i es u z E. destruct E as [u T|es t l u M P E].
  - exists 0, z. split; [apply cskip_tail; exact T|]. split; [reflexivity|intros N; elim N; reflexivity].
  - rewrite <- app_assoc. destruct (member_start i es t (u ++ 0 :: z) M) as (c & r & Ec & C0 & _). exists c, r. split; [exact Ec|].
    split; [|intros _; exact C0]. intros N. destruct es as [|e es]; [|discriminate]. exfalso. inversion M; subst; congruence.
Qed.
Lemma case_more : forall i es t l u, member i es t -> PM i es t -> parted u -> entries i l u -> PF i l u -> PF i (es ++ l) (t ++ u).
Proof.
  intros i es t l u Mb IH P En (IH1 & IH2). split.
  - intros d f done z p L E F. rewrite lvs_app in L. rewrite <- app_assoc in E.
    destruct (IH d (u ++ 0 :: z)) as (c & r & ns & Ec & C1 & C2 & C3 & Len & H & R & Sh & Ne); [lia|apply parted_delim; exact P|].
    rewrite Ec in E. injection E as <-. destruct f as [|f]; [lia|]. cbn [root_loop]. replace (c =? 0) with false by lia.
    rewrite cskip_stay by lia. unfold item in R. rewrite R. cbn [skip_res].
    destruct (entries_skip i l u z En) as (c2 & r2 & Ec2 & _). rewrite Ec2.
    destruct (IH1 d f (done ++ ns) z (c2 :: r2)) as (ks & R2 & Sh2); [lia|exact Ec2| |].
    { destruct (cskip_stop _ _ _ Ec2) as (x & y & Ex & _ & LL). cbn [length] in *. lia. }
    rewrite R2. exists (ns ++ ks). split; [rewrite <- app_assoc; reflexivity|]. apply obj_shape_app; assumption.
  - intros -> _ d f done z p L E F. rewrite lvs_app in L. rewrite <- app_assoc in E.
    destruct (IH d (u ++ 0 :: z)) as (c & r & ns & Ec & C1 & C2 & C3 & Len & H & R & Sh & Ne); [cbn [b2n]; lia|apply parted_delim; exact P|].
    rewrite Ec in E. injection E as <-. destruct f as [|f]; [lia|]. cbn [file_loop]. replace (c =? 0) with false by lia.
    rewrite cskip_stay by lia. unfold item in R. rewrite R. cbn [skip_res].
    destruct (entries_skip false l u z En) as (c2 & r2 & Ec2 & Z1 & Z2). rewrite Ec2.
    destruct l as [|e l].
    + rewrite (Z1 eq_refl). change (0 =? 0) with true. cbv iota. exists ns. split; [reflexivity|]. rewrite app_nil_r. exact Sh.
    + replace (c2 =? 0) with false by (specialize (Z2 ltac:(discriminate)); lia).
      destruct (member_false es t Mb) as (k & v & ->).
      pose proof (obj_shape_len _ _ Sh) as Ln. destruct ns as [|n [|n2 ns]]; cbn [length] in Ln; try lia. cbn [firstn].
      destruct (IH2 eq_refl ltac:(discriminate) d f (done ++ [n]) z (c2 :: r2)) as (ks & R2 & Sh2); [lia|exact Ec2| |].
      { destruct (cskip_stop _ _ _ Ec2) as (x & y & Ex & _ & LL). cbn [length] in *. lia. }
      rewrite R2. exists (n :: ks). split; [rewrite <- app_assoc; reflexivity|].
      change (n :: ks) with ([n] ++ ks). apply obj_shape_app; assumption.
Qed.

Theorem texts_parse : forall i,
  (forall v t, vtext i v t -> PV i v t) /\ (forall l t, elems i l t -> PE i l t) /\
  (forall es t, members i es t -> PMs i es t) /\ (forall es t, member i es t -> PM i es t) /\
  (forall es t, entries i es t -> PF i es t).
Proof.
  apply (texts_m fs path PV PE PMs PM PF).
  - exact case_num.
  - exact case_bare.
  - exact case_quoted.
  - exact case_arr0.
  - exact case_arr.
  - exact case_obj0.
  - exact case_obj.
  - exact case_e1.
  - exact case_e2.
  - intros i es t g' _. apply case_m1.
  - intros i es t g' l u _. apply case_m2.
  - exact case_set.
  - exact case_inc.
  - exact case_end.
  - exact case_more.
Qed.

Lemma open_text : forall fn c es d, fs fn = Some c -> c <> [] -> entries true es c -> (lvs es + 1 <= d)%nat ->
  exists l, conf_open fs path fn d = HTree (Some (JN 1 None None l)) /\ obj_shape es l.
Proof.
  intros fn c es d Fs N En L. destruct (proj2 (proj2 (proj2 (proj2 (texts_parse true)))) es c En) as (H & _).
  unfold conf_open, read_file. rewrite Fs. destruct c as [|a c]; [elim N; reflexivity|]. unfold conf_parse.
  destruct (cskip_two ((a :: c) ++ [0; 0]) false) as (x & r & E & T & _); [exists (a :: c); reflexivity|]. rewrite E.
  destruct (H d (S (length (x :: r))) [] [0] (x :: r) L E ltac:(lia)) as (ks & R & Sh). rewrite R. exists ks. split; [reflexivity|exact Sh].
Qed.
End Texts.

Lemma load_text : forall fs g l t u d, gap g -> vtext fs [] true (JObj l) t -> u = [] \/ delim u -> (levels (JObj l) + 1 <= d)%nat ->
  ((exists r, cskip false (u ++ [0]) = Some r)) ->
  exists n, conf_load fs d (g ++ t ++ u) = HTree (Some n) /\ shaped (JObj l) None n.
Proof.
  intros fs g l t u d G V D L (r & Er). unfold conf_load. rewrite <- !app_assoc, cskip_gap by exact G.
  assert (Ht : exists y, t = 123 :: y).
  { inversion V; subst; eexists; reflexivity. }
  destruct Ht as (y & Ht). replace (cskip false (t ++ u ++ [0])) with (Some (t ++ u ++ [0])) by (rewrite Ht; cbn [app]; rewrite cskip_stay by lia; reflexivity).
  replace (hd 0 (t ++ u ++ [0]) =? 123) with true by (rewrite Ht; reflexivity).
  destruct (proj1 (texts_parse fs [] true) (JObj l) t V d None (u ++ [0]) L) as (n & R & Sh).
  - destruct D as [->|(x & z & -> & D)]; [exists 0, []; split; [reflexivity|lia]|]. exists x, (z ++ [0]). split; [reflexivity|exact D].
  - right. exists l. reflexivity.
  - change new_node with (JN 0 None None []). rewrite R. cbn [skip_res]. rewrite Er. exists n. split; [reflexivity|exact Sh].
Qed.
