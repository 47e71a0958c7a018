(** Lemmas for files that keep the order of arrival. *)
From Verif Require Import Base S_server S_sub M_sub L_sub M_memory L_memory S_sno M_mapfile L_mapfile M_index L_index M_sno.
From Coq Require Import ZifyBool ZifyNat Sorted.
Arguments Z.mul : simpl never. Arguments Z.add : simpl never. Arguments Z.sub : simpl never. Arguments Z.div : simpl never.
Arguments Z.modulo : simpl never. Arguments Z.ltb : simpl never. Arguments Z.eqb : simpl never. Arguments Z.of_nat : simpl never.

(** * the slots of the reader *)
Fixpoint collect (n : nat) (i : Z) (S : Z -> option row) : list row :=
  match n with O => [] | Datatypes.S n' => match S i with Some r => r :: collect n' (i + 1) S | None => collect n' (i + 1) S end end.
Lemma slots_collect : forall n i p, slots n i p = collect n i (p_slot p).
Proof. induction n as [|n IH]; intros i p; cbn; [reflexivity|]. rewrite IH. reflexivity. Qed.
Lemma collect_ext : forall n i j S T, (forall d, 0 <= d < Z.of_nat n -> S (i + d) = T (j + d)) -> collect n i S = collect n j T.
Proof.
  induction n as [|n IH]; intros i j S T H; cbn; [reflexivity|].
  pose proof (H 0 ltac:(lia)) as H0. rewrite !Z.add_0_r in H0. rewrite H0. rewrite (IH (i + 1) (j + 1) S T); [reflexivity|].
  intros d D. pose proof (H (d + 1) ltac:(lia)) as E. replace (i + 1 + d) with (i + (d + 1)) by lia. replace (j + 1 + d) with (j + (d + 1)) by lia. exact E.
Qed.
Lemma collect_app : forall n m i S, collect (n + m) i S = collect n i S ++ collect m (i + Z.of_nat n) S.
Proof.
  induction n as [|n IH]; intros m i S; cbn [Nat.add collect].
  - replace (i + Z.of_nat 0) with i by lia. reflexivity.
  - rewrite IH. replace (i + 1 + Z.of_nat n) with (i + Z.of_nat (Datatypes.S n)) by lia. destruct (S i); reflexivity.
Qed.
Lemma collect_none : forall n i S, (forall d, 0 <= d < Z.of_nat n -> S (i + d) = None) -> collect n i S = [].
Proof.
  induction n as [|n IH]; intros i S H; cbn; [reflexivity|]. pose proof (H 0 ltac:(lia)) as H0. rewrite Z.add_0_r in H0. rewrite H0.
  apply IH. intros d D. replace (i + 1 + d) with (i + (d + 1)) by lia. apply H. lia.
Qed.
Lemma collect_len : forall n m i S, (forall d, Z.of_nat n <= d -> S (i + d) = None) -> (forall d, Z.of_nat m <= d -> S (i + d) = None) -> collect n i S = collect m i S.
Proof.
  assert (G : forall n m i S, (n <= m)%nat -> (forall d, Z.of_nat n <= d -> S (i + d) = None) -> collect n i S = collect m i S).
  { intros n m i S L H. replace m with (n + (m - n))%nat by lia. rewrite collect_app, (collect_none (m - n)); [now rewrite app_nil_r|].
    intros d D. rewrite <- Z.add_assoc. apply H. lia. }
  intros n m i S H1 H2. destruct (Nat.le_ge_cases n m); [now apply G|]. symmetry. now apply G.
Qed.

Section Slots.
Variable pn : Z.
Hypothesis PN : 0 < pn.
(** the pages hold the slots [S] *)
Definition slot_at (l : list rpage) (i : Z) : option row :=
  match nth_error l (Z.to_nat (i / pn)) with Some p => p_slot p (i mod pn) | None => None end.
Definition page_ok (p : rpage) : Prop := 0 <= p_count p <= pn /\ (forall i, 0 <= i < pn -> p_count p <= i -> p_slot p i = None).
Definition holds (l : list rpage) (S : Z -> option row) : Prop := Forall page_ok l /\ forall i, 0 <= i -> slot_at l i = S i.
Lemma empty_ok : page_ok empty_page.
Proof. split; [cbn; lia|reflexivity]. Qed.
Lemma holds_ext : forall l S T, holds l S -> (forall i, 0 <= i -> S i = T i) -> holds l T.
Proof. intros l S T [A B] E. split; [exact A|]. intros i I. rewrite B, E by exact I. reflexivity. Qed.
Lemma nth_upd : forall l i j f, nth_error (upd l i f) j = if Nat.eqb i j then option_map f (nth_error l j) else nth_error l j.
Proof.
  induction l as [|p l IH]; intros i j f; destruct i, j; cbn; try reflexivity.
  - destruct (Nat.eqb i j); reflexivity.
  - apply IH.
Qed.
Lemma Forall_upd : forall P l i (f : rpage -> rpage), Forall P l -> (forall p, P p -> P (f p)) -> Forall P (upd l i f).
Proof. induction l as [|p l IH]; intros i f F H; destruct i; cbn; auto; inversion F; subst; constructor; auto. Qed.
Lemma nth_repeat_err : forall A (x : A) n i, nth_error (repeat x n) i = if Nat.ltb i n then Some x else None.
Proof. induction n as [|n IH]; intros [|i]; cbn; try reflexivity. apply IH. Qed.
Lemma rset_ok : forall l S s r, holds l S -> 0 <= s -> exists l', rset pn l s r = Some l' /\ holds l' (fun i => if i =? s then Some r else S i).
Proof.
  intros l S s r [A B] Hs. unfold rset. replace (s <? 0) with false by lia. eexists. split; [reflexivity|].
  pose proof (Z.mod_pos_bound s pn PN) as M. pose proof (Z.div_pos s pn Hs PN) as D.
  set (ip := Z.to_nat (s / pn)) in *.
  split.
  - apply Forall_upd.
    + apply Forall_app. split; [exact A|]. apply Forall_forall. intros p I. apply repeat_spec in I. subst p. exact empty_ok.
    + intros p [C1 C2]. unfold set_slot. split; cbn [p_count p_slot].
      * destruct (p_count p - 1 <? s mod pn) eqn:E; lia.
      * intros i I C. destruct (Z.eqb_spec i (s mod pn)) as [->|NE].
        -- destruct (p_count p - 1 <? s mod pn) eqn:E; lia.
        -- apply C2; [exact I|]. destruct (p_count p - 1 <? s mod pn) eqn:E; lia.
  - intros i I. unfold slot_at. rewrite nth_upd. pose proof (Z.div_pos i pn I PN) as Di. pose proof (Z.mod_pos_bound i pn PN) as Mi.
    rewrite <- B by exact I. unfold slot_at.
    assert (LK : nth_error (l ++ repeat empty_page (Datatypes.S ip - List.length l)) (Z.to_nat (i / pn)) =
                 match nth_error l (Z.to_nat (i / pn)) with Some p => Some p
                 | None => if Nat.leb (Z.to_nat (i / pn)) ip then Some empty_page else None end).
    { destruct (nth_error l (Z.to_nat (i / pn))) eqn:E.
      - rewrite nth_error_app1; [exact E|]. apply nth_error_Some. congruence.
      - apply nth_error_None in E. rewrite nth_error_app2 by exact E. rewrite nth_repeat_err.
        destruct (Nat.leb_spec (Z.to_nat (i / pn)) ip); destruct (Nat.ltb_spec (Z.to_nat (i / pn) - List.length l) (Datatypes.S ip - List.length l)); try lia; reflexivity. }
    rewrite LK. destruct (Nat.eqb_spec ip (Z.to_nat (i / pn))) as [EP|NP].
    + destruct (nth_error l (Z.to_nat (i / pn))) as [p|] eqn:E; cbn [option_map].
      * cbn [set_slot p_slot]. assert (s / pn = i / pn) by (unfold ip in EP; lia).
        pose proof (Z.div_mod s pn ltac:(lia)). pose proof (Z.div_mod i pn ltac:(lia)).
        destruct (Z.eqb_spec (i mod pn) (s mod pn)); destruct (Z.eqb_spec i s); try reflexivity; nia.
      * replace (Nat.leb _ ip) with true by lia. cbn [option_map set_slot p_slot empty_page].
        assert (s / pn = i / pn) by (unfold ip in EP; lia). pose proof (Z.div_mod s pn ltac:(lia)). pose proof (Z.div_mod i pn ltac:(lia)).
        destruct (Z.eqb_spec (i mod pn) (s mod pn)); destruct (Z.eqb_spec i s); try reflexivity; nia.
    + assert (i <> s) by (intros ->; apply NP; reflexivity). replace (i =? s) with false by lia.
      destruct (nth_error l (Z.to_nat (i / pn))) as [p|] eqn:E; [reflexivity|]. destruct (Nat.leb _ ip); reflexivity.
Qed.
(** what a list of numbered records does *)
Fixpoint updates (kn tn : list Z) (S : Z -> option row) (rs : list (Z * list Z)) : Z -> option row :=
  match rs with [] => S | (s, x) :: rs' => updates kn tn (fun i => if i =? s then Some (mkrow kn tn x) else S i) rs' end.
Lemma set_all_ok : forall kn tn rs l S, holds l S -> Forall (fun q => 0 <= fst q) rs -> exists l', set_all pn kn tn l rs = Some l' /\ holds l' (updates kn tn S rs).
Proof.
  induction rs as [|[s x] rs IH]; intros l S H F; cbn [set_all updates]; [eauto|]. inversion F as [|? ? F1 F2]; subst. cbn in F1.
  destruct (rset_ok l S s (mkrow kn tn x) H F1) as (l1 & -> & H1). apply IH; assumption.
Qed.
Lemma drain_holds : forall l S N, holds l S -> (forall i, Z.of_nat N <= i -> S i = None) -> drain l = collect N 0 S.
Proof.
  assert (G : forall l b (S : Z -> option row), 0 <= b -> Forall page_ok l -> (forall i, 0 <= i < Z.of_nat (List.length l) * pn -> slot_at l i = S (b * pn + i)) ->
              drain l = collect (List.length l * Z.to_nat pn) (b * pn) S).
  { induction l as [|p l IH]; intros b S Hb F H; [reflexivity|]. inversion F as [|? ? F1 F2]; subst.
    cbn [List.length Nat.mul]. rewrite collect_app. unfold drain in *. cbn [flat_map]. f_equal.
    - rewrite slots_collect. destruct F1 as [C1 C2].
      assert (E : collect (Z.to_nat (p_count p)) 0 (p_slot p) = collect (Z.to_nat pn) 0 (p_slot p)).
      { replace (Z.to_nat pn) with (Z.to_nat (p_count p) + (Z.to_nat pn - Z.to_nat (p_count p)))%nat by lia. rewrite collect_app.
        rewrite (collect_none (Z.to_nat pn - Z.to_nat (p_count p))); [now rewrite app_nil_r|]. intros d D. apply C2; lia. }
      rewrite E. apply collect_ext. intros d D. rewrite <- H by (cbn [List.length]; nia). unfold slot_at.
      rewrite Z.add_0_l, Z.div_small, Z.mod_small by lia. reflexivity.
    - rewrite (IH (b + 1) S); [|lia|exact F2|].
      + f_equal. lia.
      + intros i I. replace ((b + 1) * pn + i) with (b * pn + (i + pn)) by lia. rewrite <- H by (cbn [List.length]; nia).
        unfold slot_at. replace (i + pn) with (i + 1 * pn) by lia. rewrite Z.div_add, Z.mod_add by lia.
        pose proof (Z.div_pos i pn ltac:(lia) PN). replace (Z.to_nat (i / pn + 1)) with (Datatypes.S (Z.to_nat (i / pn))) by lia. reflexivity. }
  intros l S N [A B] H. rewrite (G l 0 S ltac:(lia) A).
  - replace (0 * pn) with 0 by lia. apply collect_len; intros d D; rewrite Z.add_0_l; [|now apply H].
    rewrite <- B by lia. unfold slot_at.
    rewrite (proj2 (nth_error_None l (Z.to_nat (d / pn)))); [reflexivity|]. assert (Z.of_nat (List.length l) <= d / pn) by (apply Z.div_le_lower_bound; nia). lia.
  - intros i I. rewrite B by lia. f_equal; lia.
Qed.
Lemma clear_holds : forall l, holds (rclear l) (fun _ => None).
Proof.
  intros l. split.
  - apply Forall_forall. intros p I. apply in_map_iff in I. destruct I as (q & <- & _). exact empty_ok.
  - intros i I. unfold slot_at, rclear. rewrite nth_error_map. destruct (nth_error l _); reflexivity.
Qed.
Lemma nil_holds : holds [] (fun _ => None).
Proof. split; [constructor|]. intros i I. unfold slot_at. destruct (Z.to_nat (i / pn)); reflexivity. Qed.
End Slots.

(** * the blocks of a page *)
Definition prow : Type := nat * nat * list Z.
Definition is_kt (k t k' t' : nat) : bool := Nat.eqb k' k && Nat.eqb t' t.
Fixpoint picked (i : Z) (k t : nat) (P : list prow) : list (Z * list Z) :=
  match P with
  | [] => []
  | (k', t', x) :: P' => if is_kt k t k' t' then (i, x) :: picked (i + 1) k t P' else picked (i + 1) k t P'
  end.
Definition hdr (k t : nat) : list Z := ssize_bytes (Z.of_nat k) ++ ssize_bytes (Z.of_nat t).
Definition encr (rs : list (Z * list Z)) : list Z := concat (map (fun q => ssize_bytes (fst q) ++ snd q) rs).
Definition blk (k t : nat) (P : list prow) : list Z := hdr k t ++ encr (picked 0 k t P).
Lemma picked_app : forall P Q i k t, picked i k t (P ++ Q) = picked i k t P ++ picked (i + Z.of_nat (List.length P)) k t Q.
Proof.
  induction P as [|[[k' t'] x] P IH]; intros Q i k t; cbn [picked app List.length].
  - f_equal. lia.
  - rewrite IH. replace (i + 1 + Z.of_nat (List.length P)) with (i + Z.of_nat (S (List.length P))) by lia. destruct (is_kt k t k' t'); reflexivity.
Qed.
Lemma encr_app : forall a b, encr (a ++ b) = encr a ++ encr b.
Proof. intros. unfold encr. now rewrite map_app, concat_app. Qed.
Lemma picked_in : forall P b k t i x, In (i, x) (picked b k t P) -> b <= i < b + Z.of_nat (List.length P) /\ In (k, t, x) P.
Proof.
  induction P as [|[[k' t'] y] P IH]; intros b k t i x I; cbn [picked] in I; [destruct I|]. cbn [List.length].
  destruct (is_kt k t k' t') eqn:E.
  - destruct I as [I|I].
    + injection I as <- <-. unfold is_kt in E. assert (k' = k /\ t' = t) as [-> ->] by lia. split; [lia|now left].
    + apply IH in I. split; [lia|right; tauto].
  - apply IH in I. split; [lia|right; tauto].
Qed.
Lemma encr_len : forall rs, (List.length rs <= List.length (encr rs))%nat.
Proof.
  induction rs as [|[i x] rs IH]; cbn; [lia|]. unfold encr in *. cbn [map concat fst snd]. rewrite !app_length.
  pose proof (ssize_cons i). destruct (ssize_bytes i); [congruence|]. cbn. lia.
Qed.
Lemma encr_nil : forall rs, encr rs = [] -> rs = [].
Proof. intros rs E. pose proof (encr_len rs). rewrite E in H. destruct rs; cbn in H; [reflexivity|lia]. Qed.
Lemma take_recs_ok : forall stale n rs fuel m, mem_ok m -> mem_live m = encr rs -> Forall (fun q => 0 <= fst q < 2 ^ 31 /\ List.length (snd q) = n) rs ->
  (List.length rs <= fuel)%nat -> take_recs fuel stale n m = Some rs.
Proof.
  intros stale n. induction rs as [|[i x] rs IH]; intros fuel m O E F L.
  - destruct fuel; cbn [take_recs]; rewrite size_live, E by exact O; reflexivity.
  - inversion F as [|? ? [F1 F2] F3]; subst. cbn [fst snd] in *. cbn [List.length] in L. destruct fuel as [|fuel]; [lia|].
    assert (E' : mem_live m = ssize_bytes i ++ x ++ encr rs) by (rewrite E; unfold encr; cbn; now rewrite <- app_assoc).
    cbn [take_recs]. rewrite size_live, E' by exact O.
    replace (0 <? Z.of_nat (List.length (ssize_bytes i ++ x ++ encr rs))) with true
      by (rewrite app_length; pose proof (ssize_cons i); destruct (ssize_bytes i); [congruence|cbn; lia]).
    destruct (mem_get_ssize_spec stale m i _ O ltac:(lia) E') as (m1 & -> & O1 & E1 & _).
    rewrite <- (Nat.add_0_r (moff m1)). rewrite (mem_peek_live stale m1 x (encr rs) 0 O1 E1).
    destruct (mem_move_live m1 x (encr rs) _ O1 E1 eq_refl) as [O2 E2]. rewrite (IH fuel _ O2 E2 F3) by lia.
    rewrite to_s_small by lia. reflexivity.
Qed.
Definition rows_ok (sizes : nat -> nat) (P : list prow) : Prop := Forall (fun '(k, t, x) => List.length x = sizes t) P /\ Z.of_nat (List.length P) < 2 ^ 31.
Lemma read_msg_ok : forall pn stale keys tabs sizes l S k t P kn tn, 0 < pn -> holds pn l S -> rows_ok sizes P ->
  nth_error keys k = Some kn -> nth_error tabs t = Some tn -> Z.of_nat (List.length keys) < 2 ^ 31 -> Z.of_nat (List.length tabs) < 2 ^ 31 ->
  exists l', read_msg pn stale keys tabs sizes l (blk k t P) = Some l' /\ holds pn l' (updates kn tn S (picked 0 k t P)).
Proof.
  intros pn stale keys tabs sizes l S k t P kn tn PN H [R1 R2] EK ET LK LT. unfold read_msg.
  assert (K : (k < List.length keys)%nat) by (apply nth_error_Some; congruence).
  assert (T : (t < List.length tabs)%nat) by (apply nth_error_Some; congruence).
  destruct (mem_cat_spec mem_create (blk k t P) mem_ok_create) as [O E]. change (mem_live mem_create) with (@nil Z) in E. cbn [app] in E.
  remember (mem_cat mem_create (blk k t P)) as m0 eqn:Em0. clear Em0.
  assert (E' : mem_live m0 = ssize_bytes (Z.of_nat k) ++ ssize_bytes (Z.of_nat t) ++ encr (picked 0 k t P)) by (rewrite E; unfold blk, hdr; now rewrite <- app_assoc).
  destruct (mem_get_ssize_spec stale m0 (Z.of_nat k) _ O ltac:(lia) E') as (m1 & -> & O1 & E1 & _).
  destruct (mem_get_ssize_spec stale m1 (Z.of_nat t) _ O1 ltac:(lia) E1) as (m2 & -> & O2 & E2 & _).
  rewrite !to_s_small by lia. replace ((Z.of_nat k <? 0) || (Z.of_nat t <? 0)) with false by lia. rewrite !Nat2Z.id, EK, ET.
  assert (F : Forall (fun q => 0 <= fst q < 2 ^ 31 /\ List.length (snd q) = sizes t) (picked 0 k t P)).
  { apply Forall_forall. intros [i x] I. apply picked_in in I. destruct I as [I1 I2]. cbn [fst snd]. split; [lia|].
    rewrite Forall_forall in R1. exact (R1 _ I2). }
  rewrite (take_recs_ok stale (sizes t) (picked 0 k t P) _ m2 O2 E2 F).
  - apply set_all_ok; [exact PN|exact H|]. eapply Forall_impl; [|exact F]. cbn. intros q Q. lia.
  - pose proof (encr_len (picked 0 k t P)). unfold blk. rewrite app_length. lia.
Qed.
(** the slots of a page of which the series [sel] were read *)
Definition pageS (keys tabs : list (list Z)) (sel : nat -> nat -> bool) (P : list prow) (i : Z) : option row :=
  match nth_error P (Z.to_nat i) with
  | Some (k, t, x) => if sel k t then Some (mkrow (nth k keys []) (nth t tabs []) x) else None
  | None => None
  end.
Lemma updates_picked : forall kn tn k t P b S i, b <= i ->
  updates kn tn S (picked b k t P) i = match nth_error P (Z.to_nat (i - b)) with
                                       | Some (k', t', x) => if is_kt k t k' t' then Some (mkrow kn tn x) else S i
                                       | None => S i
                                       end.
Proof.
  intros kn tn k t. 
  assert (LO : forall P b S i, i < b -> updates kn tn S (picked b k t P) i = S i).
  { induction P as [|[[k' t'] x] P IH]; intros b S i L; cbn [picked updates]; [reflexivity|].
    destruct (is_kt k t k' t'); cbn [updates]; rewrite IH by lia; [|reflexivity]. replace (i =? b) with false by lia. reflexivity. }
  induction P as [|[[k' t'] x] P IH]; intros b S i L.
  - cbn [picked updates]. destruct (Z.to_nat (i - b)); reflexivity.
  - destruct (Z.eq_dec i b) as [->|NE].
    + rewrite Z.sub_diag. cbn [Z.to_nat nth_error picked]. destruct (is_kt k t k' t'); cbn [updates]; rewrite LO by lia; [|reflexivity].
      rewrite Z.eqb_refl. reflexivity.
    + replace (Z.to_nat (i - b)) with (Datatypes.S (Z.to_nat (i - (b + 1)))) by lia. cbn [nth_error picked].
      destruct (is_kt k t k' t'); cbn [updates]; rewrite IH by lia.
      * replace (i =? b) with false by lia. reflexivity.
      * reflexivity.
Qed.
Lemma read_page_msg : forall pn stale keys tabs sizes l sel k t P, 0 < pn -> holds pn l (pageS keys tabs sel P) -> rows_ok sizes P ->
  (k < List.length keys)%nat -> (t < List.length tabs)%nat -> Z.of_nat (List.length keys) < 2 ^ 31 -> Z.of_nat (List.length tabs) < 2 ^ 31 ->
  exists l', read_msg pn stale keys tabs sizes l (blk k t P) = Some l' /\ holds pn l' (pageS keys tabs (fun a b => is_kt k t a b || sel a b) P).
Proof.
  intros pn stale keys tabs sizes l sel k t P PN H R K T LK LT.
  destruct (nth_error keys k) as [kn|] eqn:EK; [|apply nth_error_None in EK; lia].
  destruct (nth_error tabs t) as [tn|] eqn:ET; [|apply nth_error_None in ET; lia].
  destruct (read_msg_ok pn stale keys tabs sizes l _ k t P kn tn PN H R EK ET LK LT) as (l' & E & H'). exists l'. split; [exact E|].
  eapply holds_ext; [exact H'|]. intros i I. rewrite updates_picked by exact I. rewrite Z.sub_0_r. unfold pageS.
  destruct (nth_error P (Z.to_nat i)) as [[[k' t'] x]|]; [|reflexivity]. destruct (is_kt k t k' t') eqn:E'; [|reflexivity]. cbn [orb].
  unfold is_kt in E'. assert (k' = k /\ t' = t) as [-> ->] by lia. rewrite (nth_error_nth _ _ [] EK), (nth_error_nth _ _ [] ET). reflexivity.
Qed.
Definition row_of (keys tabs : list (list Z)) (q : prow) : row := let '(k, t, x) := q in mkrow (nth k keys []) (nth t tabs []) x.
Lemma collect_page : forall keys tabs sel P, collect (List.length P) 0 (pageS keys tabs sel P) =
  map (row_of keys tabs) (filter (fun '(k, t, _) => sel k t) P).
Proof.
  intros keys tabs sel. induction P as [|[[k t] x] P IH]; [reflexivity|]. change (List.length (@cons prow (k, t, x) P)) with (1 + List.length P)%nat. rewrite collect_app. change (0 + Z.of_nat 1) with (0 + 1).
  assert (E : collect (List.length P) (0 + 1) (pageS keys tabs sel (@cons prow (k, t, x) P)) = collect (List.length P) 0 (pageS keys tabs sel P)).
  { apply collect_ext. intros d D. unfold pageS. replace (Z.to_nat (0 + 1 + d)) with (S (Z.to_nat d)) by lia. replace (Z.to_nat (0 + d)) with (Z.to_nat d) by lia. reflexivity. }
  rewrite E, IH. cbn [collect filter]. unfold pageS. cbn [Z.to_nat nth_error]. destruct (sel k t); reflexivity.
Qed.
Lemma drain_page : forall pn keys tabs sel P l, 0 < pn -> holds pn l (pageS keys tabs sel P) -> drain l = map (row_of keys tabs) (filter (fun '(k, t, _) => sel k t) P).
Proof.
  intros pn keys tabs sel P l PN H. rewrite (drain_holds pn PN l _ (List.length P) H); [apply collect_page|].
  intros i I. unfold pageS. rewrite (proj2 (nth_error_None P (Z.to_nat i))); [reflexivity|lia].
Qed.

(** * the writer *)
Lemma pieces_len : forall n fuel l, (0 < n)%nat -> Nat.modulo (List.length l) n = 0%nat -> Forall (fun x => List.length x = n) (pieces fuel n l).
Proof.
  intros n. induction fuel as [|f IH]; intros l N M; cbn [pieces]; [constructor|]. destruct l as [|a l]; [constructor|].
  assert (L : (n <= List.length (a :: l))%nat).
  { destruct (Nat.le_gt_cases n (List.length (a :: l))) as [G|G]; [exact G|]. rewrite Nat.mod_small in M by exact G. discriminate M. }
  constructor; [apply firstn_length_le; exact L|]. apply IH; [exact N|]. rewrite skipn_length.
  rewrite <- (Nat.mod_add (List.length (a :: l) - n) 1 n) by lia. rewrite Nat.mul_1_l, Nat.sub_add by exact L. exact M.
Qed.
Lemma put_recs_ok : forall k t recs m s z, mem_ok m -> 0 <= s ->
  exists m' z', put_recs m s z recs = (m', s + Z.of_nat (List.length recs), z') /\ mem_ok m' /\
    mem_live m' = mem_live m ++ encr (picked s k t (map (fun x => (k, t, x)) recs)).
Proof.
  intros k t. induction recs as [|x recs IH]; intros m s z O Hs; cbn [put_recs].
  - exists m, z. split; [|split; [exact O|now rewrite app_nil_r]]. f_equal. f_equal. cbn. lia.
  - destruct (mem_cat_ssize_spec m s O Hs) as [O1 E1]. destruct (mem_cat_spec (mem_cat_ssize m s) x O1) as [O2 E2].
    destruct (IH (mem_cat (mem_cat_ssize m s) x) (s + 1) (z + Z.of_nat (ssize_ret s) + Z.of_nat (List.length x)) O2 ltac:(lia)) as (m' & z' & E & O' & L).
    exists m', z'. rewrite E. split; [|split; [exact O'|]].
    + f_equal. f_equal. cbn [List.length]. lia.
    + rewrite L, E2, E1. cbn [map picked]. unfold is_kt. rewrite !Nat.eqb_refl. cbn [andb]. unfold encr at 2. cbn [map concat fst snd]. fold (encr (picked (s + 1) k t (map (fun x => (k, t, x)) recs))).
      now rewrite <- !app_assoc.
Qed.
Lemma picked_other : forall k t k' t' recs i, is_kt k' t' k t = false -> picked i k' t' (map (fun x => (k, t, x)) recs) = [].
Proof. intros k t k' t'. induction recs as [|x recs IH]; intros i E; cbn [map picked]; [reflexivity|]. rewrite E. now apply IH. Qed.
Lemma hdr_ne : forall k t, hdr k t <> [].
Proof. intros k t E. unfold hdr in E. apply app_eq_nil in E. exact (ssize_cons _ (proj1 E)). Qed.
Lemma blk_ne : forall k t P, blk k t P <> [].
Proof. intros k t P E. apply app_eq_nil in E. exact (hdr_ne _ _ (proj1 E)). Qed.

Section Writer.
Variables (keys tabs : list (list Z)).
Hypothesis CLR : series_clear keys tabs.
Definition valid (k t : nat) : Prop := (k < List.length keys)%nat /\ (t < List.length tabs)%nat.
Lemma full_short : forall k t, valid k t -> firstn 254 (full_name keys tabs k t) = full_name keys tabs k t.
Proof.
  intros k t [K T]. apply firstn_all2. unfold full_name. destruct CLR as [C _].
  apply (C k t); [apply nth_error_nth'; exact K|apply nth_error_nth'; exact T].
Qed.
Lemma full_inj : forall k t k' t', valid k t -> valid k' t' -> full_name keys tabs k t = full_name keys tabs k' t' -> k = k' /\ t = t'.
Proof.
  intros k t k' t' [K T] [K' T'] E. destruct CLR as [_ C]. unfold full_name in E.
  apply (C k t k' t' (nth k keys []) (nth t tabs []) (nth k' keys []) (nth t' tabs [])); auto; apply nth_error_nth'; assumption.
Qed.
(** the list of catches of a page with the records [P], of the page number [pg] *)
Definition wok (pg : Z) (P : list prow) (q : list Z * catch) : Prop :=
  let '(n, w) := q in
  n = full_name keys tabs (w_key w) (w_tab w) /\ valid (w_key w) (w_tab w) /\ mem_ok (w_mem w) /\
  ((mem_live (w_mem w) = [] /\ picked 0 (w_key w) (w_tab w) P = []) \/ (mem_live (w_mem w) = blk (w_key w) (w_tab w) P /\ w_page w = pg)).
Definition catches (pg : Z) (P : list prow) (l : named catch) : Prop :=
  NoDup (map fst l) /\ Forall (wok pg P) l /\
  (forall k t x, In (k, t, x) P -> valid k t /\ exists w, In (full_name keys tabs k t, w) l).
Definition live_kt (l : named catch) : list (nat * nat) :=
  map (fun q => (w_key (snd q), w_tab (snd q))) (filter (fun q => 0 <? Z.of_nat (mem_get_size (w_mem (snd q)))) l).

(** the index as a function *)
Definition IX (idx : named snode) (V : nat -> nat -> list (nat * Z)) : Prop :=
  NoDup (map fst idx) /\
  (forall n d, In (n, d) idx -> n = full_name keys tabs (n_key d) (n_tab d) /\ valid (n_key d) (n_tab d) /\ n_units d = V (n_key d) (n_tab d) /\ n_units d <> []) /\
  (forall k t, valid k t -> V k t <> [] -> exists d, In (full_name keys tabs k t, d) idx).
Definition add1 (idx : named snode) (k t : nat) (u : nat * Z) : named snode :=
  let n := full_name keys tabs k t in
  match mget idx n with
  | Some d => mset idx n (mksn (n_key d) (n_tab d) (n_units d ++ [u]))
  | None => mset idx n (mksn k t [u])
  end.
Lemma add1_ok : forall idx V k t u, IX idx V -> valid k t -> IX (add1 idx k t u) (fun a b => if is_kt k t a b then V k t ++ [u] else V a b).
Proof.
  intros idx V k t u (N & A & B) OK. unfold add1.
  assert (G : forall d, n_key d = k -> n_tab d = t -> n_units d = V k t ++ [u] -> IX (mset idx (full_name keys tabs k t) d) (fun a b => if is_kt k t a b then V k t ++ [u] else V a b)).
  { intros d DK DT DU. split; [|split].
    - now apply mset_nodup.
    - intros n e I. apply mset_in in I; [|exact N]. destruct I as [[-> ->]|[NE I]].
      + rewrite DK, DT. unfold is_kt. rewrite !Nat.eqb_refl. cbn [andb]. repeat split; try apply OK; try exact DU. rewrite DU. destruct (V k t); discriminate.
      + destruct (A n e I) as (E & OKe & U & NE'). repeat split; try apply OKe; auto.
        destruct (is_kt k t (n_key e) (n_tab e)) eqn:K; [|exact U]. unfold is_kt in K. assert (n_key e = k /\ n_tab e = t) as [KK TT] by lia.
        rewrite KK, TT in E. contradiction.
    - intros a b OKab NE. destruct (is_kt k t a b) eqn:K.
      + unfold is_kt in K. assert (a = k /\ b = t) as [-> ->] by lia. exists d. apply mset_in; [exact N|]. now left.
      + destruct (B a b OKab NE) as [e I]. exists e. apply mset_in; [exact N|]. right. split; [|exact I].
        intros E. apply full_inj in E; [|exact OKab|exact OK]. destruct E as [-> ->]. unfold is_kt in K. rewrite !Nat.eqb_refl in K. discriminate K. }
  destruct (mget idx (full_name keys tabs k t)) as [d|] eqn:M.
  - apply mget_in in M. destruct (A _ _ M) as (E & OKd & U & _). apply full_inj in E; [|exact OK|exact OKd]. destruct E as [EK ET].
    apply G; cbn; [now symmetry|now symmetry|]. rewrite U, <- EK, <- ET. reflexivity.
  - apply G; cbn; [reflexivity|reflexivity|]. destruct (V k t) eqn:EV; [reflexivity|]. exfalso.
    destruct (B k t OK) as [d I]; [rewrite EV; discriminate|]. exact (mget_none _ _ _ d M I).
Qed.
Fixpoint adds (idx : named snode) (b : nat) (pg : Z) (l : list (nat * nat)) : named snode :=
  match l with [] => idx | (k, t) :: l' => adds (add1 idx k t (b, pg)) (S b) pg l' end.
Lemma adds_ok : forall pg l idx V b, IX idx V -> NoDup l -> Forall (fun q => valid (fst q) (snd q)) l ->
  exists V', IX (adds idx b pg l) V' /\ forall k t, (~ In (k, t) l /\ V' k t = V k t) \/ (exists i, nth_error l i = Some (k, t) /\ V' k t = V k t ++ [((b + i)%nat, pg)]).
Proof.
  intros pg. induction l as [|[k t] l IH]; intros idx V b H N F; cbn [adds].
  - exists V. split; [exact H|]. intros k t. left. split; [intros []|reflexivity].
  - inversion N as [|? ? N1 N2]; subst. inversion F as [|? ? F1 F2]; subst. cbn [fst snd] in F1.
    destruct (IH _ _ (S b) (add1_ok idx V k t (b, pg) H F1) N2 F2) as (V' & H' & C). exists V'. split; [exact H'|]. intros a c.
    destruct (C a c) as [[NI E]|(i & I & E)].
    + destruct (is_kt k t a c) eqn:K.
      * right. exists 0%nat. unfold is_kt in K. assert (a = k /\ c = t) as [-> ->] by lia. cbn. split; [reflexivity|]. rewrite E. rewrite Nat.add_0_r. reflexivity.
      * left. split; [|exact E]. intros [J|J]; [|contradiction]. injection J as -> ->. unfold is_kt in K. rewrite !Nat.eqb_refl in K. discriminate K.
    + right. exists (S i). cbn. split; [exact I|]. rewrite E. destruct (is_kt k t a c) eqn:K.
      * exfalso. unfold is_kt in K. assert (a = k /\ c = t) as [-> ->] by lia. apply N1. eapply nth_error_In. exact I.
      * do 3 f_equal. lia.
Qed.
Lemma put_catches_ok : forall pg P l file idx, Forall (wok pg P) l ->
  exists r, put_catches keys tabs file idx l = (file ++ map (fun q => Msg (blk (fst q) (snd q) P)) (live_kt l), adds idx (List.length file) pg (live_kt l), r) /\
    map fst r = map fst l /\ Forall (fun q => fst q = full_name keys tabs (w_key (snd q)) (w_tab (snd q)) /\ valid (w_key (snd q)) (w_tab (snd q)) /\ mem_ok (w_mem (snd q)) /\ mem_live (w_mem (snd q)) = []) r.
Proof.
  intros pg P. induction l as [|[n w] l IH]; intros file idx F; cbn [put_catches].
  - exists []. cbn. rewrite app_nil_r. repeat split; constructor.
  - inversion F as [|? ? W F2]; subst. unfold wok in W. destruct W as (W1 & W2 & W3 & W4). subst n. unfold live_kt. cbn [filter snd]. fold (live_kt l).
    destruct (0 <? Z.of_nat (mem_get_size (w_mem w))) eqn:E.
    + unfold put_block. destruct W4 as [[W4 _]|[W4 W5]]; [rewrite size_live, W4 in E by exact W3; discriminate E|].
      match goal with |- context [put_catches keys tabs ?f ?i l] => destruct (IH f i F2) as (r & -> & R1 & R2) end.
      eexists. split; [|split].
      * cbn [map fst snd]. fold (live_kt l). rewrite W4, W5. rewrite <- app_assoc. rewrite app_length. cbn [List.length adds]. rewrite Nat.add_1_r. reflexivity.
      * cbn. now rewrite R1.
      * constructor; [|exact R2]. cbn. destruct (mem_clear_ok (w_mem w) W3) as [C1 C2]. exact (conj eq_refl (conj W2 (conj C1 C2))).
    + destruct (IH file idx F2) as (r & -> & R1 & R2). exists ((full_name keys tabs (w_key w) (w_tab w), w) :: r). split; [reflexivity|]. split; [cbn; now rewrite R1|].
      constructor; [|exact R2]. cbn. split; [reflexivity|split; [exact W2|split; [exact W3|]]]. rewrite size_live in E by exact W3. destruct (mem_live (w_mem w)); [reflexivity|]. cbn in E. lia.
Qed.
Lemma live_ok : forall pg P l, catches pg P l -> NoDup (live_kt l) /\ Forall (fun q => valid (fst q) (snd q)) (live_kt l) /\ (forall k t x, In (k, t, x) P -> In (k, t) (live_kt l)).
Proof.
  intros pg P l (N & F & C).
  assert (IN : forall k t, In (k, t) (live_kt l) -> exists n w, In (n, w) l /\ w_key w = k /\ w_tab w = t).
  { intros k t I. apply in_map_iff in I. destruct I as ([n w] & E & I). apply filter_In in I. injection E as <- <-. exists n, w. tauto. }
  split; [|split].
  - clear C IN. induction l as [|[n w] l IH]; [constructor|]. cbn [map fst] in N. inversion N as [|? ? N1 N2]; subst. inversion F as [|? ? F1 F2]; subst.
    unfold live_kt. cbn [filter snd]. destruct (0 <? _); [|now apply IH]. cbn [map snd]. constructor; [|now apply IH].
    intros I. apply in_map_iff in I. destruct I as ([n' w'] & E & I). apply filter_In in I. destruct I as [I _]. cbn [snd] in E. injection E as E1 E2.
    apply N1. rewrite Forall_forall in F2. pose proof (F2 _ I) as (X & _). destruct F1 as (Y & _). apply in_map_iff. exists (n', w'). split; [|exact I]. cbn [fst]. rewrite X, Y, E1, E2. reflexivity.
  - apply Forall_forall. intros [k t] I. apply IN in I. destruct I as (n & w & I & <- & <-). rewrite Forall_forall in F. exact (proj1 (proj2 (F _ I))).
  - intros k t x I. destruct (C k t x I) as [OK [w J]]. rewrite Forall_forall in F. pose proof (F _ J) as (X & OKw & O & W).
    apply full_inj in X; [|exact OK|exact OKw]. destruct X as [X1 X2]. apply in_map_iff. exists (full_name keys tabs k t, w). cbn [snd]. split; [now rewrite <- X1, <- X2|].
    apply filter_In. split; [exact J|]. cbn [snd]. destruct W as [[_ W]|[W _]].
    + exfalso. rewrite <- X1, <- X2 in W. apply in_split in I. destruct I as (P1 & P2 & ->). rewrite picked_app in W. apply app_eq_nil in W. destruct W as [_ W].
      cbn [picked] in W. unfold is_kt in W. rewrite !Nat.eqb_refl in W. discriminate W.
    + rewrite size_live, W by exact O. pose proof (blk_ne (w_key w) (w_tab w) P). destruct (blk _ _ P); [congruence|]. cbn. lia.
Qed.

(** * the history: pages [G] that were written with the series of their blocks, the page [P] in the catches *)
Variable sizes : nat -> nat.
Hypothesis SZ : forall t, (0 < sizes t)%nat.
Definition pageT : Type := list prow * list (nat * nat).
Definition sized (P : list prow) : Prop := Forall (fun '(k, t, x) => List.length x = sizes t) P.
Definition good_page (g : pageT) : Prop :=
  sized (fst g) /\ Forall (fun q => valid (fst q) (snd q)) (snd g) /\ (forall k t x, In (k, t, x) (fst g) -> In (k, t) (snd g)).
Definition page_blocks (g : pageT) : list sblock := map (fun q => Msg (blk (fst q) (snd q) (fst g))) (snd g) ++ [End].
Definition file_of (G : list pageT) : list sblock := flat_map page_blocks G.
Definition UV (file : list sblock) (G : list pageT) (V : nat -> nat -> list (nat * Z)) : Prop :=
  forall k t, exists js : list (nat * nat),
    V k t = map (fun q => (fst q, to_u 16 (Z.of_nat (snd q)))) js /\ StronglySorted lt (map snd js) /\
    Forall (fun q => exists g, nth_error G (snd q) = Some g /\ nth_error file (fst q) = Some (Msg (blk k t (fst g)))) js /\
    (forall j g, nth_error G j = Some g -> In (k, t) (snd g) -> In j (map snd js)).
Definition INV (c : sctrl) (G : list pageT) (P : list prow) : Prop :=
  c_sizes c = sizes /\ c_pages c = Z.of_nat (List.length G) /\ c_series c = Z.of_nat (List.length P) /\ sized P /\
  catches (to_u 16 (Z.of_nat (List.length G))) P (c_catch c) /\ Forall good_page G /\ c_file c = file_of G /\
  exists V, IX (c_idx c) V /\ UV (c_file c) G V.
Definition all_rows (G : list pageT) (P : list prow) : list prow := concat (map fst G) ++ P.

Lemma ss_snoc : forall l x, StronglySorted lt l -> Forall (fun y => (y < x)%nat) l -> StronglySorted lt (l ++ [x]).
Proof.
  induction l as [|a l IH]; intros x S F; cbn; [constructor; [constructor|constructor]|]. inversion S as [|? ? S1 S2]; subst. inversion F as [|? ? F1 F2]; subst.
  constructor; [now apply IH|]. apply Forall_app. split; [exact S2|]. constructor; [exact F1|constructor].
Qed.
Lemma UV_step : forall file G V V' P kts, UV file G V ->
  (forall k t, (~ In (k, t) kts /\ V' k t = V k t) \/ (exists i, nth_error kts i = Some (k, t) /\ V' k t = V k t ++ [((List.length file + i)%nat, to_u 16 (Z.of_nat (List.length G)))])) ->
  UV (file ++ page_blocks (P, kts)) (G ++ [(P, kts)]) V'.
Proof.
  intros file G V V' P kts H C k t. destruct (H k t) as (js & E & S & F & COV).
  assert (F' : Forall (fun q => exists g, nth_error (G ++ [(P, kts)]) (snd q) = Some g /\ nth_error (file ++ page_blocks (P, kts)) (fst q) = Some (Msg (blk k t (fst g)))) js).
  { eapply Forall_impl; [|exact F]. intros [b j] (g & A & B). cbn [fst snd] in *. exists g. split; rewrite nth_error_app1; auto; apply nth_error_Some; congruence. }
  assert (LT : Forall (fun y => (y < List.length G)%nat) (map snd js)).
  { apply Forall_forall. intros j I. apply in_map_iff in I. destruct I as (q & <- & I). rewrite Forall_forall in F. destruct (F q I) as (g & A & _). apply nth_error_Some. congruence. }
  destruct (C k t) as [[NI EV]|(i & NI & EV)].
  - exists js. rewrite EV. repeat split; auto. intros j g A I. destruct (Nat.lt_ge_cases j (List.length G)) as [J|J].
    + rewrite nth_error_app1 in A by exact J. now apply (COV j g).
    + rewrite nth_error_app2 in A by exact J. destruct (j - List.length G)%nat as [|[|?]]; cbn in A; try discriminate A. injection A as <-. contradiction.
  - exists (js ++ [((List.length file + i)%nat, List.length G)]). rewrite EV, E, !map_app. repeat split.
    + cbn [map snd]. apply ss_snoc; assumption.
    + apply Forall_app. split; [exact F'|]. constructor; [|constructor]. cbn [fst snd]. exists (P, kts). split.
      * rewrite nth_error_app2, Nat.sub_diag by lia. reflexivity.
      * rewrite nth_error_app2 by lia. replace (List.length file + i - List.length file)%nat with i by lia. unfold page_blocks. cbn [fst snd].
        rewrite nth_error_app1 by (rewrite map_length; apply nth_error_Some; congruence). rewrite nth_error_map, NI. reflexivity.
    + intros j g A I. apply in_or_app. destruct (Nat.lt_ge_cases j (List.length G)) as [J|J].
      * left. rewrite nth_error_app1 in A by exact J. now apply (COV j g).
      * right. rewrite nth_error_app2 in A by exact J. destruct (j - List.length G)%nat as [|[|?]] eqn:D; cbn in A; try discriminate A. cbn. left. lia.
Qed.
Lemma flush_ok : forall c G P, INV c G P ->
  INV (flush keys tabs c) (G ++ [(P, live_kt (c_catch c))]) [].
Proof.
  intros c G P (S1 & S2 & S3 & S4 & K & GP & F & V & HV & HU). unfold flush.
  pose proof (live_ok _ _ _ K) as (N & VA & COV). destruct K as (K1 & K2 & K3).
  destruct (put_catches_ok _ _ _ (c_file c) (c_idx c) K2) as (r & E & R1 & R2). rewrite E.
  destruct (adds_ok (to_u 16 (Z.of_nat (List.length G))) (live_kt (c_catch c)) (c_idx c) V (List.length (c_file c)) HV N VA) as (V' & HV' & CV).
  assert (PB : (c_file c ++ map (fun q => Msg (blk (fst q) (snd q) P)) (live_kt (c_catch c))) ++ [End] = c_file c ++ page_blocks (P, live_kt (c_catch c)))
    by (unfold page_blocks; cbn [fst snd]; now rewrite <- app_assoc).
  refine (conj _ (conj _ (conj _ (conj _ (conj (conj _ (conj _ _)) (conj _ (conj _ _))))))); cbn [c_sizes c_pages c_series c_catch c_file c_idx].
  - exact S1.
  - rewrite app_length. cbn [List.length]. lia.
  - reflexivity.
  - constructor.
  - rewrite R1. exact K1.
  - eapply Forall_impl; [|exact R2]. intros [n w] (A & B & C & D). cbn [fst snd] in *. unfold wok. split; [exact A|split; [exact B|split; [exact C|]]]. left. split; [exact D|reflexivity].
  - intros k t x [].
  - apply Forall_app. split; [exact GP|]. constructor; [|constructor]. split; [exact S4|]. split; [exact VA|exact COV].
  - rewrite PB, F. unfold file_of. rewrite flat_map_app. cbn [flat_map]. now rewrite app_nil_r.
  - exists V'. split; [exact HV'|]. rewrite PB. now apply UV_step with V.
Qed.
Lemma cut_ok : forall c G P, INV c G P -> INV (cut keys tabs c) (G ++ [(P, live_kt (c_catch c))]) [].
Proof.
  intros c G P H. apply flush_ok in H. destruct H as (S1 & S2 & S3 & S4 & K & GP & F & V & HV & HU). unfold cut.
  refine (conj _ (conj _ (conj _ (conj _ (conj (conj _ (conj _ _)) (conj _ (conj _ _))))))); cbn [c_sizes c_pages c_series c_catch c_file c_idx]; auto.
  - constructor.
  - intros k t x [].
  - exists V. split; [exact HV|exact HU].
Qed.
Lemma all_flush : forall G P kts, all_rows (G ++ [(P, kts)]) [] = all_rows G P.
Proof. intros. unfold all_rows. rewrite map_app, concat_app. cbn. now rewrite !app_nil_r. Qed.
Lemma is_kt_eq : forall k t a b, is_kt k t a b = true -> a = k /\ b = t.
Proof. intros. unfold is_kt in H. lia. Qed.
Lemma write_ok : forall pmax c G P k t data, INV c G P -> valid k t -> Nat.modulo (List.length data) (sizes t) = 0%nat ->
  exists c' G' P', write_sno pmax keys tabs c k t data = Some c' /\ INV c' G' P' /\
    all_rows G' P' = all_rows G P ++ map (fun x => (k, t, x)) (pieces (List.length data) (sizes t) data) /\ (List.length G' <= S (List.length G))%nat.
Proof.
  intros pmax c G P k t data H OK MD. pose proof H as (S1 & S2 & S3 & S4 & (K1 & K2 & K3) & GP & F & V & HV & HU). unfold write_sno.
  rewrite S1. pose proof (SZ t) as SZt. replace (Nat.eqb (sizes t) 0) with false by lia. rewrite MD. cbn [Nat.eqb negb]. rewrite full_short by exact OK.
  pose proof (pieces_len (sizes t) (List.length data) data SZt MD) as PL. remember (pieces (List.length data) (sizes t) data) as recs eqn:Er. clear Er.
  remember (match mget (c_catch c) (full_name keys tabs k t) with Some w => w | None => mkwc k t mem_create 0 end) as w eqn:Ew.
  assert (W : w_key w = k /\ w_tab w = t /\ mem_ok (w_mem w) /\
              ((mem_live (w_mem w) = [] /\ picked 0 k t P = []) \/ mem_live (w_mem w) = blk k t P)).
  { destruct (mget (c_catch c) (full_name keys tabs k t)) as [w0|] eqn:M; subst w.
    - apply mget_in in M. rewrite Forall_forall in K2. destruct (K2 _ M) as (A & B & O & D). apply full_inj in A; [|exact OK|exact B]. destruct A as [-> ->].
      repeat split; try apply O. tauto.
    - repeat split; try apply mem_ok_create. left. split; [reflexivity|].
      destruct (picked 0 k t P) as [|[i x] l] eqn:EP; [reflexivity|]. exfalso. assert (I : In (i, x) (picked 0 k t P)) by (rewrite EP; now left).
      apply picked_in in I. destruct (K3 k t x (proj2 I)) as [_ [w J]]. exact (mget_none _ _ _ w M J). }
  destruct W as (W1 & W2 & W3 & W4).
  assert (M1 : exists m1 s1, (if Z.of_nat (mem_get_size (w_mem w)) <? 1
              then (mem_cat_ssize (mem_cat_ssize (w_mem w) (Z.of_nat k)) (Z.of_nat t), c_size c + Z.of_nat (ssize_ret (Z.of_nat k)) + Z.of_nat (ssize_ret (Z.of_nat t)))
              else (w_mem w, c_size c)) = (m1, s1) /\ mem_ok m1 /\ mem_live m1 = blk k t P).
  { rewrite size_live by exact W3. destruct W4 as [[L PE]|L]; rewrite L.
    - cbn [List.length]. change (Z.of_nat 0 <? 1) with true. do 2 eexists. split; [reflexivity|].
      destruct (mem_cat_ssize_spec (w_mem w) (Z.of_nat k) W3 ltac:(lia)) as [O1 E1]. destruct (mem_cat_ssize_spec _ (Z.of_nat t) O1 ltac:(lia)) as [O2 E2].
      split; [exact O2|]. rewrite E2, E1, L. unfold blk, hdr. rewrite PE. cbn. now rewrite app_nil_r.
    - pose proof (blk_ne k t P) as NE. replace (Z.of_nat (List.length (blk k t P)) <? 1) with false by (destruct (blk k t P); [congruence|cbn [List.length]; lia]).
      do 2 eexists. split; [reflexivity|]. split; [exact W3|exact L]. }
  destruct M1 as (m1 & s1 & -> & O1 & L1).
  destruct (put_recs_ok k t recs m1 (c_series c) s1 O1 ltac:(rewrite S3; lia)) as (m2 & s2 & -> & O2 & L2).
  set (new := map (fun x => (k, t, x)) recs) in *.
  assert (LEN : Z.of_nat (List.length (P ++ new)) = c_series c + Z.of_nat (List.length recs)) by (unfold new; rewrite app_length, map_length; lia).
  assert (L2' : mem_live m2 = blk k t (P ++ new)).
  { rewrite L2, L1. unfold blk. rewrite picked_app, encr_app, <- app_assoc. do 3 f_equal. rewrite S3. f_equal. }
  match goal with |- context [flush keys tabs ?x] => set (c1 := x) end.
  assert (I1 : INV c1 G (P ++ new)).
  { unfold c1. refine (conj _ (conj _ (conj _ (conj _ (conj (conj _ (conj _ _)) (conj _ (conj _ _))))))); cbn [c_sizes c_pages c_series c_catch c_file c_idx]; auto.
    - apply Forall_app. split; [exact S4|]. unfold new. apply Forall_forall. intros q I. apply in_map_iff in I. destruct I as (x & <- & I). rewrite Forall_forall in PL. now apply PL.
    - now apply mset_nodup.
    - apply Forall_forall. intros [n w'] I. apply mset_in in I; [|exact K1]. destruct I as [[-> ->]|[NE I]].
      + unfold wok. cbn [w_key w_tab w_mem w_page]. rewrite W1, W2. split; [reflexivity|split; [exact OK|split; [exact O2|]]]. right. split; [exact L2'|]. now rewrite S2.
      + rewrite Forall_forall in K2. destruct (K2 _ I) as (A & B & C & D). unfold wok. split; [exact A|split; [exact B|split; [exact C|]]].
        assert (PA : picked 0 (w_key w') (w_tab w') (P ++ new) = picked 0 (w_key w') (w_tab w') P).
        { rewrite picked_app. unfold new. rewrite picked_other; [apply app_nil_r|]. destruct (is_kt (w_key w') (w_tab w') k t) eqn:Q; [|reflexivity].
          apply is_kt_eq in Q. destruct Q as [-> ->]. contradiction. }
        unfold blk in *. rewrite PA. exact D.
    - intros k0 t0 x0 I. apply in_app_or in I. destruct I as [I|I].
      + destruct (K3 _ _ _ I) as [OKx [w' J]]. split; [exact OKx|]. destruct (is_kt k t k0 t0) eqn:Q.
        * apply is_kt_eq in Q. destruct Q as [-> ->]. eexists. apply mset_in; [exact K1|]. left. split; reflexivity.
        * exists w'. apply mset_in; [exact K1|]. right. split; [|exact J]. intros X. apply full_inj in X; [|exact OKx|exact OK]. destruct X as [-> ->]. unfold is_kt in Q. rewrite !Nat.eqb_refl in Q. discriminate Q.
      + unfold new in I. apply in_map_iff in I. destruct I as (y & Y & _). injection Y as -> -> _. split; [exact OK|]. eexists. apply mset_in; [exact K1|]. left. split; reflexivity.
    - exists V. split; [exact HV|exact HU]. }
  assert (AR : all_rows G (P ++ new) = all_rows G P ++ new) by (unfold all_rows; now rewrite app_assoc).
  destruct (pmax <? s2).
  - exists (flush keys tabs c1), (G ++ [(P ++ new, live_kt (c_catch c1))]), []. split; [reflexivity|]. split; [now apply flush_ok|]. split; [now rewrite all_flush|]. rewrite app_length. cbn. lia.
  - exists c1, G, (P ++ new). split; [reflexivity|]. split; [exact I1|]. split; [exact AR|lia].
Qed.
Lemma start_ok : INV (sstart sizes) [] [].
Proof.
  refine (conj _ (conj _ (conj _ (conj _ (conj (conj _ (conj _ _)) (conj _ (conj _ _)))))));
  try reflexivity; try (intros k t x []; fail); try (constructor; fail). exists (fun _ _ => []). split.
  - split; [constructor|split]; [intros n d []|]. intros k t _ NE. congruence.
  - intros k t. exists []. repeat split; try constructor. intros j g E. destruct j; discriminate E.
Qed.
Lemma row_of_pieces : forall k t l, map (row_of keys tabs) (map (fun x => (k, t, x)) l) = map (mkrow (nth k keys []) (nth t tabs [])) l.
Proof. intros. rewrite map_map. reflexivity. Qed.
Lemma sacts_ok : forall pmax h c G P, INV c G P -> Forall (act_ok keys tabs sizes) h ->
  exists c' G' P', sacts pmax keys tabs c h = Some c' /\ INV c' G' P' /\ map (row_of keys tabs) (all_rows G' P') = map (row_of keys tabs) (all_rows G P) ++ arrived keys tabs sizes h /\ (List.length G' <= List.length G + List.length h)%nat.
Proof.
  intros pmax. induction h as [|a h IH]; intros c G P H F.
  - exists c, G, P. cbn. rewrite app_nil_r. split; [reflexivity|]. split; [exact H|]. split; [reflexivity|lia].
  - inversion F as [|? ? F1 F2]; subst. cbn [sacts arrived]. destruct a as [k t data| |t n]; cbn [sact resize rows_of]; cbn [act_ok] in F1.
    + destruct F1 as (K & T & MD). destruct (write_ok pmax c G P k t data H (conj K T) MD) as (c1 & G1 & P1 & -> & I1 & R1 & Q1).
      destruct (IH c1 G1 P1 I1 F2) as (c2 & G2 & P2 & -> & I2 & R2 & Q2). exists c2, G2, P2. split; [reflexivity|]. split; [exact I2|]. split; [|try rewrite app_length in Q2; cbn [List.length] in *; lia].
      rewrite R2, R1, map_app, <- app_assoc, row_of_pieces. reflexivity.
    + destruct (IH _ _ _ (cut_ok c G P H) F2) as (c2 & G2 & P2 & -> & I2 & R2 & Q2). exists c2, G2, P2. split; [reflexivity|]. split; [exact I2|]. split; [|try rewrite app_length in Q2; cbn [List.length] in *; lia].
      rewrite R2, all_flush. reflexivity.
    + destruct F1.
Qed.
Lemma write_all_ok : forall pmax h, Forall (act_ok keys tabs sizes) h ->
  exists c G, write_all pmax keys tabs sizes h = Some c /\ INV c G [] /\ map (row_of keys tabs) (concat (map fst G)) = arrived keys tabs sizes h /\ (List.length G <= S (List.length h))%nat.
Proof.
  intros pmax h F. unfold write_all. destruct (sacts_ok pmax h _ _ _ start_ok F) as (c & G & P & -> & I & R & Q).
  do 2 eexists. split; [reflexivity|]. split; [apply cut_ok; exact I|]. split; [|rewrite app_length; cbn [List.length] in *; lia]. etransitivity; [|exact R]. rewrite <- (all_flush G P (live_kt (c_catch c))). unfold all_rows. now rewrite app_nil_r.
Qed.

(** * reading the whole file *)
Variables (pn : Z) (stale : nat -> Z).
Hypothesis PN : 0 < pn.
Hypothesis LK : Z.of_nat (List.length keys) < 2 ^ 31.
Hypothesis LT : Z.of_nat (List.length tabs) < 2 ^ 31.
Definition short (G : list pageT) : Prop := Forall (fun g => Z.of_nat (List.length (fst g)) < 2 ^ 31) G.
Lemma msgs_read : forall P kts sel l f2, rows_ok sizes P -> Forall (fun q => valid (fst q) (snd q)) kts -> holds pn l (pageS keys tabs sel P) ->
  exists l', read_file pn stale keys tabs sizes l (map (fun q => Msg (blk (fst q) (snd q) P)) kts ++ f2) = read_file pn stale keys tabs sizes l' f2 /\
    holds pn l' (pageS keys tabs (fun a b => existsb (fun q => is_kt (fst q) (snd q) a b) kts || sel a b) P).
Proof.
  intros P. induction kts as [|[k t] kts IH]; intros sel l f2 R F H; cbn [map app fst snd existsb]; [eauto|].
  inversion F as [|? ? F1 F2]; subst. cbn [read_file].
  destruct (read_page_msg pn stale keys tabs sizes l sel k t P PN H R (proj1 F1) (proj2 F1) LK LT) as (l1 & -> & H1).
  destruct (IH _ l1 f2 R F2 H1) as (l2 & E & H2). exists l2. split; [exact E|]. eapply holds_ext; [exact H2|].
  intros i I. unfold pageS. destruct (nth_error P (Z.to_nat i)) as [[[a b] x]|]; [|reflexivity].
  destruct (is_kt k t a b); destruct (existsb _ kts); reflexivity.
Qed.
Lemma pageS_none : forall P i, pageS keys tabs (fun _ _ => false) P i = None.
Proof. intros. unfold pageS. destruct (nth_error P (Z.to_nat i)) as [[[k t] x]|]; reflexivity. Qed.
Lemma drain_sel : forall l sel P, holds pn l (pageS keys tabs sel P) -> drain l = map (row_of keys tabs) (filter (fun '(k, t, _) => sel k t) P).
Proof.
  intros l sel P H. rewrite <- collect_page. apply (drain_holds pn PN l _ _ H).
  intros i I. unfold pageS. rewrite (proj2 (nth_error_None P (Z.to_nat i))) by lia. reflexivity.
Qed.
Lemma filter_all : forall A (f : A -> bool) l, (forall x, In x l -> f x = true) -> filter f l = l.
Proof. induction l as [|a l IH]; intros H; cbn; [reflexivity|]. rewrite (H a (or_introl eq_refl)), IH; [reflexivity|]. intros x I. apply H. now right. Qed.
Lemma file_read : forall G l, Forall good_page G -> short G -> holds pn l (fun _ => None) ->
  read_file pn stale keys tabs sizes l (file_of G) = Some (map (row_of keys tabs) (concat (map fst G))).
Proof.
  induction G as [|[P kts] G IH]; intros l GP SH H; [reflexivity|]. inversion GP as [|? ? (G1 & G2 & G3) GP2]; subst. inversion SH as [|? ? S1 S2]; subst. cbn [fst snd] in *.
  unfold file_of. cbn [flat_map]. unfold page_blocks. cbn [fst snd]. rewrite <- app_assoc.
  destruct (msgs_read P kts (fun _ _ => false) l ([End] ++ flat_map page_blocks G) (conj G1 S1) G2) as (l' & E & H').
  { eapply holds_ext; [exact H|]. intros i I. now rewrite pageS_none. }
  etransitivity; [exact E|]. clear E. cbn [app read_file]. fold (file_of G). rewrite (IH (rclear l') GP2 S2 (clear_holds pn PN l')). cbn [map concat fst]. rewrite map_app. f_equal. f_equal.
  rewrite (drain_sel _ _ _ H'). f_equal. apply filter_all. intros [[k t] x] I. rewrite orb_false_r. apply existsb_exists. exists (k, t). split; [now apply (G3 k t x)|].
  cbn. unfold is_kt. now rewrite !Nat.eqb_refl.
Qed.

(** * reading some series *)
Lemma side_some : forall strict sub s, S_sub.has COMMA sub = false -> side_ok strict sub (Some s) = side_covers (negb strict) s sub.
Proof. intros strict sub s C. rewrite <- side_ok_covers by exact C. destruct s; [|reflexivity]. unfold side_ok. reflexivity. Qed.
Definition nm (d : snode) : list Z := full_name keys tabs (n_key d) (n_tab d).
Lemma mset_new : forall A (acc : named A) n d, ~ In n (map fst acc) -> mset acc n d = acc ++ [(n, d)].
Proof.
  intros A acc n d N. induction acc as [|[x e] acc IH]; [reflexivity|].
  cbn [mset app]. destruct (list_eq_dec Z.eq_dec x n) as [->|NE]; [destruct N; now left|]. rewrite IH; [reflexivity|]. intros I. apply N. now right.
Qed.
Lemma put_back : forall (m acc : named snode), NoDup (map fst (acc ++ m)) -> (forall n d, In (n, d) m -> n = nm d /\ valid (n_key d) (n_tab d)) ->
  fold_left (fun m d => mset m (firstn 254 (full_name keys tabs (n_key d) (n_tab d))) d) (map snd m) acc = acc ++ m.
Proof.
  induction m as [|[n d] m IH]; intros acc N H; cbn [map snd fold_left]; [now rewrite app_nil_r|].
  destruct (H n d (or_introl eq_refl)) as [E OK]. rewrite full_short by exact OK. unfold nm in E. rewrite <- E.
  assert (NI : ~ In n (map fst acc)).
  { rewrite map_app in N. cbn [map fst] in N. apply NoDup_remove_2 in N. intros I. apply N. apply in_or_app. now left. }
  rewrite mset_new by exact NI. rewrite IH.
  - now rewrite <- app_assoc.
  - rewrite <- app_assoc. exact N.
  - intros n' d' I. apply H. now right.
Qed.
Lemma one_block : forall imax ilen l cur size, (forall d, 0 <= ilen d) -> size + fold_right Z.add 0 (map ilen l) <= imax ->
  idx_blocks imax ilen cur size l = match cur ++ l with [] => [] | g => [g] end.
Proof.
  intros imax ilen l. induction l as [|d l IH]; intros cur size P H; cbn [idx_blocks].
  - rewrite app_nil_r. destruct cur; reflexivity.
  - cbn [map fold_right] in H. pose proof (P d).
    assert (0 <= fold_right Z.add 0 (map ilen l)) by (clear -P; induction l; cbn; [lia|]; pose proof (P a); lia).
    replace (imax <? size + ilen d) with false by lia. rewrite IH by (auto; lia). rewrite <- app_assoc. reflexivity.
Qed.
Lemma fold_max : forall l a, (forall x, In x l -> x <= fold_left Z.max l a) /\ a <= fold_left Z.max l a /\ (fold_left Z.max l a = a \/ In (fold_left Z.max l a) l).
Proof.
  induction l as [|y l IH]; intros a; cbn [fold_left]; [repeat split; [intros x []|lia|now left]|].
  destruct (IH (Z.max a y)) as (A & B & C). repeat split.
  - intros x [->|I]; [lia|now apply A].
  - lia.
  - destruct C as [C|C]; [|right; now right]. destruct (Z.max_spec a y) as [[_ M]|[_ M]]; rewrite M in *; rewrite C; [right; now left|now left].
Qed.
Lemma fold_min : forall l a, (forall x, In x l -> fold_left Z.min l a <= x) /\ fold_left Z.min l a <= a /\ (fold_left Z.min l a = a \/ In (fold_left Z.min l a) l).
Proof.
  induction l as [|y l IH]; intros a; cbn [fold_left]; [repeat split; [intros x []|lia|now left]|].
  destruct (IH (Z.min a y)) as (A & B & C). repeat split.
  - intros x [->|I]; [lia|now apply A].
  - lia.
  - destruct C as [C|C]; [|right; now right]. destruct (Z.min_spec a y) as [[_ M]|[_ M]]; rewrite M in *; rewrite C; [now left|right; now left].
Qed.

(** a node of the index of the pages [G] *)
Definition unit_of (q : nat * nat) : nat * Z := (fst q, Z.of_nat (snd q)).
Definition node_ok (file : list sblock) (G : list pageT) (d : snode) : Prop :=
  valid (n_key d) (n_tab d) /\ n_units d <> [] /\ exists js : list (nat * nat),
    n_units d = map unit_of js /\ StronglySorted lt (map snd js) /\
    Forall (fun q => exists g, nth_error G (snd q) = Some g /\ nth_error file (fst q) = Some (Msg (blk (n_key d) (n_tab d) (fst g)))) js.
Definition has_page (p : nat) (d : snode) : bool := existsb (fun u => snd u =? Z.of_nat p) (n_units d).
Definition left_at (p : nat) (d : snode) : list (nat * Z) := filter (fun u => Z.of_nat p <=? snd u) (n_units d).
Lemma sorted_left : forall js p, StronglySorted lt (map snd js) ->
  (exists b, In (b, p) js /\ filter (fun u => Z.of_nat p <=? snd u) (map unit_of js) = (b, Z.of_nat p) :: filter (fun u => Z.of_nat (S p) <=? snd u) (map unit_of js)) \/
  (~ In p (map snd js) /\ filter (fun u => Z.of_nat p <=? snd u) (map unit_of js) = filter (fun u => Z.of_nat (S p) <=? snd u) (map unit_of js)).
Proof.
  induction js as [|[b j] js IH]; intros p S; cbn [map filter snd unit_of fst].
  - right. split; [intros []|reflexivity].
  - inversion S as [|? ? S1 S2]; subst.
    assert (SAME : (p <= j)%nat -> filter (fun u => Z.of_nat p <=? snd u) (map unit_of js) = map unit_of js /\ filter (fun u => Z.of_nat (Datatypes.S p) <=? snd u) (map unit_of js) = map unit_of js).
    { intros L. rewrite Forall_forall in S2. split; apply filter_all; intros u I; apply in_map_iff in I; destruct I as ([c i] & <- & I);
      assert (j < i)%nat by (apply S2; apply in_map_iff; exists (c, i); split; [reflexivity|exact I]); cbn; lia. }
    destruct (Nat.lt_trichotomy p j) as [L|[->|L]].
    + right. destruct (SAME ltac:(lia)) as [E1 E2]. rewrite E1, E2. replace (Z.of_nat p <=? Z.of_nat j) with true by lia. replace (Z.of_nat (Datatypes.S p) <=? Z.of_nat j) with true by lia.
      split; [|reflexivity]. intros [->|I]; [lia|]. rewrite Forall_forall in S2. specialize (S2 p I). lia.
    + left. exists b. split; [now left|]. destruct (SAME ltac:(lia)) as [E1 E2]. rewrite E1, E2. rewrite Z.leb_refl. replace (Z.of_nat (Datatypes.S j) <=? Z.of_nat j) with false by lia. reflexivity.
    + replace (Z.of_nat p <=? Z.of_nat j) with false by lia. replace (Z.of_nat (Datatypes.S p) <=? Z.of_nat j) with false by lia.
      destruct (IH p S1) as [(c & I & E)|[NI E]]; [left; exists c; split; [now right|exact E]|right; split; [|exact E]]. intros [->|I]; [lia|contradiction].
Qed.
Lemma read_parts_ok : forall file G p g ds sel l, Forall (node_ok file G) ds -> nth_error G p = Some g -> rows_ok sizes (fst g) -> holds pn l (pageS keys tabs sel (fst g)) ->
  exists l', read_parts pn stale keys tabs sizes file (Z.of_nat p) l (map (left_at p) ds) = Some (l', map (left_at (S p)) ds) /\
    holds pn l' (pageS keys tabs (fun a b => existsb (fun d => is_kt (n_key d) (n_tab d) a b && has_page p d) ds || sel a b) (fst g)).
Proof.
  intros file G p g. induction ds as [|d ds IH]; intros sel l F EG R H; cbn [map read_parts existsb]; [exists l; split; [reflexivity|exact H]|].
  inversion F as [|? ? D F2]; subst. destruct D as (OK & NE & js & EU & S & FB).
  assert (HP : has_page p d = true <-> In p (map snd js)).
  { unfold has_page. rewrite EU, existsb_exists. split.
    - intros (u & I & E). apply in_map_iff in I. destruct I as ([c i] & <- & I). cbn in E. apply in_map_iff. exists (c, i). cbn. split; [lia|exact I].
    - intros I. apply in_map_iff in I. destruct I as ([c i] & E & I). cbn in E. subst i. exists (c, Z.of_nat p). split; [apply in_map_iff; exists (c, p); split; [reflexivity|exact I]|cbn; lia]. }
  destruct (sorted_left js p S) as [(b & I & E)|[NI E]].
  - assert (LE : left_at p d = (b, Z.of_nat p) :: left_at (Datatypes.S p) d) by (unfold left_at; rewrite EU; exact E).
    rewrite LE. rewrite Z.eqb_refl. rewrite Forall_forall in FB. destruct (FB _ I) as (g' & A & B). cbn [fst snd] in A, B. rewrite EG in A. injection A as <-. rewrite B.
    destruct (read_page_msg pn stale keys tabs sizes l sel (n_key d) (n_tab d) (fst g) PN H R (proj1 OK) (proj2 OK) LK LT) as (l1 & -> & H1).
    destruct (IH _ l1 F2 EG R H1) as (l2 & -> & H2). exists l2. split; [reflexivity|]. eapply holds_ext; [exact H2|]. intros i Hi. unfold pageS.
    destruct (nth_error (fst g) (Z.to_nat i)) as [[[a c] x]|]; [|reflexivity].
    replace (has_page p d) with true by (symmetry; apply HP; apply in_map_iff; exists (b, p); split; [reflexivity|exact I]). rewrite andb_true_r.
    destruct (is_kt (n_key d) (n_tab d) a c); destruct (existsb _ ds); reflexivity.
  - assert (LE : left_at p d = left_at (Datatypes.S p) d) by (unfold left_at; rewrite EU; exact E).
    replace (has_page p d) with false by (destruct (has_page p d); [exfalso; apply NI; apply HP; reflexivity|reflexivity]).
    destruct (IH sel l F2 EG R H) as (l2 & E2 & H2).
    assert (G1 : match left_at p d with (b, q) :: us' => (q =? Z.of_nat p) = false | [] => True end).
    { rewrite LE. destruct (left_at (Datatypes.S p) d) as [|[b q] us] eqn:EL; [exact Logic.I|]. assert (I : In (b, q) (left_at (Datatypes.S p) d)) by (rewrite EL; now left).
      apply filter_In in I. cbn in I. lia. }
    exists l2. split.
    + destruct (left_at p d) as [|[b q] us] eqn:EL; [rewrite E2, <- LE; reflexivity|]. rewrite G1, E2, <- LE. reflexivity.
    + eapply holds_ext; [exact H2|]. intros i Hi. unfold pageS. destruct (nth_error (fst g) (Z.to_nat i)) as [[[a c] x]|]; [|reflexivity]. rewrite andb_false_r. reflexivity.
Qed.
Definition in_page (ds : list snode) (p : nat) (q : prow) : bool := let '(k, t, _) := q in existsb (fun d => is_kt (n_key d) (n_tab d) k t && has_page p d) ds.
Fixpoint seen (ds : list snode) (p : nat) (G : list pageT) : list prow :=
  match G with [] => [] | g :: G' => filter (in_page ds p) (fst g) ++ seen ds (S p) G' end.
Lemma nth_skipn_cons : forall A (l : list A) p x, nth_error l p = Some x -> skipn p l = x :: skipn (S p) l.
Proof. induction l as [|a l IH]; intros [|p] x E; cbn in *; try discriminate E; [now injection E as ->|]. now apply IH. Qed.
Lemma read_pages_ok : forall file G ds n p l, Forall (node_ok file G) ds -> Forall good_page G -> short G -> holds pn l (fun _ => None) -> (p + n <= List.length G)%nat ->
  read_pages pn stale keys tabs sizes file n (Z.of_nat p) l (map (left_at p) ds) = Some (map (row_of keys tabs) (seen ds p (firstn n (skipn p G)))).
Proof.
  intros file G ds. induction n as [|n IH]; intros p l F GP SH H L; cbn [read_pages]; [reflexivity|].
  destruct (nth_error G p) as [g|] eqn:EG; [|apply nth_error_None in EG; lia].
  assert (I : In g G) by (eapply nth_error_In; exact EG). unfold short in SH. rewrite Forall_forall in GP, SH. destruct (GP g I) as (G1 & _ & _). pose proof (SH g I) as S1.
  destruct (read_parts_ok file G p g ds (fun _ _ => false) l F EG (conj G1 S1)) as (l' & -> & H').
  { eapply holds_ext; [exact H|]. intros i Hi. now rewrite pageS_none. }
  replace (Z.of_nat p + 1) with (Z.of_nat (S p)) by lia.
  rewrite IH; [|exact F|apply Forall_forall; exact GP|apply Forall_forall; exact SH|apply clear_holds; exact PN|lia].
  rewrite (nth_skipn_cons _ _ _ _ EG). cbn [firstn seen]. rewrite map_app. f_equal. f_equal. rewrite (drain_sel _ _ _ H'). f_equal.
  apply filter_ext. intros [[k t] x]. rewrite orb_false_r. reflexivity.
Qed.
Lemma seen_all : forall (ok : prow -> bool) ds G p, (forall j g q, nth_error G j = Some g -> In q (fst g) -> in_page ds (p + j) q = ok q) ->
  seen ds p G = filter ok (concat (map fst G)).
Proof.
  intros ok ds. induction G as [|g G IH]; intros p H; [reflexivity|]. cbn [seen map concat]. rewrite filter_app. f_equal.
  - apply filter_ext_in. intros q I. pose proof (H 0%nat g q eq_refl I) as E. rewrite Nat.add_0_r in E. exact E.
  - apply IH. intros j g' q E I. pose proof (H (S j) g' q E I) as X. replace (p + S j)%nat with (S p + j)%nat in X by lia. exact X.
Qed.
Lemma filter_none : forall A (f : A -> bool) l, (forall x, In x l -> f x = false) -> filter f l = [].
Proof. induction l as [|a l IH]; intros H; cbn; [reflexivity|]. rewrite (H a (or_introl eq_refl)), IH; [reflexivity|]. intros x I. apply H. now right. Qed.
Lemma nth_firstn_some : forall A (l : list A) n i x, nth_error (firstn n l) i = Some x -> nth_error l i = Some x /\ (i < n)%nat.
Proof. induction l as [|a l IH]; intros [|n] [|i] x E; cbn in *; try discriminate E; try (split; [exact E|lia]). apply IH in E. split; [tauto|lia]. Qed.
Lemma nth_skipn_some : forall A (l : list A) n i, nth_error (skipn n l) i = nth_error l (n + i).
Proof. induction l as [|a l IH]; intros [|n] i; cbn; try reflexivity; [destruct i; reflexivity|apply IH]. Qed.
Lemma filter_middle : forall A B (ok : A -> bool) (G : list (list A * B)) a n, (forall j g q, nth_error G j = Some g -> In q (fst g) -> ok q = true -> (a <= j < a + n)%nat) ->
  filter ok (concat (map fst (firstn n (skipn a G)))) = filter ok (concat (map fst G)).
Proof.
  intros A B ok G a n H. rewrite <- (firstn_skipn a G) at 2. rewrite map_app, concat_app, filter_app.
  rewrite (filter_none _ ok (concat (map fst (firstn a G)))).
  - cbn [app]. rewrite <- (firstn_skipn n (skipn a G)) at 2. rewrite map_app, concat_app, filter_app.
    rewrite (filter_none _ ok (concat (map fst (skipn n (skipn a G))))); [now rewrite app_nil_r|].
    intros q I. destruct (ok q) eqn:E; [|reflexivity]. exfalso. apply in_concat in I. destruct I as (P & I1 & I2). apply in_map_iff in I1. destruct I1 as (g & <- & I1).
    apply In_nth_error in I1. destruct I1 as [i I1]. rewrite !nth_skipn_some in I1. pose proof (H _ _ _ I1 I2 E). lia.
  - intros q I. destruct (ok q) eqn:E; [|reflexivity]. exfalso. apply in_concat in I. destruct I as (P & I1 & I2). apply in_map_iff in I1. destruct I1 as (g & <- & I1).
    apply In_nth_error in I1. destruct I1 as [i I1]. apply nth_firstn_some in I1. pose proof (H _ _ _ (proj1 I1) I2 E). lia.
Qed.
Lemma filter_map_rows : forall f l, filter f (map (row_of keys tabs) l) = map (row_of keys tabs) (filter (fun q => f (row_of keys tabs q)) l).
Proof. induction l as [|a l IH]; cbn; [reflexivity|]. rewrite IH. destruct (f (row_of keys tabs a)); reflexivity. Qed.
Lemma part_read : forall c G imax ilen ks ts, INV c G [] -> Z.of_nat (List.length G) <= 2 ^ 16 -> short G -> (forall d, 0 <= ilen d) ->
  fold_right Z.add 0 (map ilen (map snd (c_idx c))) <= imax -> Forall (fun n => S_sub.has COMMA n = false) keys -> Forall (fun n => S_sub.has COMMA n = false) tabs ->
  sub_part pn imax ilen stale keys tabs ks ts c = Some (filter (asked ks ts) (map (row_of keys tabs) (concat (map fst G)))).
Proof.
  intros c G imax ilen ks ts (S1 & S2 & S3 & S4 & K & GP & F & V & (N & IA & IB) & HU) LG SH IP IM CK CT. unfold sub_part.
  assert (RI : read_idx keys tabs (idx_blocks imax ilen [] 0 (map snd (c_idx c))) = (c_idx c, max_page (map snd (c_idx c)) + 1)).
  { rewrite one_block by (auto; lia). cbn [app]. unfold read_idx.
    assert (PB : fold_left (fun m d => mset m (firstn 254 (full_name keys tabs (n_key d) (n_tab d))) d) (map snd (c_idx c)) [] = c_idx c).
    { apply (put_back (c_idx c) []); [exact N|]. intros n d I. destruct (IA n d I) as (A & B & _). split; [exact A|exact B]. }
    destruct (map snd (c_idx c)) as [|d0 l0] eqn:EM.
    - cbn in PB |- *. rewrite PB. reflexivity.
    - cbn [concat]. rewrite app_nil_r, PB. reflexivity. }
  rewrite RI. set (ds := filter (chosen keys tabs ks ts) (map snd (c_idx c))).
  assert (JS : forall k t, exists js : list (nat * nat), V k t = map unit_of js /\ StronglySorted lt (map snd js) /\
    Forall (fun q => exists g, nth_error G (snd q) = Some g /\ nth_error (c_file c) (fst q) = Some (Msg (blk k t (fst g)))) js /\
    (forall j g, nth_error G j = Some g -> In (k, t) (snd g) -> In j (map snd js))).
  { intros k t. destruct (HU k t) as (js & E & S & FB & COV). exists js. split; [|split; [exact S|split; [exact FB|exact COV]]]. rewrite E. apply map_ext_in. intros [b j] I.
    unfold unit_of. cbn [fst snd]. f_equal. rewrite Forall_forall in FB. destruct (FB _ I) as (g & A & _). cbn [snd] in A.
    assert (j < List.length G)%nat by (apply nth_error_Some; congruence). unfold to_u. apply Z.mod_small. lia. }
  assert (NO : forall d, In d (map snd (c_idx c)) -> node_ok (c_file c) G d).
  { intros d I. apply in_map_iff in I. destruct I as ([n d'] & E & I). cbn in E. subst d'. destruct (IA n d I) as (_ & OK & EV & NE). split; [exact OK|split; [exact NE|]].
    destruct (JS (n_key d) (n_tab d)) as (js & E & S & FB & _). exists js. rewrite EV. auto. }
  assert (FD : Forall (node_ok (c_file c) G) ds) by (apply Forall_forall; intros d I; apply filter_In in I; apply NO; tauto).
  assert (CH : forall k t x, valid k t -> forall d, n_key d = k -> n_tab d = t -> chosen keys tabs ks ts d = asked ks ts (row_of keys tabs (k, t, x))).
  { intros k t x [OK OT] d <- <-. unfold chosen, asked. cbn [row_of r_key r_tab].
    rewrite Forall_forall in CK, CT. rewrite (side_some true) by (apply CT; apply nth_In; exact OT). rewrite (side_some false) by (apply CK; apply nth_In; exact OK). apply andb_comm. }
  (* the rows of the chosen nodes in a page *)
  assert (IN : forall j g q, nth_error G j = Some g -> In q (fst g) -> in_page ds j q = asked ks ts (row_of keys tabs q)).
  { intros j g [[k t] x] EG I. rewrite Forall_forall in GP. destruct (GP g (nth_error_In _ _ EG)) as (_ & VA & COV). pose proof (COV k t x I) as IK.
    assert (OK : valid k t) by (rewrite Forall_forall in VA; exact (VA _ IK)).
    destruct (asked ks ts (row_of keys tabs (k, t, x))) eqn:EA.
    - unfold in_page. apply existsb_exists. destruct (JS k t) as (js & E & S & FB & CV). pose proof (CV j g EG IK) as IJ.
      destruct (IB k t OK) as [d ID]; [rewrite E; destruct js; [destruct IJ|discriminate]|]. destruct (IA _ _ ID) as (A & B & C & _). apply full_inj in A; [|exact OK|exact B]. destruct A as [A1 A2].
      exists d. split.
      + apply filter_In. split; [apply in_map_iff; exists (full_name keys tabs k t, d); split; [reflexivity|exact ID]|]. rewrite (CH k t x OK d) by congruence. exact EA.
      + rewrite <- A1, <- A2 in *. unfold is_kt. rewrite !Nat.eqb_refl. cbn [andb]. unfold has_page. rewrite C, E. apply existsb_exists.
        apply in_map_iff in IJ. destruct IJ as ([b i] & Ei & IJ). cbn in Ei. subst i. exists (unit_of (b, j)). split; [now apply in_map|]. cbn. lia.
    - unfold in_page. destruct (existsb _ ds) eqn:EX; [|reflexivity]. exfalso. apply existsb_exists in EX. destruct EX as (d & ID & Q). apply andb_true_iff in Q. destruct Q as [Q _].
      apply is_kt_eq in Q. destruct Q as [Q1 Q2]. apply filter_In in ID. destruct ID as [_ ID]. rewrite (CH k t x OK d) in ID by congruence. congruence. }
  rewrite filter_map_rows.
  destruct ds as [|d0 ds'] eqn:ED.
  - cbn [map]. rewrite filter_none; [reflexivity|]. intros q I. apply in_concat in I. destruct I as (P & I1 & I2). apply in_map_iff in I1. destruct I1 as (g & <- & I1).
    apply In_nth_error in I1. destruct I1 as [j I1]. rewrite <- (IN j g q I1 I2). destruct q as [[k t] x]. reflexivity.
  - rewrite <- ED in *. assert (MD : map n_units ds = n_units d0 :: map n_units ds') by (rewrite ED; reflexivity).
    replace (match map n_units ds with [] => Some [] | _ => read_pages pn stale keys tabs (c_sizes c) (c_file c) (Z.to_nat (max_page (map snd (c_idx c)) + 1 - min_page (map n_units ds))) (min_page (map n_units ds)) [] (map n_units ds) end)
      with (read_pages pn stale keys tabs (c_sizes c) (c_file c) (Z.to_nat (max_page (map snd (c_idx c)) + 1 - min_page (map n_units ds))) (min_page (map n_units ds)) [] (map n_units ds))
      by (rewrite MD; reflexivity).
    assert (PG : forall d u, node_ok (c_file c) G d -> In u (n_units d) -> exists j, snd u = Z.of_nat j /\ (j < List.length G)%nat).
    { intros d u (_ & _ & js & E & _ & FB) I. rewrite E in I. apply in_map_iff in I. destruct I as ([b j] & <- & I). exists j. split; [reflexivity|].
      rewrite Forall_forall in FB. destruct (FB _ I) as (g & A & _). apply nth_error_Some. cbn [snd] in A. congruence. }
    (* the smallest page *)
    set (hd := fun us : list (nat * Z) => match us with (_, p) :: _ => p | [] => 0 end).
    assert (MIN : exists a, min_page (map n_units ds) = Z.of_nat a /\ (a < List.length G)%nat /\ forall d u, In d ds -> In u (n_units d) -> Z.of_nat a <= snd u).
    { assert (HD : forall d, In d ds -> In (hd (n_units d)) (map snd (n_units d)) /\ forall u, In u (n_units d) -> hd (n_units d) <= snd u).
      { intros d I. rewrite Forall_forall in FD. destruct (FD d I) as (_ & NE & js & E & SS & _). rewrite E in *. destruct js as [|[b j] js]; [cbn in NE; congruence|]. cbn [map] in *.
        split; [now left|]. inversion SS as [|? ? S5 S6]; subst. intros u [<-|Iu]; [cbn; lia|]. apply in_map_iff in Iu. destruct Iu as ([b' j'] & <- & Iu).
        rewrite Forall_forall in S6. assert (j < j')%nat by (apply S6; apply in_map_iff; exists (b', j'); split; [reflexivity|exact Iu]). cbn. lia. }
      assert (EM : min_page (map n_units ds) = fold_left Z.min (map hd (map n_units ds')) (hd (n_units d0))) by (rewrite MD; reflexivity).
      destruct (fold_min (map hd (map n_units ds')) (hd (n_units d0))) as (A & B & C). rewrite <- EM in A, B, C.
      assert (X : exists d, In d ds /\ min_page (map n_units ds) = hd (n_units d)).
      { destruct C as [C|C]; [exists d0; split; [rewrite ED; now left|exact C]|]. apply in_map_iff in C. destruct C as (us & C1 & C2). apply in_map_iff in C2. destruct C2 as (d & <- & C2).
        exists d. split; [rewrite ED; now right|now symmetry]. }
      destruct X as (d & ID & X). destruct (HD d ID) as [H1 _]. apply in_map_iff in H1. destruct H1 as (u & H1 & H2). rewrite Forall_forall in FD. destruct (PG d u (FD d ID) H2) as (a & A1 & A2).
      exists a. split; [rewrite X, <- H1; exact A1|]. split; [exact A2|]. intros d' u' ID' IU'. apply Z.le_trans with (hd (n_units d')); [|now apply HD].
      rewrite <- A1, H1, <- X. rewrite ED in ID'. destruct ID' as [<-|ID']; [exact B|]. apply A. apply in_map. now apply in_map. }
    destruct MIN as (a & EA & AG & AL). rewrite EA.
    destruct (fold_max (map snd (flat_map n_units (map snd (c_idx c)))) 0) as (XA & XB & XC). fold (max_page (map snd (c_idx c))) in XA, XB, XC.
    remember (max_page (map snd (c_idx c))) as mx eqn:Emx. clear Emx.
    assert (MX : mx + 1 <= Z.of_nat (List.length G)).
    { destruct XC as [->|XC]; [lia|]. apply in_map_iff in XC. destruct XC as (u & <- & XC). apply in_flat_map in XC. destruct XC as (d & I1 & I2). destruct (PG d u (NO d I1) I2) as (j & -> & J). lia. }
    assert (PL : map n_units ds = map (left_at a) ds).
    { apply map_ext_in. intros d I. unfold left_at. symmetry. apply filter_all. intros u Iu. apply Z.leb_le. now apply (AL d). }
    rewrite S1, PL, (read_pages_ok (c_file c) G ds _ a []); [|exact FD|exact GP|exact SH|apply nil_holds|lia].
    f_equal. f_equal. etransitivity; [apply (seen_all (fun q => asked ks ts (row_of keys tabs q)))|apply filter_middle].
    + intros j g q E I. apply nth_firstn_some in E. destruct E as [E _]. rewrite nth_skipn_some in E. now apply (IN _ g).
    + intros j g q E I OKq. rewrite <- (IN j g q E I) in OKq. destruct q as [[k t] x]. unfold in_page in OKq. apply existsb_exists in OKq. destruct OKq as (d & ID & Q).
      apply andb_true_iff in Q. destruct Q as [_ Q]. unfold has_page in Q. apply existsb_exists in Q. destruct Q as (u & Iu & Q).
      pose proof (AL d u ID Iu). assert (snd u <= mx).
      { apply XA. apply in_map. apply in_flat_map. exists d. split; [apply filter_In in ID; tauto|exact Iu]. }
      lia.
Qed.
End Writer.
