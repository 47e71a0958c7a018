(** Proofs about the struct array. *)
From Verif Require Import Base S_list M_list.
From Coq Require Import ZifyBool ZifyNat.

Section Pure.
Context {A : Type}.

Lemma aget_app (p m q : list A) : aget (p ++ m ++ q) (length p) (length m) = Some m.
Proof.
  unfold aget. rewrite !app_length. destruct (Nat.leb_spec (length p + length m) (length p + (length m + length q))); [|lia].
  rewrite skipn_app, skipn_all, Nat.sub_diag. cbn [skipn app]. rewrite firstn_app, firstn_all, Nat.sub_diag.
  cbn [firstn]. rewrite app_nil_r. reflexivity.
Qed.

Lemma aput_app (p m q xs : list A) : length xs = length m -> aput (p ++ m ++ q) (length p) xs = Some (p ++ xs ++ q).
Proof.
  intros H. unfold aput. rewrite !app_length, H.
  destruct (Nat.leb_spec (length p + length m) (length p + (length m + length q))); [|lia].
  f_equal. rewrite firstn_app, firstn_all, Nat.sub_diag. cbn [firstn]. rewrite app_nil_r. f_equal. f_equal.
  rewrite app_assoc, skipn_app, skipn_all2 by (rewrite app_length; lia).
  rewrite app_length, Nat.sub_diag. reflexivity.
Qed.

(** same, with positions given by equations *)
Lemma aget_at b (p m q : list A) off n : b = p ++ m ++ q -> off = length p -> n = length m -> aget b off n = Some m.
Proof. intros -> -> ->. apply aget_app. Qed.
Lemma aput_at b (p m q xs : list A) off : b = p ++ m ++ q -> off = length p -> length xs = length m ->
  aput b off xs = Some (p ++ xs ++ q).
Proof. intros -> -> H. apply aput_app. assumption. Qed.

Lemma split_at (l : list A) n : (n <= length l)%nat -> exists a b, l = a ++ b /\ length a = n.
Proof. intros H. exists (firstn n l), (skipn n l). rewrite firstn_skipn, firstn_length. split; [reflexivity|lia]. Qed.

(** the array holds the sequence [l] *)
Definition holds_seq (s : slist A) (l : list A) : Prop :=
  exists p q, lbuf s = p ++ l ++ q /\ length p = lstart s /\ length l = lcount s.

Lemma grow_size_ge n : (n <= grow_size n)%nat.
Proof.
  unfold grow_size.
  destruct (Nat.eqb_spec n 1), (Nat.ltb_spec n 16), (Nat.ltb_spec n 64), (Nat.ltb_spec n 256), (Nat.ltb_spec n 1024); lia.
Qed.

(** shifting the content to the front *)
Lemma move_front b (p l q : list A) off n : b = p ++ l ++ q -> off = length p -> n = length l ->
  exists q', amove b 0 off n = Some (l ++ q') /\ length (l ++ q') = length b.
Proof.
  intros -> -> ->. unfold amove. rewrite aget_app.
  destruct (split_at (p ++ l ++ q) (length l)) as (a & b & E & La); [rewrite !app_length; lia|].
  exists b. rewrite (aput_at _ [] a b l) by (cbn; auto). split; [reflexivity|].
  rewrite E, !app_length. lia.
Qed.

Lemma update_ok s l i x : holds_seq s l ->
  exists s', sl_update s i x = Some (s', if (0 <=? i) && (i <? Z.of_nat (length l)) then i else -1)
    /\ holds_seq s' (seq_update l i x).
Proof.
  intros (p & q & B & Lp & Ll). unfold sl_update, seq_update. rewrite Ll.
  destruct ((0 <=? i) && (i <? Z.of_nat (lcount s))) eqn:E.
  2:{ exists s. split; [reflexivity|]. exists p, q. auto. }
  destruct (split_at l (Z.to_nat i)) as (a & b & El & La); [lia|].
  destruct b as [|y b]; [apply (f_equal (@length _)) in El; rewrite app_nil_r in El; lia|].
  rewrite (aput_at _ (p ++ a) [y] (b ++ q) [x]) by (rewrite ?B, ?El, ?app_length, <- ?app_assoc; cbn; auto; lia).
  eexists. split; [reflexivity|]. exists p, q. cbn [lbuf lstart lcount].
  rewrite El, firstn_app, La, Nat.sub_diag, <- La, firstn_all. cbn [firstn]. rewrite app_nil_r.
  rewrite skipn_app, skipn_all2 by lia. replace (S (length a) - length a)%nat with 1%nat by lia. cbn [skipn app].
  rewrite <- !app_assoc. cbn [app]. split; [reflexivity|]. split; [assumption|].
  rewrite El, app_length in Ll. rewrite app_length. cbn [length] in *. lia.
Qed.

Lemma firstn_at (a b : list A) n : n = length a -> firstn n (a ++ b) = a.
Proof. intros ->. rewrite firstn_app, firstn_all, Nat.sub_diag. cbn. apply app_nil_r. Qed.
Lemma skipn_at (a b : list A) n : n = length a -> skipn n (a ++ b) = b.
Proof. intros ->. rewrite skipn_app, skipn_all, Nat.sub_diag. reflexivity. Qed.

(** opening a hole of the width of [g] in front of [m] *)
Lemma open_hole b (p m g q : list A) dst src n : b = p ++ m ++ g ++ q -> src = length p -> n = length m ->
  dst = (length p + length g)%nat ->
  exists h, amove b dst src n = Some (p ++ h ++ m ++ q) /\ length h = length g.
Proof.
  intros -> -> -> ->. unfold amove. rewrite aget_app.
  destruct (split_at (m ++ g) (length g)) as (h & t & E & Lh); [rewrite app_length; lia|].
  exists h. rewrite (aput_at _ (p ++ h) t q m).
  - rewrite <- !app_assoc. auto.
  - rewrite <- !app_assoc, (app_assoc h), <- E, <- !app_assoc. reflexivity.
  - rewrite app_length. lia.
  - apply (f_equal (@length _)) in E. rewrite !app_length in E. lia.
Qed.

Lemma get_ok s l i : holds_seq s l -> sl_get s i = Some (seq_get l i).
Proof.
  intros (p & q & B & Lp & Ll). unfold sl_get, seq_get, sl_at. rewrite <- Ll.
  destruct ((0 <=? i) && (i <? Z.of_nat (length l))) eqn:E.
  - destruct (Z.ltb_spec i 0); [lia|]. rewrite B, nth_error_app2, nth_error_app1 by lia.
    replace (Z.to_nat i + lstart s - length p)%nat with (Z.to_nat i) by lia.
    destruct (nth_error l (Z.to_nat i)) eqn:E2; [reflexivity|]. apply nth_error_None in E2. lia.
  - destruct (Z.ltb_spec i 0); [reflexivity|]. rewrite (proj2 (nth_error_None l (Z.to_nat i))) by lia. reflexivity.
Qed.

Lemma pop_ok s l : holds_seq s l ->
  exists s', sl_pop s = Some (s', hd_error l) /\ holds_seq s' (tl l).
Proof.
  intros (p & q & B & Lp & Ll). unfold sl_pop, sl_at. destruct l as [|x l]; cbn [length] in Ll.
  - rewrite <- Ll. cbn. exists s. split; [reflexivity|]. exists p, q. auto.
  - destruct (Nat.ltb_spec 0 (lcount s)); [|lia]. rewrite B, nth_error_app2 by lia.
    rewrite <- Lp, Nat.sub_diag. cbn [nth_error app]. eexists. split; [reflexivity|].
    exists (p ++ [x]), q. cbn [lbuf lstart lcount]. rewrite <- app_assoc, app_length. cbn [length tl]. repeat split; auto; lia.
Qed.

Lemma delete_ok s l i c : holds_seq s l ->
  exists s', sl_delete s i c = Some (s', if seq_can_delete l i c then c else 0) /\ holds_seq s' (seq_delete l i c).
Proof.
  intros H. assert (H' := H). destruct H' as (p & q & B & Lp & Ll). unfold sl_delete, seq_delete, seq_can_delete.
  rewrite Ll.
  destruct ((i <? 0) || (c <? 1) || (i + c >? Z.of_nat (lcount s))) eqn:E.
  - replace ((0 <=? i) && (1 <=? c) && (i + c <=? Z.of_nat (lcount s))) with false by lia. exists s. auto.
  - replace ((0 <=? i) && (1 <=? c) && (i + c <=? Z.of_nat (lcount s))) with true by lia.
    assert (Hm : exists s1 q1, (if Nat.ltb 0 (lstart s) then match amove (lbuf s) 0 (lstart s) (lcount s) with
                | Some b => Some (mksl b 0 (lcount s) (lnew s)) | None => None end else Some s) = Some s1
              /\ lbuf s1 = l ++ q1 /\ lstart s1 = 0%nat /\ lcount s1 = lcount s).
    { destruct (Nat.ltb_spec 0 (lstart s)).
      - destruct (move_front (lbuf s) p l q (lstart s) (lcount s)) as (q' & E' & L'); auto.
        rewrite E'. eexists _, q'. split; [reflexivity|]. auto.
      - exists s, q. split; [reflexivity|]. destruct p; [|cbn in Lp; lia]. auto. }
    destruct Hm as (s1 & q1 & -> & B1 & S1 & C1).
    destruct (split_at l (Z.to_nat i)) as (a & m & El & La); [lia|].
    assert (Lm : length l = (length a + length m)%nat) by (rewrite El, app_length; reflexivity).
    destruct (split_at m (Z.to_nat c)) as (g & t & Em & Lg); [lia|].
    assert (Lt : length m = (length g + length t)%nat) by (rewrite Em, app_length; reflexivity).
    unfold amove. rewrite (aget_at _ (a ++ g) t q1) by (rewrite ?B1, ?El, ?Em, ?app_length, <- ?app_assoc; auto; lia).
    destruct (split_at (g ++ t) (length t)) as (t1 & g1 & E3 & L3); [rewrite app_length; lia|].
    assert (L4 := f_equal (@length _) E3). rewrite !app_length in L4.
    rewrite (aput_at _ a t1 (g1 ++ q1) t); [|rewrite B1, El, Em, E3, <- !app_assoc; reflexivity|lia|lia].
    eexists. split; [reflexivity|]. exists [], (g1 ++ q1). cbn [lbuf lstart lcount].
    rewrite El at 1 2. rewrite firstn_at by lia.
    replace (skipn (Z.to_nat (i + c)) (a ++ m)) with t.
    2:{ rewrite Em, app_assoc, skipn_at; [reflexivity|]. rewrite app_length. lia. }
    rewrite <- app_assoc, app_length. split; [reflexivity|]. split; [cbn; symmetry; assumption|]. rewrite C1, firstn_length, skipn_length. lia.
Qed.

Lemma skip_split (l : list A) k : (k <= length l)%nat -> exists a, l = a ++ skipn k l /\ length a = k.
Proof. intros H. exists (firstn k l). rewrite firstn_skipn, firstn_length. split; [reflexivity|lia]. Qed.

Lemma limit_ok s l n : holds_seq s l -> holds_seq (sl_limit s n) (seq_last l n).
Proof.
  intros (p & q & B & Lp & Ll). unfold sl_limit, seq_last.
  destruct (Z.ltb_spec n 1); cbn [orb]; [exists p, q; auto|].
  destruct (n >? Z.of_nat (lcount s)) eqn:E.
  - replace (length l - Z.to_nat n)%nat with 0%nat by lia. exists p, q. auto.
  - destruct (skip_split l (length l - Z.to_nat n)) as (a & Ea & La); [lia|].
    exists (p ++ a), q. cbn [lbuf lstart lcount]. rewrite skipn_length, app_length.
    split; [rewrite B, Ea at 1; rewrite <- !app_assoc; reflexivity|]. lia.
Qed.

Lemma rect_ok s l n : holds_seq s l -> exists s', sl_rect s n = Some s' /\ holds_seq s' (seq_last l n).
Proof.
  intros H. assert (X := limit_ok s l n H). unfold sl_limit, sl_rect in *.
  destruct ((n <? 1) || (n >? Z.of_nat (lcount s))) eqn:E; [exists s; auto|].
  destruct (Nat.ltb_spec (Z.to_nat n) (lstart s + lcount s - Z.to_nat n)).
  - destruct X as (p & q & B & Lp & Ll). cbn [lbuf lstart lcount] in *.
    destruct (move_front (lbuf s) p (seq_last l n) q (lstart s + lcount s - Z.to_nat n) (Z.to_nat n)) as (q' & E' & L'); auto.
    rewrite E'. eexists. split; [reflexivity|]. exists [], q'. auto.
  - eexists. split; [reflexivity|exact X].
Qed.

Lemma create_ok : holds_seq sl_create [].
Proof. exists [], []. auto. Qed.

Lemma seq_run_snoc ops op : forall l : list A,
  fst (seq_run l (ops ++ [op])) = fst (seq_step (fst (seq_run l ops)) op).
Proof.
  induction ops as [|o ops IH]; intros l; cbn [seq_run app].
  - cbn [fst]. destruct (seq_step l op) eqn:E. reflexivity.
  - destruct (seq_step l o) as [l1 r]. specialize (IH l1).
    destruct (seq_run l1 (ops ++ [op])), (seq_run l1 ops). cbn [fst] in *. assumption.
Qed.
End Pure.

Section L.
Context {A : Type}.
Variable junk : nat -> nat -> A.

Lemma fresh_length k n : length (fresh junk k n) = n.
Proof. unfold fresh. rewrite map_length, seq_length. reflexivity. Qed.

Lemma grow_ok s l n : holds_seq s l ->
  exists s' p q r, sl_grow junk s n = Some s' /\ lbuf s' = p ++ l ++ q ++ r /\ length p = lstart s'
    /\ length l = lcount s' /\ length q = n /\ lcount s' = lcount s.
Proof.
  intros (p & q & E & Lp & Ll). unfold sl_grow.
  assert (Hmid : forall s1 newlen1, (exists q1, lbuf s1 = match lbuf s1 with _ => lbuf s1 end /\
      exists p1, lbuf s1 = p1 ++ l ++ q1 /\ length p1 = lstart s1) -> lcount s1 = lcount s ->
      newlen1 = (lstart s1 + lcount s1 + n)%nat -> (length (lbuf s1) < newlen1 -> lstart s1 = 0)%nat ->
      exists s' p q r, (if Nat.leb newlen1 (length (lbuf s1)) then Some s1
        else match aget (lbuf s1) (lstart s1) (lcount s1) with
             | None => None
             | Some xs => match aput (fresh junk (lnew s1) (grow_size newlen1)) 0 xs with
               | None => None
               | Some nb' => Some (mksl nb' (if lbuf s1 then lstart s1 else 0%nat) (lcount s1) (S (lnew s1))) end
             end) = Some s'
        /\ lbuf s' = p ++ l ++ q ++ r /\ length p = lstart s' /\ length l = lcount s' /\ length q = n /\ lcount s' = lcount s).
  { intros s1 nl (q1 & _ & p1 & E1 & Lp1) Hc Hn Hz.
    assert (HL : length (lbuf s1) = (length p1 + length l + length q1)%nat) by (rewrite E1, !app_length; lia).
    destruct (Nat.leb_spec nl (length (lbuf s1))).
    - destruct (split_at q1 n) as (a & b & Eq & La); [lia|]. subst q1.
      exists s1, p1, a, b. repeat split; auto; lia.
    - rewrite (aget_at _ p1 l q1) by (auto; lia). cbn zeta.
      set (fb := fresh junk (lnew s1) (grow_size nl)).
      assert (Lf : length fb = grow_size nl) by apply fresh_length. assert (Hg := grow_size_ge nl).
      destruct (split_at fb (length l)) as (a & b & Ef & La); [lia|].
      rewrite (aput_at fb [] a b l) by (cbn; auto).
      assert (Lb : (n <= length b)%nat) by (rewrite Ef, app_length in Lf; lia).
      destruct (split_at b n) as (b1 & b2 & Eb & Lb1); [lia|].
      eexists _, [], b1, b2. split; [reflexivity|]. cbn [lbuf lstart lcount].
      split; [rewrite Eb; reflexivity|]. split; [destruct (lbuf s1); cbn; [symmetry; apply Hz; lia|reflexivity]|].
      repeat split; auto; lia. }
  destruct (Nat.ltb_spec (length (lbuf s)) (lstart s + lcount s + n)) as [H|H].
  - destruct (Nat.ltb_spec 0 (lstart s)) as [H0|H0]; cbn [andb].
    + destruct (move_front (lbuf s) p l q (lstart s) (lcount s)) as (q' & E' & L'); auto.
      rewrite E'. apply Hmid; cbn [lbuf lstart lcount]; auto. exists q'. split; [reflexivity|]. exists []. auto.
    + apply Hmid; auto; [|lia]. exists q. split; [destruct (lbuf s); reflexivity|]. exists p. auto.
  - cbn [andb]. apply Hmid; auto; [|lia]. exists q. split; [destruct (lbuf s); reflexivity|]. exists p. auto.
Qed.

Lemma pushs_ok s l xs : holds_seq s l ->
  exists s', sl_pushs junk s xs = Some (s', Z.of_nat (length l + length xs) - 1) /\ holds_seq s' (l ++ xs).
Proof.
  intros H. destruct (grow_ok s l (length xs) H) as (s' & p & q & r & E & B & Lp & Ll & Lq & _).
  unfold sl_pushs. rewrite E.
  rewrite (aput_at _ (p ++ l) q r xs) by (rewrite ?app_length, ?B, <- ?app_assoc; auto; lia).
  eexists. split; [f_equal; f_equal; lia|]. exists p, r. cbn [lbuf lstart lcount].
  rewrite <- !app_assoc, app_length. repeat split; auto; lia.
Qed.

Lemma inserts_ok s l i xs : holds_seq s l ->
  exists s', sl_inserts junk s i xs
      = Some (s', if i >=? Z.of_nat (length l) then Z.of_nat (length l + length xs) - 1
                  else if (length l =? 0)%nat then Z.of_nat (length l + length xs) - 1 else Z.max i 0)
    /\ holds_seq s' (seq_insert l i xs).
Proof.
  intros H. assert (H' := H). destruct H' as (p0 & q0 & _ & _ & Ll). unfold sl_inserts, seq_insert, seq_place.
  destruct ((Z.of_nat (lcount s) <? 1) || (i >? Z.of_nat (lcount s) - 1)) eqn:E.
  - destruct (pushs_ok s l xs H) as (s' & E1 & H1). exists s'. split.
    + rewrite E1. f_equal. f_equal. destruct (i >=? Z.of_nat (length l)) eqn:E2; [reflexivity|].
      destruct (Nat.eqb_spec (length l) 0); lia.
    + rewrite Nat.min_r by lia. rewrite firstn_all, skipn_all, app_nil_r. assumption.
  - destruct (grow_ok s l (length xs) H) as (s' & p & q & r & E1 & B & Lp & Ll' & Lq & Hc). cbn zeta. rewrite E1.
    set (i' := if i <? 0 then 0 else i). assert (Hi : i' = Z.max i 0 /\ 0 <= i' < Z.of_nat (length l)) by (subst i'; destruct (Z.ltb_spec i 0); lia).
    rewrite Nat.min_l by lia.
    destruct (split_at l (Z.to_nat i')) as (a & m & El & La); [lia|].
    assert (Lm : length l = (length a + length m)%nat) by (rewrite El, app_length; reflexivity).
    destruct (open_hole (lbuf s') (p ++ a) m q r (Z.to_nat i' + lstart s' + length xs) (Z.to_nat i' + lstart s')
       (lcount s' - Z.to_nat i')) as (h & E2 & Lh).
    { rewrite B, El, <- !app_assoc. reflexivity. }
    { rewrite app_length. lia. } { lia. } { rewrite app_length. lia. }
    rewrite E2. rewrite (aput_at _ (p ++ a) h (m ++ r) xs) by (rewrite ?app_length; auto; lia).
    eexists. split.
    + f_equal. f_equal. destruct (i >=? Z.of_nat (length l)) eqn:E3; [lia|]. destruct (Nat.eqb_spec (length l) 0); lia.
    + exists p, r. cbn [lbuf lstart lcount].
      rewrite El, firstn_at, skipn_at by lia. rewrite <- !app_assoc. split; [reflexivity|]. split; [assumption|].
      rewrite !app_length. lia.
Qed.

Lemma pack_ok s l : holds_seq s l -> exists s', sl_pack junk s = Some s' /\ holds_seq s' l /\ lcount s' = length l.
Proof.
  intros (p & q & B & Lp & Ll). unfold sl_pack. destruct (Nat.ltb_spec 0 (lcount s)).
  - rewrite (aget_at _ p l q) by auto.
    rewrite (aput_at _ [] (fresh junk (lnew s) (lcount s)) [] l) by (rewrite ?app_nil_r, ?fresh_length; auto).
    eexists. split; [reflexivity|]. split; [|cbn; auto]. exists [], []. auto.
  - exists (mksl [] 0 0 (lnew s)). split; [reflexivity|]. destruct l; [|cbn in Ll; lia]. split; [exists [], []; auto|reflexivity].
Qed.

Lemma set_ok s l xs : holds_seq s l ->
  exists s', sl_set junk s xs = Some (s', Z.of_nat (length xs)) /\ holds_seq s' (match xs with [] => l | _ => xs end).
Proof.
  intros H. unfold sl_set. destruct xs as [|x xs]; [exists s; auto|].
  set (ys := x :: xs). unfold sl_set_size. cbn [lbuf].
  rewrite (aput_at _ [] (fresh junk (lnew s) (length ys)) [] ys) by (rewrite ?app_nil_r, ?fresh_length; auto).
  eexists. split; [reflexivity|]. exists [], []. auto.
Qed.

Lemma step_ok s l op : holds_seq s l ->
  exists s', sl_step junk s op = Some (s', snd (seq_step l op)) /\ holds_seq s' (fst (seq_step l op)).
Proof.
  intros H. destruct op; cbn [sl_step seq_step fst snd].
  - destruct (pushs_ok s l xs H) as (s' & E & H'). rewrite E, app_length. eauto.
  - destruct (update_ok s l i x H) as (s' & E & H'). rewrite E. eauto.
  - destruct (inserts_ok s l i xs H) as (s' & E & H'). rewrite E, app_length. exists s'. split; [|assumption].
    destruct (i >=? Z.of_nat (length l)); cbn [orb]; [reflexivity|]. destruct (length l =? 0)%nat; reflexivity.
  - destruct (delete_ok s l s0 c H) as (s' & E & H'). rewrite E. eauto.
  - destruct (pop_ok s l H) as (s' & E & H'). rewrite E. eauto.
  - eexists. split; [reflexivity|]. exists [], (lbuf s). auto.
  - eexists. split; [reflexivity|]. apply limit_ok. assumption.
  - destruct (rect_ok s l n H) as (s' & E & H'). rewrite E. eauto.
  - destruct (pack_ok s l H) as (s' & E & H' & HC). rewrite E, HC. eauto.
  - destruct (set_ok s l xs H) as (s' & E & H'). rewrite E. eauto.
  - rewrite (get_ok s l i H). eauto.
Qed.

Lemma run_ok ops : forall s l, holds_seq s l ->
  exists s', sl_run junk s ops = Some (s', snd (seq_run l ops)) /\ holds_seq s' (fst (seq_run l ops)).
Proof.
  induction ops as [|op ops IH]; intros s l H; cbn [sl_run seq_run]; [eauto|].
  destruct (step_ok s l op H) as (s1 & E1 & H1). rewrite E1.
  destruct (seq_step l op) as [l1 r] eqn:Es. cbn [fst snd] in *.
  destruct (IH s1 l1 H1) as (s2 & E2 & H2). rewrite E2.
  destruct (seq_run l1 ops) as [l2 rs]. cbn [fst snd] in *. eauto.
Qed.

Lemma struct_list_lemma ops :
  exists s, sl_run junk sl_create ops = Some (s, snd (seq_run [] ops))
    /\ lcount s = length (fst (seq_run [] ops))
    /\ forall i, sl_get s i = Some (seq_get (fst (seq_run [] ops)) i).
Proof.
  destruct (run_ok ops _ _ create_ok) as (s & E & H). exists s. split; [assumption|]. split.
  - destruct H as (p & q & _ & _ & L). auto.
  - intros i. apply get_ok. assumption.
Qed.

Lemma limit_lemma ops n cut : 1 <= n -> cut = LLimit n \/ cut = LRect n ->
  exists s older newest rs,
    sl_run junk sl_create (ops ++ [cut]) = Some (s, rs)
    /\ fst (seq_run [] ops) = older ++ newest
    /\ Z.of_nat (length newest) = Z.min n (Z.of_nat (length (older ++ newest)))
    /\ lcount s = length newest
    /\ forall i, sl_get s i = Some (seq_get newest i).
Proof.
  intros Hn Hc. destruct (struct_list_lemma (ops ++ [cut])) as (s & E & Hcount & Hget).
  rewrite seq_run_snoc in Hcount, Hget. set (l := fst (seq_run [] ops)) in *.
  replace (fst (seq_step l cut)) with (seq_last l n) in Hcount, Hget by (destruct Hc; subst cut; reflexivity).
  exists s, (firstn (length l - Z.to_nat n) l), (seq_last l n). eexists. split; [exact E|].
  unfold seq_last in *. destruct (Z.ltb_spec n 1); [lia|].
  split; [symmetry; apply firstn_skipn|]. rewrite firstn_skipn, skipn_length. split; [lia|].
  split; [rewrite skipn_length in Hcount; assumption|assumption].
Qed.
End L.
