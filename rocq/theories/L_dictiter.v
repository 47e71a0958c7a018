(** Lemmas for iterating over a dictionary. *)
From Verif Require Import Base S_dict M_dict L_dict.
From Coq Require Import Permutation ZifyBool ZifyNat.

Section Dict.
Context {K V : Type}.
Variable keq : K -> K -> bool.
Variable hash : K -> Z.
Hypothesis KOK : key_ok keq hash.
Notation chain := (list (K * V)).
Notation dht := (@dht K V).
Notation dict := (@dict K V).
Implicit Types (l c : chain) (k q : K) (v : V) (h : dht) (d : dict) (t : list chain).

Definition suf (o : option K) c : chain :=
  match o with None => [] | Some k => match from_key keq c k with Some r => r | None => [] end end.
(** entries of a table still to be delivered: after chain [i], the part of chain [i] from [o] *)
Definition trem t (i : Z) (o : option K) : chain :=
  suf o (nth (Z.to_nat i) t []) ++ concat (skipn (Z.to_nat (i + 1)) t).
Definition rem d (it : diter) : chain :=
  trem (tbl (itbl d (itab it))) (iidx it) (inxt it) ++ (if itab it then [] else ents (h1 d)).

Definition it_ok d (it : diter) : Prop :=
  -1 <= iidx it /\ (itab it = true -> rehashing d = true) /\
  (icur it = None -> inxt it = None) /\
  (forall k, inxt it = Some k ->
    0 <= iidx it /\
    (exists r, from_key keq (nth (Z.to_nat (iidx it)) (tbl (itbl d (itab it))) []) k = Some r) /\
    (exists x, icur it = Some x /\ keq x k = false)).

Lemma from_key_some c k r : from_key keq c k = Some r ->
  exists a e, c = a ++ e :: tl r /\ r = e :: tl r /\ keq k (fst e) = true.
Proof.
  revert r. induction c as [|[k' v] c IH]; intros r H; cbn in H; [discriminate|].
  destruct (keq k k') eqn:E.
  - inversion H; subst. exists [], (k', v). auto.
  - destruct (IH r H) as (a & e & Ea & Er & Ek). exists ((k', v) :: a), e. cbn. rewrite Ea at 1. auto.
Qed.

Lemma skipn_nth t n : (n < length t)%nat -> skipn n t = nth n t [] :: skipn (S n) t.
Proof.
  revert n. induction t as [|c t IH]; intros n H; cbn in H; [lia|]. destruct n as [|n]; [reflexivity|].
  cbn [skipn nth]. rewrite (IH n) by lia. reflexivity.
Qed.

(** the scan delivers the next entry *)
Lemma iscan_tab (t0 : bool) d : forall fuel i, -1 <= i -> (length (tbl (itbl d t0)) <= Z.to_nat (i + 1) + fuel)%nat ->
  (t0 = true -> rehashing d = true) ->
  forall g, (concat (skipn (Z.to_nat (i + 1)) (tbl (itbl d t0))) <> [] ->
   exists i2 e rest, iscan (fuel + S g) d t0 i = Some (deliver t0 i2 e rest) /\ i < i2 /\
     concat (skipn (Z.to_nat (i + 1)) (tbl (itbl d t0))) = e :: rest ++ concat (skipn (Z.to_nat (i2 + 1)) (tbl (itbl d t0))) /\
     nth (Z.to_nat i2) (tbl (itbl d t0)) [] = e :: rest) /\
  (concat (skipn (Z.to_nat (i + 1)) (tbl (itbl d t0))) = [] ->
    exists f2 i2, iscan (fuel + S g) d t0 i = iscan (f2 + S g) d t0 i2 /\ -1 <= i2 /\ hsize (itbl d t0) <= i2 + 1).
Proof.
  set (t := tbl (itbl d t0)). induction fuel as [|fuel IH]; intros i Hi HL HR g.
  - assert (E : skipn (Z.to_nat (i + 1)) t = []) by (apply skipn_all2; lia).
    rewrite E. split; [intros X; now elim X|]. intros _. exists O, i. split; [reflexivity|].
    unfold hsize. fold t. lia.
  - destruct (Z.leb_spec (hsize (itbl d t0)) (i + 1)) as [O|O].
    + assert (E : skipn (Z.to_nat (i + 1)) t = []) by (apply skipn_all2; unfold hsize in O; fold t in O; lia).
      rewrite E. split; [intros X; now elim X|]. intros _. exists (S fuel), i. split; [reflexivity|]. lia.
    + assert (B : (Z.to_nat (i + 1) < length t)%nat) by (unfold hsize in O; fold t in O; lia).
      rewrite (skipn_nth t _ B). cbn [concat Nat.add iscan].
      destruct (Z.leb_spec (hsize (itbl d t0)) (i + 1)); [lia|]. cbn [andb]. fold t.
      destruct (nth_error t (Z.to_nat (i + 1))) as [c|] eqn:N; [|apply nth_error_None in N; lia].
      pose proof (nth_error_nth _ _ [] N) as N'. rewrite N'. destruct c as [|e rest].
      * cbn [app]. replace (S (Z.to_nat (i + 1))) with (Z.to_nat (i + 1 + 1)) by lia.
        destruct (IH (i + 1) ltac:(lia) ltac:(lia) HR g) as (A & C).
        split; intros X; [|now apply C].
        destruct (A X) as (i2 & e & rest & E1 & E2 & E3). exists i2, e, rest.
        split; [trivial|]. split; [lia|trivial].
      * split; [|intros X; discriminate]. intros _. exists (i + 1), e, rest.
        split; [reflexivity|]. split; [lia|]. split; [|trivial].
        cbn [app]. replace (S (Z.to_nat (i + 1))) with (Z.to_nat (i + 1 + 1)) by lia. reflexivity.
Qed.

Lemma uniq_app_l (l1 l2 : chain) : uniq keq (l1 ++ l2) -> uniq keq l1.
Proof.
  induction l1 as [|x l1 IH]; intros U; [constructor|]. cbn in U. inversion U as [|? ? F U']; subst.
  constructor; [now apply Forall_app in F|now apply IH].
Qed.
Lemma uniq_nth t j : uniq keq (concat t) -> uniq keq (nth j t []).
Proof.
  revert j. induction t as [|c t IH]; intros [|j] H; cbn in *; try constructor.
  - now apply uniq_app_l in H.
  - apply IH. now apply uniq_app_r in H.
Qed.
Lemma uniq_chain d (t0 : bool) i : dinv keq hash d -> uniq keq (nth i (tbl (itbl d t0)) []).
Proof.
  intros (_ & _ & U & _). unfold dents in U. apply uniq_nth.
  destruct t0; [now apply uniq_app_r in U|now apply uniq_app_l in U].
Qed.

Lemma deliver_rem d (t0 : bool) i e rest : dinv keq hash d -> 0 <= i -> (t0 = true -> rehashing d = true) ->
  (exists a, nth (Z.to_nat i) (tbl (itbl d t0)) [] = a ++ e :: rest) ->
  it_ok d (fst (deliver t0 i e rest)) /\
  rem d (fst (deliver t0 i e rest)) =
    rest ++ concat (skipn (Z.to_nat (i + 1)) (tbl (itbl d t0))) ++ (if t0 then [] else ents (h1 d)).
Proof.
  intros D Hi HR (a & N).
  assert (U : uniq keq (nth (Z.to_nat i) (tbl (itbl d t0)) [])).
  { now apply uniq_chain. }
  rewrite N in U. apply uniq_app_r in U. inversion U as [|? ? F U']; subst. clear U.
  assert (S : forall k v r, rest = (k, v) :: r ->
     from_key keq (nth (Z.to_nat i) (tbl (itbl d t0)) []) k = Some rest).
  { intros k v r ->. rewrite N.
    assert (G : forall b, uniq keq (b ++ (k, v) :: r) -> from_key keq (b ++ (k, v) :: r) k = Some ((k, v) :: r)).
    { induction b as [|[x w] b IH]; intros Ub.
      - cbn. now rewrite (keq_refl keq hash KOK).
      - cbn in *. inversion Ub as [|? ? Fb Ub']; subst. apply Forall_app in Fb as (_ & Fb).
        apply Forall_inv in Fb. cbn in Fb. rewrite (keq_sym keq hash KOK), Fb. auto. }
    replace (a ++ e :: (k, v) :: r) with ((a ++ [e]) ++ (k, v) :: r) by now rewrite <- app_assoc.
    apply G. rewrite <- app_assoc. cbn [app]. rewrite <- N.
    now apply uniq_chain. }
  split.
  - unfold deliver. cbn [fst]. split; [cbn; lia|]. split; [exact HR|]. split; [discriminate|].
    intros k Hk. cbn in Hk. destruct rest as [|[k' v] r]; [discriminate|]. inversion Hk; subst.
    split; [cbn; trivial|]. split.
    + exists ((k, v) :: r). cbn [iidx itab]. eapply S; eauto.
    + exists (fst e). split; [reflexivity|]. apply Forall_inv in F. trivial.
  - unfold deliver, rem, trem. cbn [fst itab iidx inxt]. rewrite <- app_assoc. f_equal.
    destruct rest as [|[k v] r]; [reflexivity|]. cbn [suf]. now rewrite (S k v r).
Qed.

(** sis_dict_next delivers the first of the remaining entries *)
Lemma dnext_spec d it : dinv keq hash d -> it_ok d it ->
  exists d1 it1, (iters d1 = iters d \/ iters d1 = iters d + 1) /\
    h0 d1 = h0 d /\ h1 d1 = h1 d /\ ridx d1 = ridx d /\ can d1 = can d /\
    (iters d1 = if (match icur it with None => true | _ => false end) && ((iidx it =? -1) && negb (itab it)) then iters d + 1 else iters d) /\
    match rem d it with
    | [] => dnext keq d it = Some (d1, it1, None)
    | e :: r => dnext keq d it = Some (d1, it1, Some e) /\ it_ok d it1 /\ rem d it1 = r /\
                icur it1 = Some (fst e) /\ 0 <= iidx it1
    end.
Proof.
  intros D (Hi & HT & HC & HN).
  set (d1 := match icur it with
            | None => if (iidx it =? -1) && negb (itab it)
                      then mkd (h0 d) (h1 d) (ridx d) (iters d + 1) (can d) else d
            | Some _ => d end).
  assert (P : (iters d1 = iters d \/ iters d1 = iters d + 1) /\ h0 d1 = h0 d /\ h1 d1 = h1 d /\ ridx d1 = ridx d /\
    can d1 = can d /\ iters d1 = (if (match icur it with None => true | _ => false end) && ((iidx it =? -1) && negb (itab it)) then iters d + 1 else iters d)).
  { unfold d1. destruct (icur it); [cbn; auto 10|]. cbn [andb].
    destruct ((iidx it =? -1) && negb (itab it)); cbn; auto 10. }
  destruct (inxt it) as [k|] eqn:NX.
  - destruct (HN k eq_refl) as (Hi0 & (r & Hr) & (c & Hc & Hk)).
    destruct (from_key_some _ _ _ Hr) as (a & e & Ea & Er & Ek).
    destruct (deliver_rem d (itab it) (iidx it) e (tl r) D Hi0 HT) as (O & RM); [exists a; trivial|].
    assert (RR : rem d it = e :: rem d (fst (deliver (itab it) (iidx it) e (tl r)))).
    { rewrite RM. unfold rem, trem. rewrite NX. cbn [suf]. rewrite Hr, Er at 1. cbn [app].
      now rewrite <- app_assoc. }
    rewrite RR. exists d1, (fst (deliver (itab it) (iidx it) e (tl r))).
    destruct P as (P1 & P2 & P3 & P4 & P5 & P6).
    split; [trivial|]. split; [trivial|]. split; [trivial|]. split; [trivial|]. split; [trivial|]. split; [trivial|].
    split; [|split; [trivial|split; [trivial|split; [reflexivity|exact Hi0]]]].
    unfold dnext. fold d1. rewrite Hc, NX, Hr, Er. cbn [tl]. reflexivity.
  - assert (DN : dnext keq d it = match iscan (length (tbl (h0 d)) + length (tbl (h1 d)) + 2)%nat d (itab it) (iidx it) with
       Some (it', r) => Some (d1, it', r) | None => None end).
    { unfold dnext. fold d1. rewrite NX. destruct (icur it); reflexivity. }
    rewrite DN. clear DN.
    assert (RM : rem d it = concat (skipn (Z.to_nat (iidx it + 1)) (tbl (itbl d (itab it)))) ++ (if itab it then [] else ents (h1 d))).
    { unfold rem, trem. rewrite NX. reflexivity. }
    rewrite RM. clear RM HN HC NX.
    assert (FIN : forall (t0 : bool) (i : Z) it1 e rest, iscan (length (tbl (h0 d)) + length (tbl (h1 d)) + 2)%nat d (itab it) (iidx it) = Some (deliver t0 i e rest) ->
       0 <= i -> (t0 = true -> rehashing d = true) -> nth (Z.to_nat i) (tbl (itbl d t0)) [] = e :: rest ->
       it1 = fst (deliver t0 i e rest) -> forall r, r = rest ++ concat (skipn (Z.to_nat (i + 1)) (tbl (itbl d t0))) ++ (if t0 then [] else ents (h1 d)) ->
       match iscan (length (tbl (h0 d)) + length (tbl (h1 d)) + 2)%nat d (itab it) (iidx it) with
       Some (it', r) => Some (d1, it', r) | None => None end = Some (d1, it1, Some e) /\ it_ok d it1 /\ rem d it1 = r /\
                icur it1 = Some (fst e) /\ 0 <= iidx it1).
    { intros t0 i it1 e rest Q1 Q2 Q3 Q4 -> r ->.
      destruct (deliver_rem d t0 i e rest D Q2 Q3) as (O & RM); [exists []; trivial|].
      rewrite Q1. split; [reflexivity|]. split; [trivial|]. split; [trivial|]. split; [reflexivity|trivial]. }
    destruct P as (P1 & P2 & P3 & P4 & P5 & P6).
    (* search the current table *)
    set (n0 := length (tbl (itbl d (itab it)))).
    set (F := (length (tbl (h0 d)) + length (tbl (h1 d)) + 2)%nat) in *.
    assert (HF : (F = n0 + S (F - n0 - 1))%nat).
    { unfold F, n0. destruct (itab it); cbn [itbl]; lia. }
    destruct (iscan_tab (itab it) d n0 (iidx it) Hi ltac:(unfold n0; lia) HT (F - n0 - 1)) as (A & B).
    rewrite <- HF in A, B.
    destruct (concat (skipn (Z.to_nat (iidx it + 1)) (tbl (itbl d (itab it))))) as [|e0 r0] eqn:CE.
    + destruct (B eq_refl) as (f2 & i2 & E2 & Hi2 & Over). clear A B.
      assert (ENDC : forall f, (rehashing d && negb (itab it)) = false ->
         iscan (S f) d (itab it) i2 = Some (mkit (itab it) (i2 + 1) None None, None)).
      { intros f NR. cbn [iscan]. destruct (Z.leb_spec (hsize (itbl d (itab it))) (i2 + 1)); [|lia].
        rewrite NR. reflexivity. }
      destruct (rehashing d && negb (itab it)) eqn:RT.
      * apply andb_true_iff in RT as (Rh & Nt). apply negb_true_iff in Nt. rewrite Nt in *. cbn [app].
        assert (P1d : pow2 (hsize (h1 d))).
        { destruct D as (_ & _ & _ & R). apply (rehashing_true d R Rh). }
        assert (L1 : (0 < length (tbl (h1 d)))%nat) by (apply pow2_pos in P1d; unfold hsize in P1d; lia).
        (* one more step enters the second table at index 0, as the scan from -1 would *)
        assert (EQ : forall f, iscan (S f) d false i2 = iscan (S f) d true (-1)).
        { intros f. cbn [iscan]. destruct (Z.leb_spec (hsize (itbl d false)) (i2 + 1)); [|lia].
          rewrite Rh. cbn [andb negb].
          destruct (Z.leb_spec (hsize (itbl d true)) (-1 + 1)); [unfold hsize in *; cbn [itbl] in *; lia|].
          cbn [andb]. reflexivity. }
        replace (f2 + S (F - n0 - 1))%nat with (S (f2 + (F - n0 - 1)))%nat in E2 by lia.
        rewrite EQ in E2.
        assert (F2 : exists g, (S (f2 + (F - n0 - 1)) = length (tbl (h1 d)) + S g)%nat).
        { exists (f2 + (F - n0 - 1) - length (tbl (h1 d)))%nat. unfold F, n0. rewrite Nt. cbn [itbl]. lia. }
        destruct F2 as (g & F2). rewrite F2 in E2.
        destruct (iscan_tab true d (length (tbl (h1 d))) (-1) ltac:(lia) ltac:(cbn [itbl]; lia) ltac:(auto) g) as (A & B).
        change (concat (skipn (Z.to_nat (-1 + 1)) (tbl (itbl d true)))) with (ents (h1 d)) in A, B.
        destruct (ents (h1 d)) as [|e1 r1] eqn:CE1.
        -- destruct (B eq_refl) as (f3 & i3 & E3 & Hi3 & Over3).
           exists d1, (mkit true (i3 + 1) None None).
           split; [trivial|]. split; [trivial|]. split; [trivial|]. split; [trivial|]. split; [trivial|]. split; [trivial|].
           rewrite E2, E3. replace (f3 + S g)%nat with (S (f3 + g)) by lia. cbn [iscan].
           destruct (Z.leb_spec (hsize (itbl d true)) (i3 + 1)); [|lia]. cbn [negb].
           rewrite andb_false_r. reflexivity.
        -- destruct (A ltac:(discriminate)) as (i3 & e & rest & E3 & Hi3 & C3 & N3).
           inversion C3; subst e. exists d1, (fst (deliver true i3 e1 rest)).
           split; [trivial|]. split; [trivial|]. split; [trivial|]. split; [trivial|]. split; [trivial|]. split; [trivial|].
           eapply (FIN true i3 _ e1 rest); trivial; [now rewrite E2, E3|lia|now rewrite app_nil_r].
      * assert (EN : (if itab it then [] else ents (h1 d)) = []).
        { destruct (itab it); [trivial|]. cbn [negb] in RT. rewrite andb_true_r in RT.
          destruct D as (_ & _ & _ & R). destruct (rehashing_false d R RT) as (_ & ->). reflexivity. }
        rewrite EN. cbn [app]. exists d1, (mkit (itab it) (i2 + 1) None None).
        split; [trivial|]. split; [trivial|]. split; [trivial|]. split; [trivial|]. split; [trivial|]. split; [trivial|].
        rewrite E2. replace (f2 + S (F - n0 - 1))%nat with (S (f2 + (F - n0 - 1)))%nat by lia.
        now rewrite ENDC.
    + destruct (A ltac:(discriminate)) as (i2 & e & rest & E2 & Hi2 & C2 & N2). inversion C2; subst e.
      cbn [app]. exists d1, (fst (deliver (itab it) i2 e0 rest)).
      split; [trivial|]. split; [trivial|]. split; [trivial|]. split; [trivial|]. split; [trivial|]. split; [trivial|].
      eapply (FIN (itab it) i2 _ e0 rest); trivial; [lia|]. now rewrite <- app_assoc.
Qed.

(** * what the body of the loop changes *)
Lemma mem_key_keys (l1 l2 : chain) q : map fst l1 = map fst l2 -> mem_key keq l1 q = mem_key keq l2 q.
Proof.
  revert l2. unfold mem_key. induction l1 as [|[a v] l1 IH]; intros [|[b w] l2] E; try discriminate; trivial.
  inversion E; subst. cbn. destruct (keq q b); [trivial|]. now apply IH.
Qed.
Lemma skipn_upd {A} (l : list A) b x n :
  skipn n (upd l b x) = if (b <? n)%nat then skipn n l else upd (skipn n l) (b - n) x.
Proof.
  revert b n. induction l as [|y l IH]; intros b n.
  - destruct b; cbn [upd]; rewrite skipn_nil; destruct (_ <? _)%nat; trivial; now destruct (_ - _)%nat.
  - destruct n as [|n]; [cbn [skipn]; replace (b - 0)%nat with b by lia; reflexivity|].
    destruct b as [|b]; [reflexivity|]. cbn [upd skipn]. rewrite IH.
    destruct (Nat.ltb_spec b n), (Nat.ltb_spec (S b) (S n)); try lia; reflexivity.
Qed.

Definition trans (bad : K -> bool) (o : option K) c (c' : chain) : Prop :=
  (forall q, bad q = false -> mem_key keq c' q = mem_key keq c q /\ mem_key keq (suf o c') q = mem_key keq (suf o c) q) /\
  (forall k r, o = Some k -> from_key keq c k = Some r -> exists r', from_key keq c' k = Some r') /\
  (length c' <= S (length c))%nat /\ (length (suf o c') <= S (length (suf o c)))%nat.

Lemma suf_none c : suf None c = []. Proof. reflexivity. Qed.

Lemma trans_push (e : K * V) o c : (forall k, o = Some k -> keq k (fst e) = false) ->
  trans (fun q => keq q (fst e)) o c (e :: c).
Proof.
  intros H. destruct e as [a v]. cbn [fst] in *.
  assert (F : suf o ((a, v) :: c) = suf o c).
  { destruct o as [k|]; [|reflexivity]. cbn. now rewrite (H k eq_refl). }
  split; [|split; [|split]].
  - intros q Hq. rewrite F. unfold mem_key. cbn. now rewrite Hq.
  - intros k r -> Hr. exists r. cbn. now rewrite (H k eq_refl).
  - cbn. lia.
  - rewrite F. lia.
Qed.
Lemma from_key_update c k x v r : from_key keq c x = Some r ->
  exists r', from_key keq (update keq c k v) x = Some r' /\ map fst r' = map fst r.
Proof.
  revert r. induction c as [|[a w] c IH]; intros r H; [discriminate|]. cbn in *.
  destruct (keq k a) eqn:Ek; cbn.
  - destruct (keq x a) eqn:Ex; [inversion H; subst; eauto|]. eauto.
  - destruct (keq x a) eqn:Ex; [|now apply IH]. inversion H; subst. eexists. split; [reflexivity|].
    cbn. now rewrite update_keys.
Qed.
Lemma from_key_update_none c k x v : from_key keq c x = None -> from_key keq (update keq c k v) x = None.
Proof.
  induction c as [|[a w] c IH]; intros H; [reflexivity|]. cbn in *.
  destruct (keq k a) eqn:Ek; cbn; destruct (keq x a); try discriminate; auto.
Qed.
Lemma trans_update k v o c : trans (fun _ => false) o c (update keq c k v).
Proof.
  assert (F : map fst (suf o (update keq c k v)) = map fst (suf o c)).
  { destruct o as [x|]; [|reflexivity]. cbn [suf]. destruct (from_key keq c x) as [r|] eqn:E.
    - destruct (from_key_update c k x v r E) as (r' & -> & M). trivial.
    - now rewrite from_key_update_none. }
  split; [|split; [|split]].
  - intros q _. split; apply mem_key_keys; [apply update_keys|trivial].
  - intros x r -> Hr. destruct (from_key_update c k x v r Hr) as (r' & E & _). eauto.
  - rewrite update_length. lia.
  - apply (f_equal (@length K)) in F. rewrite !map_length in F. lia.
Qed.
Lemma mem_key_remove c k q : keq q k = false -> mem_key keq (remove keq c k) q = mem_key keq c q.
Proof.
  intros H. unfold mem_key. induction c as [|[a w] c IH]; [reflexivity|]. cbn.
  destruct (keq k a) eqn:Ek.
  - destruct (keq q a) eqn:Eq; [|trivial]. exfalso.
    rewrite (keq_trans keq hash KOK q a k) in H; [discriminate|trivial|]. now rewrite (keq_sym keq hash KOK).
  - cbn. destruct (keq q a); trivial.
Qed.
Lemma remove_le c k : (length (remove keq c k) <= length c)%nat.
Proof. induction c as [|[a w] c IH]; cbn; [lia|]. destruct (keq k a); cbn; lia. Qed.
Lemma from_key_remove c k x r : keq x k = false -> from_key keq c x = Some r ->
  exists r', from_key keq (remove keq c k) x = Some r' /\ (r' = r \/ r' = remove keq r k).
Proof.
  intros H. revert r. induction c as [|[a w] c IH]; intros r E; [discriminate|]. cbn in *.
  destruct (keq k a) eqn:Ek.
  - destruct (keq x a) eqn:Ex; [|eauto]. exfalso.
    rewrite (keq_trans keq hash KOK x a k) in H; [discriminate|trivial|]. now rewrite (keq_sym keq hash KOK).
  - cbn. destruct (keq x a) eqn:Ex; [|now apply IH]. inversion E; subst. eexists. split; [reflexivity|].
    right. cbn. now rewrite Ek.
Qed.
Lemma from_key_remove_none c k x : from_key keq c x = None -> from_key keq (remove keq c k) x = None.
Proof.
  induction c as [|[a w] c IH]; intros H; [reflexivity|]. cbn in *.
  destruct (keq k a) eqn:Ek; cbn; destruct (keq x a); try discriminate; auto.
Qed.
Lemma trans_remove k o c : (forall x, o = Some x -> keq x k = false) ->
  trans (fun q => keq q k) o c (remove keq c k).
Proof.
  intros H.
  assert (F : suf o (remove keq c k) = suf o c \/ suf o (remove keq c k) = remove keq (suf o c) k).
  { destruct o as [x|]; [|now left]. cbn [suf]. destruct (from_key keq c x) as [r|] eqn:E.
    - destruct (from_key_remove c k x r (H x eq_refl) E) as (r' & -> & M). trivial.
    - rewrite from_key_remove_none; [now left|trivial]. }
  split; [|split; [|split]].
  - intros q Hq. split; [now apply mem_key_remove|]. destruct F as [-> | ->]; [trivial|now apply mem_key_remove].
  - intros x r -> Hr. destruct (from_key_remove c k x r (H x eq_refl) Hr) as (r' & E & _). eauto.
  - pose proof (remove_le c k). lia.
  - pose proof (remove_le (suf o c) k). destruct F as [-> | ->]; lia.
Qed.

Lemma mem_concat_upd t b (c' : chain) q : (b < length t)%nat ->
  mem_key keq c' q = mem_key keq (nth b t []) q -> mem_key keq (concat (upd t b c')) q = mem_key keq (concat t) q.
Proof.
  intros B H. rewrite concat_upd by trivial. rewrite (concat_split t b) by trivial.
  rewrite !mem_key_app. now rewrite H.
Qed.
Lemma len_concat_upd t b (c' : chain) : (b < length t)%nat ->
  (length c' <= S (length (nth b t [])))%nat -> (length (concat (upd t b c')) <= S (length (concat t)))%nat.
Proof.
  intros B H. rewrite concat_upd by trivial. rewrite (concat_split t b) by trivial. rewrite !app_length. lia.
Qed.

Lemma nth_skipn_chain t n b : nth b (skipn n t) [] = nth (n + b) t [].
Proof.
  revert n. induction t as [|c t IH]; intros [|n]; cbn [skipn Nat.add]; trivial.
  - now destruct b.
  - apply IH.
Qed.

Lemma trem_upd bad t b (c' : chain) i o : 0 <= i -> (b < length t)%nat -> trans bad o (nth b t []) c' ->
  (forall q, bad q = false -> mem_key keq (trem (upd t b c') i o) q = mem_key keq (trem t i o) q) /\
  (length (trem (upd t b c') i o) <= S (length (trem t i o)))%nat.
Proof.
  intros Hi B (T1 & T2 & T3 & T4). unfold trem. rewrite skipn_upd.
  destruct (Nat.eq_dec b (Z.to_nat i)) as [->|N].
  - rewrite nth_upd_same by trivial. destruct (Nat.ltb_spec (Z.to_nat i) (Z.to_nat (i + 1))); [|lia].
    split.
    + intros q Hq. rewrite !mem_key_app. now rewrite (proj2 (T1 q Hq)).
    + rewrite !app_length. lia.
  - rewrite nth_upd_other by lia. destruct (Nat.ltb_spec b (Z.to_nat (i + 1))); [split; [trivial|lia]|].
    assert (B' : (b - Z.to_nat (i + 1) < length (skipn (Z.to_nat (i + 1)) t))%nat) by (rewrite skipn_length; lia).
    assert (E : nth (b - Z.to_nat (i + 1)) (skipn (Z.to_nat (i + 1)) t) [] = nth b t []).
    { rewrite nth_skipn_chain. f_equal. lia. }
    split.
    + intros q Hq. rewrite !mem_key_app. f_equal. apply mem_concat_upd; trivial. rewrite E. now apply T1.
    + rewrite !app_length.
      assert (length (concat (upd (skipn (Z.to_nat (i + 1)) t) (b - Z.to_nat (i + 1)) c')) <=
              S (length (concat (skipn (Z.to_nat (i + 1)) t))))%nat.
      { apply len_concat_upd; trivial. now rewrite E. }
      lia.
Qed.

Definition set_tab d (tb : bool) h : dict := if tb then set_h1 d h else set_h0 d h.

Lemma rem_set d it (tb : bool) bad b (c' : chain) u : it_ok d it -> 0 <= iidx it ->
  (b < length (tbl (itbl d tb)))%nat -> trans bad (inxt it) (nth b (tbl (itbl d tb)) []) c' ->
  let d' := set_tab d tb (mkht (upd (tbl (itbl d tb)) b c') u) in
  it_ok d' it /\ (forall q, bad q = false -> mem_key keq (rem d' it) q = mem_key keq (rem d it) q) /\
  (length (rem d' it) <= S (length (rem d it)))%nat.
Proof.
  intros (O1 & O2 & O3 & O4) Hi B T d'. pose proof T as (T1 & T2 & T3 & T4).
  assert (TB : tbl (itbl d' (itab it)) = if Bool.eqb (itab it) tb then upd (tbl (itbl d tb)) b c' else tbl (itbl d (itab it))).
  { unfold d'. destruct tb, (itab it); reflexivity. }
  assert (H1' : tb = false -> h1 d' = h1 d) by (intros E; unfold d'; rewrite E; reflexivity).
  split; [|split].
  - split; [trivial|]. split; [unfold d'; destruct tb; exact O2|]. split; [trivial|].
    intros k Hk. destruct (O4 k Hk) as (A & (r & Hr) & C). split; [trivial|]. split; [|trivial].
    rewrite TB. destruct (Bool.eqb_spec (itab it) tb) as [E|E]; [|eauto]. rewrite E in Hr.
    destruct (Nat.eq_dec (Z.to_nat (iidx it)) b) as [Eb|Nb].
    + rewrite Eb in *. rewrite nth_upd_same by trivial. eapply T2; eauto.
    + rewrite nth_upd_other by trivial. eauto.
  - intros q Hq. unfold rem. rewrite TB. rewrite !mem_key_app.
    destruct (Bool.eqb_spec (itab it) tb) as [E|E].
    + rewrite E. destruct (trem_upd bad _ b c' (iidx it) (inxt it) Hi B T) as (X & _). rewrite (X q Hq). f_equal.
      destruct tb; [reflexivity|]. now rewrite H1'.
    + f_equal. destruct (itab it) eqn:Ei, tb; try congruence. unfold d', ents. cbn [set_tab set_h1 h1 tbl].
      apply mem_concat_upd; [exact B|]. now apply T1.
  - unfold rem. rewrite TB, !app_length.
    destruct (Bool.eqb_spec (itab it) tb) as [E|E].
    + rewrite E. destruct (trem_upd bad _ b c' (iidx it) (inxt it) Hi B T) as (_ & X).
      destruct tb; [cbn [length]; lia|]. rewrite H1' by trivial. lia.
    + destruct (itab it) eqn:Ei, tb; try congruence; [cbn [length]; lia|].
      assert ((length (ents (h1 d')) <= S (length (ents (h1 d))))%nat); [|lia].
      unfold d', ents. cbn [set_tab set_h1 h1 tbl]. now apply len_concat_upd.
Qed.

Lemma expand_keeps d it n : dinv keq hash d -> pow2 (hsize (h0 d)) -> it_ok d it ->
  let d' := fst (expand d n) in
  it_ok d' it /\ rem d' it = rem d it /\ h0 d' = h0 d /\ iters d' = iters d.
Proof.
  intros (_ & _ & _ & R) P O. unfold expand.
  destruct (rehashing d || (n <? used (h0 d))) eqn:C; [cbn; auto|].
  destruct (next_power n =? hsize (h0 d)); [cbn; auto|].
  apply pow2_pos in P. destruct (Z.eqb_spec (hsize (h0 d)) 0); [lia|]. cbn [fst].
  apply orb_false_iff in C as (C & _). destruct (rehashing_false d R C) as (Ri & E1).
  destruct O as (O1 & O2 & O3 & O4).
  assert (T : itab it = false). { destruct (itab it); trivial. rewrite O2 in C; congruence. }
  split; [|split; [|auto]].
  - split; [trivial|]. split; [rewrite T; discriminate|]. split; [trivial|]. rewrite T in *. exact O4.
  - unfold rem. rewrite T. cbn [itbl h0 h1]. f_equal. unfold ents. cbn [tbl]. rewrite E1, concat_repeat_nil. reflexivity.
Qed.
Lemma needed_keeps d it d' b : dinv keq hash d -> pow2 (hsize (h0 d)) -> it_ok d it ->
  expand_if_needed d = (d', b) ->
  it_ok d' it /\ rem d' it = rem d it /\ h0 d' = h0 d /\ iters d' = iters d.
Proof.
  intros D P O E. unfold expand_if_needed in E.
  destruct (rehashing d); [inversion E; subst; auto|].
  destruct (hsize (h0 d) =? 0).
  { pose proof (expand_keeps d it 4 D P O) as X. rewrite E in X. exact X. }
  destruct ((hsize (h0 d) <=? used (h0 d)) && (can d || (5 <? used (h0 d) / hsize (h0 d)))); [|inversion E; subst; auto].
  pose proof (expand_keeps d it (used (h0 d) * 2) D P O) as X. rewrite E in X. exact X.
Qed.

Lemma map_chain_tbl h x f n : map_chain h x f n = mkht (upd (tbl h) (bucket h x) (f (nth (bucket h x) (tbl h) []))) (used h + n).
Proof. reflexivity. Qed.

Lemma mem_in l k : mem_key keq l k = true <-> exists e, In e l /\ keq k (fst e) = true.
Proof.
  unfold mem_key. split.
  - induction l as [|[a v] l IH]; cbn; [discriminate|]. destruct (keq k a) eqn:E.
    + intros _. exists (a, v). auto.
    + intros H. destruct (IH H) as (e & He & Ee). exists e. auto.
  - intros (e & He & Ee). destruct (lookup keq l k) eqn:L; trivial.
    apply lookup_none in L. rewrite Forall_forall in L. rewrite L in Ee; [discriminate|trivial].
Qed.
Lemma mem_absent l k q : mem_key keq l k = false -> mem_key keq l q = true -> keq q k = false.
Proof.
  intros A B. destruct (keq q k) eqn:E; trivial. exfalso.
  apply mem_in in B as (e & He & Ee). assert (mem_key keq l k = true); [|congruence].
  apply mem_in. exists e. split; [trivial|]. apply (keq_trans keq hash KOK _ q); trivial. now rewrite (keq_sym keq hash KOK).
Qed.
Lemma nxt_in d it k : it_ok d it -> inxt it = Some k -> mem_key keq (dents d) k = true.
Proof.
  intros (_ & _ & _ & O) H. destruct (O k H) as (_ & (r & Hr) & _).
  destruct (from_key_some _ _ _ Hr) as (a & e & Ea & _ & Ek). apply mem_in. exists e. split; [|trivial].
  unfold dents. apply in_or_app. destruct (itab it); [right|left]; apply (nth_in_concat _ _ (Z.to_nat (iidx it)));
    cbn [itbl] in Ea; rewrite Ea; apply in_or_app; right; now left.
Qed.

(** effect of one operation of the body *)
Lemma insert_keeps d it k v d' : dinv keq hash d -> pow2 (hsize (h0 d)) -> it_ok d it -> 0 <= iidx it ->
  mem_key keq (dents d) k = false -> insert hash d k v = Some d' ->
  it_ok d' it /\ (length (rem d' it) <= S (length (rem d it)))%nat /\ iters d' = iters d /\ hsize (h0 d') = hsize (h0 d) /\
  forall q, mem_key keq (dents d) q = true -> mem_key keq (rem d' it) q = mem_key keq (rem d it) q.
Proof.
  intros D P O Hi M E.
  assert (G : forall tb b c, nth_error (tbl (itbl d tb)) b = Some c ->
     d' = set_tab d tb (mkht (upd (tbl (itbl d tb)) b ((k, v) :: c)) (used (itbl d tb) + 1)) ->
     it_ok d' it /\ (length (rem d' it) <= S (length (rem d it)))%nat /\ iters d' = iters d /\ hsize (h0 d') = hsize (h0 d) /\
     forall q, mem_key keq (dents d) q = true -> mem_key keq (rem d' it) q = mem_key keq (rem d it) q).
  { intros tb b c Hb ->. assert (B : (b < length (tbl (itbl d tb)))%nat) by (apply nth_error_Some; congruence).
    pose proof (nth_error_nth _ _ [] Hb) as N.
    destruct (rem_set d it tb (fun q => keq q k) b ((k, v) :: c) (used (itbl d tb) + 1) O Hi B) as (X1 & X2 & X3).
    - rewrite N. apply (trans_push (k, v)). intros x Hx. cbn [fst]. eapply mem_absent; eauto. eapply nxt_in; eauto.
    - split; [exact X1|]. split; [exact X3|]. split; [now destruct tb|]. split.
      + unfold hsize. destruct tb; cbn; [reflexivity|now rewrite upd_length].
      + intros q Hq. apply X2. eapply mem_absent; eauto. }
  unfold insert, put_front in E. cbn [fst] in E. destruct (rehashing d).
  - destruct (nth_error (tbl (h1 d)) (bucket (h1 d) (hash k))) as [c|] eqn:N; [|discriminate].
    apply (G true _ c N). now inversion E.
  - destruct (nth_error (tbl (h0 d)) (bucket (h0 d) (hash k))) as [c|] eqn:N; [|discriminate].
    apply (G false _ c N). now inversion E.
Qed.

Lemma chain_keeps d it (tb : bool) bad x f n : it_ok d it -> 0 <= iidx it ->
  (bucket (itbl d tb) x < length (tbl (itbl d tb)))%nat ->
  (forall c, trans bad (inxt it) c (f c)) ->
  let d' := set_tab d tb (map_chain (itbl d tb) x f n) in
  it_ok d' it /\ (length (rem d' it) <= S (length (rem d it)))%nat /\ iters d' = iters d /\ hsize (h0 d') = hsize (h0 d) /\
  forall q, bad q = false -> mem_key keq (rem d' it) q = mem_key keq (rem d it) q.
Proof.
  intros O Hi B T d'. unfold d'. rewrite map_chain_tbl.
  destruct (rem_set d it tb bad _ _ (used (itbl d tb) + n) O Hi B (T (nth (bucket (itbl d tb) x) (tbl (itbl d tb)) []))) as (X1 & X2 & X3).
  split; [exact X1|]. split; [exact X3|]. split; [now destruct tb|]. split; [|exact X2].
  unfold hsize. destruct tb; cbn; [reflexivity|now rewrite upd_length].
Qed.

Definition keeps d it d' (del : K -> bool) : Prop :=
  it_ok d' it /\ (length (rem d' it) <= S (length (rem d it)))%nat /\ iters d' = iters d /\ hsize (h0 d') = hsize (h0 d) /\
  forall q, mem_key keq (dents d) q = true -> del q = false -> mem_key keq (rem d' it) q = mem_key keq (rem d it) q.

Lemma rstep_held d : iters d <> 0 -> rstep hash d = Some d.
Proof. intros H. unfold rstep. destruct (rehashing d); [|trivial]. destruct (Z.eqb_spec (iters d) 0); [contradiction|trivial]. Qed.

Lemma keeps_refl d it del : it_ok d it -> keeps d it d del.
Proof. intros O. split; [trivial|]. split; [lia|]. auto. Qed.

Lemma body_step_keeps d it cur o d' x : dinv keq hash d -> Z.of_nat (length (dents d)) < 2 ^ 60 ->
  pow2 (hsize (h0 d)) -> it_ok d it -> 0 <= iidx it -> icur it = Some cur -> iters d <> 0 ->
  body_op keq cur o -> dstep keq hash d o = Some (d', x) ->
  keeps d it d' (fun q => deletes keq q o).
Proof.
  intros D L P O Hi Hc It BO E.
  assert (EX : forall n, n <= 2 ^ 62 -> keeps d it (fst (expand d n)) (fun q => deletes keq q o)).
  { intros n _. destruct (expand_keeps d it n D P O) as (X1 & X2 & X3 & X4).
    split; [exact X1|]. split; [rewrite X2; lia|]. split; [trivial|]. split; [now rewrite X3|]. intros q _ _. now rewrite X2. }
  destruct o as [k|k v|k v|k| | |n|b| |]; cbn [body_op] in BO; try contradiction; cbn [dstep] in E.
  - (* find *)
    assert (d' = d); [|subst; now apply keeps_refl].
    unfold dfind in E. rewrite rstep_held in E by trivial.
    destruct (dsize d =? 0); [now inversion E|]. destruct (chain_of (h0 d) (hash k)); [|discriminate].
    destruct (lookup keq l k); [now inversion E|]. destruct (rehashing d); [|now inversion E].
    destruct (chain_of (h1 d) (hash k)); [now inversion E|discriminate].
  - (* add *)
    unfold dadd in E. rewrite rstep_held in E by trivial.
    destruct (key_index_spec keq hash KOK d k D L) as (d1 & p & EK & D1 & DE & S1 & Q1 & C). rewrite EK in E.
    assert (KN : it_ok d1 it /\ rem d1 it = rem d it /\ h0 d1 = h0 d /\ iters d1 = iters d).
    { unfold key_index in EK. destruct (expand_if_needed d) as (dn, ok) eqn:EN.
      assert (dn = d1).
      { destruct (negb ok); [now inversion EK|]. destruct (chain_of (h0 dn) (hash k)); [|discriminate].
        destruct (mem_key keq l k); [now inversion EK|]. destruct (rehashing dn); [|now inversion EK].
        destruct (chain_of (h1 dn) (hash k)); [|discriminate]. destruct (mem_key keq l0 k); now inversion EK. }
      subst dn. eapply needed_keeps; eauto. }
    destruct KN as (K1 & K2 & K3 & K4).
    destruct p as [|tb|]; [destruct C| |].
    + inversion E; subst d'. split; [trivial|]. split; [rewrite K2; lia|]. split; [trivial|]. split; [now rewrite K3|].
      intros q _ _. now rewrite K2.
    + rewrite <- DE in C. destruct (insert hash d1 k v) as [d2|] eqn:EI; [|discriminate]. inversion E; subst d'.
      destruct (insert_keeps d1 it k v d2 D1 Q1 K1 Hi C EI) as (Y1 & Y2 & Y3 & Y4 & Y5).
      split; [trivial|]. split; [rewrite <- K2; trivial|]. split; [congruence|]. split; [now rewrite Y4, K3|].
      intros q Hq _. rewrite <- K2. apply Y5. now rewrite DE.
  - (* replace *)
    unfold dreplace in E. rewrite rstep_held in E by trivial.
    destruct (key_index_spec keq hash KOK d k D L) as (d1 & p & EK & D1 & DE & S1 & Q1 & C). rewrite EK in E.
    assert (KN : it_ok d1 it /\ rem d1 it = rem d it /\ h0 d1 = h0 d /\ iters d1 = iters d).
    { unfold key_index in EK. destruct (expand_if_needed d) as (dn, ok) eqn:EN.
      assert (dn = d1).
      { destruct (negb ok); [now inversion EK|]. destruct (chain_of (h0 dn) (hash k)); [|discriminate].
        destruct (mem_key keq l k); [now inversion EK|]. destruct (rehashing dn); [|now inversion EK].
        destruct (chain_of (h1 dn) (hash k)); [|discriminate]. destruct (mem_key keq l0 k); now inversion EK. }
      subst dn. eapply needed_keeps; eauto. }
    destruct KN as (K1 & K2 & K3 & K4).
    assert (UP : forall tb : bool, pow2 (hsize (itbl d1 tb)) ->
       d' = set_tab d1 tb (map_chain (itbl d1 tb) (hash k) (fun c => update keq c k v) 0) ->
       keeps d it d' (fun q => deletes keq q (DReplace k v))).
    { intros tb PT ->. pose proof (bucket_lt hash (itbl d1 tb) k PT) as BL.
      destruct (chain_keeps d1 it tb (fun _ => false) (hash k) (fun c => update keq c k v) 0 K1 Hi BL
        (fun c => trans_update k v (inxt it) c)) as (Y1 & Y2 & Y3 & Y4 & Y5).
      split; [trivial|]. split; [rewrite <- K2; trivial|]. split; [congruence|]. split; [now rewrite Y4, K3|].
      intros q Hq _. rewrite <- K2. now apply Y5. }
    destruct p as [|tb|]; [destruct C| |].
    + destruct tb; inversion E; subst d'.
      * apply (UP true); [apply C|reflexivity].
      * apply (UP false); [exact Q1|reflexivity].
    + rewrite <- DE in C. destruct (insert hash d1 k v) as [d2|] eqn:EI; [|discriminate]. inversion E; subst d'.
      destruct (insert_keeps d1 it k v d2 D1 Q1 K1 Hi C EI) as (Y1 & Y2 & Y3 & Y4 & Y5).
      split; [trivial|]. split; [rewrite <- K2; trivial|]. split; [congruence|]. split; [now rewrite Y4, K3|].
      intros q Hq _. rewrite <- K2. apply Y5. now rewrite DE.
  - (* delete the current entry *)
    unfold ddelete in E. rewrite rstep_held in E by trivial.
    destruct ((used (h0 d) =? 0) && (used (h1 d) =? 0)); [inversion E; subst; now apply keeps_refl|].
    assert (NX : forall y, inxt it = Some y -> keq y k = false).
    { intros y Hy. destruct O as (_ & _ & _ & O4). destruct (O4 y Hy) as (_ & _ & (c0 & Hc0 & Hk)).
      rewrite Hc in Hc0. inversion Hc0; subst c0. destruct (keq y k) eqn:Ey; trivial. exfalso.
      rewrite (keq_trans keq hash KOK cur k y) in Hk; [discriminate| |]; rewrite (keq_sym keq hash KOK); trivial. }
    assert (RM : forall tb : bool, pow2 (hsize (itbl d tb)) ->
       d' = set_tab d tb (map_chain (itbl d tb) (hash k) (fun c => remove keq c k) (-1)) ->
       keeps d it d' (fun q => deletes keq q (DDelete k : dop K V))).
    { intros tb PT ->. pose proof (bucket_lt hash (itbl d tb) k PT) as BL.
      destruct (chain_keeps d it tb (fun q => keq q k) (hash k) (fun c => remove keq c k) (-1) O Hi BL
        (fun c => trans_remove k (inxt it) c NX)) as (Y1 & Y2 & Y3 & Y4 & Y5).
      split; [trivial|]. split; [trivial|]. split; [trivial|]. split; [trivial|].
      intros q _ Hq. now apply Y5. }
    destruct (chain_of (h0 d) (hash k)) as [c|]; [|discriminate].
    destruct (mem_key keq c k); [inversion E; subst d'; now apply (RM false)|].
    destruct (rehashing d) eqn:Rh; [|inversion E; subst; now apply keeps_refl].
    destruct (chain_of (h1 d) (hash k)) as [c1|]; [|discriminate].
    destruct (mem_key keq c1 k); [|inversion E; subst; now apply keeps_refl].
    inversion E; subst d'. apply (RM true); [|reflexivity].
    destruct D as (_ & _ & _ & R). apply (rehashing_true d R Rh).
  - inversion E; subst d'. unfold dresize. destruct (negb (can d) || rehashing d); [now apply keeps_refl|].
    apply EX. destruct D as ((U0 & _) & _). unfold dents in L. rewrite app_length in L.
    change (2 ^ 60) with 1152921504606846976 in L. change (2 ^ 62) with 4611686018427387904. lia.
  - inversion E; subst d'. now apply EX.
  - inversion E; subst d'. split; [exact O|]. split; [change (rem (mkd (h0 d) (h1 d) (ridx d) (iters d) b) it) with (rem d it); lia|].
    split; [reflexivity|]. split; [reflexivity|]. intros; reflexivity.
Qed.

Lemma spec_step_mem l o q : mem_key keq l q = true -> o <> DEmpty -> deletes keq q o = false ->
  mem_key keq (fst (spec_step keq l o)) q = true.
Proof.
  intros M NE ND. destruct o as [k|k v|k v|k| | |n|b| |]; cbn [spec_step]; try exact M; try contradiction.
  - destruct (mem_key keq l k); [exact M|]. cbn [fst]. unfold mem_key in *. cbn. now destruct (keq q k).
  - destruct (mem_key keq l k); cbn [fst].
    + rewrite (mem_key_keys _ l); [trivial|apply update_keys].
    + unfold mem_key in *. cbn. now destruct (keq q k).
  - destruct (mem_key keq l k); [|exact M]. cbn [fst]. now rewrite mem_key_remove.
Qed.

Lemma body_run b : forall d it cur, dinv keq hash d -> Z.of_nat (length (dents d)) + Z.of_nat (length b) < 2 ^ 60 ->
  pow2 (hsize (h0 d)) -> it_ok d it -> 0 <= iidx it -> icur it = Some cur -> iters d <> 0 ->
  Forall (body_op keq cur) b ->
  exists d' xs, drun keq hash d b = Some (d', xs) /\ dinv keq hash d' /\ it_ok d' it /\ iters d' = iters d /\
    hsize (h0 d') = hsize (h0 d) /\
    (length (rem d' it) <= length (rem d it) + length b)%nat /\
    (length (dents d') <= length (dents d) + length b)%nat /\
    forall q, mem_key keq (dents d) q = true -> forallb (fun o => negb (deletes keq q o)) b = true ->
      mem_key keq (rem d' it) q = mem_key keq (rem d it) q /\ mem_key keq (dents d') q = true.
Proof.
  induction b as [|o b IH]; intros d it cur D L P O Hi Hc It F; cbn [drun].
  - exists d, []. split; [reflexivity|]. split; [trivial|]. split; [trivial|]. split; [trivial|]. split; [trivial|].
    split; [lia|]. split; [lia|]. auto.
  - apply Forall_cons_iff in F as (F1 & F2). cbn [length] in L.
    assert (OK : op_ok o) by (destruct o; cbn in *; trivial).
    destruct (dstep_spec keq hash KOK d (dents d) o D (Permutation_refl _) ltac:(lia) OK) as (d1 & E1 & D1 & P1).
    destruct (body_step_keeps d it cur o d1 _ D ltac:(lia) P O Hi Hc It F1 E1) as (K1 & K2 & K3 & K4 & K5).
    pose proof (spec_step_length keq (dents d) o) as SL. pose proof (Permutation_length P1) as PL. rewrite E1.
    destruct (IH d1 it cur D1 ltac:(lia) ltac:(now rewrite K4) K1 Hi Hc ltac:(now rewrite K3) F2)
      as (d2 & xs & E2 & D2 & O2 & I2 & H2 & L2 & LD2 & Q2).
    rewrite E2. exists d2, (snd (spec_step keq (dents d) o) :: xs). split; [reflexivity|]. split; [trivial|].
    split; [trivial|]. split; [congruence|]. split; [congruence|]. cbn [length]. split; [lia|]. split; [lia|].
    intros q Hq HD. cbn [forallb] in HD. apply andb_true_iff in HD as (HD1 & HD2). apply negb_true_iff in HD1.
    assert (M1 : mem_key keq (dents d1) q = true).
    { rewrite (mem_key_perm keq hash KOK _ _ q P1); [|apply D1]. apply spec_step_mem; trivial.
      intros ->. exact F1. }
    destruct (Q2 q M1 HD2) as (R1 & R2). split; [|trivial]. rewrite R1. now apply K5.
Qed.

Lemma uniq_rem_head d it e r q : dinv keq hash d -> it_ok d it -> rem d it = e :: r ->
  mem_key keq (rem d it) q = true -> keq q (fst e) = negb (mem_key keq r q).
Proof.
  intros D O E M.
  assert (U : uniq keq (rem d it)).
  { pose proof D as (_ & _ & U & _). unfold rem, trem.
    assert (G : forall t i o, uniq keq (concat t) ->
      (forall k, o = Some k -> 0 <= i) ->
      exists a, Permutation (concat t) (a ++ suf o (nth (Z.to_nat i) t []) ++ concat (skipn (Z.to_nat (i + 1)) t))).
    { clear. intros t i o U Hi. destruct o as [k|]; cbn [suf app].
      - specialize (Hi k eq_refl). destruct (from_key keq (nth (Z.to_nat i) t []) k) as [r|] eqn:F.
        + destruct (from_key_some _ _ _ F) as (a & e & Ea & Er & _).
          destruct (Nat.lt_ge_cases (Z.to_nat i) (length t)) as [B|B];
            [|rewrite nth_overflow in F by lia; discriminate].
          exists (concat (firstn (Z.to_nat i) t) ++ a).
          rewrite (concat_split t (Z.to_nat i) B). replace (Z.to_nat (i + 1)) with (S (Z.to_nat i)) by lia.
          rewrite Ea, Er. cbn [tl]. rewrite <- !app_assoc. reflexivity.
        + exists (concat (firstn (Z.to_nat (i + 1)) t)). cbn [app]. rewrite <- concat_app, firstn_skipn. reflexivity.
      - exists (concat (firstn (Z.to_nat (i + 1)) t)). rewrite <- concat_app, firstn_skipn. reflexivity. }
    assert (HO : forall k, inxt it = Some k -> 0 <= iidx it).
    { intros k Hk. destruct O as (_ & _ & _ & O4). now apply (O4 k). }
    unfold dents in U. destruct (itab it); cbn [itbl].
    - rewrite app_nil_r. apply uniq_app_r in U. destruct (G _ (iidx it) (inxt it) U HO) as (a & Pa).
      apply (uniq_perm keq hash KOK _ _ Pa) in U. now apply uniq_app_r in U.
    - pose proof (uniq_app_l _ _ U) as U0. destruct (G _ (iidx it) (inxt it) U0 HO) as (a & Pa).
      apply (uniq_perm keq hash KOK _ ((a ++ suf (inxt it) (nth (Z.to_nat (iidx it)) (tbl (h0 d)) []) ++
             concat (skipn (Z.to_nat (iidx it + 1)) (tbl (h0 d)))) ++ ents (h1 d))) in U;
        [|now apply Permutation_app_tail].
      rewrite <- app_assoc in U. now apply uniq_app_r in U. }
  rewrite E in U, M. destruct e as [a v]. cbn [fst] in *. inversion U as [|? ? F U']; subst. cbn [fst] in F.
  destruct (keq q a) eqn:Q.
  - destruct (mem_key keq r q) eqn:Mr; trivial. exfalso. apply mem_in in Mr as (x & Hx & Ex).
    rewrite Forall_forall in F. specialize (F x Hx). cbn in F.
    rewrite (keq_trans keq hash KOK a q (fst x)) in F; [discriminate| |trivial]. now rewrite (keq_sym keq hash KOK).
  - unfold mem_key in *. cbn in M. rewrite Q in M. now rewrite M.
Qed.

Lemma iloop_spec bs : forall ns d it l0, dinv keq hash d -> it_ok d it ->
  Z.of_nat (length (dents d)) + Z.of_nat (list_sum ns) < 2 ^ 60 ->
  Forall2 (fun b n => forall e : K * V, Forall (body_op keq (fst e)) (b e) /\ (length (b e) <= n)%nat) bs ns ->
  0 <= iters d -> (itab it = false -> iidx it = -1 -> icur it = None) ->
  (0 < iters d \/ (icur it = None /\ iidx it = -1 /\ itab it = false)) ->
  l0 = dents d ->
  exists d' es f, iloop keq hash d it bs = Some (d', es, f) /\ dinv keq hash d' /\
    ((length (rem d it) + list_sum ns < length bs)%nat -> f = true) /\
    forall q, mem_key keq l0 q = true -> Forall (fun b => forall e : K * V, forallb (fun o => negb (deletes keq q o)) (b e) = true) bs ->
      mem_key keq (dents d') q = true /\
      (f = true -> visits keq q es = if mem_key keq (rem d it) q then 1%nat else 0%nat).
Proof.
  induction bs as [|b bs IH]; intros ns d it l0 D O L BO I0 IC IT ->; cbn [iloop];
    inversion BO as [|? n ? ns' BF0 BO' EB EN0]; subst; clear BO.
  - exists d, [], false. split; [reflexivity|]. split; [trivial|]. split; [cbn; lia|].
    intros q Hq _. split; [trivial|]. discriminate.
  - destruct (dnext_spec d it D O) as (d1 & it1 & _ & E0 & E1 & ER & EC & EI & RM).
    assert (D1 : dinv keq hash d1).
    { destruct D as (A & B & C & R). unfold dinv, ridx_ok, dents in *. rewrite E0, E1, ER. auto. }
    assert (DE : dents d1 = dents d) by (unfold dents; now rewrite E0, E1).
    destruct (rem d it) as [|e r] eqn:R.
    + rewrite RM. exists (iter_free d1 it1), [], true. split; [reflexivity|]. split.
      { unfold iter_free. destruct (negb (_ && _)); [|trivial]. exact D1. }
      split; [trivial|]. intros q Hq _. split; [|reflexivity].
      unfold iter_free. destruct (negb (_ && _)); [|now rewrite DE]. unfold dents. cbn [h0 h1]. fold (dents d1). now rewrite DE.
    + destruct RM as (EN & O1 & R1 & C1 & Hi1). rewrite EN. destruct (BF0 e) as (BF & BL).
      assert (I1 : 0 < iters d1).
      { destruct IT as [IT|(X1 & X2 & X3)].
        - rewrite EI. destruct (_ && _); lia.
        - rewrite EI, X1, X2, X3. cbn. lia. }
      assert (O1' : it_ok d1 it1).
      { unfold it_ok, itbl, rehashing in *. rewrite E0, E1, ER. exact O1. }
      assert (R1' : rem d1 it1 = r).
      { unfold rem, itbl in *. rewrite E0, E1. exact R1. }
      assert (NE : dsize d1 <> 0).
      { rewrite (dsize_dents keq hash) by trivial. intros Z0. assert (X : dents d = []).
        { rewrite <- DE. destruct (dents d1); [trivial|cbn in Z0; lia]. }
        assert (In e (dents d)); [|rewrite X in *; contradiction].
        assert (In e (rem d it)) by (rewrite R; now left). unfold rem, trem in H.
        unfold dents. apply in_or_app. apply in_app_or in H as [H|H].
        - apply in_app_or in H as [H|H].
          + assert (In e (nth (Z.to_nat (iidx it)) (tbl (itbl d (itab it))) [])).
            { unfold suf in H. destruct (inxt it) as [k|]; [|destruct H].
              destruct (from_key keq _ k) as [r0|] eqn:F; [|destruct H].
              destruct (from_key_some _ _ _ F) as (a & x & Ea & Er & _). rewrite Ea, <- Er. apply in_or_app; now right. }
            destruct (itab it); [right|left]; eapply nth_in_concat; eauto.
          + assert (In e (concat (tbl (itbl d (itab it))))).
            { rewrite <- (firstn_skipn (Z.to_nat (iidx it + 1)) (tbl (itbl d (itab it)))), concat_app.
              apply in_or_app; now right. }
            destruct (itab it); [right|left]; trivial.
        - destruct (itab it); [destruct H|now right]. }
      pose proof (size_pow keq hash d1 D1 NE) as P1. change (list_sum (n :: ns')) with (n + list_sum ns')%nat in *.
      destruct (body_run (b e) d1 it1 (fst e) D1 ltac:(rewrite DE; lia) P1 O1' Hi1 C1 ltac:(lia) BF)
        as (d2 & xs & E2 & D2 & O2 & I2 & H2 & L2 & LD2 & Q2).
      rewrite E2.
      destruct (IH ns' d2 it1 (dents d2) D2 O2 ltac:(rewrite DE in LD2; lia) BO' ltac:(lia)
         ltac:(intros; lia) ltac:(left; lia) eq_refl) as (d3 & es & f & E3 & D3 & F3 & Q3).
      rewrite E3. exists d3, (e :: es), f. split; [reflexivity|]. split; [trivial|]. split.
      { cbn [length]. intros X. apply F3. rewrite R1' in L2. lia. }
      intros q Hq HD. apply Forall_cons_iff in HD as (HD1 & HD2).
      rewrite <- DE in Hq. destruct (Q2 q Hq (HD1 e)) as (RR & MM). destruct (Q3 q MM HD2) as (MD & VV).
      split; [trivial|]. intros Hf. specialize (VV Hf). rewrite RR, R1' in VV.
      unfold visits in *. cbn [filter].
      destruct (mem_key keq (e :: r) q) eqn:MR.
      * rewrite (uniq_rem_head d it e r q D O R ltac:(now rewrite R)).
        destruct (mem_key keq r q); cbn [negb length]; rewrite VV; reflexivity.
      * destruct e as [a v]. unfold mem_key in MR. cbn in MR. cbn [fst].
        destruct (keq q a); [discriminate|]. fold (mem_key keq r q) in MR. now rewrite MR in VV.
Qed.
End Dict.
