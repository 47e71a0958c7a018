(** Lemmas for CSV texts. *)
From Verif Require Import Base S_csv M_csv.
From Coq Require Import ZifyBool ZifyNat.
Arguments Z.eqb : simpl never.

Definition texts (ls : list (list Z)) : list Z := concat (map (fun l => l ++ [10]) ls).
Definition noLF (l : list Z) : Prop := ~ In 10 l.

Lemma get_line_no : forall l len, noLF l -> get_line len l = 0%nat.
Proof.
  induction l as [|c l IH]; intros len H; [reflexivity|]. cbn [get_line].
  assert (c <> 10) by (intros ->; apply H; left; reflexivity). replace (c =? 10) with false by lia.
  destruct l as [|d l]; [reflexivity|]. apply IH. intros K. apply H. right. exact K.
Qed.
Lemma get_line_ok : forall l len rest, noLF l -> get_line len (l ++ 10 :: rest) = (len + length l + 1)%nat.
Proof.
  induction l as [|c l IH]; intros len rest H; cbn [app get_line length].
  - replace (10 =? 10) with true by lia. lia.
  - assert (c <> 10) by (intros ->; apply H; left; reflexivity). replace (c =? 10) with false by lia.
    assert (N : noLF l) by (intros K; apply H; right; exact K). specialize (IH (S len) rest N).
    destruct (l ++ 10 :: rest) eqn:E; [destruct l; discriminate|]. rewrite IH. lia.
Qed.
Lemma lines_exist : forall l, exists ls rest, l = texts ls ++ rest /\ Forall noLF ls /\ noLF rest.
Proof.
  induction l as [|c l (ls & rest & E & F & N)].
  - exists [], []. split; [reflexivity|]. split; [constructor|intros []].
  - destruct (Z.eq_dec c 10) as [->|D].
    + exists ([] :: ls), rest. split; [rewrite E; reflexivity|]. split; [constructor; [intros []|exact F]|exact N].
    + destruct ls as [|m ls].
      * exists [], (c :: rest). split; [rewrite E; reflexivity|]. split; [constructor|]. intros [K|K]; [congruence|exact (N K)].
      * exists ((c :: m) :: ls), rest. split; [rewrite E; reflexivity|]. inversion F; subst. split; [|exact N].
        constructor; [|assumption]. intros [K|K]; [congruence|contradiction].
Qed.
Lemma cut_same : forall (a b x y : list Z), noLF a -> noLF b -> a ++ 10 :: x = b ++ 10 :: y -> a = b /\ x = y.
Proof.
  induction a as [|c a IH]; intros [|d b] x y A B E; cbn in E.
  - injection E as E. auto.
  - injection E as E1 E2. exfalso. apply B. left. auto.
  - injection E as E1 E2. exfalso. apply A. left. auto.
  - injection E as -> E. destruct (IH b x y) as [-> ->]; [intros K; apply A; right; exact K|intros K; apply B; right; exact K|exact E|auto].
Qed.
Lemma lines_same : forall ls1 r1 ls rest, Forall noLF ls1 -> Forall noLF ls -> noLF rest -> texts ls1 ++ r1 = texts ls ++ rest ->
  exists ls2, ls = ls1 ++ ls2 /\ r1 = texts ls2 ++ rest.
Proof.
  induction ls1 as [|l ls1 IH]; intros r1 ls rest F1 F N E; [exists ls; split; [reflexivity|exact E]|].
  inversion F1; subst. unfold texts in E. cbn [map concat] in E. rewrite <- !app_assoc in E. destruct ls as [|m ls].
  - cbn in E. exfalso. apply N. rewrite <- E. apply in_or_app. right. left. reflexivity.
  - inversion F; subst. cbn [map concat] in E. rewrite <- !app_assoc in E. cbn [app] in E. apply cut_same in E; [|assumption|assumption].
    destruct E as [-> E]. destruct (IH r1 ls rest) as (ls2 & -> & ->); auto. exists ls2. auto.
Qed.

Section Read.
Context {A : Type}.
Variable f : list Z -> list A.
Definition got_rows (ls : list (list Z)) : list A := flat_map (fun l => f (l ++ [10])) ls.
Lemma take_ok : forall ls fuel rest, Forall noLF ls -> noLF rest -> (length ls < fuel)%nat ->
  take_lines f fuel (texts ls ++ rest) = Some (got_rows ls, rest).
Proof.
  induction ls as [|l ls IH]; intros [|fuel] rest F N H; cbn [length] in H; try lia; cbn [take_lines].
  - cbn [texts map concat app]. rewrite get_line_no by exact N. reflexivity.
  - inversion F; subst. unfold texts. cbn [map concat]. rewrite <- !app_assoc. cbn [app]. rewrite get_line_ok by assumption.
    replace (0 + length l + 1)%nat with (S (length l)) by lia.
    change (l ++ 10 :: concat (map (fun l0 => l0 ++ [10]) ls) ++ rest) with (l ++ [10] ++ texts ls ++ rest). rewrite app_assoc.
    replace (S (length l)) with (length (l ++ [10])) by (rewrite app_length; cbn; lia).
    rewrite skipn_app, skipn_all, Nat.sub_diag, firstn_app, firstn_all, Nat.sub_diag. cbn [skipn firstn app]. rewrite app_nil_r.
    rewrite IH by (auto; lia). reflexivity.
Qed.
Lemma lines_le : forall ls rest, (length ls <= length (texts ls ++ rest))%nat.
Proof.
  induction ls as [|l ls IH]; intros rest; [cbn; lia|]. specialize (IH rest). unfold texts in *. cbn [map concat length].
  rewrite !app_length in *. cbn [length]. lia.
Qed.
Lemma pieces_ok : forall fuel piece file buf ls rest, (1 <= piece)%nat -> noLF buf -> buf ++ file = texts ls ++ rest -> Forall noLF ls -> noLF rest ->
  (length file < fuel)%nat -> read_pieces f piece fuel file buf = Some (got_rows ls).
Proof.
  induction fuel as [|fuel IH]; intros piece file buf ls rest P B E F N H; [lia|]. cbn [read_pieces].
  destruct file as [|c file].
  - rewrite firstn_nil. rewrite app_nil_r in E. destruct ls as [|l ls]; [reflexivity|]. exfalso. apply B. rewrite E.
    unfold texts. cbn [map concat]. rewrite <- !app_assoc. apply in_or_app. right. left. reflexivity.
  - destruct piece as [|piece]; [lia|]. set (got := firstn (S piece) (c :: file)).
    assert (G : got <> []) by discriminate. destruct got as [|g got'] eqn:EG; [congruence|]. rewrite <- EG in *.
    destruct (lines_exist (buf ++ got)) as (ls1 & r1 & E1 & F1 & N1). rewrite E1.
    rewrite take_ok by (auto; pose proof (lines_le ls1 r1); lia).
    assert (E2 : texts ls1 ++ (r1 ++ skipn (S piece) (c :: file)) = texts ls ++ rest).
    { rewrite app_assoc, <- E1, <- app_assoc. subst got. rewrite firstn_skipn. exact E. }
    destruct (lines_same _ _ _ _ F1 F N E2) as (ls2 & -> & E3). apply Forall_app in F. destruct F as [_ F2].
    rewrite (IH (S piece) (skipn (S piece) (c :: file)) r1 ls2 rest); auto.
    + unfold got_rows. rewrite flat_map_app. reflexivity.
    + cbn [skipn]. rewrite skipn_length. cbn [length] in H. lia.
Qed.
End Read.

(** ** cells *)
Lemma chars_split : forall l, exists z, l = chars l ++ z /\ (z = [] \/ hd 1 z = 0).
Proof.
  induction l as [|c l (z & E & Z0)]; [exists []; auto|]. cbn [chars]. destruct (c =? 0) eqn:D.
  - exists (c :: l). split; [reflexivity|]. right. cbn. lia.
  - exists z. split; [cbn; congruence|exact Z0].
Qed.
Lemma chars_no0 : forall l, ~ In 0 (chars l).
Proof. induction l as [|c l IH]; [intros []|]. cbn [chars]. destruct (c =? 0) eqn:D; [intros []|]. intros [K|K]; [lia|contradiction]. Qed.
Lemma chars_id : forall l, ~ In 0 l -> chars l = l.
Proof.
  induction l as [|c l IH]; intros H; [reflexivity|]. cbn [chars]. destruct (c =? 0) eqn:D; [exfalso; apply H; left; lia|].
  f_equal. apply IH. intros K. apply H. right. exact K.
Qed.
Lemma chars_app : forall p x, chars (p ++ x) = if existsb (Z.eqb 0) p then chars p else chars p ++ chars x.
Proof.
  induction p as [|c p IH]; intros x; [reflexivity|]. cbn [app chars existsb]. rewrite (Z.eqb_sym 0 c). destruct (c =? 0) eqn:D; [reflexivity|].
  cbn [orb]. rewrite IH. destruct (existsb (Z.eqb 0) p); reflexivity.
Qed.
Lemma drop_split : forall l, exists a, l = a ++ drop_low l /\ blanks a /\ (drop_low l = [] \/ 32 < hd 0 (drop_low l)).
Proof.
  induction l as [|c l (a & E & B & D)]; [exists []; repeat split; auto; constructor|]. cbn [drop_low]. destruct (32 <? c) eqn:K.
  - exists []. split; [reflexivity|]. split; [constructor|]. right. cbn. lia.
  - exists (c :: a). split; [cbn; congruence|]. split; [constructor; [lia|exact B]|exact D].
Qed.
Lemma drop_id : forall l, (l = [] \/ 32 < hd 0 l) -> drop_low l = l.
Proof. intros [|c l] [H|H]; try reflexivity; try discriminate. cbn in *. now replace (32 <? c) with true by lia. Qed.
Lemma last_rev : forall (l : list Z) d, last l d = hd d (rev l).
Proof. intros l d. induction l using rev_ind; [reflexivity|]. rewrite rev_app_distr, last_last. reflexivity. Qed.
Lemma trim_stripped : forall p, stripped p (c_trim p).
Proof.
  intros p. destruct (chars_split p) as (z & E & Z0). pose proof (chars_no0 p) as N. unfold c_trim. set (q := chars p) in *.
  destruct (drop_split (rev q)) as (b & E1 & B1 & D1). set (r := rev (drop_low (rev q))).
  assert (EQ : q = r ++ rev b) by (apply (f_equal (@rev Z)) in E1; rewrite rev_involutive, rev_app_distr in E1; exact E1).
  destruct (drop_split r) as (a & E2 & B2 & D2). exists a, (rev b), z.
  assert (EP : p = a ++ drop_low r ++ rev b ++ z).
  { rewrite E, EQ. rewrite E2 at 1. now rewrite <- !app_assoc. }
  split; [exact EP|]. split; [exact B2|]. split; [unfold blanks in *; rewrite Forall_forall in *; intros x I; apply B1; apply in_rev; exact I|].
  split; [rewrite app_assoc, <- E2, <- EQ; exact N|]. split; [exact Z0|].
  destruct D2 as [D2|D2]; [left; exact D2|right]. split; [exact D2|].
  assert (X : r <> []) by (intros X; rewrite X in D2; cbn in D2; lia).
  assert (LR : last r 0 = hd 0 (drop_low (rev q))) by (rewrite last_rev; unfold r; now rewrite rev_involutive).
  assert (LD : last (drop_low r) 0 = last r 0).
  { rewrite E2 at 2. destruct (drop_low r) as [|x y] eqn:ED; [cbn in D2; lia|]. symmetry.
    clear - x. induction a as [|k a IH]; [reflexivity|]. cbn [app]. rewrite <- IH. destruct (a ++ x :: y) eqn:EE; [destruct a; discriminate|reflexivity]. }
  rewrite LD, LR. destruct D1 as [D1|D1]; [|exact D1]. exfalso. apply X. unfold r. now rewrite D1.
Qed.
Lemma trim_app : forall p x, blanks x -> ~ In 0 x -> c_trim (p ++ x) = c_trim p.
Proof.
  intros p x B N. unfold c_trim. rewrite chars_app. destruct (existsb (Z.eqb 0) p); [reflexivity|]. rewrite (chars_id x N), rev_app_distr.
  f_equal. f_equal. assert (B' : blanks (rev x)) by (unfold blanks in *; rewrite Forall_forall in *; intros c I; apply B; apply in_rev; exact I).
  induction B' as [|c y C B' IH]; [reflexivity|]. cbn [app drop_low]. replace (32 <? c) with false by lia. exact IH.
Qed.
Lemma trim_id : forall t, tight (chars t) -> c_trim t = chars t.
Proof.
  intros t T. unfold c_trim. set (q := chars t) in *. assert (H1 : drop_low (rev q) = rev q).
  { apply drop_id. destruct T as [->|[_ L]]; [left; reflexivity|right]. now rewrite <- last_rev. }
  rewrite H1, rev_involutive. apply drop_id. destruct T as [->|[T _]]; [left; reflexivity|right; exact T].
Qed.

(** ** lines *)
Fixpoint split (sep : Z) (cur l : list Z) : list (list Z) :=
  match l with [] => [cur] | c :: l' => if c =? sep then cur :: split sep [] l' else split sep (cur ++ [c]) l' end.
Lemma split_ne : forall sep l cur, split sep cur l <> [].
Proof. induction l as [|c l IH]; intros cur; cbn [split]; [discriminate|]. destruct (c =? sep); [discriminate|apply IH]. Qed.
Lemma split_joined : forall sep l cur, ~ In sep cur -> joined sep (split sep cur l) = cur ++ l /\ Forall (fun p => ~ In sep p) (split sep cur l).
Proof.
  induction l as [|c l IH]; intros cur N; cbn [split].
  - split; [cbn; now rewrite app_nil_r|constructor; [exact N|constructor]].
  - destruct (c =? sep) eqn:E.
    + destruct (IH [] ltac:(intros [])) as [J F]. split; [|constructor; assumption].
      cbn [joined]. destruct (split sep [] l) eqn:S; [exfalso; exact (split_ne _ _ _ S)|]. rewrite J. cbn. replace c with sep by lia. reflexivity.
    + destruct (IH (cur ++ [c])) as [J F]; [intros K; apply in_app_or in K; destruct K as [K|[K|[]]]; [exact (N K)|lia]|].
      rewrite J, <- app_assoc. split; [reflexivity|exact F].
Qed.
Lemma pieces_split : forall sep x, x <> [] -> ~ In sep x -> blanks x -> ~ In 0 x -> forall l cur, pieces sep cur (l ++ x) = map c_trim (split sep cur l).
Proof.
  intros sep x X NX BX ZX. induction l as [|c l IH]; intros cur; cbn [app pieces split map].
  - assert (P : forall y cur, ~ In sep y -> cur ++ y <> [] -> pieces sep cur y = [c_trim (cur ++ y)]).
    { clear. induction y as [|c y IH]; intros cur N NE; cbn [pieces].
      - rewrite app_nil_r in *. destruct cur; [congruence|reflexivity].
      - assert (c <> sep) by (intros ->; apply N; left; reflexivity). replace (c =? sep) with false by lia.
        rewrite IH; [rewrite <- app_assoc; reflexivity|intros K; apply N; right; exact K|]. intros K. apply app_eq_nil in K. destruct K as [K _].
        destruct cur; discriminate. }
    rewrite P; [rewrite trim_app by assumption; reflexivity|exact NX|]. intros K. apply app_eq_nil in K. tauto.
  - destruct (c =? sep); [cbn [map]; f_equal; apply IH|apply IH].
Qed.
Lemma map_stripped : forall ps, Forall2 stripped ps (map c_trim ps).
Proof. induction ps; cbn; constructor; auto using trim_stripped. Qed.
Lemma line_row : forall sep l, sep <> 10 -> exists r, parse_line sep (l ++ [10]) = [r] /\ row_of sep l r.
Proof.
  intros sep l S. assert (P : pieces sep [] (l ++ [10]) = map c_trim (split sep [] l)).
  { apply pieces_split; [discriminate|intros [K|[]]; lia|constructor; [lia|constructor]|intros [K|[]]; lia]. }
  unfold parse_line. rewrite P. pose proof (split_ne sep l []) as NE. destruct (split_joined sep l [] ltac:(intros [])) as [J F].
  exists (map c_trim (split sep [] l)). split; [destruct (split sep [] l); [congruence|reflexivity]|].
  exists (split sep [] l). split; [exact NE|]. split; [symmetry; exact J|]. split; [exact F|apply map_stripped].
Qed.
Lemma cols_split : forall sep l pre cur cols col line, line = pre ++ cur ++ l -> cols = (col + S (length (filter (fun c => Z.eqb c sep) l)))%nat ->
  map (fun p => firstn (snd p) (skipn (fst p) line)) (columns sep cols col (length pre) (length pre + length cur) l) = split sep cur l.
Proof.
  induction l as [|c l IH]; intros pre cur cols col line EL EC; cbn [columns split].
  - cbn [filter length] in EC. replace (Nat.eqb (S col) cols) with true by (symmetry; apply Nat.eqb_eq; lia). cbn [map fst snd].
    replace (length pre + length cur - length pre)%nat with (length cur) by lia. rewrite EL, app_nil_r, skipn_app, skipn_all, Nat.sub_diag.
    cbn [skipn app]. now rewrite firstn_all.
  - replace (Nat.ltb col cols) with true by (symmetry; apply Nat.ltb_lt; lia). cbn [filter] in EC. destruct (c =? sep) eqn:E.
    + cbn [map fst snd]. replace (length pre + length cur - length pre)%nat with (length cur) by lia.
      replace (firstn (length cur) (skipn (length pre) line)) with cur.
      * f_equal. replace (S (length pre + length cur)) with (length (pre ++ cur ++ [c])) at 1 2 by (rewrite !app_length; cbn; lia).
        replace (length (pre ++ cur ++ [c])) with (length (pre ++ cur ++ [c]) + length (@nil Z))%nat at 2 by (cbn; lia).
        apply IH; [rewrite EL, <- !app_assoc; reflexivity|cbn [length] in EC; lia].
      * rewrite EL, skipn_app, skipn_all, Nat.sub_diag. cbn [skipn app]. now rewrite firstn_app, firstn_all, Nat.sub_diag, firstn_O, app_nil_r.
    + replace (S (length pre + length cur)) with (length pre + length (cur ++ [c]))%nat by (rewrite app_length; cbn; lia).
      apply IH; [rewrite EL, <- !app_assoc; reflexivity|exact EC].
Qed.
Lemma sub_row : forall sep l, sep <> 10 -> exists ps, sub_line sep (l ++ [10]) = [ps] /\ ps <> [] /\ l ++ [10] = joined sep ps /\ Forall (fun p => ~ In sep p) ps.
Proof.
  intros sep l S. exists (split sep [] (l ++ [10])). destruct (split_joined sep (l ++ [10]) [] ltac:(intros [])) as [J F].
  split; [|split; [apply split_ne|split; [symmetry; exact J|exact F]]]. unfold sub_line. f_equal.
  apply (cols_split sep (l ++ [10]) [] [] _ 0%nat (l ++ [10])); [reflexivity|]. unfold substr_nums. rewrite last_last.
  replace (10 =? sep) with false by lia. replace (0 <? Z.of_nat (length (l ++ [10]))) with true by (rewrite app_length; cbn [length]; lia). cbn. lia.
Qed.

(** ** numbers *)
Lemma dec_snoc : forall d c, dec_value (d ++ [c]) = dec_value d * 10 + (c - 48).
Proof. intros. unfold dec_value. now rewrite fold_left_app. Qed.
Lemma digits_ok : forall n v, 0 <= v < 10 ^ Z.of_nat n -> (1 <= n)%nat ->
  digits n v <> [] /\ Forall digit (digits n v) /\ dec_value (digits n v) = v /\ (v = 0 -> digits n v = [48]) /\ (0 < v -> hd 0 (digits n v) <> 48).
Proof.
  induction n as [|n IH]; intros v V N; [lia|]. cbn [digits]. pose proof (Z.mod_pos_bound v 10 ltac:(lia)) as M. pose proof (Z.div_mod v 10 ltac:(lia)) as DM.
  destruct (v / 10 =? 0) eqn:E.
  - split; [discriminate|]. split; [constructor; [unfold digit; lia|constructor]|]. split; [unfold dec_value; cbn [fold_left]; lia|]. split; [intros ->; reflexivity|cbn [hd]; lia].
  - assert (V2 : 0 <= v / 10 < 10 ^ Z.of_nat n).
    { rewrite Nat2Z.inj_succ, Z.pow_succ_r in V by lia. split; [apply Z.div_pos; lia|apply Z.div_lt_upper_bound; lia]. }
    assert (1 <= n)%nat by (destruct n; [change (10 ^ Z.of_nat 0) with 1 in V2; lia|lia]).
    destruct (IH (v / 10) V2) as (A & B & C & _ & D); [assumption|]. split; [destruct (digits n (v / 10)); discriminate|].
    split; [apply Forall_app; split; [exact B|constructor; [unfold digit; lia|constructor]]|]. split; [rewrite dec_snoc, C; lia|].
    split; [intros ->; rewrite Zdiv_0_l in E; lia|]. intros _. specialize (D ltac:(lia)). destruct (digits n (v / 10)); [congruence|exact D].
Qed.
Lemma ull_ok : forall v, 0 <= v < 2 ^ 64 -> numeral (ull2str v) v /\ Forall digit (ull2str v) /\ ull2str v <> [].
Proof.
  intros v V. destruct (digits_ok 20 v) as (A & B & C & D & E); [|lia|].
  - change (10 ^ Z.of_nat 20) with 100000000000000000000. change (2 ^ 64) with 18446744073709551616 in V. lia.
  - unfold ull2str. split; [|split; assumption]. exists (digits 20 v). split; [exact A|]. split; [exact B|]. split; [|left; split; [reflexivity|symmetry; exact C]].
    destruct (Z.eq_dec v 0) as [Z0|Z0]; [left; exact (D Z0)|right; apply E; lia].
Qed.
Lemma ll_ok : forall v, - 2 ^ 63 < v < 2 ^ 63 -> exists t, ll2str v = Some t /\ numeral t v /\ Forall (fun c => c = 45 \/ digit c) t /\ t <> [].
Proof.
  intros v V. change (2 ^ 63) with 9223372036854775808 in V. unfold ll2str. replace (v =? - 2 ^ 63) with false by (change (2 ^ 63) with 9223372036854775808; lia).
  eexists. split; [reflexivity|]. destruct (v <? 0) eqn:S.
  - destruct (ull_ok (- v)) as ((d & A & B & C & D) & F & N); [change (2 ^ 64) with 18446744073709551616; lia|].
    split; [|split; [constructor; [auto|eapply Forall_impl; [|exact F]; auto]|discriminate]].
    exists (ull2str (- v)). split; [exact N|]. split; [exact F|]. destruct D as [[D1 D2]|[D1 D2]].
    + rewrite D1. split; [exact C|right; split; [reflexivity|lia]].
    + exfalso. rewrite D1 in F. inversion F; subst. unfold digit in *. lia.
  - destruct (ull_ok v) as (M & F & N); [change (2 ^ 64) with 18446744073709551616; lia|]. split; [exact M|]. split; [eapply Forall_impl; [|exact F]; auto|exact N].
Qed.
Lemma read_digits_ok : forall d a rest, Forall digit d -> (rest = [] \/ ~ digit (hd 0 rest)) ->
  read_digits a (d ++ rest) = fold_left (fun a c => a * 10 + (c - 48)) d a.
Proof.
  induction d as [|c d IH]; intros a rest F R; cbn [app read_digits fold_left].
  - destruct rest as [|c r]; [reflexivity|]. destruct R as [R|R]; [discriminate|]. cbn [hd read_digits] in *. unfold digit in R.
    replace ((48 <=? c) && (c <=? 57)) with false by lia. reflexivity.
  - inversion F as [|? ? D F']; subst. unfold digit in D. replace ((48 <=? c) && (c <=? 57)) with true by lia. apply IH; assumption.
Qed.
Lemma atoll_ok : forall t v, numeral t v -> - 2 ^ 63 <= v < 2 ^ 63 -> c_atoll t = Some v.
Proof.
  intros t v (d & A & B & _ & D) V. unfold c_atoll.
  assert (X : (- 2 ^ 63 <=? v) && (v <? 2 ^ 63) = true) by lia.
  assert (RD : read_digits 0 d = dec_value d) by (rewrite <- (app_nil_r d) at 1; apply read_digits_ok; auto).
  destruct D as [[-> ->]|[-> ->]].
  - destruct d as [|c d]; [congruence|]. inversion B as [|? ? D1 D2]; subst. unfold digit in D1. cbn [skip_space].
    replace ((c =? 32) || (9 <=? c) && (c <=? 13)) with false by lia. replace (c =? 45) with false by lia. replace (c =? 43) with false by lia.
    rewrite RD, X. reflexivity.
  - change (skip_space (45 :: d)) with (45 :: d). cbv beta iota zeta. rewrite Z.eqb_refl, RD, X. reflexivity.
Qed.

(** ** writing *)
Definition wtext (c : cell) : list Z :=
  match c with
  | CInt v => match ll2str v with Some t => t | None => [] end
  | CUint v => ull2str v
  | CText raw => if last raw 0 =? 0 then chars raw else raw
  | CDec t => t
  | CNone => [32]
  end.
Lemma numeral_clean : forall t, Forall (fun c => c = 45 \/ digit c) t -> ~ In 44 t /\ ~ In 10 t /\ ~ In 0 t /\ tight t.
Proof.
  intros t F. rewrite Forall_forall in F. unfold digit in F.
  split; [intros K; apply F in K; lia|]. split; [intros K; apply F in K; lia|]. split; [intros K; apply F in K; lia|].
  destruct t as [|c t]; [left; reflexivity|right]. split; [specialize (F c (or_introl eq_refl)); cbn; lia|].
  specialize (F (last (c :: t) 0)). assert (In (last (c :: t) 0) (c :: t)) by (destruct (exists_last (l := c :: t)) as (y & z & ->); [discriminate|];
    rewrite last_last; apply in_or_app; right; left; reflexivity). specialize (F H). lia.
Qed.
Lemma chars_sub : forall raw c, In c (chars raw) -> In c raw.
Proof. induction raw as [|d raw IH]; intros c H; [exact H|]. cbn [chars] in H. destruct (d =? 0); [destruct H|]. destruct H as [->|H]; [left; reflexivity|right; auto]. Qed.
Lemma cell_ok : forall c, fine c -> (forall out, put_cell out c = Some (out ++ comma out ++ wtext c)) /\ ~ In 44 (wtext c) /\ ~ In 10 (wtext c) /\
  shows c (c_trim (wtext c)) /\ (not_empty c -> wtext c <> []).
Proof.
  intros [v|v|raw|t|] F; cbn [fine] in F; cbn [put_cell wtext shows not_empty].
  - destruct (ll_ok v F) as (t & E & N & C & NE). destruct (numeral_clean t C) as (C1 & C2 & C3 & C4). rewrite E. unfold make_int. rewrite E.
    split; [reflexivity|]. split; [exact C1|]. split; [exact C2|]. split; [|auto]. rewrite trim_id by (now rewrite chars_id). now rewrite chars_id.
  - destruct (ull_ok v F) as (N & C & NE). assert (C' : Forall (fun c => c = 45 \/ digit c) (ull2str v)) by (eapply Forall_impl; [|exact C]; auto).
    destruct (numeral_clean _ C') as (C1 & C2 & C3 & C4).
    split; [reflexivity|]. split; [exact C1|]. split; [exact C2|]. split; [|auto]. rewrite trim_id by (now rewrite chars_id). now rewrite chars_id.
  - destruct F as (NE & F1 & F2 & F3 & _). assert (CW : chars (if last raw 0 =? 0 then chars raw else raw) = chars raw).
    { destruct (last raw 0 =? 0); [apply chars_id, chars_no0|reflexivity]. }
    split; [intros out; destruct raw; [congruence|reflexivity]|].
    split; [destruct (last raw 0 =? 0); [intros K; apply F1; apply chars_sub; exact K|exact F1]|].
    split; [destruct (last raw 0 =? 0); [intros K; apply F2; apply chars_sub; exact K|exact F2]|].
    split; [rewrite trim_id; rewrite CW; [reflexivity|exact F3]|]. intros K. destruct (last raw 0 =? 0); [exact K|exact NE].
  - destruct F as (NE & L & F). rewrite Forall_forall in F.
    split; [intros out; unfold make_double; rewrite firstn_all2; [reflexivity|]; rewrite app_length; unfold comma; destruct out; [cbn; lia|destruct (_ =? _); cbn [length]; lia]|].
    split; [intros K; apply F in K; lia|]. split; [intros K; apply F in K; lia|]. split; [|auto].
    assert (N0 : ~ In 0 t) by (intros K; apply F in K; lia). rewrite trim_id; rewrite (chars_id t N0); [reflexivity|].
    right. destruct t as [|c t]; [congruence|]. split; [specialize (F c (or_introl eq_refl)); cbn; lia|].
    destruct (exists_last (l := c :: t)) as (y & z & E); [discriminate|]. rewrite E, last_last. specialize (F z). rewrite E in F.
    specialize (F ltac:(apply in_or_app; right; left; reflexivity)). lia.
  - split; [reflexivity|]. split; [intros [K|[]]; lia|]. split; [intros [K|[]]; lia|]. split; [reflexivity|discriminate].
Qed.
Lemma joined_flat : forall sep p ps, joined sep (p :: ps) = p ++ flat_map (fun q => sep :: q) ps.
Proof.
  intros sep p ps. revert p. induction ps as [|q ps IH]; intros p; [cbn; now rewrite app_nil_r|].
  change (joined sep (p :: q :: ps)) with (p ++ sep :: joined sep (q :: ps)). rewrite IH. reflexivity.
Qed.
Definition no_end (out : list Z) : Prop := out <> [] /\ last out 0 <> 10.
Lemma last_app : forall (a b : list Z) d, b <> [] -> last (a ++ b) d = last b d.
Proof. intros a b d H. destruct (exists_last H) as (x & y & ->). now rewrite app_assoc, !last_last. Qed.
Lemma last_in : forall (l : list Z) d, l <> [] -> In (last l d) l.
Proof. intros l d H. destruct (exists_last H) as (x & y & ->). rewrite last_last. apply in_or_app. right. left. reflexivity. Qed.
Lemma cells_ok : forall r out, Forall fine r -> no_end out -> put_cells out r = Some (out ++ flat_map (fun q => 44 :: q) (map wtext r)).
Proof.
  induction r as [|c r IH]; intros out F [NE L]; cbn [put_cells map flat_map]; [now rewrite app_nil_r|]. inversion F as [|? ? FC FR]; subst.
  destruct (cell_ok c FC) as (P & _ & N10 & _). rewrite P. replace (comma out) with [44].
  - rewrite IH; [now rewrite <- !app_assoc|exact FR|]. split; [destruct out; discriminate|]. rewrite app_assoc.
    destruct (wtext c) as [|x w] eqn:W; [rewrite app_nil_r, last_last; lia|]. rewrite last_app by discriminate. intros K. apply N10. rewrite <- K. apply last_in. discriminate.
  - unfold comma. destruct out; [congruence|]. replace (_ =? 10) with false by lia. reflexivity.
Qed.
Lemma row_ok : forall r out, fine_row r -> (out = [] \/ last out 0 = 10) -> put_cells out r = Some (out ++ joined 44 (map wtext r)).
Proof.
  intros r out (F & c & r' & -> & NE) O. inversion F as [|? ? FC FR]; subst. destruct (cell_ok c FC) as (P & _ & N10 & _ & W). specialize (W NE).
  cbn [put_cells]. rewrite P. replace (comma out) with (@nil Z).
  - cbn [app]. rewrite cells_ok; [cbn [map]; now rewrite joined_flat, app_assoc|exact FR|]. split; [intros K; apply app_eq_nil in K; tauto|].
    rewrite last_app by exact W. intros K. apply N10. rewrite <- K. apply last_in. exact W.
  - unfold comma. destruct out; [reflexivity|]. destruct O as [O|O]; [discriminate|]. rewrite O. reflexivity.
Qed.
Definition wline (r : list cell) : list Z := joined 44 (map wtext r) ++ [13].
Lemma rows_ok : forall rows out, Forall fine_row rows -> (out = [] \/ last out 0 = 10) -> put_rows out rows = Some (out ++ texts (map wline rows)).
Proof.
  induction rows as [|r rows IH]; intros out F O; cbn [put_rows map]; [cbn; now rewrite app_nil_r|]. inversion F; subst.
  rewrite row_ok by assumption. rewrite IH; [|assumption|right; unfold make_end; now rewrite (app_assoc _ [13] [10] : _ ++ [13; 10] = _), last_last].
  f_equal. unfold make_end, texts, wline. cbn [map concat]. now rewrite <- !app_assoc.
Qed.
Lemma split_pieces : forall sep ps p cur, Forall (fun q => ~ In sep q) (p :: ps) -> split sep cur (joined sep (p :: ps)) = (cur ++ p) :: ps.
Proof.
  assert (S1 : forall sep p cur rest, ~ In sep p -> split sep cur (p ++ rest) = split sep (cur ++ p) rest).
  { induction p as [|c p IH]; intros cur rest N; [now rewrite app_nil_r|]. cbn [app split]. assert (c <> sep) by (intros ->; apply N; left; reflexivity).
    replace (c =? sep) with false by lia. rewrite IH; [now rewrite <- app_assoc|intros K; apply N; right; exact K]. }
  intros sep. induction ps as [|q ps IH]; intros p cur F; inversion F; subst.
  - cbn [joined]. rewrite <- (app_nil_r p) at 1. rewrite S1 by assumption. reflexivity.
  - change (joined sep (p :: q :: ps)) with (p ++ sep :: joined sep (q :: ps)). rewrite S1 by assumption. cbn [split].
    replace (sep =? sep) with true by lia. f_equal. rewrite IH by assumption. reflexivity.
Qed.
Lemma row_read : forall r, fine_row r -> parse_line 44 (wline r ++ [10]) = [map (fun c => c_trim (wtext c)) r] /\ noLF (wline r).
Proof.
  intros r (F & c & r' & E & _). assert (A : Forall (fun p => ~ In 44 p) (map wtext r) /\ Forall noLF (map wtext r)).
  { clear E c r'. induction F as [|c r FC FR [I1 I2]]; [split; constructor|]. destruct (cell_ok c FC) as (_ & N1 & N2 & _). split; constructor; assumption. }
  destruct A as [A1 A2]. unfold wline. split.
  - unfold parse_line. rewrite <- app_assoc. change ([13] ++ [10]) with [13; 10].
    rewrite pieces_split; [|discriminate|intros [K|[K|[]]]; lia|repeat constructor; lia|intros [K|[K|[]]]; lia].
    rewrite E in *. cbn [map] in *. rewrite split_pieces by exact A1. cbn [app map]. now rewrite map_map.
  - intros K. apply in_app_or in K. destruct K as [K|[K|[]]]; [|lia]. rewrite E in *. cbn [map] in *. rewrite joined_flat in K. inversion A2 as [|? ? X1 X2]; subst.
    apply in_app_or in K. destruct K as [K|K]; [exact (X1 K)|]. apply in_flat_map in K. destruct K as (q & IQ & [K|K]); [lia|]. rewrite Forall_forall in X2. exact (X2 q IQ K).
Qed.
Lemma shows_row : forall r, Forall fine r -> Forall2 shows r (map (fun c => c_trim (wtext c)) r).
Proof. induction 1 as [|c r F FR IH]; cbn [map]; constructor; [apply cell_ok; exact F|exact IH]. Qed.
