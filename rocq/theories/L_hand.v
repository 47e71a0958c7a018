(** Lemmas for C60. *)
From Coq Require Import ZifyBool ZifyNat String.
From Verif Require Import Base S_sha1 M_sha1 L_sha1 S_hand M_memory M_hand.
Open Scope list_scope.
Open Scope Z_scope.

(** ** Searching *)
Definition plus_ (n : nat) (r : option (option nat)) : option (option nat) :=
  match r with Some (Some p) => Some (Some (n + p)%nat) | r => r end.
Lemma plus_plus : forall n m r, plus_ n (plus_ m r) = plus_ (n + m) r.
Proof. intros n m [[p|]|]; cbn; [rewrite Nat.add_assoc; reflexivity|reflexivity|reflexivity]. Qed.
Lemma strstr_step : forall sub c l, starts sub (c :: l) = false -> c <> 0 -> strstr sub (c :: l) = plus_ 1 (strstr sub l).
Proof. intros sub c l S C. cbn [strstr]. rewrite S. replace (c =? 0) with false by lia. destruct (strstr sub l) as [[p|]|]; reflexivity. Qed.
Lemma strstr_hit : forall sub l, sub <> [] -> starts sub l = true -> strstr sub l = Some (Some 0%nat).
Proof. intros sub [|c l] N S; [destruct sub; [congruence|discriminate S]|]. cbn [strstr]. rewrite S. reflexivity. Qed.
Lemma starts_app : forall a l, starts a (a ++ l) = true.
Proof. induction a as [|c a IH]; intros l; cbn [starts app]; [reflexivity|]. rewrite Z.eqb_refl. apply IH. Qed.

Lemma eoh_line : forall l r, is_line l -> strstr EOH (l ++ r) = plus_ (List.length l) (strstr EOH r).
Proof.
  induction l as [|c l IH]; intros r L; [cbn [app List.length]; destruct (strstr EOH r) as [[p|]|]; reflexivity|]. inversion L as [|? ? [C1 [C2 C3]] L']; subst.
  cbn [app List.length]. rewrite strstr_step; [|cbn [starts EOH]; replace (13 =? c) with false by lia; reflexivity|lia]. rewrite IH by exact L'. apply plus_plus.
Qed.
Lemma eoh_crlf : forall c r, line_byte c -> strstr EOH (13 :: 10 :: c :: r) = plus_ 2 (strstr EOH (c :: r)).
Proof.
  intros c r (C1 & C2 & C3). rewrite strstr_step; [|cbn [starts EOH]; replace (13 =? c) with false by lia; reflexivity|discriminate].
  rewrite strstr_step; [apply plus_plus|reflexivity|discriminate].
Qed.
Definition closed (ls : list (list Z)) : list Z := concat (map (fun l => l ++ CRLF) ls).
Definition good_line (l : list Z) : Prop := is_line l /\ l <> [].
Lemma eoh_lines : forall ls l r, good_line l -> Forall good_line ls ->
  strstr EOH (closed (l :: ls) ++ CRLF ++ r) = Some (Some (List.length (closed (l :: ls)) - 2)%nat).
Proof.
  induction ls as [|l' ls IH]; intros l r [L N] F; unfold closed; cbn [map concat].
  - rewrite app_nil_r, <- !app_assoc. rewrite eoh_line by exact L. change (CRLF ++ CRLF ++ r) with (EOH ++ r). rewrite strstr_hit; [|discriminate|apply starts_app]. cbn [plus_].
    rewrite app_length. cbn [List.length CRLF]. do 2 f_equal. lia.
  - inversion F as [|? ? G F']; subst. fold (closed ls). rewrite <- !app_assoc. rewrite eoh_line by exact L.
    specialize (IH l' r G F'). unfold closed in IH. cbn [map concat] in IH. fold (closed ls) in IH. destruct G as [G1 G2]. destruct l' as [|c l']; [congruence|]. inversion G1 as [|? ? C G1']; subst.
    cbn [app CRLF]. cbn [app CRLF] in IH. rewrite <- !app_assoc in IH. cbn [app CRLF] in IH. rewrite eoh_crlf by exact C. rewrite IH. cbn [plus_]. rewrite !app_length. cbn [List.length]. rewrite !app_length. cbn [List.length CRLF]. do 2 f_equal. lia.
Qed.
(** the end of a request that has not come completely *)
Lemma eoh_none : forall ls l n k, good_line l -> Forall good_line ls -> (n < List.length (closed (l :: ls) ++ CRLF))%nat -> (0 < k)%nat ->
  strstr EOH (firstn n (closed (l :: ls) ++ CRLF) ++ repeat 0 k) = Some None.
Proof.
  assert (Z1 : forall k, (0 < k)%nat -> strstr EOH (repeat 0 k) = Some None) by (intros [|k] K; [lia|reflexivity]).
  assert (ZL : forall l k, is_line l -> (0 < k)%nat -> strstr EOH (l ++ repeat 0 k) = Some None).
  { intros l k L K. rewrite eoh_line, Z1 by assumption. reflexivity. }
  assert (FL : forall n l, is_line l -> is_line (firstn n l)).
  { intros n l L. apply Forall_forall. intros x I. apply (proj1 (Forall_forall _ l) L). rewrite <- (firstn_skipn n l). apply in_or_app. left. exact I. }
  induction ls as [|l' ls IH]; intros l n k [L N] F LT K; unfold closed in *; cbn [map concat] in *.
  - rewrite app_nil_r in *. rewrite <- app_assoc in *. rewrite firstn_app. rewrite !app_length in LT. cbn [List.length CRLF] in LT. rewrite <- app_assoc. rewrite eoh_line by (apply FL; exact L).
    replace (strstr EOH (firstn (n - List.length l) (CRLF ++ CRLF) ++ repeat 0 k)) with (Some (@None nat)); [reflexivity|]. symmetry.
    destruct k as [|k]; [lia|]. destruct (n - List.length l)%nat as [|[|[|[|m]]]] eqn:E; try reflexivity. lia.
  - inversion F as [|? ? G F']; subst. rewrite <- !app_assoc. rewrite firstn_app. rewrite <- app_assoc. rewrite eoh_line by (apply FL; exact L).
    replace (strstr EOH _) with (Some (@None nat)); [reflexivity|]. symmetry.
    destruct (n - List.length l)%nat as [|[|m]] eqn:E; [destruct k; [lia|reflexivity]|destruct k; [lia|reflexivity]|]. cbn [CRLF app firstn]. rewrite !app_length in LT. cbn [List.length CRLF] in LT. rewrite ?app_length in LT.
    specialize (IH l' m k G F'). rewrite <- !app_assoc in IH. cbn [CRLF app] in IH.
    destruct m as [|m].
    { cbn [firstn app]. destruct k; [lia|reflexivity]. }
    destruct G as [G1 G2]. destruct l' as [|c l']; [congruence|]. inversion G1 as [|? ? C G1']; subst. cbn [app firstn]. rewrite eoh_crlf by exact C. cbn [app firstn] in IH. rewrite IH; [reflexivity| |exact K].
    cbn [List.length] in *. rewrite !app_length in *. cbn [List.length] in *. rewrite ?app_length. cbn [List.length]. fold (closed ls) in *. change (List.length CRLF) with 2%nat. lia.
Qed.

(** *** The name *)
Lemma starts_contains : forall sub l r c, ~ In c sub -> starts sub (l ++ c :: r) = true -> contains sub l.
Proof.
  induction sub as [|s sub IH]; intros l r c N S; [exists [], l; reflexivity|]. destruct l as [|d l]; cbn [starts app] in S; apply andb_prop in S; destruct S as [E S].
  - apply Z.eqb_eq in E. subst. exfalso. apply N. left. reflexivity.
  - apply Z.eqb_eq in E. subst. destruct (IH l r c) as (a & b & E); [intros I; apply N; right; exact I|exact S|].
    (* the occurrence found is at the front *)
    assert (P : forall sub l r c, ~ In c sub -> starts sub (l ++ c :: r) = true -> exists b, l = sub ++ b).
    { clear. induction sub as [|s sub IH]; intros l r c N S; [exists l; reflexivity|]. destruct l as [|d l]; cbn [starts app] in S; apply andb_prop in S; destruct S as [E S]; apply Z.eqb_eq in E; subst.
      - exfalso. apply N. left. reflexivity.
      - destruct (IH l r c) as [b ->]; [intros I; apply N; right; exact I|exact S|]. exists b. reflexivity. }
    destruct (P sub l r c) as [b' ->]; [intros I; apply N; right; exact I|exact S|]. exists [], b'. reflexivity.
Qed.
Lemma key_no_cr : ~ In 13 WSKEY /\ ~ In 10 WSKEY.
Proof. split; intros I; vm_compute in I; repeat (destruct I as [I|I]; [discriminate I|]); exact I. Qed.
Lemma contains_cons : forall sub c l, contains sub l -> contains sub (c :: l).
Proof. intros sub c l (a & b & ->). exists (c :: a), b. reflexivity. Qed.
Lemma key_line : forall l r, is_line l -> ~ contains WSKEY l -> strstr WSKEY (l ++ CRLF ++ r) = plus_ (List.length (l ++ CRLF)) (strstr WSKEY r).
Proof.
  induction l as [|c l IH]; intros r L N.
  - cbn [app CRLF List.length]. rewrite strstr_step; [|reflexivity|discriminate]. rewrite strstr_step; [apply plus_plus|reflexivity|discriminate].
  - inversion L as [|? ? [C1 _] L']; subst. cbn [app List.length]. rewrite strstr_step; [|destruct (starts WSKEY (c :: l ++ CRLF ++ r)) eqn:S; [|reflexivity]|lia].
    + rewrite IH; [apply plus_plus|exact L'|]. intros H. apply N. apply contains_cons. exact H.
    + exfalso. apply N. apply (starts_contains WSKEY (c :: l) (10 :: r) 13 (proj1 key_no_cr)). exact S.
Qed.
Lemma key_lines : forall ls r, Forall (fun l => is_line l /\ ~ contains WSKEY l) ls -> strstr WSKEY (closed ls ++ r) = plus_ (List.length (closed ls)) (strstr WSKEY r).
Proof.
  induction ls as [|l ls IH]; intros r F; unfold closed; cbn [map concat].
  - cbn [app List.length]. destruct (strstr WSKEY r) as [[p|]|]; reflexivity.
  - inversion F as [|? ? [L N] F']; subst. fold (closed ls). rewrite <- !app_assoc. rewrite key_line by assumption. rewrite IH by exact F'. rewrite plus_plus. rewrite !app_length. f_equal. lia.
Qed.
Lemma take_key_spec : forall k r, is_line k -> take_key (List.length k) (k ++ r) = Some (Some k).
Proof.
  induction k as [|c k IH]; intros r L; [reflexivity|]. inversion L as [|? ? (C1 & C2 & C3) L']; subst. cbn [List.length take_key app]. replace ((c =? 13) || (c =? 10)) with false by lia. rewrite IH by exact L'. reflexivity.
Qed.
Lemma until_zero_line : forall k, is_line k -> until_zero k = k.
Proof. induction k as [|c k IH]; intros L; [reflexivity|]. inversion L as [|? ? (C1 & _) L']; subst. cbn [until_zero]. replace (c =? 0) with false by lia. rewrite IH by exact L'. reflexivity. Qed.

(** ** The buffer *)
Definition x_ok (x : xbuf) : Prop := (x_off x <= x_size x <= x_max x)%nat.
Lemma fresh_length : forall junk k live n, (List.length live <= n)%nat -> List.length (fresh junk k live n) = n.
Proof. intros. unfold fresh. rewrite app_length, map_length, seq_length. lia. Qed.
Lemma rest_live : forall x, x_ok x -> x_rest x = x_live x ++ skipn (x_size x) (x_all x).
Proof.
  intros x (A & B). unfold x_rest, x_live. rewrite <- (firstn_skipn (x_size x) (x_all x)) at 1. rewrite skipn_app. f_equal.
  rewrite firstn_length. unfold x_max in B. replace (x_off x - _)%nat with 0%nat by lia. reflexivity.
Qed.
Lemma live_length : forall x, x_ok x -> List.length (x_live x) = (x_size x - x_off x)%nat.
Proof. intros x (A & B). unfold x_live. rewrite skipn_length, firstn_length. unfold x_max in B. lia. Qed.
Lemma fresh_ok : forall junk k live n, (List.length live <= n)%nat -> firstn (List.length live) (fresh junk k live n) = live.
Proof. intros. unfold fresh. rewrite firstn_app, Nat.sub_diag, firstn_all. cbn [firstn]. apply app_nil_r. Qed.
Lemma grow_spec : forall junk x n, x_ok x -> x_off x = 0%nat -> let x1 := x_grow junk x n in
  x_ok x1 /\ x_off x1 = 0%nat /\ x_live x1 = x_live x /\ (n <= x_max x1)%nat /\ x_size x1 = x_size x.
Proof.
  intros junk x n X O x1. unfold x1, x_grow. pose proof (live_length x X) as LL. destruct (Nat.ltb_spec (x_max x) n) as [C|C].
  - set (g := Z.to_nat _). assert (LN : (List.length (x_live x) <= n + g)%nat) by (unfold x_ok in X; lia). remember (x_live x) as lv eqn:LV.
    unfold x_ok, x_max, x_live. cbn [x_all x_size x_off].
    rewrite fresh_length by exact LN. rewrite fresh_ok by exact LN. cbn [skipn]. unfold x_ok in X. repeat split; lia.
  - repeat split; try assumption; try apply X; lia.
Qed.
Lemma cat_spec : forall junk x b, x_ok x -> x_off x = 0%nat -> let x1 := x_cat junk x b in
  x_ok x1 /\ x_off x1 = 0%nat /\ x_live x1 = x_live x ++ b.
Proof.
  intros junk x b X O x1. unfold x1, x_cat. destruct b as [|c b]; [rewrite app_nil_r; auto|]. set (bb := c :: b).
  destruct (grow_spec junk x (List.length bb + x_size x) X O) as (A & B & C & D & E). set (x2 := x_grow junk x (List.length bb + x_size x)) in *. clearbody x2.
  unfold x_max in D. destruct A as (_ & A). unfold x_max in A.
  assert (LF : List.length (firstn (x_size x2) (x_all x2)) = x_size x2) by (rewrite firstn_length; lia).
  split; [|split; [exact B|]].
  - unfold x_ok, x_max. cbn [x_all x_size x_off]. rewrite !app_length, LF, skipn_length. lia.
  - rewrite <- C. unfold x_live. cbn [x_all x_size x_off]. rewrite B. cbn [skipn]. rewrite app_assoc, firstn_app. rewrite app_length, LF. rewrite Nat.sub_diag. cbn [firstn]. rewrite app_nil_r.
    rewrite firstn_all2 by (rewrite app_length, LF; lia). reflexivity.
Qed.
Lemma move_spec : forall x n a b, x_ok x -> x_live x = a ++ b -> n = List.length a -> x_ok (x_move x n) /\ x_live (x_move x n) = b.
Proof.
  intros x n a b X L ->. pose proof (live_length x X) as LL. rewrite L, app_length in LL. unfold x_move. replace (x_off x + List.length a <=? x_size x)%nat with true by (unfold x_ok in X; lia).
  split; [unfold x_ok, x_max in *; cbn [x_all x_size x_off]; lia|]. unfold x_live in *. cbn [x_all x_size x_off].
  assert (S2 : forall (A : Type) i j (l : list A), skipn (i + j) l = skipn j (skipn i l)).
  { clear. induction i as [|i IH]; intros j l; [reflexivity|]. destruct l as [|y l]; cbn [Nat.add skipn]; [destruct j; reflexivity|apply IH]. }
  rewrite S2. rewrite L. rewrite skipn_app, skipn_all, Nat.sub_diag. reflexivity.
Qed.
Lemma create_spec : forall junk k, x_ok (x_create junk k) /\ x_off (x_create junk k) = 0%nat /\ x_live (x_create junk k) = [].
Proof. intros. repeat split; cbn; try lia. Qed.

(** ** Requests *)
Definition line_of (f : list Z * list Z) : list Z := fst f ++ [58; 32] ++ snd f.
Definition lines_of (q : request) : list (list Z) := map line_of (q_fields q).
Lemma req_closed : forall q, req_text q = closed (q_line q :: lines_of q) ++ CRLF.
Proof.
  intros q. unfold req_text, closed, lines_of. cbn [map concat]. rewrite <- !app_assoc. do 2 f_equal. f_equal. rewrite map_map. f_equal. apply map_ext. intros [n v]. unfold field_text, line_of. cbn [fst snd].
  rewrite <- !app_assoc. reflexivity.
Qed.
Lemma blank_line : forall n v, is_line n -> is_line v -> is_line (n ++ [58; 32] ++ v).
Proof. intros. apply Forall_app. split; [assumption|]. apply Forall_app. split; [repeat constructor; discriminate|assumption]. Qed.
Lemma req_lines : forall q, req_ok q -> good_line (q_line q) /\ Forall good_line (lines_of q).
Proof.
  intros q (A & B & C). split; [split; assumption|]. unfold lines_of. apply Forall_forall. intros l I. apply in_map_iff in I. destruct I as ([n v] & <- & I).
  destruct (proj1 (Forall_forall _ _) C _ I) as (D & E & F). cbn [fst snd] in *. split; [apply blank_line; assumption|]. unfold line_of. cbn [fst snd]. destruct n; [congruence|discriminate].
Qed.
Lemma req_eoh : forall q r, req_ok q -> strstr EOH (req_text q ++ r) = Some (Some (List.length (req_text q) - 4)%nat).
Proof.
  intros q r Q. destruct (req_lines q Q) as [L F]. rewrite req_closed, <- app_assoc. rewrite eoh_lines by assumption. rewrite app_length. cbn [List.length CRLF]. do 2 f_equal. lia.
Qed.
Lemma req_length : forall q, (4 <= List.length (req_text q))%nat.
Proof. intros q. unfold req_text. rewrite !app_length. cbn [List.length CRLF]. lia. Qed.
Lemma req_none : forall q n k, req_ok q -> (n < List.length (req_text q))%nat -> (0 < k)%nat -> strstr EOH (firstn n (req_text q) ++ repeat 0 k) = Some None.
Proof. intros q n k Q N K. destruct (req_lines q Q) as [L F]. rewrite req_closed in *. apply eoh_none; assumption. Qed.

(** what a key looks like in a request *)
Definition key_like (k : list Z) : Prop := List.length k = 24%nat /\ is_line k /\ hd 0 k <> 32 /\ hd 0 k <> 58.
Lemma req_key : forall q pre post k r, req_ok q -> q_fields q = pre ++ (KEY, k) :: post -> key_like k -> ~ contains KEY (q_line q) ->
  Forall (fun f => ~ contains KEY (line_of f)) pre ->
  exists set, strstr WSKEY (req_text q ++ r) = Some (Some set) /\
    exists r', take_key 24 (skip_blank (skipn (set + List.length WSKEY) (req_text q ++ r))) = Some (Some k) /\ skipn (set + List.length WSKEY) (req_text q ++ r) = 58 :: 32 :: k ++ r'.
Proof.
  intros q pre post k r Q E (K1 & K2 & K3 & K4) NL NP. destruct (req_lines q Q) as [[L _] F].
  assert (S : req_text q ++ r = closed (q_line q :: map line_of pre) ++ WSKEY ++ 58 :: 32 :: k ++ CRLF ++ closed (map line_of post) ++ CRLF ++ r).
  { rewrite req_closed. unfold lines_of. rewrite E, map_app. cbn [map]. unfold closed. cbn [map concat]. rewrite map_app, concat_app. cbn [map concat]. unfold line_of at 2. cbn [fst snd].
    rewrite <- !app_assoc. cbn [app]. rewrite <- ?app_assoc. reflexivity. }
  rewrite S. exists (List.length (closed (q_line q :: map line_of pre))).
  assert (FF : Forall (fun l => is_line l /\ ~ contains WSKEY l) (q_line q :: map line_of pre)).
  { constructor; [split; [exact L|exact NL]|]. apply Forall_forall. intros l I. unfold lines_of in F. rewrite E, map_app in F. apply Forall_app in F. destruct F as [F _].
    split; [apply (proj1 (Forall_forall _ _) F l I)|]. apply in_map_iff in I. destruct I as (f & <- & I). exact (proj1 (Forall_forall _ _) NP f I). }
  split.
  - rewrite key_lines by exact FF. rewrite strstr_hit; [|discriminate|apply starts_app]. cbn [plus_]. rewrite Nat.add_0_r. reflexivity.
  - exists (CRLF ++ closed (map line_of post) ++ CRLF ++ r).
    assert (SK : skipn (List.length (closed (q_line q :: map line_of pre)) + List.length WSKEY) (closed (q_line q :: map line_of pre) ++ WSKEY ++ 58 :: 32 :: k ++ CRLF ++ closed (map line_of post) ++ CRLF ++ r) = 58 :: 32 :: k ++ CRLF ++ closed (map line_of post) ++ CRLF ++ r).
    { generalize (closed (q_line q :: map line_of pre)) (58 :: 32 :: k ++ CRLF ++ closed (map line_of post) ++ CRLF ++ r). clear. intros a b. rewrite app_assoc, <- app_length. rewrite skipn_app, skipn_all, Nat.sub_diag. reflexivity. }
    rewrite SK. split; [|reflexivity]. cbn [skip_blank]. change ((58 =? 32) || (58 =? 58)) with true. change ((32 =? 32) || (32 =? 58)) with true. cbv iota.
    destruct k as [|c k]; [discriminate K1|]. cbn [hd] in K3, K4. cbn [app skip_blank]. replace ((c =? 32) || (c =? 58)) with false by lia. rewrite <- K1. apply (take_key_spec (c :: k)). exact K2.
Qed.
