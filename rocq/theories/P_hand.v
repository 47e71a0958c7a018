(** C60: the websocket handshake. *)
From Coq Require Import ZifyBool ZifyNat String.
From Verif Require Import Base S_sha1 M_sha1 L_sha1 S_hand M_memory M_hand L_hand.
Open Scope list_scope.
Open Scope Z_scope.

Lemma line_bytes : forall l, is_line l -> Forall is_byte l.
Proof. intros l L. eapply Forall_impl; [|exact L]. unfold is_byte. intros a (A & _). lia. Qed.
(** ** Characters of base64 *)
Definition b64_sign (c : Z) : Prop := line_byte c /\ c <> 32 /\ c <> 58.
Lemma char_sign : forall v, 0 <= v < 64 -> b64_sign (b64_char v).
Proof. intros v V. unfold b64_sign, line_byte, b64_char. destruct (Z.ltb_spec v 26), (Z.ltb_spec v 52), (Z.ltb_spec v 62), (Z.eqb_spec v 62); lia. Qed.
Lemma digit_sign : forall n i, b64_sign (b64_digit n i).
Proof. intros. apply char_sign. apply Z.mod_pos_bound. reflexivity. Qed.
Lemma eq_sign : b64_sign 61.
Proof. repeat split; discriminate. Qed.
Lemma b64_signs : forall l, Forall b64_sign (b64 l).
Proof. intros l. induction l as [|a|a b|a b c l IH] using by_three; cbn [b64]; repeat constructor; try apply digit_sign; try apply eq_sign. exact IH. Qed.
Lemma b64_line : forall l, is_line (b64 l).
Proof. intros. eapply Forall_impl; [|apply b64_signs]. intros a A. apply A. Qed.
Lemma is_key_like : forall k, is_key k -> key_like k.
Proof.
  intros k (n & L & F & ->). pose proof (b64_length n) as BL. rewrite L in BL. change (4 * ((16 + 2) / 3))%nat with 24%nat in BL. pose proof (b64_signs n) as S. split; [exact BL|]. split; [apply b64_line|].
  destruct (b64 n) as [|c r]; [discriminate BL|]. inversion S as [|? ? C _]; subst. cbn [hd]. split; apply C.
Qed.

(** ** The server *)
Lemma ans_spec : forall w k, List.length w = 80%nat -> key_like k -> get_ans w k = ANS ++ accept_value k ++ EOH.
Proof.
  intros w k W (K & L & _). unfold get_ans. rewrite K. cbn [Nat.eqb]. rewrite shacalc_spec; [reflexivity| | |exact W].
  - apply Forall_app. split; [apply line_bytes; exact L|]. repeat constructor; vm_compute; intuition discriminate.
  - rewrite app_length, K. vm_compute. reflexivity.
Qed.
Lemma ans_good : forall k, good_answer k (ANS ++ accept_value k ++ EOH).
Proof.
  intros k. exists (txt "HTTP/1.1 101 Switching Protocols"), [(txt "Upgrade", txt "websocket"); (txt "Connection", txt "Upgrade"); (txt "Sec-WebSocket-Accept", accept_value k)].
  assert (AL : is_line (accept_value k)) by apply b64_line. generalize dependent (accept_value k). intros v AL.
  assert (LT : forall s, forallb (fun c => (0 <? c) && (c <? 256) && negb (c =? 13) && negb (c =? 10)) (txt s) = true -> is_line (txt s)).
  { intros s H. apply Forall_forall. intros c I. apply (proj1 (forallb_forall _ _) H) in I. unfold line_byte. lia. }
  split; [|split; [|split]].
  - unfold req_text, field_text. cbn [q_line q_fields map concat fst snd]. rewrite app_nil_r, <- !app_assoc. reflexivity.
  - split; [apply LT; reflexivity|]. split; [discriminate|]. cbn [q_fields]. repeat constructor; cbn [fst snd]; try discriminate; try (apply LT; reflexivity); try exact AL.
  - exists (txt "Switching Protocols"). reflexivity.
  - right. right. left. reflexivity.
Qed.

(** The buffer after everything of the request and perhaps more has come. *)
Lemma server_complete : forall junk w x q pre post k extra, List.length w = 80%nat -> x_ok x -> x_off x = 0%nat -> x_live x = req_text q ++ extra ->
  req_ok q -> q_fields q = pre ++ (KEY, k) :: post -> key_like k -> ~ contains KEY (q_line q) -> Forall (fun f => ~ contains KEY (line_of f)) pre ->
  exists x1, match head_complete x with
  | None => HBad
  | Some None => HWait x
  | Some (Some size) =>
    let '(ans, x1) := take_head junk x size in
    match get_key ans with
    | None => HBad
    | Some None => HStop x1
    | Some (Some key) => HWork x1 (get_ans w key)
    end
  end = HWork x1 (ANS ++ accept_value k ++ EOH) /\ x_ok x1 /\ x_live x1 = extra.
Proof.
  intros junk w x q pre post k extra W X O LV Q E K NL NP. pose proof (rest_live x X) as R. rewrite LV, <- app_assoc in R. set (st := skipn _ _) in R. clearbody st.
  unfold head_complete. rewrite R, req_eoh by exact Q. pose proof (req_length q) as QL. replace (List.length (req_text q) - 4 + 4)%nat with (List.length (req_text q)) by lia.
  unfold take_head. destruct (create_spec junk (x_allocs x)) as (C1 & C2 & C3). destruct (cat_spec junk _ (req_text q) C1 C2) as (A1 & A2 & A3). rewrite C3 in A3. cbn [app] in A3.
  rewrite R. rewrite firstn_app, Nat.sub_diag, firstn_all. cbn [firstn]. rewrite app_nil_r.
  set (ans := x_cat junk (x_create junk (x_allocs x)) (req_text q)) in *. clearbody ans. pose proof (rest_live ans A1) as AR. rewrite A3 in AR.
  destruct (req_key q pre post k (skipn (x_size ans) (x_all ans)) Q E K NL NP) as (set & S1 & r' & S2 & S3). unfold get_key. rewrite AR, S1, S2.
  destruct K as (K1 & K2 & K3). rewrite until_zero_line by exact K2. rewrite ans_spec; [|exact W|split; [exact K1|split; assumption]].
  destruct (move_spec x (List.length (req_text q)) (req_text q) extra X LV eq_refl) as (M1 & M2). eauto.
Qed.

(** One piece, in a buffer of any earlier contents.  Partial: the name of the field with the key is written as in the
    RFC and does not appear in an earlier line; the key has 24 bytes (all keys of the RFC have). *)
Theorem C60_whole_partial : forall junk w x q pre post k extra, List.length w = 80%nat -> x_ok x ->
  req_ok q -> q_fields q = pre ++ (KEY, k) :: post -> is_key k -> ~ contains KEY (q_line q) -> Forall (fun f => ~ contains KEY (line_of f)) pre ->
  exists x1 out, server_recv junk w (x_clear x) (req_text q ++ extra) = HWork x1 out /\ good_answer k out /\ x_live x1 = extra.
Proof.
  intros junk w x q pre post k extra W X Q E K NL NP. assert (CX : x_ok (x_clear x)) by (unfold x_ok, x_max in *; cbn; lia).
  destruct (cat_spec junk (x_clear x) (req_text q ++ extra) CX eq_refl) as (A & B & C). change (x_live (x_clear x)) with (@nil Z) in C. cbn [app] in C.
  destruct (server_complete junk w _ q pre post k extra W A B C Q E (is_key_like k K) NL NP) as (x1 & S & X1 & L1).
  exists x1, (ANS ++ accept_value k ++ EOH). split; [exact S|]. split; [apply ans_good|exact L1].
Qed.
Print Assumptions C60_whole_partial.
Definition key1 : list Z := txt "dGhlIHNhbXBsZSBub25jZQ==".
Definition key2 : list Z := txt "AAAAAAAAAAAAAAAAAAAAAA==".
Definition ask_of (k : list Z) : request :=
  mkreq (txt "GET /chat HTTP/1.1") [(txt "Host", txt "server.example.com"); (txt "Upgrade", txt "websocket"); (txt "Connection", txt "Upgrade"); (KEY, k); (txt "Sec-WebSocket-Version", txt "13")].
Definition is_line_b (l : list Z) : bool := forallb (fun c => (0 <? c) && (c <? 256) && negb (c =? 13) && negb (c =? 10)) l.
Lemma is_line_b_ok : forall l, is_line_b l = true -> is_line l.
Proof. intros l H. apply Forall_forall. intros c I. apply (proj1 (forallb_forall _ _) H) in I. unfold line_byte. lia. Qed.
Definition req_ok_b (q : request) : bool :=
  is_line_b (q_line q) && negb (List.length (q_line q) =? 0)%nat && forallb (fun f => is_line_b (fst f) && negb (List.length (fst f) =? 0)%nat && is_line_b (snd f)) (q_fields q).
Lemma req_ok_b_ok : forall q, req_ok_b q = true -> req_ok q.
Proof.
  intros q H. apply andb_prop in H. destruct H as [H C]. apply andb_prop in H. destruct H as [A B]. split; [apply is_line_b_ok; exact A|]. split; [destruct (q_line q); [discriminate B|discriminate]|].
  apply Forall_forall. intros [n v] I. apply (proj1 (forallb_forall _ _) C) in I. cbn [fst snd] in *. apply andb_prop in I. destruct I as [I I3]. apply andb_prop in I. destruct I as [I1 I2].
  split; [apply is_line_b_ok; exact I1|]. split; [destruct n; discriminate|apply is_line_b_ok; exact I3].
Qed.
Fixpoint contains_b (sub l : list Z) : bool := starts sub l || match l with [] => false | _ :: l' => contains_b sub l' end.
Lemma contains_b_ok : forall sub l, contains sub l -> contains_b sub l = true.
Proof.
  intros sub l (a & b & ->). induction a as [|c a IH]; cbn [app].
  - destruct (sub ++ b) eqn:E; cbn [contains_b]; rewrite <- E, starts_app; reflexivity.
  - cbn [contains_b]. rewrite IH. apply orb_true_r.
Qed.
Lemma not_contains : forall sub l, contains_b sub l = false -> ~ contains sub l.
Proof. intros sub l E C. apply contains_b_ok in C. congruence. Qed.
Example C60_whole_partial_ex : is_key key1 /\ req_ok (ask_of key1) /\
  Forall (fun f => ~ contains KEY (line_of f)) [(txt "Host", txt "server.example.com"); (txt "Upgrade", txt "websocket"); (txt "Connection", txt "Upgrade")] /\
  match server_recv (fun _ _ => 13) (repeat 7 80) (x_clear (mkx (repeat 10 300) 17 3 1)) (req_text (ask_of key1) ++ [1; 2; 3]) with
  | HWork x1 out => out = ANS ++ txt "s3pPLMBiTxaQ9kYGzzhZRbK+xOo=" ++ EOH /\ x_live x1 = [1; 2; 3]
  | _ => False
  end.
Proof.
  split; [|split; [|split]].
  - exists (txt "the sample nonce"). split; [reflexivity|]. split; [repeat constructor; vm_compute; intuition discriminate|vm_compute; reflexivity].
  - apply req_ok_b_ok. vm_compute. reflexivity.
  - repeat constructor; apply not_contains; vm_compute; reflexivity.
  - vm_compute. split; reflexivity.
Qed.

(** Any pieces, when memory behind the bytes received is zero.  [never_full cap total ps]: with room for [cap] bytes of
    which [total] are used, no piece fills the buffer to its last byte (it grows as sis_memory_grow does). *)
Fixpoint never_full (cap total : Z) (ps : list (list Z)) : Prop :=
  match ps with
  | [] => True
  | p :: ps' => let t := total + Z.of_nat (List.length p) in
                let cap' := if cap <? t then t + Z.min 16777216 ((t + cap) / 2) else cap in
                t <> cap' /\ never_full cap' t ps'
  end.
Definition zero_junk : nat -> nat -> Z := fun _ _ => 0.
Definition zero_tail (x : xbuf) : Prop := x_ok x /\ x_off x = 0%nat /\ skipn (x_size x) (x_all x) = repeat 0 (x_max x - x_size x).
Lemma zero_map : forall n i, map (zero_junk i) (seq n 0) = [] /\ forall m, map (zero_junk i) (seq n m) = repeat 0 m.
Proof. intros n i. split; [reflexivity|]. intros m. revert n. induction m as [|m IH]; intros n; [reflexivity|]. cbn [seq map repeat]. rewrite IH. reflexivity. Qed.
Lemma skipn_repeat : forall n m, skipn n (repeat 0 m) = repeat 0 (m - n).
Proof. induction n as [|n IH]; intros m; [rewrite Nat.sub_0_r; reflexivity|]. destruct m; [reflexivity|]. cbn [repeat skipn Nat.sub]. apply IH. Qed.
Lemma zero_cat : forall x b, zero_tail x ->
  let x1 := x_cat zero_junk x b in let t := Z.of_nat (x_size x) + Z.of_nat (List.length b) in
  zero_tail x1 /\ x_live x1 = x_live x ++ b /\ Z.of_nat (x_size x1) = t /\
  Z.of_nat (x_max x1) = if Z.of_nat (x_max x) <? t then t + Z.min 16777216 ((t + Z.of_nat (x_max x)) / 2) else Z.of_nat (x_max x).
Proof.
  intros x b (X & O & ZT) x1 t. destruct (cat_spec zero_junk x b X O) as (A & B & C). fold x1 in A, B, C.
  assert (SZ : Z.of_nat (x_size x1) = t).
  { pose proof (live_length x1 A) as L1. pose proof (live_length x X) as L0. rewrite C, app_length in L1. unfold t, x_ok in *. lia. }
  assert (REST : skipn (x_size x1) (x_all x1) = repeat 0 (x_max x1 - x_size x1) /\ Z.of_nat (x_max x1) = if Z.of_nat (x_max x) <? t then t + Z.min 16777216 ((t + Z.of_nat (x_max x)) / 2) else Z.of_nat (x_max x)).
  { clear A B C. unfold x1, x_cat. destruct b as [|c b].
    - split; [exact ZT|]. unfold t, x_ok in *. cbn [List.length]. replace (_ <? _) with false by lia. reflexivity.
    - set (bb := c :: b) in *. assert (LB : (0 < List.length bb)%nat) by (cbn; lia). unfold x_grow. destruct (Nat.ltb_spec (x_max x) (List.length bb + x_size x)) as [LT|GE].
      + unfold SIS_MEMORY_SIZE. set (g := Z.to_nat _). pose proof (live_length x X) as LL.
        assert (G : Z.of_nat g = Z.min 16777216 ((t + Z.of_nat (x_max x)) / 2)).
        { unfold g, t. rewrite Z2Nat.id; [f_equal; f_equal; lia|]. assert (0 <= (Z.of_nat (List.length bb + x_size x) + Z.of_nat (x_max x)) / 2) by (apply Z.div_pos; lia). lia. }
        cbn [x_all x_size x_off x_allocs]. unfold fresh. set (lv := x_live x) in *. clearbody lv g. unfold x_ok in X.
        set (tot := (List.length bb + x_size x + g)%nat). rewrite (proj2 (zero_map (List.length lv) (x_allocs x)) (tot - List.length lv)%nat).
        assert (F1 : firstn (List.length lv) (lv ++ repeat 0 (tot - List.length lv)) = lv) by (rewrite firstn_app, Nat.sub_diag, firstn_all; apply app_nil_r).
        rewrite F1. replace (skipn (List.length lv + List.length bb) (lv ++ repeat 0 (tot - List.length lv))) with (repeat 0 g).
        2: { rewrite skipn_app. rewrite skipn_all2 by lia. cbn [app]. rewrite skipn_repeat. f_equal. unfold tot. lia. }
        unfold x_max. cbn [x_all x_size]. rewrite !app_length, repeat_length. split.
        * replace (lv ++ bb ++ repeat 0 g) with ((lv ++ bb) ++ repeat 0 g) by (rewrite app_assoc; reflexivity). rewrite skipn_app, app_length. rewrite skipn_all2 by (rewrite app_length; lia). cbn [app]. rewrite Nat.sub_diag. cbn [skipn]. f_equal. lia.
        * fold (x_max x). unfold x_max in *. replace (_ <? t) with true by (unfold t; lia). unfold t in *. lia.
      + cbn [x_all x_size x_off x_allocs]. unfold x_ok in X. unfold x_max in *. cbn [x_all]. rewrite !app_length, firstn_length, skipn_length. split.
        * rewrite app_assoc, skipn_app, app_length, firstn_length. rewrite skipn_all2 by (rewrite app_length, firstn_length; lia). replace (_ - _)%nat with 0%nat by lia. cbn [skipn app].
          rewrite Nat.add_comm. assert (S2 : forall (A : Type) i j (l : list A), skipn (i + j) l = skipn i (skipn j l)).
          { clear. intros A i j. revert i. induction j as [|j IH]; intros i l; [rewrite Nat.add_0_r; reflexivity|]. rewrite Nat.add_succ_r. destruct l as [|y l]; cbn [skipn]; [destruct i; reflexivity|apply IH]. }
          rewrite S2, ZT, skipn_repeat. f_equal. lia.
        * replace (_ <? t) with false by (unfold t; lia). lia. }
  destruct REST as (R1 & R2). split; [split; [exact A|split; [exact B|exact R1]]|]. split; [exact C|]. split; [exact SZ|exact R2].
Qed.
Lemma split_at : forall (a b c d : list Z), a ++ b = c ++ d -> (List.length a < List.length c)%nat -> a = firstn (List.length a) c /\ b = skipn (List.length a) c ++ d.
Proof.
  induction a as [|x a IH]; intros b c d E L; [split; [reflexivity|exact E]|]. destruct c as [|y c]; [cbn in L; lia|]. cbn [app List.length firstn skipn] in *. injection E as <- E.
  destruct (IH b c d E ltac:(lia)) as (A & B). split; [f_equal; exact A|exact B].
Qed.
Lemma split_behind : forall (a b c d : list Z), a ++ b = c ++ d -> (List.length c <= List.length a)%nat -> exists e, a = c ++ e /\ d = e ++ b.
Proof.
  intros a b c. revert a b. induction c as [|y c IH]; intros a b d E L; [exists a; split; [reflexivity|symmetry; exact E]|]. destruct a as [|x a]; [cbn in L; lia|]. cbn [app List.length] in *. injection E as -> E.
  destruct (IH a b d E ltac:(lia)) as (e & -> & ->). exists e. split; reflexivity.
Qed.
Theorem C60_pieces_partial : forall w n k0 q pre post k extra ps, List.length w = 80%nat ->
  req_ok q -> q_fields q = pre ++ (KEY, k) :: post -> is_key k -> ~ contains KEY (q_line q) -> Forall (fun f => ~ contains KEY (line_of f)) pre ->
  concat ps = req_text q ++ extra -> never_full (Z.of_nat n) 0 ps ->
  exists x1 out lft, feed (server_recv zero_junk w) (mkx (repeat 0 n) 0 0 k0) ps = (HWork x1 out, lft) /\ good_answer k out /\ x_live x1 ++ concat lft = extra.
Proof.
  intros w n k0 q pre post k extra ps W Q E K NL NP.
  assert (GEN : forall ps x, zero_tail x -> (List.length (x_live x) < List.length (req_text q))%nat -> x_live x ++ concat ps = req_text q ++ extra -> never_full (Z.of_nat (x_max x)) (Z.of_nat (x_size x)) ps ->
    exists x1 out lft, feed (server_recv zero_junk w) x ps = (HWork x1 out, lft) /\ good_answer k out /\ x_live x1 ++ concat lft = extra).
  { clear ps. induction ps as [|p ps IH]; intros x ZX LT C NF.
    - exfalso. cbn [concat] in C. apply (f_equal (@List.length Z)) in C. rewrite !app_length in C. cbn [List.length] in C. lia.
    - cbn [feed concat never_full] in *. destruct NF as [N1 NF]. destruct (zero_cat x p ZX) as (Z1 & L1 & S1 & M1). set (x1 := x_cat zero_junk x p) in *. rewrite app_assoc, <- L1 in C.
      rewrite <- M1, <- S1 in NF. rewrite <- M1, <- S1 in N1.
      destruct (Nat.lt_ge_cases (List.length (x_live x1)) (List.length (req_text q))) as [LT1|GE1].
      + destruct (split_at _ _ _ _ C LT1) as (FI & _). destruct Z1 as (X1 & O1 & T1).
        assert (HW : server_recv zero_junk w x p = HWait x1).
        { unfold server_recv. fold x1. unfold head_complete. rewrite (rest_live x1 X1), FI, T1. rewrite req_none; [reflexivity|exact Q|exact LT1|]. unfold x_ok in X1. lia. }
        rewrite HW. apply IH; [split; [exact X1|split; assumption]|exact LT1|exact C|exact NF].
      + destruct (split_behind _ _ _ _ C GE1) as (e & EL & EX). destruct Z1 as (X1 & O1 & T1).
        destruct (server_complete zero_junk w x1 q pre post k e W X1 O1 EL Q E (is_key_like k K) NL NP) as (x2 & S & X2 & L2).
        assert (HW : server_recv zero_junk w x p = HWork x2 (ANS ++ accept_value k ++ EOH)) by (unfold server_recv; fold x1; exact S).
        rewrite HW. exists x2, (ANS ++ accept_value k ++ EOH), ps. split; [reflexivity|]. split; [apply ans_good|]. rewrite L2. symmetry. exact EX. }
  intros C NF. apply GEN.
  - split; [unfold x_ok; cbn; lia|]. split; [reflexivity|]. unfold x_max. cbn. rewrite repeat_length. f_equal. lia.
  - cbn. pose proof (req_length q). lia.
  - exact C.
  - unfold x_max. cbn [x_all x_size]. rewrite repeat_length. exact NF.
Qed.
Print Assumptions C60_pieces_partial.
Example C60_pieces_partial_ex : let t := req_text (ask_of key1) ++ [1; 2; 3] in let ps := [firstn 1 t; []; firstn 100 (skipn 1 t); skipn 101 t; [9]] in
  never_full 255 0 ps /\
  match feed (server_recv zero_junk (repeat 7 80)) (mkx (repeat 0 255) 0 0 1) ps with
  | (HWork x1 out, lft) => out = ANS ++ txt "s3pPLMBiTxaQ9kYGzzhZRbK+xOo=" ++ EOH /\ x_live x1 = [1; 2; 3] /\ lft = [[9]]
  | _ => False
  end.
Proof. split; [vm_compute; intuition discriminate|vm_compute; repeat split; reflexivity]. Qed.

(** ** The program's own client with its own server: they come to work, at any time and with any random numbers. *)
Definition tm_ok (t : tm) : Prop := 118 <= t_year t /\ 0 <= t_mon t <= 11 /\ 1 <= t_day t <= 31 /\ 0 <= t_hour t <= 23 /\ 0 <= t_min t <= 59 /\ 0 <= t_sec t <= 60.
Lemma sign_alnum : forall v, 0 <= v < 62 -> 48 <= sign_at v <= 57 \/ 65 <= sign_at v <= 90 \/ 97 <= sign_at v <= 122.
Proof.
  intros v V. assert (A : forallb (fun k => let c := sign_at (Z.of_nat k) in ((48 <=? c) && (c <=? 57)) || ((65 <=? c) && (c <=? 90)) || ((97 <=? c) && (c <=? 122))) (seq 0 62) = true) by (vm_compute; reflexivity).
  pose proof (proj1 (forallb_forall _ _) A (Z.to_nat v) ltac:(apply in_seq; lia)) as B. cbv beta zeta in B. rewrite Z2Nat.id in B by lia. lia.
Qed.
Lemma rem62 : forall x, 0 <= x -> 0 <= Z.rem x 62 < 62.
Proof. intros. apply Z.rem_bound_pos; lia. Qed.
Lemma id_signs : forall t rnd, tm_ok t -> (forall i, 0 <= rnd i) -> List.length (get_id t rnd) = 24%nat /\ Forall (fun c => 48 <= c <= 57 \/ 65 <= c <= 90 \/ 97 <= c <= 122) (get_id t rnd).
Proof.
  intros t rnd (A & B & C & D & E & F) R. split; [reflexivity|]. unfold get_id. apply Forall_app. split.
  - assert (0 <= t_min t / 62 < 62) by (split; [apply Z.div_pos; lia|apply Z.div_lt_upper_bound; lia]). assert (0 <= t_sec t / 62 < 62) by (split; [apply Z.div_pos; lia|apply Z.div_lt_upper_bound; lia]).
    repeat (apply Forall_cons; [apply sign_alnum; first [lia|apply rem62; lia]|]). apply Forall_nil.
  - apply Forall_forall. intros c I. apply in_map_iff in I. destruct I as (i & <- & _). apply sign_alnum. apply rem62. apply R.
Qed.
Lemma id_like : forall t rnd, tm_ok t -> (forall i, 0 <= rnd i) -> key_like (get_id t rnd).
Proof.
  intros t rnd T R. destruct (id_signs t rnd T R) as (L & F). split; [exact L|]. split; [eapply Forall_impl; [|exact F]; unfold line_byte; intros; lia|].
  destruct (get_id t rnd) as [|c l]; [discriminate L|]. inversion F; subst. cbn [hd]. lia.
Qed.
Definition own_ask (k : list Z) : request :=
  mkreq (txt "GET / HTTP/1.1") [(txt "Upgrade", txt "websocket"); (txt "Connection", txt "Upgrade"); (txt "Sec-WebSocket-Version", txt "13"); (KEY, k)].
Lemma own_text : forall k, get_ask k = req_text (own_ask k).
Proof. intros k. unfold req_text, field_text, own_ask. cbn [q_line q_fields map concat fst snd]. rewrite app_nil_r, <- !app_assoc. reflexivity. Qed.
Lemma own_ok : forall k, is_line k -> req_ok (own_ask k).
Proof.
  intros k L. split; [apply is_line_b_ok; reflexivity|]. split; [discriminate|]. cbn [q_fields own_ask]. repeat constructor; cbn [fst snd]; try discriminate; try (apply is_line_b_ok; reflexivity); exact L.
Qed.
Lemma client_answer : forall junk y k extra, x_ok y -> x_off y = 0%nat -> x_live y = [] ->
  exists y1, client_recv junk y (ANS ++ accept_value k ++ EOH ++ extra) = HWork y1 [] /\ x_live y1 = extra.
Proof.
  intros junk y k extra Y O LV. destruct (ans_good k) as (line & fields & E & Q & _ & _). set (q := mkreq line fields) in *. unfold client_recv.
  assert (EA : ANS ++ accept_value k ++ EOH ++ extra = req_text q ++ extra) by (rewrite <- E, <- !app_assoc; reflexivity).
  assert (H101 : forall r, exists p, strstr (txt "101") (req_text q ++ r) = Some (Some p)) by (intros r; rewrite <- E; eexists; reflexivity).
  rewrite EA. clear EA E. destruct (cat_spec junk y (req_text q ++ extra) Y O) as (X & OX & LX). rewrite LV in LX. cbn [app] in LX. set (x := x_cat junk y (req_text q ++ extra)) in *. clearbody x.
  pose proof (rest_live x X) as R. rewrite LX, <- app_assoc in R. set (st := skipn _ _) in R. clearbody st. unfold head_complete. rewrite R, req_eoh by exact Q. pose proof (req_length q) as QL.
  replace (List.length (req_text q) - 4 + 4)%nat with (List.length (req_text q)) by lia. unfold take_head. rewrite R. rewrite firstn_app, Nat.sub_diag, firstn_all. cbn [firstn]. rewrite app_nil_r.
  destruct (create_spec junk (x_allocs x)) as (C1 & C2 & C3). destruct (cat_spec junk _ (req_text q) C1 C2) as (A1 & A2 & A3). rewrite C3 in A3. cbn [app] in A3. rewrite (rest_live _ A1), A3.
  destruct (H101 (skipn (x_size (x_cat junk (x_create junk (x_allocs x)) (req_text q))) (x_all (x_cat junk (x_create junk (x_allocs x)) (req_text q))))) as (p & ->).
  destruct (move_spec x (List.length (req_text q)) (req_text q) extra X LX eq_refl) as (M1 & M2). eauto.
Qed.
Theorem C60_own : forall junk junk' w x y t rnd, List.length w = 80%nat -> x_ok x -> x_ok y -> tm_ok t -> (forall i, 0 <= rnd i) ->
  let key := get_id t rnd in
  exists x1 out y1, server_recv junk w (x_clear x) (get_ask key) = HWork x1 out /\ good_answer key out /\ x_live x1 = [] /\
    client_recv junk' (x_clear y) out = HWork y1 [] /\ x_live y1 = [].
Proof.
  intros junk junk' w x y t rnd W X Y T R key. pose proof (id_like t rnd T R) as K. fold key in K. clearbody key.
  assert (CX : x_ok (x_clear x)) by (unfold x_ok, x_max in *; cbn; lia). assert (CY : x_ok (x_clear y)) by (unfold x_ok, x_max in *; cbn; lia).
  destruct (cat_spec junk (x_clear x) (get_ask key) CX eq_refl) as (A & B & C). change (x_live (x_clear x)) with (@nil Z) in C. cbn [app] in C.
  destruct (server_complete junk w (x_cat junk (x_clear x) (get_ask key)) (own_ask key) [(txt "Upgrade", txt "websocket"); (txt "Connection", txt "Upgrade"); (txt "Sec-WebSocket-Version", txt "13")] [] key [] W) as (x1 & S & X1 & L1).
  - exact A.
  - exact B.
  - rewrite C, own_text. symmetry. apply app_nil_r.
  - apply own_ok. apply K.
  - reflexivity.
  - exact K.
  - apply not_contains. vm_compute. reflexivity.
  - repeat constructor; apply not_contains; vm_compute; reflexivity.
  - destruct (client_answer junk' (x_clear y) key [] CY eq_refl eq_refl) as (y1 & S2 & L2). rewrite app_nil_r in S2.
    exists x1, (ANS ++ accept_value key ++ EOH), y1. split; [exact S|]. split; [apply ans_good|]. split; [exact L1|]. split; [exact S2|exact L2].
Qed.
Print Assumptions C60_own.
Example C60_own_ex : tm_ok (mktm 126 10 17 3 59 58) /\ get_id (mktm 126 10 17 3 59 58) (fun i => Z.of_nat i * 1000003) = txt "ILRDxAwAejotyDINSX27chmr".
Proof. split; [repeat split; discriminate|vm_compute; reflexivity]. Qed.

(** ** What is refuted *)
(** The bytes of the connection before are still behind the bytes received: a second connection in a reused buffer
    sends the first 30 bytes of its request and gets the answer for the key of the first connection. *)
Theorem C60_stale_refuted : exists w x0 p1 p2 x1 x2 out lft, List.length w = 80%nat /\
  server_recv zero_junk w x0 (req_text (ask_of key1)) = HWork x1 (ANS ++ accept_value key1 ++ EOH) /\
  req_text (ask_of key2) = p1 ++ p2 /\ feed (server_recv zero_junk w) (x_clear x1) [p1; p2] = (HWork x2 out, lft) /\
  out = ANS ++ accept_value key1 ++ EOH /\ ~ good_answer key2 out.
Proof.
  set (w := repeat 0 80). set (t := req_text (ask_of key2)). set (x0 := x_create zero_junk 0).
  exists w, x0, (firstn 30 t), (skipn 30 t).
  destruct (server_recv zero_junk w x0 (req_text (ask_of key1))) as [|x1 o| |] eqn:E1; try (vm_compute in E1; discriminate E1).
  destruct (feed (server_recv zero_junk w) (x_clear x1) [firstn 30 t; skipn 30 t]) as [r lft] eqn:E2.
  assert (R : exists x2, r = HWork x2 (ANS ++ accept_value key1 ++ EOH)).
  { vm_compute in E1. injection E1 as <- <-. vm_compute in E2. injection E2 as <- <-. eexists. vm_compute. reflexivity. }
  destruct R as (x2 & ->). exists x1, x2, (ANS ++ accept_value key1 ++ EOH), lft.
  split; [reflexivity|]. split; [vm_compute in E1; injection E1 as <- <-; vm_compute; reflexivity|]. split; [symmetry; apply firstn_skipn|]. split; [exact E2|]. split; [reflexivity|].
  intros (line & fields & T & Q & _ & IN). apply in_split in IN. destruct IN as (f1 & f2 & EF).
  assert (CT : contains (accept_value key2) (ANS ++ accept_value key1 ++ EOH)).
  { rewrite T, req_closed. unfold lines_of. cbn [q_fields q_line]. rewrite EF, map_app. cbn [map]. unfold closed. cbn [map concat]. rewrite map_app, concat_app. cbn [map concat]. unfold line_of at 2. cbn [fst snd].
    eexists (line ++ CRLF ++ concat (map (fun l => l ++ CRLF) (map line_of f1)) ++ txt "Sec-WebSocket-Accept" ++ [58; 32]), _. rewrite <- !app_assoc. reflexivity. }
  apply contains_b_ok in CT. vm_compute in CT. discriminate CT.
Qed.
Print Assumptions C60_stale_refuted.

(** A piece that fills the buffer to its last byte, before the request is complete: the search runs out of the buffer,
    whatever memory holds. *)
Definition long_ask : request := mkreq (txt "GET /chat HTTP/1.1") [(txt "Cookie", repeat 97 300); (KEY, key1)].
Theorem C60_full_refuted : exists q p, req_ok q /\ request_key q key1 /\ p = firstn 255 (req_text q) /\ forall junk w k, server_recv junk w (x_create junk k) p = HBad.
Proof.
  exists long_ask, (firstn 255 (req_text long_ask)). split; [apply req_ok_b_ok; vm_compute; reflexivity|]. split; [exists KEY; split; [right; left; reflexivity|reflexivity]|]. split; [reflexivity|].
  intros junk w k. unfold server_recv.
  assert (E : x_all (x_cat junk (x_create junk k) (firstn 255 (req_text long_ask))) = firstn 255 (req_text long_ask) /\ x_off (x_cat junk (x_create junk k) (firstn 255 (req_text long_ask))) = 0%nat).
  { set (p := firstn 255 (req_text long_ask)). assert (L : List.length p = 255%nat) by (vm_compute; reflexivity). unfold x_cat. destruct p as [|c p]; [discriminate L|]. set (b := c :: p) in *. clearbody b.
    unfold x_grow. rewrite L. assert (M : x_max (x_create junk k) = 255%nat) by (unfold x_max, x_create; cbn [x_all]; apply fresh_length; cbn; lia). rewrite M. cbn [x_create x_size x_all x_off Nat.add Nat.ltb Nat.leb firstn app].
    split; [|reflexivity]. rewrite skipn_all2; [apply app_nil_r|]. rewrite fresh_length; cbn; lia. }
  unfold head_complete, x_rest. destruct E as (-> & ->). cbn [skipn].
  assert (S : strstr EOH (firstn 255 (req_text long_ask)) = None) by (vm_compute; reflexivity). rewrite S. reflexivity.
Qed.
Print Assumptions C60_full_refuted.

(** Names of fields may be written in any case (as many programs do): such a request is given up. *)
Theorem C60_case_refuted : exists q, req_ok q /\ request_key q key1 /\ is_key key1 /\
  exists w x, server_recv zero_junk w (x_create zero_junk 0) (req_text q) = HStop x.
Proof.
  exists (mkreq (txt "GET /chat HTTP/1.1") [(txt "Host", txt "server.example.com"); (txt "sec-websocket-key", key1)]). split; [apply req_ok_b_ok; vm_compute; reflexivity|].
  split; [exists (txt "sec-websocket-key"); split; [right; left; reflexivity|reflexivity]|]. split; [exact (proj1 C60_whole_partial_ex)|].
  exists (repeat 0 80). destruct (server_recv _ _ _ _) as [| |x|] eqn:E; try (vm_compute in E; discriminate E). exists x. reflexivity.
Qed.
Print Assumptions C60_case_refuted.

(** The name in an earlier line: what stands behind it there is taken for the key. *)
Theorem C60_mention_refuted : exists q, req_ok q /\ request_key q key1 /\ (forall k, request_key q k -> k = key1) /\
  exists w x out, List.length w = 80%nat /\ server_recv zero_junk w (x_create zero_junk 0) (req_text q) = HWork x out /\ out = ANS ++ accept_value key2 ++ EOH.
Proof.
  exists (mkreq (txt "GET /chat?Sec-WebSocket-Key:AAAAAAAAAAAAAAAAAAAAAA==&x=1 HTTP/1.1") [(txt "Host", txt "server.example.com"); (KEY, key1)]). split; [apply req_ok_b_ok; vm_compute; reflexivity|].
  split; [exists KEY; split; [right; left; reflexivity|reflexivity]|]. split.
  - intros k (n & [I|[I|[]]] & S); injection I as <- <-; [vm_compute in S; discriminate S|reflexivity].
  - exists (repeat 0 80). destruct (server_recv _ _ _ _) as [|x out| |] eqn:E; try (vm_compute in E; discriminate E). exists x, out. split; [reflexivity|]. split; [reflexivity|].
    vm_compute in E. injection E as <- <-. vm_compute. reflexivity.
Qed.
Print Assumptions C60_mention_refuted.

(** The client takes any answer with the bytes 101 in it, whatever its status and without looking at the value. *)
Theorem C60_client_refuted : exists a y1, client_recv zero_junk (x_create zero_junk 0) a = HWork y1 [] /\
  a = req_text (mkreq (txt "HTTP/1.1 404 Not Found") [(txt "Content-Length", txt "1010")]) /\ forall key, ~ good_answer key a.
Proof.
  exists (req_text (mkreq (txt "HTTP/1.1 404 Not Found") [(txt "Content-Length", txt "1010")])). destruct (client_recv _ _ _) as [|y out| |] eqn:E; try (vm_compute in E; discriminate E). exists y.
  split; [vm_compute in E; injection E as <- <-; reflexivity|]. split; [reflexivity|].
  intros key (line & fields & T & _ & (reason & ->) & _). vm_compute in T. discriminate T.
Qed.
Print Assumptions C60_client_refuted.

(** Requests of the program's own client are never valid: the key is not the base64 text of 16 bytes, there is no Host field. *)
Lemma b64_16_last : forall n, List.length n = 16%nat -> nth 23 (b64 n) 0 = 61.
Proof. intros n L. do 16 (destruct n as [|? n]; [discriminate L|]). destruct n; [reflexivity|discriminate L]. Qed.
Theorem C60_own_request_refuted : forall t rnd, tm_ok t -> (forall i, 0 <= rnd i) -> ~ is_key (get_id t rnd) /\
  exists q, req_ok q /\ get_ask (get_id t rnd) = req_text q /\ forall n v, In (n, v) (q_fields q) -> ~ same_name n (txt "Host").
Proof.
  intros t rnd T R. destruct (id_signs t rnd T R) as (L & F). split.
  - intros (n & LN & _ & E). pose proof (b64_16_last n LN) as B. rewrite <- E in B.
    assert (I : In (nth 23 (get_id t rnd) 0) (get_id t rnd)) by (apply nth_In; rewrite L; lia). apply (proj1 (Forall_forall _ _) F) in I. rewrite B in I. lia.
  - exists (own_ask (get_id t rnd)). split; [apply own_ok; apply (id_like t rnd T R)|]. split; [apply own_text|]. intros n v I S. cbn [own_ask q_fields] in I.
    repeat (destruct I as [I|I]; [injection I as <- <-; vm_compute in S; discriminate S|]). exact I.
Qed.
Print Assumptions C60_own_request_refuted.
