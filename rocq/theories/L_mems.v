(** Lemmas about the memory queue of a connection. *)
From Verif Require Import Base S_netq M_netq.
From Coq Require Import ZifyBool ZifyNat.

Notation msg := (list Z).
Definition enc (m : msg) : list Z := le_bytes 4 (to_u 32 (Z.of_nat (length m))) ++ m.
Definition encs (ms : list msg) : list Z := concat (map enc ms).
Definition small (m : msg) : Prop := Z.of_nat (length m) < 2 ^ 31.

Lemma encs_app : forall a b, encs (a ++ b) = encs a ++ encs b.
Proof. intros. unfold encs. now rewrite map_app, concat_app. Qed.
Lemma encs_one : forall m, encs [m] = enc m.
Proof. intros. unfold encs. cbn [map concat]. apply app_nil_r. Qed.
Lemma encs_cons : forall m l, encs (m :: l) = enc m ++ encs l.
Proof. reflexivity. Qed.
Lemma enc_len : forall m, length (enc m) = (4 + length m)%nat.
Proof. intros. unfold enc. rewrite app_length. reflexivity. Qed.
Lemma encs_nil : forall l, length (encs l) = 0%nat -> l = [].
Proof. intros [|m l] H; [easy|]. rewrite encs_cons, app_length, enc_len in H. lia. Qed.

Lemma le4_val : forall z, 0 <= z < 2 ^ 32 -> le_val (le_bytes 4 z) = z.
Proof.
  intros z H. change (2 ^ 32) with 4294967296 in H. cbn [le_bytes le_val].
  pose proof (Z.div_mod z 256 ltac:(lia)). pose proof (Z.mod_pos_bound z 256 ltac:(lia)).
  set (a := z / 256) in *. pose proof (Z.div_mod a 256 ltac:(lia)). pose proof (Z.mod_pos_bound a 256 ltac:(lia)).
  set (b := a / 256) in *. pose proof (Z.div_mod b 256 ltac:(lia)). pose proof (Z.mod_pos_bound b 256 ltac:(lia)).
  set (c := b / 256) in *. rewrite (Z.mod_small c 256) by lia. lia.
Qed.

Lemma size_read : forall m, small m -> to_s 32 (le_val (le_bytes 4 (to_u 32 (Z.of_nat (length m))))) = Z.of_nat (length m).
Proof.
  unfold small. intros m H. change (2 ^ 31) with 2147483648 in H.
  unfold to_u. rewrite (Z.mod_small (Z.of_nat (length m))) by (change (2 ^ 32) with 4294967296; lia).
  rewrite le4_val by (change (2 ^ 32) with 4294967296; lia).
  unfold to_s. rewrite Z.mod_small by (change (2 ^ 32) with 4294967296; lia).
  change (2 ^ (32 - 1)) with 2147483648. destruct (Z.ltb_spec (Z.of_nat (length m)) 2147483648); lia.
Qed.

Definition wn (n : mnode) (ms : list msg) : Prop :=
  mn_bytes n = encs ms /\ mn_rpos n = 0%nat /\ Forall small ms /\ MEMSIZE + 1 <= mn_max n.
Definition rn (n : mnode) (ms : list msg) : Prop :=
  exists done, mn_bytes n = encs done ++ encs ms /\ mn_rpos n = length (encs done) /\ Forall small ms /\
    MEMSIZE + 1 <= mn_max n.
Definition full (l : list msg) : Prop := l <> [].
Definition rshape (lr : list (list msg)) : Prop :=
  lr = [] \/ exists h mid tl, lr = h :: mid ++ tl /\ Forall full mid /\ Forall (fun x => x = []) tl.

Definition winv (q : mems) (lb : list (list msg)) (lw : list msg) : Prop :=
  Forall2 wn (q_before q) lb /\ Forall full lb /\ wn (q_wnode q) lw /\ (lb <> [] -> lw <> []) /\
  Forall (fun n => wn n []) (q_after q) /\
  q_wuses q = Z.of_nat (length lb) + (match lw with [] => 0 | _ => 1 end).
Definition rinv (q : mems) (lr : list (list msg)) : Prop :=
  Forall2 rn (q_r q) lr /\ rshape lr /\ q_rsize q = Z.of_nat (length (encs (concat lr))).
Definition minv (q : mems) (tr tw : list msg) : Prop :=
  (exists lb lw, winv q lb lw /\ tw = concat lb ++ lw) /\ (exists lr, rinv q lr /\ tr = concat lr).

Lemma wn_create : wn (mn_create MEMSIZE) [].
Proof. unfold wn, mn_create. cbn [mn_bytes mn_rpos mn_max]. split; [reflexivity|]. split; [reflexivity|]. split; [constructor|lia]. Qed.
Lemma create_inv : minv mems_create [] [].
Proof.
  split.
  - exists [], []. split; [|easy]. unfold winv, mems_create. cbn [q_before q_wnode q_after q_wuses length].
    split; [constructor|]. split; [constructor|]. split; [apply wn_create|]. split; [easy|].
    split; [constructor|reflexivity].
  - exists []. split; [|easy]. split; [constructor|]. split; [now left|reflexivity].
Qed.

Lemma wn_size : forall n ms, wn n ms -> (mn_size n =? 0) = match ms with [] => true | _ => false end.
Proof.
  intros n ms [H _]. unfold mn_size. rewrite H. destruct ms as [|m ms]; [reflexivity|].
  rewrite encs_cons, app_length, enc_len. lia.
Qed.

Lemma wn_clear : forall n ms, rn n ms -> wn (mn_clear n) [].
Proof. intros n ms [d [_ [_ [_ H]]]]. repeat split; try constructor. exact H. Qed.

Lemma scan_spec : forall after node lw isize p n a,
  wn node lw -> Forall (fun x => wn x []) after ->
  reset_scan node after isize = (p, n, a) ->
  Forall (fun x => wn x []) a /\
  ((p = [] /\ wn n lw) \/ (p = [node] /\ lw <> [] /\ wn n [])).
Proof.
  intros after node lw isize p n a Hw Ha H.
  assert (HS : forall x l, wn x l -> (mn_size x =? 0) = true -> wn (mn_renew x isize) l).
  { intros x l [A [B [C D]]] _. unfold mn_renew. destruct (mn_max x <? isize) eqn:E; [|easy].
    split; [exact A|]. split; [exact B|]. split; [exact C|]. cbn [mn_max]. lia. }
  assert (Hempty : forall l x p n a, wn x [] -> Forall (fun y => wn y []) l -> reset_scan x l isize = (p, n, a) ->
     p = [] /\ wn n [] /\ Forall (fun y => wn y []) a).
  { intros l x p0 n0 a0 Hx Hl E. pose proof (wn_size _ _ Hx) as Es. cbn match in Es. destruct l; cbn [reset_scan] in E.
    - rewrite Es in E. destruct (mn_max x <? isize + mn_size x); injection E as <- <- <-; auto.
    - rewrite Es in E. destruct (mn_max x <? isize + mn_size x); injection E as <- <- <-; auto. }
  pose proof (wn_size _ _ Hw) as Es.
  destruct after as [|n' after']; cbn [reset_scan] in H; destruct (mn_max node <? isize + mn_size node).
  - destruct (mn_size node =? 0) eqn:E0.
    + injection H as <- <- <-. split; [easy|]. left. auto.
    + injection H as <- <- <-. split; [constructor|]. right. split; [easy|]. split; [|apply wn_create].
      destruct lw; [discriminate|easy].
  - injection H as <- <- <-. split; [easy|]. left. auto.
  - destruct (mn_size node =? 0) eqn:E0.
    + injection H as <- <- <-. split; [easy|]. left. auto.
    + destruct (reset_scan n' after' isize) as [[p1 n1] a1] eqn:E1. injection H as <- <- <-.
      inversion Ha as [|? ? H1 H2]; subst.
      destruct (Hempty _ _ _ _ _ H1 H2 E1) as [-> [A B]]. split; [easy|]. right. split; [easy|]. split; [|easy].
      destruct lw; [discriminate|easy].
  - injection H as <- <- <-. split; [easy|]. left. auto.
Qed.

Lemma push_inv : forall q tr tw m q', minv q tr tw -> small m -> mems_push q m = Some q' -> minv q' tr (tw ++ [m]).
Proof.
  intros q tr tw m q' [[lb [lw [[W1 [W2 [W3 [W4 [W5 W6]]]]] ->]]] [lr [R ->]]] Hm H.
  unfold mems_push in H.
  destruct (reset_scan (q_wnode q) (q_after q) (Z.of_nat (length m) + 4)) as [[p n] a] eqn:E.
  destruct (scan_spec _ _ _ _ _ _ _ W3 W5 E) as [Ha Hc].
  match type of H with (if ?c then _ else _) = _ => destruct c; [|easy] end. injection H as <-.
  assert (Hput : forall ms, wn n ms -> wn (mkmn (mn_max n) (mn_bytes n ++ le_bytes 4 (to_u 32 (Z.of_nat (length m))) ++ m) (mn_rpos n)) (ms ++ [m])).
  { intros ms [A [B [C D]]]. split; [|split; [|split]]; cbn [mn_bytes mn_rpos mn_max].
    - rewrite A, encs_app, encs_one. reflexivity.
    - exact B.
    - apply Forall_app. split; [exact C|]. constructor; [exact Hm|constructor].
    - exact D. }
  split; [|exists lr; split; [exact R|reflexivity]].
  destruct Hc as [[-> Hn]|[-> [Hl Hn]]]; pose proof (wn_size _ _ Hn) as Hs.
  - exists lb, (lw ++ [m]). split; [|now rewrite app_assoc]. unfold winv. cbn [q_before q_wnode q_after q_wuses].
    rewrite app_nil_r. split; [easy|]. split; [easy|]. split; [now apply Hput|]. split; [intros _; destruct lw; easy|].
    split; [easy|]. rewrite Hs, W6. destruct lw; cbn [app]; lia.
  - exists (lb ++ [lw]), [m]. split; [|rewrite concat_app; cbn [concat]; rewrite app_nil_r; easy].
    unfold winv. cbn [q_before q_wnode q_after q_wuses].
    split; [apply Forall2_app; [easy|constructor; [exact W3|constructor]]|].
    split; [apply Forall_app; split; [easy|constructor; [exact Hl|constructor]]|].
    split; [apply (Hput []); exact Hn|]. split; [easy|]. split; [easy|].
    rewrite Hs, W6, app_length. cbn [length]. destruct lw; [easy|]. lia.
Qed.

Lemma push_fits : forall q tr tw m, minv q tr tw -> Z.of_nat (length m) + 4 <= MEMSIZE + 1 -> mems_push q m <> None.
Proof.
  intros q tr tw m [[lb [lw [[W1 [W2 [W3 [W4 [W5 W6]]]]] _]]] _] Hm.
  unfold mems_push.
  destruct (reset_scan (q_wnode q) (q_after q) (Z.of_nat (length m) + 4)) as [[p n] a] eqn:E.
  assert (K : mn_size n + (Z.of_nat (length m) + 4) <= mn_max n).
  { revert E. generalize (q_wnode q) (q_after q) W3 W5. intros node after Hn Ha.
    clear - Hm. revert node p n a. induction after as [|n' after' IH]; intros node p n a E; cbn [reset_scan] in E;
    destruct (mn_max node <? Z.of_nat (length m) + 4 + mn_size node) eqn:E1.
    - destruct (mn_size node =? 0) eqn:E0.
      + injection E as _ <- _. unfold mn_renew, mn_size in *. destruct (mn_max node <? Z.of_nat (length m) + 4) eqn:E2; cbn [mn_bytes mn_max]; lia.
      + injection E as _ <- _. unfold mn_create, mn_size. cbn [mn_bytes mn_max length]. lia.
    - injection E as _ <- _. lia.
    - destruct (mn_size node =? 0) eqn:E0.
      + injection E as _ <- _. unfold mn_renew, mn_size in *. destruct (mn_max node <? Z.of_nat (length m) + 4) eqn:E2; cbn [mn_bytes mn_max]; lia.
      + destruct (reset_scan n' after' (Z.of_nat (length m) + 4)) as [[p1 n1] a1] eqn:E2. injection E as _ <- _. eapply IH; eauto.
    - injection E as _ <- _. lia. }
  rewrite !app_length. cbn [le_bytes length]. unfold mn_size in K.
  match goal with |- (if ?c then _ else _) <> _ => destruct c eqn:Ec; [easy|] end. lia.
Qed.

Lemma Forall2_rn_clear : forall l lr, Forall2 rn l lr -> Forall (fun n => wn n []) (map mn_clear l).
Proof. intros l lr H. induction H; cbn [map]; constructor; [eapply wn_clear; eauto|easy]. Qed.
Lemma Forall_firstn' : forall A (P : A -> Prop) n l, Forall P l -> Forall P (firstn n l).
Proof.
  intros A P n l H. revert n. induction H; intros [|n]; cbn [firstn]; constructor; auto.
Qed.

Lemma move_inv : forall q tr tw, minv q tr tw -> minv (mems_move_read q) [] tw /\ q_r (mems_move_read q) = [].
Proof.
  intros q tr tw [[lb [lw [[W1 [W2 [W3 [W4 [W5 W6]]]]] ->]]] [lr [[R1 _] ->]]]. split; [|reflexivity].
  split.
  - exists lb, lw. split; [|easy]. unfold winv, mems_move_read. cbn [q_before q_wnode q_after q_wuses].
    repeat (split; [easy|]). split; [|easy]. apply Forall_app. split; [easy|].
    match goal with |- Forall _ (if ?c then _ else _) => destruct c end; [apply Forall_firstn'|]; eapply Forall2_rn_clear; eauto.
  - exists []. split; [|easy]. split; [constructor|]. split; [now left|reflexivity].
Qed.

Lemma wn_rn : forall n ms, wn n ms -> rn n ms.
Proof. intros n ms [A [B [C D]]]. exists []. cbn. easy. Qed.

Definition r2inv (q : mems) (lr : list (list msg)) : Prop :=
  Forall2 rn (q_r q) lr /\ Forall full lr /\ q_rsize q = Z.of_nat (length (encs (concat lr))).

Lemma r2_shape : forall q lr, r2inv q lr -> rinv q lr.
Proof.
  intros q lr [A [B C]]. split; [easy|]. split; [|easy].
  destruct lr as [|h mid]; [now left|right]. exists h, mid, []. rewrite app_nil_r.
  inversion B; subst. split; [easy|]. split; [easy|constructor].
Qed.

Lemma r2_push : forall q lr n ms (q' : mems), r2inv q lr -> wn n ms -> full ms ->
  q_r q' = q_r q ++ [n] -> q_rsize q' = q_rsize q + mn_size n -> r2inv q' (lr ++ [ms]).
Proof.
  intros q lr n ms q' [A [B C]] Hn Hf H1 H2. split; [|split].
  - rewrite H1. apply Forall2_app; [easy|]. constructor; [now apply wn_rn|constructor].
  - apply Forall_app. split; [easy|]. constructor; [easy|constructor].
  - rewrite H2, C, concat_app, encs_app, app_length. cbn [concat]. rewrite app_nil_r.
    destruct Hn as [Hb _]. unfold mn_size. rewrite Hb. lia.
Qed.

Lemma loop_inv : forall fuel q lb lw lr rn_,
  winv q lb lw -> r2inv q lr ->
  exists lb' lw' lr', winv (read_loop fuel q rn_) lb' lw' /\ r2inv (read_loop fuel q rn_) lr' /\
    concat lr' ++ concat lb' ++ lw' = concat lr ++ concat lb ++ lw /\
    (q_wuses q <= Z.of_nat fuel -> Z.of_nat (length (q_r q)) + q_wuses q <= rn_ -> concat lb' ++ lw' = []).
Proof.
  induction fuel as [|fuel IH]; intros q lb lw lr rn_ W R.
  - exists lb, lw, lr. split; [easy|]. split; [easy|]. split; [easy|].
    intros Hu _. destruct W as [_ [_ [_ [_ [_ W6]]]]]. destruct lb; cbn [length] in W6; destruct lw; try easy; exfalso; lia.
  - cbn [read_loop].
    match goal with |- context[if ?c then _ else q] => destruct c eqn:Ec end.
    2:{ exists lb, lw, lr. split; [easy|]. split; [easy|]. split; [easy|].
        intros _ Hr. destruct W as [W1 [W2 [W3 [W4 [_ W6]]]]].
        destruct (q_before q) as [|n b] eqn:Eb.
        - inversion W1; subst. pose proof (wn_size _ _ W3) as Hs. destruct lw; [easy|].
          exfalso. cbn [length] in W6. unfold mn_size in *. lia.
        - inversion W1 as [|? ms ? lb' Hn Hb]; subst. inversion W2; subst. pose proof (wn_size _ _ Hn) as Hs.
          destruct ms; [easy|]. exfalso. cbn [length] in W6. unfold mn_size in *. destruct lw; lia. }
    apply andb_true_iff in Ec. destruct Ec as [Ec Ec3]. apply andb_true_iff in Ec. destruct Ec as [Ec1 Ec2].
    destruct W as [W1 [W2 [W3 [W4 [W5 W6]]]]].
    destruct (q_before q) as [|n b] eqn:Eb.
    + inversion W1; subst. clear W1 W2. cbn [length concat app] in *.
      assert (Hf : full lw). { pose proof (wn_size _ _ W3) as Hs. unfold full. destruct lw; [|easy]. lia. }
      destruct (q_after q) as [|n' a'] eqn:Ea.
      * exists [], [], (lr ++ [lw]). split; [|split; [|split]].
        -- unfold winv. cbn [q_before q_wnode q_after q_wuses length]. 
           split; [constructor|]. split; [constructor|]. split; [apply wn_create|]. split; [easy|].
           split; [constructor|]. rewrite W6. unfold full in Hf. destruct lw; [easy|]. lia.
        -- eapply r2_push; [exact R|exact W3|exact Hf|reflexivity|reflexivity].
        -- rewrite concat_app. cbn [concat app]. rewrite !app_nil_r. easy.
        -- easy.
      * inversion W5 as [|? ? H1 H2]; subst.
        edestruct (IH (mkmems [] n' a' (q_wuses q - 1) (q_r q ++ [q_wnode q]) (q_rsize q + mn_size (q_wnode q)) (q_nouses q)) [] [] (lr ++ [lw]) rn_) as [lb' [lw' [lr' [A [B [C D]]]]]].
        -- unfold winv. cbn [q_before q_wnode q_after q_wuses length].
           split; [constructor|]. split; [constructor|]. split; [easy|]. split; [easy|].
           split; [easy|]. rewrite W6. unfold full in Hf. destruct lw; [easy|]. lia.
        -- eapply r2_push; [exact R|exact W3|exact Hf|reflexivity|reflexivity].
        -- exists lb', lw', lr'. split; [easy|]. split; [easy|]. split.
           ++ rewrite C, concat_app. cbn [concat app]. rewrite !app_nil_r. easy.
           ++ cbn [q_wuses q_r] in D. rewrite app_length in D. cbn [length] in D. intros; apply D; lia.
    + inversion W1 as [|? ms ? lb0 Hn Hb]; subst. inversion W2 as [|? ? Hf Hfs]; subst.
      edestruct (IH (mkmems b (q_wnode q) (q_after q) (q_wuses q - 1) (q_r q ++ [n]) (q_rsize q + mn_size n) (q_nouses q)) lb0 lw (lr ++ [ms]) rn_) as [lb' [lw' [lr' [A [B [C D]]]]]].
      * unfold winv. cbn [q_before q_wnode q_after q_wuses]. split; [easy|]. split; [easy|]. split; [easy|].
        split; [intros _; apply W4; easy|]. split; [easy|]. rewrite W6. cbn [length]. lia.
      * eapply r2_push; [exact R|exact Hn|exact Hf|reflexivity|reflexivity].
      * exists lb', lw', lr'. split; [easy|]. split; [easy|]. split.
        -- rewrite C, concat_app. cbn [concat]. rewrite !app_nil_r, <- !app_assoc. easy.
        -- cbn [q_wuses q_r] in D. rewrite app_length in D. cbn [length] in D. intros; apply D; lia.
Qed.

Lemma Forall2_len : forall A B (P : A -> B -> Prop) l l', Forall2 P l l' -> length l = length l'.
Proof. intros A B P l l' H. induction H; cbn [length]; congruence. Qed.

Lemma read_inv : forall q tr tw n q' c, minv q tr tw -> mems_read q n = (q', c) ->
  exists tr' tw', minv q' tr' tw' /\ tr' ++ tw' = tr ++ tw /\
    (tr <> [] -> tr' = tr) /\ (n = 0 -> tr = [] -> tw' = []).
Proof.
  intros q tr tw n q' c I H. unfold mems_read in H. pose proof I as [_ [lr [[R1 [R2 R3]] Htr]]].
  destruct (0 <? q_rsize q) eqn:E.
  - injection H as <- _. exists tr, tw. split; [easy|]. split; [easy|]. split; [easy|].
    intros _ ->. rewrite <- Htr in R3. cbn in R3. lia.
  - assert (tr = []) as ->. { apply encs_nil. rewrite Htr. lia. }
    destruct (move_inv _ _ _ I) as [[[lb [lw [W Hw]]] [lr0 [[Q1 [Q2 Q3]] Q4]]] Hr].
    set (q1 := mems_move_read q) in *. rewrite Hr in Q1. inversion Q1; subst lr0. clear Q1.
    injection H as <- _.
    assert (R' : r2inv q1 []). { split; [rewrite Hr; constructor|]. split; [constructor|easy]. }
    destruct (loop_inv (length (q_before q1) + 1 + length (q_after q1)) q1 lb lw [] (if n =? 0 then q_wuses q1 else n) W R')
      as [lb' [lw' [lr' [A [B [C D]]]]]].
    exists (concat lr'), (concat lb' ++ lw'). split; [|split; [|split; [easy|]]].
    + split; [exists lb', lw'; easy|]. exists lr'. split; [now apply r2_shape|easy].
    + rewrite C, Hw. easy.
    + intros -> _. apply D; rewrite ?Hr; cbn [Z.eqb length]; [|lia].
      destruct W as [W1 [_ [_ [_ [_ W6]]]]]. apply Forall2_len in W1. rewrite W6. destruct lw; lia.
Qed.

Lemma skipn_exact : forall (a b : list Z) n, n = length a -> skipn n (a ++ b) = b.
Proof. intros a b n ->. rewrite skipn_app, Nat.sub_diag, skipn_all. reflexivity. Qed.
Lemma firstn_exact : forall (a b : list Z) n, n = length a -> firstn n (a ++ b) = a.
Proof. intros a b n ->. rewrite firstn_app, Nat.sub_diag, firstn_all, firstn_O, app_nil_r. reflexivity. Qed.

Lemma take_spec : forall n m ms q rest, rn n (m :: ms) ->
  exists n', rn n' ms /\ take_msg n q rest =
    Some (mkmems (q_before q) (q_wnode q) (q_after q) (q_wuses q) (n' :: rest) (q_rsize q - Z.of_nat (length (enc m))) (q_nouses q), Some m).
Proof.
  intros n m ms q rest [d [B [P [S M]]]]. inversion S as [|? ? Hm Hms]; subst.
  rewrite encs_cons in B. unfold take_msg.
  assert (E1 : firstn 4 (skipn (mn_rpos n) (mn_bytes n)) = le_bytes 4 (to_u 32 (Z.of_nat (length m)))).
  { rewrite B, P, skipn_exact by easy. unfold enc. rewrite <- app_assoc. now apply firstn_exact. }
  rewrite E1, size_read by easy.
  assert (E2 : mn_size n = Z.of_nat (length (encs d)) + 4 + Z.of_nat (length m) + Z.of_nat (length (encs ms))).
  { unfold mn_size. rewrite B, !app_length, enc_len. lia. }
  match goal with |- context[if ?c then _ else _] => replace c with false by lia end.
  rewrite Nat2Z.id.
  exists (mkmn (mn_max n) (mn_bytes n) (mn_rpos n + 4 + length m)). split.
  - exists (d ++ [m]). cbn [mn_bytes mn_rpos mn_max]. split; [|split; [|easy]].
    + rewrite B, encs_app, encs_one, <- app_assoc. easy.
    + rewrite P, encs_app, encs_one, app_length, enc_len. lia.
  - f_equal. f_equal; [f_equal; rewrite enc_len; lia|].
    f_equal. rewrite B, P. unfold enc. rewrite <- !app_assoc, app_assoc.
    rewrite skipn_exact by (rewrite app_length; reflexivity). now apply firstn_exact.
Qed.

Lemma rn_at_end : forall n ms, rn n ms -> (mn_size n <=? Z.of_nat (mn_rpos n)) = match ms with [] => true | _ => false end.
Proof.
  intros n ms [d [B [P _]]]. unfold mn_size. rewrite B, P, app_length. destruct ms as [|m ms].
  - cbn [encs map concat length]. lia.
  - rewrite encs_cons, app_length, enc_len. lia.
Qed.
Lemma rn_clear : forall n ms, rn n ms -> rn (mn_clear n) [].
Proof. intros n ms H. apply wn_rn. eapply wn_clear; eauto. Qed.

Lemma nil_concat : forall (l : list (list msg)), Forall (fun x => x = []) l -> concat l = [].
Proof. intros l H. induction H as [|x l Hx H IH]; [easy|]. cbn [concat]. now rewrite Hx, IH. Qed.

Lemma pop_inv : forall q tr tw, minv q tr tw -> q_r q <> [] ->
  exists q', q_r q' <> [] /\ match tr with
    | [] => mems_pop q = Some (q', None) /\ minv q' [] tw
    | m :: t => mems_pop q = Some (q', Some m) /\ minv q' t tw
    end.
Proof.
  intros q tr tw [W [lr [[R1 [R2 R3]] ->]]] Hr. unfold mems_pop.
  destruct (q_r q) as [|n rest] eqn:Eq; [easy|]. clear Hr.
  inversion R1 as [|? h ? lr' Hn Hrest]; subst. clear R1.
  destruct R2 as [R2|[h0 [mid [tl [R2 [Rm Rt]]]]]]; [easy|]. injection R2 as <- ->.
  rewrite (rn_at_end _ _ Hn).
  destruct h as [|m h]; cbn [concat app] in *.
  - destruct rest as [|n2 rest2].
    + inversion Hrest; subst. destruct mid; [|easy]. destruct tl; [|easy]. cbn [concat app] in *.
      eexists. split; [|split; [reflexivity|]]; [easy|]. split; [exact W|]. exists [[]]. split; [|easy].
      split; [constructor; [eapply rn_clear; eauto|constructor]|]. split; [|easy].
      right. exists [], [], []. repeat split; constructor.
    + inversion Hrest as [|? h2 ? lr2 Hn2 Hrest2]; subst.
      assert (Hat : (Z.of_nat (mn_rpos n2) <? mn_size n2) = match h2 with [] => false | _ => true end).
      { pose proof (rn_at_end _ _ Hn2). destruct h2; lia. }
      rewrite Hat.
      assert (HF : Forall2 rn (rest2 ++ [mn_clear n]) (lr2 ++ [[]])).
      { apply Forall2_app; [easy|]. constructor; [eapply rn_clear; eauto|constructor]. }
      destruct mid as [|g mid'].
      * cbn [app] in *. destruct tl as [|g tl]; [easy|]. match goal with H : h2 :: lr2 = g :: tl |- _ => injection H as -> -> end.
        inversion Rt as [|? ? Hg Htl]; subst. cbn [concat app] in *. rewrite (nil_concat _ Htl) in *.
        eexists. split; [|split; [reflexivity|]]; [easy|]. split; [exact W|].
        exists ([] :: tl ++ [[]]). split; [|cbn [concat app]; rewrite concat_app, (nil_concat _ Htl); easy].
        split; [constructor; [exact Hn2|exact HF]|]. split.
        -- right. exists [], [], (tl ++ [[]]). split; [easy|]. split; [constructor|]. apply Forall_app. split; [easy|]. constructor; [easy|constructor].
        -- cbn [q_rsize concat app]. rewrite concat_app, (nil_concat _ Htl). cbn [concat app]. exact R3.
      * cbn [app] in *. match goal with H : h2 :: lr2 = _ |- _ => injection H as -> -> end.
        inversion Rm as [|? ? Hg Hm]; subst. unfold full in Hg. destruct g as [|m g]; [easy|].
        destruct (take_spec n2 m g q (rest2 ++ [mn_clear n]) Hn2) as [n' [A B]]. rewrite B. cbn [concat app].
        eexists. split; [|split; [reflexivity|]]; [easy|]. split; [exact W|].
        exists (g :: mid' ++ (tl ++ [[]])).
        split; [|cbn [concat]; rewrite !concat_app; cbn [concat app]; rewrite !app_nil_r; easy].
        split; [constructor; [exact A|rewrite app_assoc; exact HF]|]. split.
        -- right. exists g, mid', (tl ++ [[]]). split; [easy|]. split; [easy|]. apply Forall_app. split; [easy|]. constructor; [easy|constructor].
        -- cbn [q_rsize]. rewrite R3. cbn [concat app]. rewrite encs_cons, app_length.
           rewrite !concat_app. cbn [concat app]. rewrite !app_nil_r. lia.
  - destruct (take_spec n m h q rest Hn) as [n' [A B]]. rewrite B.
    eexists. split; [|split; [reflexivity|]]; [easy|]. split; [exact W|].
    exists (h :: mid ++ tl). split; [|easy].
    split; [constructor; [exact A|exact Hrest]|]. split.
    + right. exists h, mid, tl. easy.
    + cbn [q_rsize]. rewrite R3. cbn [concat app]. rewrite encs_cons, app_length. lia.
Qed.

Lemma run_fifo : forall l q tr tw q' outs d,
  minv q tr tw -> (d = true -> tr = []) -> Forall small (pushed l) ->
  mems_run q l = Some (q', outs) -> careful d outs ->
  exists tr' tw', minv q' tr' tw' /\ tr ++ tw ++ pushed l = popped outs ++ tr' ++ tw'.
Proof.
  induction l as [|o l IH]; intros q tr tw q' outs d I Hd Hs H Hc; cbn [mems_run pushed] in *.
  - injection H as <- <-. exists tr, tw. rewrite app_nil_r. easy.
  - destruct (mems_step q o) as [[q1 x]|] eqn:E; [|easy].
    destruct (mems_run q1 l) as [[q2 xs]|] eqn:E2; [|easy]. injection H as <- <-.
    destruct o as [m|n| |]; cbn [mems_step] in E.
    + destruct (mems_push q m) as [qp|] eqn:Ep; [|easy]. injection E as <- <-.
      inversion Hs as [|? ? Hm Hl]; subst. cbn [careful popped] in *.
      destruct (IH _ _ _ _ _ _ (push_inv _ _ _ _ _ I Hm Ep) Hd Hl E2 Hc) as [tr' [tw' [A B]]].
      exists tr', tw'. split; [easy|]. rewrite <- app_assoc in B. exact B.
    + destruct (mems_read q n) as [qr c] eqn:Er. injection E as <- <-.
      destruct (read_inv _ _ _ _ _ _ I Er) as [t1 [w1 [A [B _]]]]. cbn [careful popped] in *.
      destruct (IH _ _ _ _ _ false A ltac:(discriminate) Hs E2 Hc) as [tr' [tw' [C D]]].
      exists tr', tw'. split; [easy|]. rewrite <- D. rewrite !app_assoc, B. easy.
    + assert (Hr : q_r q <> []). { intros Hr. unfold mems_pop in E. rewrite Hr in E. easy. }
      destruct (pop_inv _ _ _ I Hr) as [q0 [_ P]]. destruct tr as [|m t]; destruct P as [P1 P2]; rewrite P1 in E; injection E as <- <-;
        cbn [careful popped] in *.
      * destruct (IH _ _ _ _ _ true P2 ltac:(easy) Hs E2 Hc) as [tr' [tw' [C D]]]. exists tr', tw'. easy.
      * destruct (IH _ _ _ _ _ false P2 ltac:(discriminate) Hs E2 Hc) as [tr' [tw' [C D]]]. exists tr', tw'. split; [easy|].
        cbn [app]. now rewrite D.
    + injection E as <- <-. cbn [careful popped] in *. destruct Hc as [-> Hc]. rewrite (Hd eq_refl) in *.
      destruct (move_inv _ _ _ I) as [A _].
      destruct (IH _ _ _ _ _ true A ltac:(easy) Hs E2 Hc) as [tr' [tw' [C D]]]. exists tr', tw'. easy.
Qed.

Lemma pop_all : forall tr q tw, minv q tr tw -> q_r q <> [] \/ tr = [] ->
  exists q', mems_run q (repeat MPop (length tr)) = Some (q', map (fun m => OPop (Some m)) tr) /\ minv q' [] tw.
Proof.
  induction tr as [|m tr IH]; intros q tw I Hr; cbn [length repeat map mems_run].
  - exists q. easy.
  - destruct Hr as [Hr|Hr]; [|easy]. destruct (pop_inv _ _ _ I Hr) as [q0 [Hr0 [P1 P2]]].
    cbn [mems_step]. rewrite P1. destruct (IH _ _ P2 (or_introl Hr0)) as [q' [A B]]. rewrite A. exists q'. easy.
Qed.

Lemma minv_r_nonempty : forall q tr tw, minv q tr tw -> q_r q <> [] \/ tr = [].
Proof.
  intros q tr tw [_ [lr [[R1 _] ->]]]. destruct (q_r q); [right; inversion R1; easy|now left].
Qed.

Lemma drain : forall q tw, minv q [] tw ->
  exists q' c, mems_run q (MRead 0 :: repeat MPop (length tw)) = Some (q', ORead c :: map (fun m => OPop (Some m)) tw).
Proof.
  intros q tw I. cbn [mems_run mems_step]. destruct (mems_read q 0) as [q1 c] eqn:E.
  destruct (read_inv _ _ _ _ _ _ I E) as [t1 [w1 [A [B [_ D]]]]]. rewrite (D eq_refl eq_refl) in *.
  rewrite app_nil_r in B. cbn [app] in B. subst t1.
  destruct (pop_all _ _ _ A (minv_r_nonempty _ _ _ A)) as [q' [F G]]. rewrite F. exists q', c. easy.
Qed.

(** a message that does not fit a fresh node behind a used one *)
Lemma push_overflow : forall m, MEMSIZE + 1 < Z.of_nat (length m) + 4 ->
  mems_run mems_create [MPush [1]; MPush m] = None.
Proof.
  intros m H. cbn [mems_run mems_step]. 
  assert (E : exists q, mems_push mems_create [1] = Some q /\ q_after q = [] /\ mn_size (q_wnode q) = 5 /\ mn_max (q_wnode q) = MEMSIZE + 1).
  { eexists. vm_compute. repeat split. }
  destruct E as [q [E [E1 [E2 E3]]]]. rewrite E. unfold mems_push. rewrite E1. cbn [reset_scan].
  rewrite E2, E3. replace (MEMSIZE + 1 <? Z.of_nat (length m) + 4 + 5) with true by lia.
  change (5 =? 0) with false. cbn match.
  match goal with |- context[if ?c then _ else _] => replace c with false; [easy|] end.
  unfold mn_create. cbn [mn_bytes mn_max app]. rewrite app_length. cbn [le_bytes length]. lia.
Qed.

(** two nodes in the batch, the first one read: the next read reports nothing *)
Lemma read_stall : forall a b, small a -> small b ->
  Z.of_nat (length a) + 4 <= MEMSIZE + 1 -> Z.of_nat (length b) + 4 <= MEMSIZE + 1 ->
  MEMSIZE + 1 < Z.of_nat (length a) + 4 + (Z.of_nat (length b) + 4) ->
  exists q q', mems_run mems_create [MPush a; MPush b; MRead 0; MPop; MRead 0] =
    Some (q, [OPush; OPush; ORead 2; OPop (Some a); ORead 0]) /\ mems_run q [MPop] = Some (q', [OPop (Some b)]).
Proof.
  intros a b Ha Hb Ha1 Hb1 Hab.
  set (na := mkmn (MEMSIZE + 1) (enc a) 0). set (nb := mkmn (MEMSIZE + 1) (enc b) 0).
  assert (Ra : rn na [a]). { exists []. cbn [na mn_bytes mn_rpos mn_max]. rewrite encs_one. repeat split; [constructor; [easy|constructor]|lia]. }
  assert (Rb : rn nb [b]). { exists []. cbn [nb mn_bytes mn_rpos mn_max]. rewrite encs_one. repeat split; [constructor; [easy|constructor]|lia]. }
  assert (Sa : mn_size na = Z.of_nat (length a) + 4). { unfold mn_size, na. cbn [mn_bytes]. rewrite enc_len. lia. }
  assert (Sb : mn_size nb = Z.of_nat (length b) + 4). { unfold mn_size, nb. cbn [mn_bytes]. rewrite enc_len. lia. }
  assert (E1 : mems_push mems_create a = Some (mkmems [] na [] 1 [] 0 64)).
  { unfold mems_push, mems_create. cbn [q_wnode q_after q_before q_wuses q_r q_rsize q_nouses reset_scan].
    replace (mn_size (mn_create MEMSIZE)) with 0 by reflexivity.
    unfold mn_create at 1. cbn [mn_max]. replace (MEMSIZE + 1 <? Z.of_nat (length a) + 4 + 0) with false by lia.
    change (mn_bytes (mn_create MEMSIZE)) with (@nil Z). change (mn_max (mn_create MEMSIZE)) with (MEMSIZE + 1). cbn [app].
    fold (enc a). replace (Z.of_nat (length (enc a)) <=? MEMSIZE + 1) with true by (rewrite enc_len; lia). reflexivity. }
  assert (E2 : mems_push (mkmems [] na [] 1 [] 0 64) b = Some (mkmems [na] nb [] 2 [] 0 64)).
  { unfold mems_push. cbn [q_wnode q_after q_before q_wuses q_r q_rsize q_nouses reset_scan].
    change (mn_max na) with (MEMSIZE + 1). rewrite Sa.
    replace (MEMSIZE + 1 <? Z.of_nat (length b) + 4 + (Z.of_nat (length a) + 4)) with true by lia.
    replace (Z.of_nat (length a) + 4 =? 0) with false by lia.
    change (mn_bytes (mn_create MEMSIZE)) with (@nil Z). change (mn_max (mn_create MEMSIZE)) with (MEMSIZE + 1). cbn [app].
    fold (enc b). replace (Z.of_nat (length (enc b)) <=? MEMSIZE + 1) with true by (rewrite enc_len; lia). reflexivity. }
  set (q3 := mkmems [] (mn_create MEMSIZE) [] 0 [na; nb] (0 + mn_size na + mn_size nb) 64).
  assert (E3 : mems_read (mkmems [na] nb [] 2 [] 0 64) 0 = (q3, 2)).
  { unfold mems_read, mems_move_read. cbn [q_rsize q_r map q_before q_wnode q_after q_wuses q_nouses length app].
    change (0 <? 0) with false. cbn match.
    replace (if 64 <? Z.of_nat 0 + (Z.of_nat (1 + 1 + 0) - 2) then firstn (Z.to_nat (Z.of_nat 0 + (Z.of_nat (1 + 1 + 0) - 2) - 64)) [] else []) with (@nil mnode) by (vm_compute; reflexivity).
    cbn [q_wuses q_before q_after length app Nat.add Z.eqb].
    cbn [read_loop q_before q_wuses q_r length q_wnode q_after q_rsize q_nouses app].
    replace (0 <? mn_size na) with true by lia. replace (0 <? mn_size nb) with true by lia.
    cbn [andb]. change (0 <? 2) with true. change (Z.of_nat 0 <? 2) with true. cbn [andb].
    change (2 - 1) with 1. change (0 <? 1) with true. change (Z.of_nat 1 <? 2) with true. cbn [andb]. reflexivity. }
  destruct (take_spec na a [] q3 [nb] Ra) as [na' [Na' E4]].
  set (q4 := mkmems [] (mn_create MEMSIZE) [] 0 [na'; nb] (0 + mn_size na + mn_size nb - Z.of_nat (length (enc a))) 64).
  assert (E5 : mems_pop q3 = Some (q4, Some a)).
  { unfold mems_pop. cbn [q3 q_r]. rewrite (rn_at_end _ _ Ra). exact E4. }
  assert (E6 : mems_read q4 0 = (q4, 0)).
  { unfold mems_read. cbn [q4 q_rsize q_r]. rewrite Sa, Sb, enc_len.
    match goal with |- (if ?c then _ else _) = _ => replace c with true by lia end.
    cbn [unread_nodes]. pose proof (rn_at_end _ _ Na').
    replace (Z.of_nat (mn_rpos na') <? mn_size na') with false by lia. reflexivity. }
  destruct (take_spec nb b [] q4 [mn_clear na'] Rb) as [nb' [Nb' E7]].
  assert (E8 : exists q', mems_pop q4 = Some (q', Some b)).
  { eexists. unfold mems_pop. change (q_r q4) with [na'; nb]. cbn match. rewrite (rn_at_end _ _ Na').
    change (mn_rpos nb) with 0%nat. replace (Z.of_nat 0 <? mn_size nb) with true by lia.
    exact E7. }
  destruct E8 as [q5 E8]. exists q4, q5. split.
  - cbn [mems_run mems_step]. rewrite E1, E2, E3, E5, E6. reflexivity.
  - cbn [mems_run mems_step]. rewrite E8. reflexivity.
Qed.

Lemma mems_run_app : forall l1 l2 q q1 q2 o1 o2, mems_run q l1 = Some (q1, o1) -> mems_run q1 l2 = Some (q2, o2) ->
  mems_run q (l1 ++ l2) = Some (q2, o1 ++ o2).
Proof.
  induction l1 as [|o l1 IH]; intros l2 q q1 q2 o1 o2 H1 H2; cbn [mems_run app] in *.
  - injection H1 as <- <-. exact H2.
  - destruct (mems_step q o) as [[q3 x]|]; [|easy].
    destruct (mems_run q3 l1) as [[q4 xs]|] eqn:E; [|easy]. injection H1 as <- <-.
    rewrite (IH _ _ _ _ _ _ E H2). reflexivity.
Qed.
