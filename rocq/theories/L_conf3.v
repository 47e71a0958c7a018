(** Several objects in one file, read piece by piece. *)
From Coq Require Import ZArith List Lia Bool ZifyBool ZifyNat.
From Verif Require Import Base S_json S_conf M_netmsg M_json M_conf L_json L_conf L_conf2.
Import ListNotations.
Open Scope Z_scope.

Notation len l := (Z.of_nat (length l)).
Lemma ms_note : forall t c r s m, Forall (fun c => ~ eol c) t -> eol c ->
  match_sign true s m (t ++ c :: r) = match_sign false s (m + len t + 1) r.
Proof.
  induction t as [|d t IH]; intros c r s m N E; cbn [app match_sign].
  - replace ((c =? 10) || (c =? 13)) with true by (unfold eol in E; lia). cbn [negb length]. f_equal. lia.
  - inversion N; subst. replace ((d =? 10) || (d =? 13)) with false by (unfold eol in *; lia). cbn [negb].
    rewrite IH by assumption. cbn [length]. f_equal. lia.
Qed.
Lemma ms_note_end : forall t s m, Forall (fun c => ~ eol c) t -> match_sign true s m t = 0.
Proof.
  induction t as [|d t IH]; intros s m N; [reflexivity|]. cbn [match_sign]. inversion N; subst.
  replace ((d =? 10) || (d =? 13)) with false by (unfold eol in *; lia). apply IH. assumption.
Qed.
Lemma note_eol : forall t, note t -> Forall (fun c => ~ eol c) t.
Proof. intros t N. eapply Forall_impl; [|exact N]. intros c C. apply C. Qed.
Lemma ms_gap : forall g, gap g -> forall r m, match_sign false 0 m (g ++ r) = match_sign false 0 (m + len g) r.
Proof.
  intros g G. induction G as [|c g C G IH|t c g N E G IH]; intros r m.
  - cbn [app length]. f_equal. lia.
  - cbn [app match_sign]. replace (c =? 35) with false by lia. change (0 =? 0) with true. replace (c =? 123) with false by lia. cbv iota.
    rewrite IH. cbn [length]. f_equal. lia.
  - cbn [app match_sign]. change (35 =? 35) with true. cbv iota. rewrite <- app_assoc. cbn [app].
    rewrite ms_note by (try apply note_eol; assumption). rewrite IH. cbn [length]. rewrite app_length. cbn [length]. f_equal. lia.
Qed.
Lemma ms_tail : forall u m, tail u -> match_sign false 0 m u = 0.
Proof.
  intros u m T. destruct T as [g G|g t G N].
  - rewrite <- (app_nil_r g), ms_gap by exact G. reflexivity.
  - rewrite ms_gap by exact G. cbn [match_sign]. change (35 =? 35) with true. cbv iota. apply ms_note_end. apply note_eol. exact N.
Qed.
Lemma ms_paired : forall t, paired t -> forall s m r, 0 < s -> match_sign false s m (t ++ r) = match_sign false s (m + len t) r.
Proof.
  intros t P. induction P as [|c t A B C P IH|n c t N E P IH|a t Pa IHa P IH]; intros s m r S.
  - cbn [app length]. f_equal. lia.
  - cbn [app match_sign]. replace (c =? 35) with false by lia. replace (s =? 0) with false by lia.
    replace (c =? 123) with false by lia. replace (c =? 125) with false by lia. rewrite IH by exact S. cbn [length]. f_equal. lia.
  - cbn [app match_sign]. change (35 =? 35) with true. cbv iota. rewrite <- app_assoc. cbn [app].
    rewrite ms_note by assumption. rewrite IH by exact S. cbn [length]. rewrite app_length. cbn [length]. f_equal. lia.
  - cbn [app match_sign]. change (123 =? 35) with false. replace (s =? 0) with false by lia. change (123 =? 123) with true. cbv iota.
    rewrite <- app_assoc, IHa by lia. cbn [app match_sign]. change (125 =? 35) with false. change (125 =? 123) with false.
    change (125 =? 125) with true. replace (s + 1 =? 0) with false by lia. replace (s + 1 - 1 =? 0) with false by lia. cbv iota.
    replace (s + 1 - 1) with s by lia. rewrite IH by exact S. cbn [length]. rewrite app_length. cbn [length]. f_equal. lia.
Qed.
Lemma ms_object : forall g t u, gap g -> paired t -> match_sign false 0 0 (g ++ 123 :: t ++ 125 :: u) = len (g ++ 123 :: t ++ [125]).
Proof.
  intros g t u G P. rewrite ms_gap by exact G. cbn [match_sign]. change (123 =? 35) with false. change (0 =? 0) with true.
  change (123 =? 123) with true. cbv iota. rewrite ms_paired by (try exact P; lia). cbn [match_sign].
  change (125 =? 35) with false. change (1 =? 0) with false. change (125 =? 123) with false. change (125 =? 125) with true.
  change (1 - 1 =? 0) with true. cbv iota. rewrite app_length. cbn [length]. rewrite app_length. cbn [length]. lia.
Qed.

(** more bytes behind do not change what is found *)
Lemma ms_more : forall l b s m x, 0 <= m -> match_sign b s m l <> 0 ->
  match_sign b s m (l ++ x) = match_sign b s m l /\ m < match_sign b s m l <= m + len l.
Proof.
  induction l as [|c l IH]; intros b s m x M N; [elim N; reflexivity|]. cbn [app match_sign length] in *.
  assert (G : forall b s, match_sign b s (m + 1) l <> 0 ->
     match_sign b s (m + 1) (l ++ x) = match_sign b s (m + 1) l /\ m < match_sign b s (m + 1) l <= m + Z.of_nat (S (length l))).
  { intros b' s' N'. destruct (IH b' s' (m + 1) x ltac:(lia) N') as (A & B). split; [exact A|lia]. }
  destruct b; [apply G; exact N|]. destruct (c =? 35); [apply G; exact N|]. destruct (s =? 0); [apply G; exact N|].
  destruct (c =? 123); [apply G; exact N|]. destruct (c =? 125); [|apply G; exact N].
  destruct (s - 1 =? 0); [|apply G; exact N]. split; [reflexivity|lia].
Qed.
Lemma skip_piece : forall (l x : list Z) n, (n <= length l)%nat -> skipn n (l ++ x) = skipn n l ++ x.
Proof. intros l x n L. rewrite skipn_app. replace (n - length l)%nat with O by lia. reflexivity. Qed.
Lemma first_piece : forall (l x : list Z) n, (n <= length l)%nat -> firstn n (l ++ x) = firstn n l.
Proof. intros l x n L. rewrite firstn_app. replace (n - length l)%nat with O by lia. rewrite app_nil_r. reflexivity. Qed.

Section Drain.
Variable fs : list Z -> option (list Z).
Variable d : nat.
Lemma drain_fuel : forall f g mem, (length mem <= f)%nat -> (length mem <= g)%nat -> drain fs d f mem = drain fs d g mem.
Proof.
  induction f as [|f IH]; intros g mem F G.
  - destruct mem; [|cbn [length] in F; lia]. destruct g; reflexivity.
  - destruct g as [|g]; [destruct mem; [reflexivity|cbn [length] in G; lia]|].
    cbn [drain]. destruct (Z.eqb_spec (match_sign false 0 0 mem) 0) as [E|E]; [reflexivity|].
    destruct (ms_more mem false 0 0 [] ltac:(lia) E) as (_ & B).
    rewrite (IH g); [reflexivity| |]; rewrite skipn_length; lia.
Qed.
Definition dr (mem : list Z) := drain fs d (length mem) mem.
Lemma dr_eq : forall mem, dr mem =
  if match_sign false 0 0 mem =? 0 then ([], mem)
  else let n := Z.to_nat (match_sign false 0 0 mem) in
       (conf_load fs d (firstn n mem) :: fst (dr (skipn n mem)), snd (dr (skipn n mem))).
Proof.
  intros mem. unfold dr at 1. rewrite (drain_fuel (length mem) (S (length mem))) by lia. cbn [drain].
  destruct (Z.eqb_spec (match_sign false 0 0 mem) 0) as [E|E]; [reflexivity|].
  destruct (ms_more mem false 0 0 [] ltac:(lia) E) as (_ & B). cbv zeta. unfold dr.
  rewrite (drain_fuel (length mem) (length (skipn (Z.to_nat (match_sign false 0 0 mem)) mem))) by (try rewrite skipn_length; lia).
  reflexivity.
Qed.
Lemma dr_app : forall k mem x, (length mem <= k)%nat ->
  fst (dr (mem ++ x)) = fst (dr mem) ++ fst (dr (snd (dr mem) ++ x)).
Proof.
  induction k as [|k IH]; intros mem x L.
  - destruct mem; [|cbn [length] in L; lia]. reflexivity.
  - rewrite (dr_eq mem). destruct (Z.eqb_spec (match_sign false 0 0 mem) 0) as [E|E]; [reflexivity|].
    destruct (ms_more mem false 0 0 x ltac:(lia) E) as (A & B). rewrite (dr_eq (mem ++ x)), A.
    replace (match_sign false 0 0 mem =? 0) with false by lia. cbv zeta. set (n := Z.to_nat (match_sign false 0 0 mem)) in *.
    assert (Ln : (0 < n <= length mem)%nat) by lia.
    rewrite skip_piece, first_piece by lia. cbn [fst snd app]. f_equal. apply IH. rewrite skipn_length. lia.
Qed.
Lemma sub_whole : forall pieces mem, fst (dr mem) = [] -> snd (dr mem) = mem ->
  sub_loop fs d mem pieces = fst (dr (mem ++ List.concat pieces)).
Proof.
  induction pieces as [|c cs IH]; intros mem A B; cbn [sub_loop List.concat]; [rewrite app_nil_r, A; reflexivity|].
  fold (dr (mem ++ c)). rewrite app_assoc, (dr_app (length (mem ++ c)) (mem ++ c)) by lia. f_equal.
  assert (R : forall k m, (length m <= k)%nat -> fst (dr (snd (dr m))) = [] /\ snd (dr (snd (dr m))) = snd (dr m)).
  { clear. induction k as [|k IH]; intros m L.
    - destruct m; [split; reflexivity|cbn [length] in L; lia].
    - rewrite (dr_eq m). destruct (Z.eqb_spec (match_sign false 0 0 m) 0) as [E|E].
      + cbn [snd]. rewrite (dr_eq m), E. split; reflexivity.
      + destruct (ms_more m false 0 0 [] ltac:(lia) E) as (_ & B). cbv zeta. cbn [snd]. apply IH. rewrite skipn_length. lia. }
  destruct (R _ (mem ++ c) (le_n _)) as (R1 & R2). apply IH; assumption.
Qed.
Lemma sub_concat : forall pieces, conf_sub fs d pieces = fst (dr (List.concat pieces)).
Proof. intros pieces. unfold conf_sub. rewrite (sub_whole pieces []); reflexivity. Qed.

Lemma objects_drain : forall ls t, objects fs ls t -> Forall (fun l => (levels (JObj l) + 1 <= d)%nat) ls ->
  Forall2 (fun l h => exists n, h = HTree (Some n) /\ shaped (JObj l) None n) ls (fst (dr t)).
Proof.
  intros ls t O. induction O as [u T|g l t ls u G V P O IH]; intros F.
  - rewrite dr_eq, ms_tail by exact T. constructor.
  - inversion F as [|l' ls' L F']; subst. rewrite dr_eq, ms_object by assumption.
    replace (len (g ++ 123 :: t ++ [125]) =? 0) with false by (rewrite app_length; cbn [length]; lia).
    cbv zeta. rewrite Nat2Z.id.
    replace (g ++ 123 :: t ++ 125 :: u) with ((g ++ 123 :: t ++ [125]) ++ u) by (rewrite <- app_assoc; cbn [app]; rewrite <- app_assoc; reflexivity).
    rewrite skip_piece, first_piece, skipn_all, firstn_all by lia. cbn [app fst]. constructor; [|apply IH; exact F'].
    destruct (load_text fs g l (123 :: t ++ [125]) [] d G V ltac:(left; reflexivity) L) as (n & R & Sh).
    + exists [0]. reflexivity.
    + exists n. rewrite app_nil_r in R. split; [exact R|exact Sh].
Qed.
End Drain.
