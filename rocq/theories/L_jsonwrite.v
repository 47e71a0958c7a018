(** The writer. *)
From Coq Require Import ZArith List Lia Bool ZifyBool ZifyNat.
From Verif Require Import Base S_json M_netmsg M_json L_json L_jsonread.
Import ListNotations.
Open Scope Z_scope.

Section NodeInd.
Variable P : jnode -> Prop.
Hypothesis H : forall ty k v kids, Forall P kids -> P (JN ty k v kids).
Fixpoint jnode_ind2 (n : jnode) : P n :=
  match n with
  | JN ty k v kids => H ty k v kids ((fix go l : Forall P l :=
      match l with [] => Forall_nil _ | c :: l' => Forall_cons _ (jnode_ind2 c) (go l') end) kids)
  end.
End NodeInd.
Section JvInd.
Variable P : jv -> Prop.
Hypothesis H0 : P JNull.
Hypothesis H1 : forall b, P (JBool b).
Hypothesis H2 : forall s, P (JNum s).
Hypothesis H3 : forall s, P (JStr s).
Hypothesis H4 : forall l, Forall P l -> P (JArr l).
Hypothesis H5 : forall l, Forall (fun e => P (snd e)) l -> P (JObj l).
Fixpoint jv_ind2 (v : jv) : P v :=
  match v with
  | JNull => H0 | JBool b => H1 b | JNum s => H2 s | JStr s => H3 s
  | JArr l => H4 l ((fix go l : Forall P l :=
      match l with [] => Forall_nil _ | c :: l' => Forall_cons _ (jv_ind2 c) (go l') end) l)
  | JObj l => H5 l ((fix go l : Forall (fun e => P (snd e)) l :=
      match l with [] => Forall_nil _ | e :: l' => Forall_cons _ (jv_ind2 (snd e)) (go l') end) l)
  end.
End JvInd.

Lemma short_kids : forall m ty k v kids, short m (JN ty k v kids) <->
  short_str m k /\ short_str m v /\ Forall (short m) kids.
Proof.
  intros m ty k v kids. cbn [short].
  assert (G : (fix go l := match l with [] => True | c :: l' => short m c /\ go l' end) kids <-> Forall (short m) kids).
  { induction kids as [|c l IH]; [split; [constructor|easy]|]. rewrite Forall_cons_iff. tauto. }
  tauto.
Qed.
Lemma short_key : forall m n, short m n -> short_str m (jkey n).
Proof. intros m [ty k v kids] H. apply short_kids in H. apply H. Qed.

(** ** the buffers suffice *)
Definition sumz {A} (f : A -> Z) (l : list A) : Z := fold_right (fun x a => f x + a) 0 l.
Lemma fold_sum : forall A (f : A -> Z) l x, fold_left (fun a t => a + f t) l x = x + sumz f l.
Proof.
  intros A f l. unfold sumz. induction l as [|a l IH]; intros x; cbn [fold_left fold_right]; [lia|]. rewrite IH. lia.
Qed.
Lemma fold_left_ext' : forall A B (f g : A -> B -> A) l x, (forall a b, f a b = g a b) -> fold_left f l x = fold_left g l x.
Proof. intros A B f g l. induction l as [|b l IH]; intros x E; [reflexivity|]. cbn [fold_left]. rewrite E. apply IH. exact E. Qed.

Lemma fit_over : forall cap t, Z.of_nat (length t) + 1 <= cap -> fit cap t = WText t.
Proof. intros cap t H. unfold fit. replace (Z.of_nat (length t) + 1 <=? cap) with true by lia. reflexivity. Qed.

Lemma esc_length : forall s, Z.of_nat (length (flat_map esc_byte s)) = sumz esc_len s.
Proof.
  induction s as [|c s IH]; [reflexivity|]. cbn [flat_map]. rewrite app_length, Nat2Z.inj_add, IH.
  unfold sumz. cbn [fold_right]. f_equal. unfold esc_byte, esc_len.
  destruct (Z.leb_spec 32 c); cbn [andb].
  - destruct (Z.eqb_spec c 34) as [->|N1]; [reflexivity|]. destruct (Z.eqb_spec c 92) as [->|N2]; [reflexivity|].
    cbn [negb andb length orb]. repeat match goal with |- context[(c =? ?k)] => destruct (Z.eqb_spec c k); [lia|] end.
    cbn [orb]. replace (c <? 32) with false by lia. reflexivity.
  - cbn [length]. repeat match goal with |- context[(c =? ?k)] => destruct (Z.eqb_spec c k); [cbn [orb length]; subst; reflexivity|] end.
    cbn [orb length]. replace (c <? 32) with true by lia. reflexivity.
Qed.
Lemma esc_bound : forall s, 0 <= sumz esc_len s <= 6 * zlen s.
Proof.
  unfold zlen. induction s as [|c s IH]; unfold sumz in *; cbn [fold_right length]; [lia|].
  assert (0 <= esc_len c <= 6) by (unfold esc_len; destruct (_ || _); [lia|]; destruct (c <? 32); lia). lia.
Qed.
Lemma to_string_ok : forall s, short_str (2 ^ 28) (Some s) -> to_string (Some s) = WText (34 :: flat_map esc_byte s ++ [34]).
Proof.
  intros s H. cbn [short_str] in H. change (2 ^ 28) with 268435456 in H. unfold to_string.
  pose proof (esc_bound s) as B. unfold zlen in B. rewrite fold_sum. rewrite to_s_small by (change (2 ^ (32 - 1)) with 2147483648; lia).
  apply fit_over. cbn [length]. rewrite app_length. cbn [length]. pose proof (esc_length s). lia.
Qed.
Lemma to_string_some : forall s, short_str (2 ^ 28) s -> exists t, to_string s = WText t.
Proof. intros [s|] H; [rewrite to_string_ok by exact H|]; eexists; reflexivity. Qed.

Lemma tabs_len : forall n, 0 <= n -> Z.of_nat (length (tabs n)) = n.
Proof. intros n H. unfold tabs. rewrite repeat_length. lia. Qed.
Lemma opt_len : forall A b (l : list A), length (opt b l) = if b then length l else O.
Proof. intros A [] l; reflexivity. Qed.

Lemma arr_body_len : forall fmt nl D es, 0 <= D -> (nl = true -> fmt = true) ->
  zlen (arr_body fmt nl D es) <= sumz (fun t => zlen t + 2 + (if fmt then 2 + D else 0)) es.
Proof.
  intros fmt nl D es HD HN. unfold zlen, sumz. induction es as [|e es IH]; cbn [arr_body fold_right length]; [lia|].
  rewrite !app_length, !opt_len. pose proof (tabs_len D HD).
  assert (C : (length (match es with [] => [] | _ => 44%Z :: opt fmt [32%Z] end) <= 1 + if fmt then 1 else 0)%nat).
  { destruct es; cbn [length]; [lia|]. rewrite opt_len. cbn [length]. lia. }
  destruct nl; [rewrite (HN eq_refl) in *|destruct fmt]; cbn [length] in *; lia.
Qed.
Lemma obj_body_len : forall fmt D es, 0 <= D ->
  zlen (obj_body fmt D es) <=
  sumz (fun e => (zlen (fst e) + 1) + match snd e with Some t => zlen t + 1 | None => 0 end + (if fmt then 2 + D else 0)) es.
Proof.
  intros fmt D es HD. unfold zlen, sumz. induction es as [|[k e] es IH]; cbn [obj_body fold_right length fst snd]; [lia|].
  rewrite !app_length, !opt_len. pose proof (tabs_len D HD).
  assert (C : (length (match es with [] => [] | _ => [44%Z] end) <= 1)%nat) by (destruct es; cbn [length]; lia).
  destruct e as [t|]; [cbn [length]; rewrite app_length, opt_len|]; destruct fmt; cbn [length] in *; lia.
Qed.

Lemma arr_fit : forall fmt depth ty1 es l, 0 <= depth -> es <> [] -> arr_entries es = Some (Some l) ->
  to_array fmt depth ty1 es =
  WText (91 :: opt (fmt && (ty1 =? 6)) [10] ++ arr_body fmt (fmt && (ty1 =? 6)) (depth + 1) l ++
         opt (fmt && (ty1 =? 6)) (tabs depth) ++ [93]).
Proof.
  intros fmt depth ty1 es l HD N E. unfold to_array. destruct es as [|e es]; [easy|]. rewrite E.
  replace (depth + 1 - 1) with depth by lia. apply fit_over. rewrite fold_sum.
  pose proof (arr_body_len fmt (fmt && (ty1 =? 6)) (depth + 1) l ltac:(lia) ltac:(intros X; apply andb_true_iff in X; tauto)) as B.
  unfold zlen in *. cbn [length]. rewrite !app_length, !opt_len. cbn [length]. pose proof (tabs_len depth HD).
  destruct fmt; cbn [andb] in *; [destruct (ty1 =? 6)|]; lia.
Qed.
Lemma obj_fit : forall fmt depth es l, 0 <= depth -> es <> [] -> obj_entries es = Some l ->
  to_object fmt depth es =
  WText (123 :: opt fmt [10] ++ obj_body fmt (depth + 1) l ++ opt fmt (tabs depth) ++ [125]).
Proof.
  intros fmt depth es l HD N E. unfold to_object. destruct es as [|e es]; [easy|]. rewrite E.
  replace (depth + 1 - 1) with depth by lia. apply fit_over.
  rewrite (fold_left_ext' _ _ _ (fun a e => a + ((zlen (fst e) + 1) + match snd e with Some t => zlen t + 1 | None => 0 end +
             (if fmt then 2 + (depth + 1) else 0)))) by (intros; lia).
  rewrite fold_sum. pose proof (obj_body_len fmt (depth + 1) l ltac:(lia)) as B.
  unfold zlen in *. cbn [length]. rewrite !app_length, !opt_len. cbn [length]. pose proof (tabs_len depth HD).
  destruct fmt; cbn [length]; lia.
Qed.

Theorem never_over : forall n fmt depth, 0 <= depth -> short (2 ^ 28) n -> to_value fmt depth n <> WOver.
Proof.
  induction n as [ty k v kids IH] using jnode_ind2. intros fmt depth HD SH. apply short_kids in SH as (Sk & Sv & SK).
  cbn [to_value]. destruct ((ty =? 2) || (ty =? 3) || (ty =? 4)); [destruct v; discriminate|].
  destruct (ty =? 5). { destruct (to_string_some v Sv) as [t ->]. discriminate. }
  destruct (ty =? 6).
  { destruct kids as [|c kids]; [unfold to_array; cbn [map]; discriminate|].
    set (ks := c :: kids) in *.
    assert (A : exists r, arr_entries (map (to_value fmt (depth + 1)) ks) = Some r).
    { clearbody ks. induction ks as [|x ks IHk]; [eexists; reflexivity|].
      inversion IH; subst. inversion SK; subst. cbn [map arr_entries].
      specialize (IHk ltac:(assumption) ltac:(assumption)) as [r E]. rewrite E.
      match goal with X : forall fmt depth, _ -> short _ x -> _ |- _ => specialize (X fmt (depth + 1) ltac:(lia) ltac:(assumption)) end.
      destruct (to_value fmt (depth + 1) x); [easy|eexists; reflexivity|].
      destruct r; eexists; reflexivity. }
    destruct A as [[l|] A].
    - rewrite (arr_fit fmt depth _ _ l HD); [discriminate|discriminate|exact A].
    - unfold to_array. destruct (map (to_value fmt (depth + 1)) ks); [discriminate|]. rewrite A. discriminate. }
  destruct ((ty =? 1) || (ty =? 7)); [|discriminate].
  destruct kids as [|c kids]; [unfold to_object; cbn [map]; discriminate|].
  set (ks := c :: kids) in *.
  assert (A : exists l, obj_entries (map (fun c => (to_string (jkey c), to_value fmt (depth + 1) c)) ks) = Some l).
  { clearbody ks. induction ks as [|x ks IHk]; [eexists; reflexivity|].
    inversion IH; subst. inversion SK; subst. cbn [map obj_entries].
    specialize (IHk ltac:(assumption) ltac:(assumption)) as [r E]. rewrite E.
    match goal with X : forall fmt depth, _ -> short _ x -> _ |- _ => specialize (X fmt (depth + 1) ltac:(lia) ltac:(assumption)) end.
    destruct (to_string_some (jkey x) (short_key _ _ ltac:(eassumption))) as [t ->].
    destruct (to_value fmt (depth + 1) x); [easy|eexists; reflexivity|eexists; reflexivity]. }
  destruct A as [l A]. rewrite (obj_fit fmt depth _ l HD); [discriminate|discriminate|exact A].
Qed.

(** ** what is written is a text of the grammar *)
Lemma esc_lex : forall s, Forall (fun c => plain c \/ c = 34) s -> strlex false s (flat_map esc_byte s).
Proof.
  induction 1 as [|c s C H IH]; [constructor|]. cbn [flat_map]. unfold esc_byte at 1. destruct C as [P| ->].
  - pose proof P as (P1 & P2 & P3). replace (32 <=? c) with true by lia. replace (c =? 34) with false by lia.
    replace (c =? 92) with false by lia. cbn [andb negb app]. apply SL_plain; assumption.
  - cbn. apply SL_quote. exact IH.
Qed.
Lemma esc_plain : forall s, Forall plain s -> flat_map esc_byte s = s.
Proof.
  induction 1 as [|c s P H IH]; [reflexivity|]. cbn [flat_map]. rewrite IH. unfold esc_byte.
  destruct P as (P1 & P2 & P3). replace (32 <=? c) with true by lia. replace (c =? 34) with false by lia.
  replace (c =? 92) with false by lia. reflexivity.
Qed.
Lemma plain_keylex : forall k, k <> [] -> Forall plain k -> keylex false k k.
Proof.
  intros k N F. split.
  - rewrite <- (esc_plain k F) at 2. apply esc_lex. eapply Forall_impl; [|exact F]. tauto.
  - intros _. split; [exact N|]. intros X. rewrite Forall_forall in F. apply F in X. destruct X as (_ & _ & X). congruence.
Qed.

Lemma ws_app : forall a b, ws a -> ws b -> ws (a ++ b).
Proof. intros a b A B. apply Forall_app. split; assumption. Qed.
Lemma ws_opt : forall b l, ws l -> ws (opt b l).
Proof. intros [] l H; [exact H|constructor]. Qed.
Lemma ws_tabs : forall n, ws (tabs n).
Proof. intros n. unfold tabs. apply Forall_forall. intros c X. apply repeat_spec in X. subst. unfold blank. tauto. Qed.
Lemma ws_1 : forall c, blank c -> ws [c].
Proof. intros c H. constructor; [exact H|constructor]. Qed.
Ltac wsolve := repeat (first [apply ws_app | apply ws_opt | apply ws_tabs | apply ws_1; unfold blank; tauto
                             | assumption | apply Forall_nil]).

Definition written (v : jv) (t : list Z) : Prop :=
  match v with JBool b => t = word b | _ => jtext false v t end.
Lemma written_item : forall v t, written v t -> item false false v t.
Proof.
  intros v t H. destruct v; try (rewrite <- (app_nil_r t); apply I_val; [exact H|constructor]).
  cbn [written] in H. subst. apply I_comma.
Qed.
Lemma written_last : forall v t w, written v t -> ~ is_bool v -> ws w -> item false true v (t ++ w).
Proof. intros v t w H N W. destruct v; try (apply I_val; [exact H|exact W]). elim N. exact Logic.I. Qed.

Lemma arr_elems : forall fmt nl D l ts, Forall2 written l ts -> l <> [] -> ~ is_bool (last l JNull) ->
  forall w0 w1, ws w0 -> ws w1 -> elems false l (w0 ++ arr_body fmt nl D ts ++ w1).
Proof.
  intros fmt nl D l ts F. induction F as [|v t l ts W F IH]; intros N LB w0 w1 W0 W1; [easy|].
  destruct F as [|v2 t2 l ts W2 F].
  - cbn [arr_body last] in *. rewrite app_nil_l, app_nil_r.
    replace (w0 ++ (opt nl (tabs D) ++ t ++ opt nl [10]) ++ w1) with ((w0 ++ opt nl (tabs D)) ++ t ++ (opt nl [10] ++ w1))
      by (rewrite !app_assoc; reflexivity).
    apply E_last; [wsolve|]. apply written_last; [exact W|exact LB|wsolve].
  - set (ls := v2 :: l) in *. set (tss := t2 :: ts) in *.
    replace (w0 ++ arr_body fmt nl D (t :: tss) ++ w1) with
      ((w0 ++ opt nl (tabs D)) ++ t ++ 44 :: ((opt fmt [32] ++ opt nl [10]) ++ arr_body fmt nl D tss ++ w1)).
    + apply E_cons; [wsolve|apply written_item; exact W|]. apply IH; [discriminate| |wsolve|exact W1].
      unfold ls in *. exact LB.
    + cbn [arr_body]. unfold tss. cbn [app]. rewrite <- !app_assoc. cbn [app]. rewrite <- !app_assoc. reflexivity.
Qed.

Lemma obj_members : forall fmt D l es, Forall2 (fun kv e => fst kv <> [] /\ Forall plain (fst kv) /\
     fst e = 34 :: fst kv ++ [34] /\ exists t, snd e = Some t /\ written (snd kv) t) l es ->
  l <> [] -> ~ is_bool (snd (last l ([], JNull))) ->
  forall w0 w1, ws w0 -> ws w1 -> members false l (w0 ++ obj_body fmt D es ++ w1).
Proof.
  intros fmt D l es F. induction F as [|[k v] [kt e] l es W F IH]; intros N LB w0 w1 W0 W1; [easy|].
  cbn [fst snd] in W. destruct W as (K1 & K2 & -> & t & -> & W).
  destruct F as [|[k2 v2] [kt2 e2] l es W2 F].
  - cbn [obj_body last snd] in *.
    replace (w0 ++ (opt fmt (tabs D) ++ (34 :: k ++ [34]) ++ (58 :: opt fmt [9] ++ t) ++ [] ++ opt fmt [10] ++ []) ++ w1) with
      ((w0 ++ opt fmt (tabs D)) ++ 34 :: k ++ 34 :: [] ++ 58 :: opt fmt [9] ++ (t ++ (opt fmt [10] ++ w1))).
    2:{ rewrite app_nil_r. cbn [app]. rewrite <- !app_assoc. cbn [app]. rewrite <- !app_assoc. cbn [app]. rewrite <- !app_assoc. reflexivity. }
    apply M_last; [wsolve|apply plain_keylex; assumption|wsolve|wsolve|]. apply written_last; [exact W|exact LB|wsolve].
  - set (ls := (k2, v2) :: l) in *. set (tss := (kt2, e2) :: es) in *.
    replace (w0 ++ obj_body fmt D ((34 :: k ++ [34], Some t) :: tss) ++ w1) with
      ((w0 ++ opt fmt (tabs D)) ++ 34 :: k ++ 34 :: [] ++ 58 :: opt fmt [9] ++ t ++ 44 :: (opt fmt [10] ++ obj_body fmt D tss ++ w1)).
    + apply M_cons; [wsolve|apply plain_keylex; assumption|wsolve|wsolve|apply written_item; exact W|].
      apply IH; [discriminate| |wsolve|exact W1]. unfold ls in *. exact LB.
    + cbn [obj_body]. unfold tss. cbn [app]. rewrite <- !app_assoc. cbn [app]. rewrite <- !app_assoc. cbn [app].
      rewrite <- !app_assoc. cbn [app]. rewrite <- ?app_assoc. reflexivity.
Qed.

Lemma readable_arr : forall l, readable (JArr l) <-> ~ is_bool (last l JNull) /\ Forall readable l.
Proof.
  intros l. cbn [readable].
  assert (G : (fix go l := match l with [] => True | v :: l' => readable v /\ go l' end) l <-> Forall readable l).
  { induction l as [|c l IH]; [split; [constructor|easy]|]. rewrite Forall_cons_iff. tauto. }
  tauto.
Qed.
Lemma readable_obj : forall l, readable (JObj l) <-> ~ is_bool (snd (last l ([], JNull))) /\
  Forall (fun e => fst e <> [] /\ Forall plain (fst e) /\ readable (snd e)) l.
Proof.
  intros l. cbn [readable].
  assert (G : (fix go (l : list (list Z * jv)) :=
         match l with [] => True | (k, v) :: l' => (k <> [] /\ Forall plain k /\ readable v) /\ go l' end) l <->
     Forall (fun e => fst e <> [] /\ Forall plain (fst e) /\ readable (snd e)) l).
  { induction l as [|[k v] l IH]; [split; [constructor|easy]|]. rewrite Forall_cons_iff. cbn [fst snd]. tauto. }
  tauto.
Qed.

Theorem json_writes : forall v k n fmt depth, 0 <= depth -> shaped v k n -> readable v -> short (2 ^ 28) n ->
  exists t, to_value fmt depth n = WText t /\ written v t.
Proof.
  intros v. induction v as [|b|s|s|l IH|l IH] using jv_ind2; intros k [ty key val kids] fmt depth HD SH RD SM.
  - destruct SH as [_ []].
  - cbn [shaped jkey jty jval jkids] in SH. destruct SH as (_ & -> & -> & _). eexists. split; reflexivity.
  - cbn [shaped jkey jty jval jkids] in SH. destruct SH as (_ & T & -> & _). exists s. split; [|apply T_num; exact RD].
    destruct T as [[-> _]|[-> _]]; reflexivity.
  - cbn [shaped jkey jty jval jkids] in SH. destruct SH as (_ & -> & -> & _). apply short_kids in SM as (_ & SM & _).
    cbn [to_value]. change ((5 =? 2) || (5 =? 3) || (5 =? 4)) with false. change (5 =? 5) with true. cbv iota.
    eexists. split; [apply to_string_ok; exact SM|]. apply T_str. apply esc_lex. exact RD.
  - apply shaped_arr in SH. cbn [shaped jkey jty jval jkids] in SH. destruct SH as (_ & -> & -> & SH).
    apply short_kids in SM as (_ & _ & SM). apply readable_arr in RD as [RB RD].
    cbn [to_value]. change ((6 =? 2) || (6 =? 3) || (6 =? 4)) with false. change (6 =? 5) with false. change (6 =? 6) with true. cbv iota.
    assert (A : exists ts, arr_entries (map (to_value fmt (depth + 1)) kids) = Some (Some ts) /\ Forall2 written l ts).
    { clear RB. remember 0 as i eqn:Ei in SH. clear Ei. revert i kids IH SH SM RD.
      induction l as [|v l IHl]; intros i kids IH SH SM RD; destruct kids as [|c kids]; cbn [arr_shape] in SH; try easy.
      - exists []. split; [reflexivity|constructor].
      - destruct SH as ((s & _ & S1) & S2). inversion IH as [|? ? I1 I2]; subst. inversion SM as [|? ? M1 M2]; subst.
        inversion RD as [|? ? R1 R2]; subst.
        destruct (I1 (Some s) c fmt (depth + 1) ltac:(lia) S1 R1 M1) as (t & E1 & E2).
        destruct (IHl (i + 1) kids I2 S2 M2 R2) as (ts & E3 & E4).
        exists (t :: ts). cbn [map arr_entries]. rewrite E1, E3. split; [reflexivity|constructor; assumption]. }
    destruct A as (ts & A1 & A2). destruct l as [|v l].
    + destruct kids; [|destruct SH]. exists [91; 93]. split; [reflexivity|]. apply (T_arr0 false []). constructor.
    + destruct kids as [|c kids]; [destruct SH|].
      eexists. split; [apply (arr_fit fmt depth _ _ ts HD); [discriminate|exact A1]|].
      cbn [written]. rewrite !app_assoc. apply T_arr. rewrite <- app_assoc.
      apply arr_elems; [exact A2|discriminate|exact RB|wsolve|wsolve].
  - apply shaped_obj in SH. cbn [shaped jkey jty jval jkids] in SH. destruct SH as (_ & -> & -> & SH).
    apply short_kids in SM as (_ & _ & SM). apply readable_obj in RD as [RB RD].
    cbn [to_value]. change ((7 =? 2) || (7 =? 3) || (7 =? 4)) with false. change (7 =? 5) with false. change (7 =? 6) with false.
    change ((7 =? 1) || (7 =? 7)) with true. cbv iota.
    assert (A : exists es, obj_entries (map (fun c => (to_string (jkey c), to_value fmt (depth + 1) c)) kids) = Some es /\
      Forall2 (fun kv e => fst kv <> [] /\ Forall plain (fst kv) /\
        fst e = 34 :: fst kv ++ [34] /\ exists t, snd e = Some t /\ written (snd kv) t) l es).
    { clear RB. revert kids IH SH SM RD.
      induction l as [|[kk v] l IHl]; intros kids IH SH SM RD; destruct kids as [|c kids]; cbn [obj_shape] in SH; try easy.
      - exists []. split; [reflexivity|constructor].
      - destruct SH as (S1 & S2). inversion IH as [|? ? I1 I2]; subst. inversion SM as [|? ? M1 M2]; subst.
        inversion RD as [|? ? R1 R2]; subst. cbn [fst snd] in *. destruct R1 as (K1 & K2 & R1).
        destruct (I1 (Some kk) c fmt (depth + 1) ltac:(lia) S1 R1 M1) as (t & E1 & E2).
        destruct (IHl kids I2 S2 M2 R2) as (ts & E3 & E4).
        assert (EK : jkey c = Some kk) by (destruct v; apply S1).
        pose proof (short_key _ _ M1) as SK. rewrite EK in SK.
        exists ((34 :: kk ++ [34], Some t) :: ts). cbn [map obj_entries]. rewrite EK, (to_string_ok kk SK), E1, E3.
        rewrite esc_plain by exact K2. split; [reflexivity|]. constructor; [|exact E4]. cbn [fst snd]. repeat split; try assumption.
        exists t. split; [reflexivity|exact E2]. }
    destruct A as (ts & A1 & A2). destruct l as [|v l].
    + destruct kids; [|destruct SH]. exists [123; 125]. split; [reflexivity|]. apply (T_obj0 false []). constructor.
    + destruct kids as [|c kids]; [destruct v; destruct SH|].
      eexists. split; [apply (obj_fit fmt depth _ ts HD); [discriminate|exact A1]|].
      cbn [written]. rewrite !app_assoc. apply T_obj. rewrite <- app_assoc.
      apply obj_members; [exact A2|discriminate|exact RB|wsolve|wsolve].
Qed.

(** ** a value has one tree *)
Definition dval (s : list Z) : Z := fold_left (fun a c => a * 10 + (c - 48)) s 0.
Lemma dval_snoc : forall s c, dval (s ++ [c]) = dval s * 10 + (c - 48).
Proof. intros s c. unfold dval. rewrite fold_left_app. reflexivity. Qed.
Lemma dval_nonneg : forall s, Forall digit s -> 0 <= dval s.
Proof.
  intros s. induction s as [|c s IH] using rev_ind; intros F; [cbn; lia|]. apply Forall_app in F as [F1 F2].
  inversion F2; subst. rewrite dval_snoc. specialize (IH F1). unfold digit in *. lia.
Qed.
Lemma dval_pos : forall s, Forall digit s -> s <> [] -> hd 0 s <> 48 -> 0 < dval s.
Proof.
  intros s. induction s as [|c s IH] using rev_ind; intros F N H; [easy|]. apply Forall_app in F as [F1 F2].
  inversion F2 as [|? ? D _]; subst. rewrite dval_snoc. unfold digit in D. destruct s as [|x s].
  - cbn [app hd] in H. cbn. lia.
  - specialize (IH F1 ltac:(discriminate) H). lia.
Qed.
Lemma dec_unique : forall s t, digits s -> digits t -> (s = [48] \/ hd 0 s <> 48) -> (t = [48] \/ hd 0 t <> 48) ->
  dval s = dval t -> s = t.
Proof.
  intros s. induction s as [|c s IH] using rev_ind; intros t [N1 F1] [N2 F2] H1 H2 E; [easy|].
  destruct t as [|x t] using rev_ind; [easy|]. clear IHt.
  apply Forall_app in F1 as [F1 D1]. apply Forall_app in F2 as [F2 D2]. inversion D1 as [|? ? D1' _]; inversion D2 as [|? ? D2' _]; subst.
  rewrite !dval_snoc in E. unfold digit in D1', D2'.
  assert (C : c = x /\ dval s = dval t) by lia. destruct C as [-> E'].
  destruct s as [|a s]; destruct t as [|b t].
  - reflexivity.
  - exfalso. destruct H2 as [H2|H2]; [injection H2 as H2; destruct t; discriminate|]. cbn [app hd] in H2.
    pose proof (dval_pos (b :: t) F2 ltac:(discriminate) H2). change (dval []) with 0 in E'. lia.
  - exfalso. destruct H1 as [H1|H1]; [injection H1 as H1; destruct s; discriminate|]. cbn [app hd] in H1.
    pose proof (dval_pos (a :: s) F1 ltac:(discriminate) H1). change (dval []) with 0 in E'. lia.
  - f_equal. apply IH; [split; [discriminate|exact F1]|split; [discriminate|exact F2]| | |exact E'].
    + right. destruct H1 as [H1|H1]; [injection H1 as -> H1; destruct s; discriminate|exact H1].
    + right. destruct H2 as [H2|H2]; [injection H2 as -> H2; destruct t; discriminate|exact H2].
Qed.
Lemma is_dec_unique : forall i s t, is_dec i s -> is_dec i t -> s = t.
Proof.
  intros i s t (A1 & A2 & A3) (B1 & B2 & B3). apply dec_unique; try assumption. unfold dval. congruence.
Qed.

Theorem shaped_unique : forall v k n m, shaped v k n -> shaped v k m -> n = m.
Proof.
  intros v. induction v as [|b|s|s|l IH|l IH] using jv_ind2; intros k [t1 k1 v1 l1] [t2 k2 v2 l2] A B.
  - destruct A as [_ []].
  - cbn [shaped jkey jty jval jkids] in A, B. destruct A as (-> & -> & -> & ->), B as (-> & -> & -> & ->). reflexivity.
  - cbn [shaped jkey jty jval jkids] in A, B. destruct A as (-> & A & -> & ->), B as (-> & B & -> & ->).
    destruct A as [[-> A]|[-> A]], B as [[-> B]|[-> B]]; tauto.
  - cbn [shaped jkey jty jval jkids] in A, B. destruct A as (-> & -> & -> & ->), B as (-> & -> & -> & ->). reflexivity.
  - apply shaped_arr in A. apply shaped_arr in B. cbn in A, B. destruct A as (-> & -> & -> & A), B as (-> & -> & -> & B). f_equal.
    remember 0 as i eqn:Ei in A, B. clear Ei. revert i l1 l2 A B. induction IH as [|v l Hv Hl IHl]; intros i l1 l2 A B; destruct l1, l2; cbn [arr_shape] in *; try easy.
    destruct A as ((s1 & D1 & A1) & A2), B as ((s2 & D2 & B1) & B2).
    rewrite (is_dec_unique i s1 s2 D1 D2) in A1. f_equal; [exact (Hv _ _ _ A1 B1)|exact (IHl _ _ _ A2 B2)].
  - apply shaped_obj in A. apply shaped_obj in B. cbn in A, B. destruct A as (-> & -> & -> & A), B as (-> & -> & -> & B). f_equal.
    revert l1 l2 A B. induction IH as [|[kk v] l Hv Hl IHl]; intros l1 l2 A B; destruct l1, l2; cbn [obj_shape] in *; try easy.
    destruct A as (A1 & A2), B as (B1 & B2). f_equal; [exact (Hv _ _ _ A1 B1)|exact (IHl _ _ A2 B2)].
Qed.
