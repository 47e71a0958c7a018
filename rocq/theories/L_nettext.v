(** Lemmas for the text form of messages (C55). *)
From Coq Require Import ZArith List Bool Lia String.
From Verif Require Import Base S_server M_memory L_memory S_netmsg M_netmsg L_netmsg P_netmsg S_json M_json L_json L_jsonread L_jsonwrite P_json
  S_nettext M_nettext.
From Coq Require Import ZifyBool ZifyNat.
Import ListNotations.
Open Scope list_scope.
Open Scope Z_scope.
Arguments Z.eqb : simpl never.

(** ** numbers *)
Lemma lld_dec : forall u, 0 <= u < 2 ^ 63 -> is_dec u (rev (lld_loop 20 u)).
Proof.
  intros u H. change (2 ^ 63) with 9223372036854775808 in H. apply dec_rev; [|lia].
  change (10 ^ Z.of_nat 20) with 100000000000000000000. lia.
Qed.

Lemma dec_num : forall u s, is_dec u s -> numlex false s.
Proof.
  intros u s (D & _ & L). split.
  - exists [], s, [], []. split; [rewrite app_nil_r; reflexivity|]. split; [left; reflexivity|].
    split; [destruct L as [L|L]; [left; exact L|right; split; assumption]|]. split; left; reflexivity.
  - intros _. destruct D as [_ D]. rewrite Forall_forall in D.
    split; intros I; apply D in I; unfold digit in I; lia.
Qed.
Lemma neg_num : forall s, numlex false s -> hd 0 s <> 45 -> numlex false (45 :: s).
Proof.
  intros s ((sg & i & f & e & -> & Sg & I & F & E) & N) H. split.
  - exists [45], i, f, e. destruct Sg as [->| ->]; [|cbn in H; lia].
    split; [reflexivity|]. split; [right; reflexivity|]. split; [exact I|]. split; assumption.
  - intros _. destruct (N eq_refl) as [N1 N2]. split; intros [K|K]; try discriminate; contradiction.
Qed.

Lemma dec_hd : forall u s, is_dec u s -> hd 0 s <> 45.
Proof.
  intros u s ((N & D) & _). destruct s as [|c s]; [easy|]. inversion D; subst. unfold digit in *. cbn [hd]. lia.
Qed.
Lemma lldtoa_num : forall v, - 2 ^ 63 < v < 2 ^ 63 -> numlex false (lldtoa v).
Proof.
  intros v H. unfold lldtoa. destruct (Z.ltb_spec v 0).
  - pose proof (lld_dec (- v) ltac:(lia)) as D. apply neg_num; [exact (dec_num _ _ D)|exact (dec_hd _ _ D)].
  - pose proof (lld_dec v ltac:(lia)) as D. exact (dec_num _ _ D).
Qed.

Lemma atoll_lldtoa64 : forall v, - 2 ^ 63 < v < 2 ^ 63 -> atoll (lldtoa v) = v.
Proof.
  intros v H. change (2 ^ 63) with 9223372036854775808 in H. unfold lldtoa.
  assert (G : forall u, 0 <= u < 9223372036854775808 -> atoll_digits (rev (lld_loop 20 u)) 0 = u).
  { intros u Hu. apply lld_val. change (10 ^ Z.of_nat 20) with 100000000000000000000. lia. }
  assert (C : forall u, - 9223372036854775808 <= u < 9223372036854775808 -> clamp64 u = u).
  { intros u Hu. unfold clamp64. change (2 ^ 63) with 9223372036854775808. lia. }
  destruct (Z.ltb_spec v 0).
  - unfold atoll. cbn [skip_space]. change (is_space 45) with false. cbv iota. rewrite G by lia. rewrite C by lia. lia.
  - pose proof (lld_dec v ltac:(change (2 ^ 63) with 9223372036854775808; lia)) as ((N & D) & _).
    pose proof (G v ltac:(lia)) as Gv. destruct (rev (lld_loop 20 v)) as [|c s]; [easy|].
    pose proof (Forall_inv D) as Dc. unfold digit in Dc. unfold atoll. cbn [skip_space].
    replace (is_space c) with false by (unfold is_space; lia).
    assert (E : (match c :: s with 45 :: l' => clamp64 (- atoll_digits l' 0) | 43 :: l' => clamp64 (atoll_digits l' 0)
      | l' => clamp64 (atoll_digits l' 0) end) = clamp64 (atoll_digits (c :: s) 0)).
    { assert (K : c = 48 \/ c = 49 \/ c = 50 \/ c = 51 \/ c = 52 \/ c = 53 \/ c = 54 \/ c = 55 \/ c = 56 \/ c = 57) by lia.
      clear - K. decompose [or] K; subst c; reflexivity. }
    rewrite E, Gv. apply C. lia.
Qed.

Lemma lldtoa_len64 : forall v, (List.length (lldtoa v) <= 21)%nat.
Proof.
  assert (G : forall f v, (List.length (lld_loop f v) <= f)%nat).
  { induction f as [|f IH]; intros v; [cbn; lia|]. cbn [lld_loop]. destruct (0 <? v / 10); cbn [List.length]; [specialize (IH (v / 10)); lia|lia]. }
  intros v. unfold lldtoa. destruct (v <? 0); cbn [List.length]; rewrite rev_length; [specialize (G 20%nat (- v))|specialize (G 20%nat v)]; lia.
Qed.

(** ** the object written *)
Definition ok_kid (k : list Z) (ty : Z) (o : option (list Z)) : list jnode :=
  match o with Some v => [JN ty (Some k) (Some v) []] | None => [] end.
Definition all_kids (i : netinfo) : list jnode :=
  ok_kid K_sno 2 (option_map lldtoa (i_sno i)) ++ ok_kid K_service 5 (i_service i) ++ ok_kid K_cmd 5 (i_cmd i) ++
  ok_kid K_subject 5 (i_subject i) ++ ok_kid K_tag 2 (option_map lldtoa (i_tag i)) ++ ok_kid K_info 5 (i_info i).

Lemma field_cstr : forall s, text_field (Some s) -> cstr s = s.
Proof.
  intros s [H _]. rewrite <- (app_nil_r s) at 1. rewrite cstr_app; [apply app_nil_r|].
  eapply Forall_impl; [|exact H]. cbv beta. unfold plain. intros c C. lia.
Qed.
Lemma field_dup : forall o, text_field o -> dup o = o.
Proof. intros [s|] H; [|reflexivity]. cbn [dup option_map]. rewrite field_cstr by exact H. reflexivity. Qed.

Lemma kids_are : forall i more, fits_text i -> text_kids (fill i more) = all_kids i.
Proof.
  intros i more (_ & _ & F1 & F2 & F3 & F4 & T & V).
  unfold text_kids, fill. cbn [sw_sno sw_service sw_cmd sw_subject sw_tag sw_info m_sno m_service m_cmd m_subject m_tag m_info m_argvs].
  rewrite (field_dup _ F1), (field_dup _ F2), (field_dup _ F3), (field_dup _ F4).
  assert (L : list_tag (match i_tag i with Some v => v | None => 0 end) = false).
  { destruct (i_tag i) as [t|]; [|reflexivity]. destruct T as (_ & T1 & T2). unfold list_tag. lia. }
  rewrite L. unfold all_kids.
  destruct (i_sno i), (i_service i), (i_cmd i), (i_subject i), (i_tag i), (i_info i); reflexivity.
Qed.

Lemma find_app : forall a b k, find_key (a ++ b) k = match find_key a k with Some n => Some n | None => find_key b k end.
Proof.
  induction a as [|c a IH]; intros b k; [reflexivity|]. cbn [app find_key].
  destruct (jkey c) as [k'|]; [destruct (case_eq k' k); [reflexivity|]|]; apply IH.
Qed.
Lemma find_ok : forall k ty o key, find_key (ok_kid k ty o) key =
  if case_eq k key then match o with Some v => Some (JN ty (Some k) (Some v) []) | None => None end else None.
Proof. intros k ty [v|] key; cbn; destruct (case_eq k key); reflexivity. Qed.

Ltac find_tac := intros; unfold all_kids; rewrite !find_app, !find_ok;
  repeat match goal with |- context [case_eq ?a ?b] => let r := eval vm_compute in (case_eq a b) in change (case_eq a b) with r end;
  cbv iota; try reflexivity.
Lemma find_sno : forall i, find_key (all_kids i) K_sno = match i_sno i with Some v => Some (JN 2 (Some K_sno) (Some (lldtoa v)) []) | None => None end.
Proof. find_tac. destruct (i_sno i); reflexivity. Qed.
Lemma find_tag : forall i, find_key (all_kids i) K_tag = match i_tag i with Some v => Some (JN 2 (Some K_tag) (Some (lldtoa v)) []) | None => None end.
Proof. find_tac. destruct (i_tag i); reflexivity. Qed.
Lemma find_service : forall i, find_key (all_kids i) K_service = match i_service i with Some v => Some (JN 5 (Some K_service) (Some v) []) | None => None end.
Proof. find_tac. destruct (i_service i); reflexivity. Qed.
Lemma find_cmd : forall i, find_key (all_kids i) K_cmd = match i_cmd i with Some v => Some (JN 5 (Some K_cmd) (Some v) []) | None => None end.
Proof. find_tac. destruct (i_cmd i); reflexivity. Qed.
Lemma find_subject : forall i, find_key (all_kids i) K_subject = match i_subject i with Some v => Some (JN 5 (Some K_subject) (Some v) []) | None => None end.
Proof. find_tac. destruct (i_subject i); reflexivity. Qed.
Lemma find_info : forall i, find_key (all_kids i) K_info = match i_info i with Some v => Some (JN 5 (Some K_info) (Some v) []) | None => None end.
Proof. find_tac. Qed.
Lemma find_more : forall i, find_key (all_kids i) K_more = None.
Proof. find_tac. Qed.

Lemma node_sds_of : forall l key k o,
  find_key l key = match o with Some v => Some (JN 5 (Some k) (Some v) []) | None => None end -> node_sds l key = Some o.
Proof. intros l key k o H. unfold node_sds. rewrite H. destruct o; reflexivity. Qed.

(** reading the object back *)
Lemma to_netmsg_of : forall i, fits_text i ->
  exists m, to_netmsg (i_name i) (JN 7 None None (all_kids i)) = Some m /\ content m = i /\ sw_more m = false.
Proof.
  intros i (_ & S & _ & _ & _ & _ & T & V). unfold to_netmsg. cbn [jkids].
  rewrite (node_sds_of _ _ _ _ (find_service i)), (node_sds_of _ _ _ _ (find_cmd i)), (node_sds_of _ _ _ _ (find_subject i)),
    (node_sds_of _ _ _ _ (find_info i)).
  eexists. split; [reflexivity|]. unfold content, has_key, node_int.
  cbn [m_name m_sno m_service m_cmd m_subject m_tag m_info m_argvs sw_sno sw_tag sw_more].
  rewrite find_sno, find_tag, find_more. destruct i as [nm sn sv cm sb tg inf vs].
  cbn [i_name i_sno i_service i_cmd i_subject i_tag i_info i_values] in *. subst vs. split; [|reflexivity].
  f_equal.
  - destruct sn; [|reflexivity]. rewrite atoll_lldtoa64 by exact S. reflexivity.
  - destruct tg; [|reflexivity]. destruct T as [T _].
    rewrite atoll_lldtoa64 by (change (2 ^ 63) with 9223372036854775808; lia).
    rewrite to_s_small by (change (2 ^ (8 - 1)) with 128; lia). reflexivity.
Qed.

(** the value written *)
Definition ok_ent (k : list Z) (mk : list Z -> jv) (o : option (list Z)) : list (list Z * jv) :=
  match o with Some v => [(k, mk v)] | None => [] end.
Definition all_ents (i : netinfo) : list (list Z * jv) :=
  ok_ent K_sno JNum (option_map lldtoa (i_sno i)) ++ ok_ent K_service JStr (i_service i) ++ ok_ent K_cmd JStr (i_cmd i) ++
  ok_ent K_subject JStr (i_subject i) ++ ok_ent K_tag JNum (option_map lldtoa (i_tag i)) ++ ok_ent K_info JStr (i_info i).

Lemma shape_app : forall l1 k1 l2 k2, obj_shape l1 k1 -> obj_shape l2 k2 -> obj_shape (l1 ++ l2) (k1 ++ k2).
Proof.
  induction l1 as [|[k v] l1 IH]; intros [|c k1] l2 k2 H1 H2; cbn [obj_shape app] in *; try contradiction; [exact H2|].
  destruct H1 as [A B]. split; [exact A|]. apply IH; assumption.
Qed.
Lemma no_frac : forall v, - 2 ^ 63 < v < 2 ^ 63 -> ~ frac (lldtoa v).
Proof.
  intros v H (a & d & b & E & _).
  assert (F : Forall (fun c => c <> 46) (lldtoa v)).
  { unfold lldtoa. assert (G : forall u, 0 <= u -> Forall (fun c => c <> 46) (rev (lld_loop 20 u))).
    { intros u Hu. apply Forall_rev. eapply Forall_impl; [|apply lld_pos; exact Hu]. cbv beta. intros c C. lia. }
    destruct (Z.ltb_spec v 0); [constructor; [lia|]|]; apply G; lia. }
  rewrite E in F. apply Forall_app in F as [_ F]. inversion F; subst. lia.
Qed.
Lemma shape_num : forall k o, match o with Some v => - 2 ^ 63 < v < 2 ^ 63 | None => True end ->
  obj_shape (ok_ent k JNum (option_map lldtoa o)) (ok_kid k 2 (option_map lldtoa o)).
Proof.
  intros k [v|] H; [|exact Logic.I]. cbn [ok_ent ok_kid obj_shape option_map shaped jkey jty jval jkids]. split; [|exact Logic.I].
  split; [reflexivity|]. split; [right; split; [reflexivity|apply no_frac; exact H]|]. split; reflexivity.
Qed.
Lemma shape_str : forall k o, obj_shape (ok_ent k JStr o) (ok_kid k 5 o).
Proof.
  intros k [v|]; [|exact Logic.I]. cbn [ok_ent ok_kid obj_shape shaped jkey jty jval jkids]. tauto.
Qed.

Definition good_ent (e : list Z * jv) : Prop := (fst e <> [] /\ Forall plain (fst e) /\ readable (snd e)) /\ ~ is_bool (snd e).
Lemma good_num : forall k o, k <> [] -> Forall plain k -> match o with Some v => - 2 ^ 63 < v < 2 ^ 63 | None => True end ->
  Forall good_ent (ok_ent k JNum (option_map lldtoa o)).
Proof.
  intros k [v|] N P H; [|constructor]. cbn [ok_ent option_map]. constructor; [|constructor].
  split; [|cbn; tauto]. cbn [fst snd readable]. split; [exact N|]. split; [exact P|]. apply lldtoa_num. exact H.
Qed.
Lemma good_str : forall k o, k <> [] -> Forall plain k -> text_field o -> Forall good_ent (ok_ent k JStr o).
Proof.
  intros k [v|] N P H; [|constructor]. cbn [ok_ent]. constructor; [|constructor].
  split; [|cbn; tauto]. cbn [fst snd readable]. split; [exact N|]. split; [exact P|]. exact (proj1 H).
Qed.
Lemma good_readable : forall l, Forall good_ent l -> readable (JObj l).
Proof.
  intros l H. apply readable_obj. split.
  - destruct l as [|e l]; [cbn; tauto|]. assert (I : In (last (e :: l) ([], JNull)) (e :: l)).
    { destruct (exists_last (l := e :: l) ltac:(discriminate)) as (l' & x & E). rewrite E, last_last. apply in_or_app. right. left. reflexivity. }
    rewrite Forall_forall in H. apply (H _ I).
  - eapply Forall_impl; [|exact H]. intros e [A _]. exact A.
Qed.

Lemma tag64 : forall i, tag_ok (i_tag i) -> match i_tag i with Some v => - 2 ^ 63 < v < 2 ^ 63 | None => True end.
Proof. intros i H. destruct (i_tag i); [|exact H]. destruct H as [H _]. change (2 ^ 63) with 9223372036854775808. lia. Qed.

Ltac key_tac := solve [discriminate | apply plain_all; reflexivity].
Lemma value_of : forall i, fits_text i ->
  readable (JObj (all_ents i)) /\ shaped (JObj (all_ents i)) None (JN 7 None None (all_kids i)) /\
  short (2 ^ 28) (JN 7 None None (all_kids i)).
Proof.
  intros i (_ & S & F1 & F2 & F3 & F4 & T & V). apply tag64 in T. split; [|split].
  - apply good_readable. unfold all_ents. rewrite !Forall_app.
    split; [apply good_num; try key_tac; exact S|]. split; [apply good_str; try key_tac; exact F1|].
    split; [apply good_str; try key_tac; exact F2|]. split; [apply good_str; try key_tac; exact F3|].
    split; [apply good_num; try key_tac; exact T|]. apply good_str; try key_tac; exact F4.
  - apply shaped_obj. cbn [jkey jty jval jkids]. split; [reflexivity|]. split; [reflexivity|]. split; [reflexivity|].
    unfold all_ents, all_kids. repeat apply shape_app; try apply shape_str; apply shape_num; assumption.
  - apply short_kids. split; [exact Logic.I|]. split; [exact Logic.I|].
    assert (N : forall k o, Z.of_nat (List.length k) < 2 ^ 28 -> Forall (short (2 ^ 28)) (ok_kid k 2 (option_map lldtoa o))).
    { intros k [v|] K; [|constructor]. constructor; [|constructor]. apply short_kids. split; [exact K|]. split; [|constructor].
      cbn [short_str]. pose proof (lldtoa_len64 v). change (2 ^ 28) with 268435456. lia. }
    assert (Q : forall k o, Z.of_nat (List.length k) < 2 ^ 28 -> text_field o -> Forall (short (2 ^ 28)) (ok_kid k 5 o)).
    { intros k [v|] K H; [|constructor]. destruct H as [_ H]. constructor; [|constructor]. apply short_kids. split; [exact K|]. split; [exact H|constructor]. }
    unfold all_kids. rewrite !Forall_app.
    split; [apply N; reflexivity|]. split; [apply Q; [reflexivity|exact F1]|]. split; [apply Q; [reflexivity|exact F2]|].
    split; [apply Q; [reflexivity|exact F3]|]. split; [apply N; reflexivity|]. apply Q; [reflexivity|exact F4].
Qed.

(** ** the whole message *)
Lemma text_encoded : forall i more out, fits_text i -> mem_ok out ->
  exists t enc, encoded false (fill i more) out = Some enc /\ mem_ok enc /\
    mem_live enc = match i_name i with Some n => n | None => [] end ++ 58 :: t /\
    jtext false (JObj (all_ents i)) t /\
    (Z.of_nat (List.length t) < 2 ^ 31 -> forall d, (List.length t <= d)%nat -> json_load d t = LTree (JN 7 None None (all_kids i))).
Proof.
  intros i more out F O. destruct (value_of i F) as (R & SH & M).
  destruct (C52_partial false (JObj (all_ents i)) (JN 7 None None (all_kids i)) Logic.I R SH M) as (t & E & J & L).
  unfold encoded. rewrite (kids_are i more F), E. cbn [fill m_name].
  destruct (mem_clear_spec out O) as [O0 L0].
  exists t. eexists. split; [reflexivity|].
  assert (G : forall m, mem_ok m -> mem_ok (mem_cat (mem_cat m [58]) t) /\ mem_live (mem_cat (mem_cat m [58]) t) = mem_live m ++ 58 :: t).
  { intros m Om. destruct (mem_cat_spec m [58] Om) as [A B]. destruct (mem_cat_spec _ t A) as [C D]. split; [exact C|].
    rewrite D, B, <- app_assoc. reflexivity. }
  destruct (i_name i) as [n|].
  - destruct (mem_cat_spec (mem_clear out) n O0) as [O1 L1]. destruct (G _ O1) as [O2 L2]. split; [exact O2|].
    split; [rewrite L2, L1, L0; reflexivity|]. split; assumption.
  - destruct (G _ O0) as [O2 L2]. split; [exact O2|]. split; [rewrite L2, L0; reflexivity|]. split; assumption.
Qed.

Lemma obj_text_hd : forall l t, jtext false (JObj l) t -> exists t', t = 123 :: t'.
Proof. intros l t H. inversion H; subst; eexists; reflexivity. Qed.

Lemma text_decoded_same : forall i d stale t, fits_text i ->
  jtext false (JObj (all_ents i)) t ->
  json_load d t = LTree (JN 7 None None (all_kids i)) ->
  exists m, content m = i /\ forall inp, mem_ok inp ->
    mem_live inp = match i_name i with Some n => n | None => [] end ++ 58 :: t ->
    decoded_any d stale inp = Some (Some (false, m)).
Proof.
  intros i d stale t F J JL. destruct (to_netmsg_of i F) as (m & E & C & W). exists m. split; [exact C|]. intros inp O L.
  destruct F as (Hn & _).
  set (name := match i_name i with Some n => n | None => [] end) in *.
  assert (Pn : (List.length name < 128)%nat /\ Forall (fun c => ~ In c [0; 58; 91; 93; 123; 125]) name).
  { unfold name. destruct (i_name i); [exact (proj2 (proj2 Hn))|]. split; [cbn; lia|constructor]. }
  assert (Hsz : (List.length name < mem_get_size inp)%nat).
  { unfold mem_get_size. apply (f_equal (@List.length Z)) in L. unfold mem_live in L. rewrite skipn_length, app_length in L.
    cbn [List.length] in L. clear - L. lia. }
  assert (Hk : (List.length name < Nat.min (mem_get_size inp) 128)%nat) by (destruct Pn as [Pn _]; clear - Hsz Pn; lia).
  assert (SP : str_pos (mem_live inp) (Nat.min (mem_get_size inp) 128) 0 = Some (List.length name)).
  { rewrite L at 1. rewrite (str_pos_spec _ _ _ _ (proj2 Pn) Hk), Nat.add_0_l. reflexivity. }
  assert (L' : mem_live inp = (name ++ [58]) ++ t) by (rewrite L, <- app_assoc; reflexivity).
  destruct (obj_text_hd _ _ J) as (t' & Et).
  destruct (mem_move_live inp _ _ (List.length name + 1) O L' ltac:(rewrite app_length; reflexivity)) as [O0 L0].
  assert (By : mem_byte stale (mem_move inp (List.length name + 1)) (moff (mem_move inp (List.length name + 1))) = Some 123).
  { rewrite <- (Nat.add_0_r (moff _)). apply mem_byte_live; [exact O0|]. rewrite L0, Et. reflexivity. }
  unfold decoded_any, decoded_normal. rewrite SP, By. change (negb (Z.testbit 123 7)) with true. cbv iota.
  replace (skipn (List.length name + 1) (mem_live inp)) with t.
  2:{ rewrite L'. replace (List.length name + 1)%nat with (List.length (name ++ [58])) by (rewrite app_length; reflexivity).
      rewrite skipn_app, Nat.sub_diag, skipn_all. reflexivity. }
  rewrite JL.
  replace (if Nat.eqb (List.length name) 0 then None else Some (firstn (List.length name) (mem_live inp))) with (i_name i).
  2:{ rewrite L, firstn_app, Nat.sub_diag, firstn_all, firstn_O, app_nil_r. unfold name.
      destruct (i_name i) as [n|]; [|reflexivity]. destruct Hn as [Hn _]. destruct n; [easy|reflexivity]. }
  rewrite E. reflexivity.
Qed.
