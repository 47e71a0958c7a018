(** The parser on a text of the grammar. *)
From Coq Require Import ZArith List Lia Bool ZifyBool ZifyNat.
From Verif Require Import Base S_json M_netmsg M_json L_json.
Import ListNotations.
Open Scope Z_scope.

Definition fresh (n : jnode) : Prop := jval n = None /\ jkids n = [].

Definition P_text (v : jv) (t : list Z) : Prop :=
  forall d n rest err, (length t <= d)%nat -> zlen t < 2 ^ 31 -> fresh n ->
    (container v \/ (jkey n <> None /\ stopc rest)) ->
    exists n', parse_value d err n (Some (t ++ rest)) = POk (Some rest) err n' /\ shaped v (jkey n) n'.
Definition P_item (last : bool) (v : jv) (i : list Z) : Prop :=
  forall d n c rest err, (length i <= d)%nat -> zlen i < 2 ^ 31 -> fresh n -> jkey n <> None ->
    (if last then c = 93 \/ c = 125 else c = 44) ->
    exists q n', parse_value d err n (Some (i ++ c :: rest)) = POk (Some q) err n' /\
                 skip q = c :: rest /\ shaped v (jkey n) n'.
Definition P_elems (l : list jv) (t : list Z) : Prop :=
  forall d fuel idx err ty key val done rest, (length t <= d)%nat -> (length l <= fuel)%nat ->
    0 <= idx -> idx + zlen t < 2 ^ 31 ->
    exists ks, kid_loop (parse_value d) true fuel idx err ty key val done new_node (t ++ 93 :: rest) =
                 POk (Some rest) err (JN ty key val (done ++ ks)) /\ arr_shape idx l ks.
Definition P_members (l : list (list Z * jv)) (t : list Z) : Prop :=
  forall d fuel idx err ty key val done rest, (length t <= d)%nat -> (length l <= fuel)%nat -> zlen t < 2 ^ 31 ->
    exists ks, kid_loop (parse_value d) false fuel idx err ty key val done new_node (t ++ 125 :: rest) =
                 POk (Some rest) err (JN ty key val (done ++ ks)) /\ obj_shape l ks.

(** what is put in front by _sis_parse_value for each first byte *)
Lemma body_quote : forall pv err n p, value_body pv err n (Some (34 :: p)) = parse_string pv err n p.
Proof. reflexivity. Qed.
Lemma body_num : forall pv err n c p, c = 45 \/ digit c -> value_body pv err n (Some (c :: p)) = parse_number err n (c :: p).
Proof.
  intros pv err n c p H. unfold value_body, digit in *. replace (c =? 34) with false by lia.
  replace ((c =? 45) || ((48 <=? c) && (c <=? 57))) with true by lia. reflexivity.
Qed.
Lemma body_arr : forall pv err n p, value_body pv err n (Some (91 :: p)) = parse_kids pv true err n p.
Proof. reflexivity. Qed.
Lemma body_obj : forall pv err n p, value_body pv err n (Some (123 :: p)) = parse_kids pv false err n p.
Proof. reflexivity. Qed.
Lemma body_word : forall pv err n b p, value_body pv err n (Some (word b ++ p)) = parse_info 3 err n (word b ++ p).
Proof. intros pv err n [] p; reflexivity. Qed.

Lemma scan_word : forall b c r, c = 44 \/ c = 32 -> scan_info (word b ++ c :: r) = (word b, c :: r).
Proof. intros [] c r [->| ->]; reflexivity. Qed.

Lemma parse_word : forall d err n b c r, (0 < d)%nat -> fresh n -> c = 44 \/ c = 32 ->
  exists n', parse_value d err n (Some (word b ++ c :: r)) = POk (Some (c :: r)) err n' /\ shaped (JBool b) (jkey n) n'.
Proof.
  intros d err n b c r D [F1 F2] C. destruct d as [|d]; [lia|]. cbn [parse_value]. rewrite body_word.
  unfold parse_info. rewrite scan_word by exact C. destruct n as [ty k v kids]. cbn [jval jkids] in *. subst.
  eexists. split; [reflexivity|]. cbn [shaped jkey jty jval jkids]. repeat split.
  destruct b; reflexivity.
Qed.

(** one key and its value *)
Lemma parse_member : forall d err k kt w1 w2 i last v c rest,
  keylex false k kt -> ws w1 -> ws w2 -> item false last v i -> P_item last v i ->
  (if last then c = 93 \/ c = 125 else c = 44) ->
  (length (34%Z :: kt ++ 34%Z :: w1 ++ 58%Z :: w2 ++ i) <= d)%nat -> zlen i < 2 ^ 31 ->
  exists q n', parse_value d err new_node (Some (34 :: kt ++ 34 :: w1 ++ 58 :: w2 ++ i ++ c :: rest)) = POk (Some q) err n' /\
               skip q = c :: rest /\ shaped v (Some k) n'.
Proof.
  intros d err k kt w1 w2 i last v c rest [K1 K2] W1 W2 I PI C D Z. destruct (K2 eq_refl) as [K3 K4].
  pose proof (lex_plain _ _ K1 K4) as ->.
  cbn [length] in D. rewrite app_length in D. cbn [length] in D. rewrite app_length in D. cbn [length] in D. rewrite app_length in D.
  destruct d as [|d]; [lia|]. cbn [parse_value]. rewrite body_quote. unfold parse_string.
  rewrite (scan_lex _ _ K1) by lia. unfold new_node.
  assert (TC : forall r, to_colon (w1 ++ 58 :: r) = 58 :: r).
  { intros r. clear - W1. induction w1 as [|x w IH]; [reflexivity|]. inversion W1; subst.
    cbn [app to_colon]. replace ((x =? 58) || (x =? 44)) with false by (unfold blank in *; lia). apply IH. assumption. }
  rewrite TC. change (58 =? 58) with true. cbv iota.
  rewrite skip_ws by exact W2. rewrite starts_skip by (eapply item_starts; exact I).
  assert (SD : strdup (kt ++ 34 :: w1 ++ 58 :: w2 ++ i ++ c :: rest) (length kt) = kt).
  { unfold strdup. destruct kt as [|a kt]; [easy|]. cbn [length]. cbn [app firstn]. f_equal. apply firstn_app_exact. }
  rewrite SD.
  destruct (PI d (JN 0 (Some kt) None []) c rest err ltac:(lia) Z ltac:(split; reflexivity) ltac:(discriminate) C)
    as (q & n' & E & SK & SH).
  rewrite E. cbn [skip_p option_map]. exists (skip q), n'. rewrite SK. split; [reflexivity|]. split; [|exact SH].
  apply skip_id. destruct last; lia.
Qed.

Lemma stop_blank : forall w c rest, ws w -> c = 93 \/ c = 125 \/ c = 44 -> stopc (w ++ c :: rest).
Proof.
  intros w c rest W C. unfold stopc. destruct w as [|x w]; cbn [app hd].
  - unfold num_char. lia.
  - inversion W; subst. unfold blank, num_char in *. lia.
Qed.

Lemma starts_len : forall t, starts t -> (1 <= length t)%nat.
Proof. intros t (c & t' & -> & _). cbn [length]. lia. Qed.

Lemma elems_len : forall l t, elems false l t -> (length l <= length t)%nat.
Proof.
  intros l. induction l as [|v l IH]; intros t H; [cbn [length]; lia|].
  inversion H; subst; match goal with X : item _ _ _ _ |- _ => pose proof (starts_len _ (item_starts _ _ _ X)) end;
    rewrite app_length; [cbn [length]; lia|].
  match goal with X : elems _ _ _ |- _ => apply IH in X end. rewrite app_length. cbn [length]. lia.
Qed.
Lemma elems_head : forall l t c0 rest, elems false l t ->
  exists c r, skip (t ++ c0 :: rest) = c :: r /\ starter c /\ (length l <= length (c :: r))%nat.
Proof.
  intros l t c0 rest EL.
  inversion EL; subst; rewrite <- app_assoc, skip_ws by assumption;
    match goal with X : item _ _ _ _ |- _ => pose proof (item_starts _ _ _ X) as ST end.
  - rewrite starts_skip by exact ST. destruct ST as (c & r & -> & S0). cbn [app].
    eexists _, _. split; [reflexivity|]. split; [exact S0|]. cbn [length]. lia.
  - match goal with X : elems _ _ _ |- _ => apply elems_len in X end.
    rewrite <- app_assoc. rewrite starts_skip by exact ST. destruct ST as (c & r & -> & S0). cbn [app].
    eexists _, _. split; [reflexivity|]. split; [exact S0|]. cbn [length]. rewrite !app_length. cbn [length].
    rewrite app_length. lia.
Qed.
Lemma members_len : forall l t, members false l t -> (length l <= length t)%nat.
Proof.
  intros l. induction l as [|v l IH]; intros t H; [cbn [length]; lia|].
  inversion H; subst; rewrite app_length; cbn [length]; [lia|].
  match goal with X : members _ _ _ |- _ => apply IH in X end. repeat (rewrite ?app_length; cbn [length]). lia.
Qed.
Lemma members_head : forall l t c0 rest, members false l t ->
  exists c r, skip (t ++ c0 :: rest) = c :: r /\ starter c /\ (length l <= length (c :: r))%nat.
Proof.
  intros l t c0 rest EL.
  inversion EL; subst; rewrite <- app_assoc, skip_ws by assumption; cbn [app]; rewrite skip_id by lia.
  - eexists _, _. split; [reflexivity|]. split; [left; reflexivity|]. cbn [length]. lia.
  - match goal with X : members _ _ _ |- _ => apply members_len in X end.
    eexists _, _. split; [reflexivity|]. split; [left; reflexivity|].
    repeat (rewrite ?app_length; cbn [length]). lia.
Qed.

Theorem json_reads :
  (forall v t, jtext false v t -> P_text v t) /\
  (forall last v i, item false last v i -> P_item last v i) /\
  (forall l t, elems false l t -> P_elems l t) /\
  (forall l t, members false l t -> P_members l t).
Proof.
  apply (json_mutind false P_text P_item P_elems P_members); unfold P_text, P_item, P_elems, P_members.
  - discriminate.
  - (* number *)
    intros s N d n rest err D Z [F1 F2] [[]|[K ST]].
    destruct (numlex_chars s N) as (A & B & C). destruct s as [|c s]; [easy|]. cbn [hd length] in *.
    destruct d as [|d]; [lia|]. cbn [parse_value app]. rewrite body_num by exact C. unfold parse_number.
    destruct (scan_num_lex _ _ A ST) as (f & E & Q). cbn [app] in E. rewrite E.
    destruct n as [ty k v kids]. cbn [jval jkids jkey] in *. subst.
    eexists. split; [reflexivity|]. cbn [shaped jkey jty jval jkids]. split; [reflexivity|]. split; [|split; [|reflexivity]].
    + destruct f; [left|right]; (split; [reflexivity|]); [apply Q; reflexivity|].
      intros X. apply Q in X. discriminate.
    + f_equal. unfold strdup. cbn [length firstn]. f_equal. apply firstn_app_exact.
  - (* string *)
    intros s t L d n rest err D Z [F1 F2] [[]|[K ST]].
    destruct d as [|d]; [cbn [length] in D; lia|]. cbn [parse_value app]. rewrite body_quote.
    unfold parse_string. rewrite <- app_assoc. cbn [app]. rewrite (scan_lex _ _ L) by lia.
    destruct n as [ty [k|] v kids]; [|easy]. cbn [jval jkids jkey] in *. subst.
    eexists. split; [reflexivity|]. cbn [shaped jkey jty jval jkids]. repeat split. f_equal.
    pose proof (unesc_lex _ _ L) as U. destruct t as [|a t]; [exact U|].
    unfold strdup. cbn [length]. rewrite <- U. f_equal. cbn [app firstn]. f_equal. apply firstn_app_exact.
  - (* empty array *)
    intros w W d n rest err D Z [F1 F2] _. destruct d as [|d]; [cbn [length] in D; lia|].
    cbn [parse_value app]. rewrite body_arr. destruct n as [ty k v kids]. cbn [jval jkids jkey] in *. subst.
    cbn [parse_kids]. rewrite <- app_assoc, skip_ws by exact W. cbn [app]. rewrite skip_id by lia.
    change (93 =? 93) with true. cbv iota. eexists. split; [reflexivity|]. apply shaped_arr. cbn [jkey jty jval jkids arr_shape]. tauto.
  - (* array *)
    intros l t EL IH d n rest err D Z [F1 F2] _. destruct d as [|d]; [cbn [length] in D; lia|].
    cbn [parse_value app]. rewrite body_arr. destruct n as [ty k v kids]. cbn [jval jkids jkey] in *. subst.
    rewrite <- app_assoc. cbn [app]. cbn [length] in D. rewrite app_length in D. cbn [length] in D.
    unfold zlen in *. cbn [length] in Z. rewrite app_length in Z. cbn [length] in Z.
    cbn [parse_kids].
    destruct (elems_head l t 93 rest EL) as (c & r & HE & HS & HL).
    destruct (IH d (S (length (c :: r))) 0 err 6 k None [] rest ltac:(lia) ltac:(lia) ltac:(lia) ltac:(lia)) as (ks & KE & KS).
    rewrite (kid_loop_skip _ _ _ _ _ _ _ _ _ _ _ (c :: r)) in KE; [|rewrite HE; symmetry; apply skip_id; unfold starter, digit in HS; lia|].
    2:{ rewrite skip_id by (unfold starter, digit in HS; lia). discriminate. }
    rewrite HE. replace (c =? 93) with false by (unfold starter, digit in HS; lia).
    exists (JN 6 k None ks). split; [exact KE|]. apply shaped_arr. cbn [jkey jty jval jkids]. tauto.
  - (* empty object *)
    intros w W d n rest err D Z [F1 F2] _. destruct d as [|d]; [cbn [length] in D; lia|].
    cbn [parse_value app]. rewrite body_obj. destruct n as [ty k v kids]. cbn [jval jkids jkey] in *. subst.
    cbn [parse_kids]. rewrite <- app_assoc, skip_ws by exact W. cbn [app]. rewrite skip_id by lia.
    change (125 =? 125) with true. cbv iota. eexists. split; [reflexivity|]. apply shaped_obj. cbn [jkey jty jval jkids obj_shape]. tauto.
  - (* object *)
    intros l t EL IH d n rest err D Z [F1 F2] _. destruct d as [|d]; [cbn [length] in D; lia|].
    cbn [parse_value app]. rewrite body_obj. destruct n as [ty k v kids]. cbn [jval jkids jkey] in *. subst.
    rewrite <- app_assoc. cbn [app]. cbn [length] in D. rewrite app_length in D. cbn [length] in D.
    unfold zlen in *. cbn [length] in Z. rewrite app_length in Z. cbn [length] in Z.
    cbn [parse_kids].
    destruct (members_head l t 125 rest EL) as (c & r & HE & HS & HL).
    destruct (IH d (S (length (c :: r))) 0 err 7 k None [] rest ltac:(lia) ltac:(lia) ltac:(lia)) as (ks & KE & KS).
    rewrite (kid_loop_skip _ _ _ _ _ _ _ _ _ _ _ (c :: r)) in KE; [|rewrite HE; symmetry; apply skip_id; unfold starter, digit in HS; lia|].
    2:{ rewrite skip_id by (unfold starter, digit in HS; lia). discriminate. }
    rewrite HE. replace (c =? 125) with false by (unfold starter, digit in HS; lia).
    exists (JN 7 k None ks). split; [exact KE|]. apply shaped_obj. cbn [jkey jty jval jkids]. tauto.
  - (* a value and blanks *)
    intros last v t w T IH W d n c rest err D Z F K C.
    rewrite app_length in D. unfold zlen in *. rewrite app_length in Z.
    assert (C' : c = 93 \/ c = 125 \/ c = 44) by (destruct last; tauto).
    destruct (IH d n (w ++ c :: rest) err ltac:(lia) ltac:(lia) F
                (or_intror (conj K (stop_blank w c rest W C')))) as (n' & E & SH).
    rewrite <- app_assoc. exists (w ++ c :: rest), n'. split; [exact E|]. split; [|exact SH].
    rewrite skip_ws by exact W. apply skip_id. lia.
  - (* a word and a blank *)
    intros last b w W d n c rest err D Z F K C.
    assert (D0 : (0 < d)%nat) by (rewrite app_length in D; cbn [length] in D; lia).
    destruct (parse_word d err n b 32 (w ++ c :: rest) D0 F (or_intror eq_refl)) as (n' & E & SH).
    exists (32 :: w ++ c :: rest), n'. rewrite <- app_assoc. split; [exact E|]. split; [|exact SH].
    change (32 :: w ++ c :: rest) with ((32 :: w) ++ c :: rest). rewrite skip_ws.
    + apply skip_id. destruct last; lia.
    + constructor; [left; reflexivity|exact W].
  - (* a word before a comma *)
    intros b d n c rest err D Z F K C. cbv iota in C. subst c.
    assert (D0 : (0 < d)%nat) by (destruct b; cbn [word length] in D; lia).
    destruct (parse_word d err n b 44 rest D0 F (or_introl eq_refl)) as (n' & E & SH).
    exists (44 :: rest), n'. split; [exact E|]. split; [apply skip_id; lia|exact SH].
  - discriminate.
  - (* the last element *)
    intros v w i W I IH d fuel idx err ty key val done rest D Fu Ix Z.
    rewrite app_length in D. unfold zlen in *. rewrite app_length in Z. cbn [length] in Fu.
    destruct fuel as [|fuel]; [lia|]. rewrite <- app_assoc.
    pose proof (item_starts _ _ _ I) as ST.
    rewrite (kid_loop_skip _ _ _ _ _ _ _ _ _ _ _ (i ++ 93 :: rest));
      [|apply skip_ws; exact W|rewrite starts_skip by exact ST; destruct ST as (? & ? & -> & _); discriminate].
    cbn [kid_loop]. rewrite starts_skip by exact ST.
    destruct (i ++ 93 :: rest) as [|x0 y0] eqn:EI; [destruct ST as (? & ? & -> & _); discriminate|]. rewrite <- EI.
    destruct (IH d (set_key new_node (lldtoa idx)) 93 rest err ltac:(lia) ltac:(unfold zlen; lia) ltac:(split; reflexivity)
                ltac:(discriminate) (or_introl eq_refl)) as (q & n' & E & SK & SH).
    rewrite E. cbn [skip_p option_map]. rewrite SK. change (93 =? 93) with true. cbv iota.
    exists [n']. split; [reflexivity|]. cbn [arr_shape]. split; [|exact Logic.I].
    exists (lldtoa idx). split; [apply lldtoa_dec; lia|exact SH].
  - (* an element and more *)
    intros v w i l t W I IH EL IHl d fuel idx err ty key val done rest D Fu Ix Z.
    rewrite !app_length in D. cbn [length] in D. unfold zlen in *. rewrite !app_length in Z. cbn [length] in Z. cbn [length] in Fu.
    destruct fuel as [|fuel]; [lia|]. rewrite <- !app_assoc. cbn [app].
    pose proof (item_starts _ _ _ I) as ST.
    rewrite (kid_loop_skip _ _ _ _ _ _ _ _ _ _ _ (i ++ 44 :: t ++ 93 :: rest));
      [|apply skip_ws; exact W|rewrite starts_skip by exact ST; destruct ST as (? & ? & -> & _); discriminate].
    cbn [kid_loop]. rewrite starts_skip by exact ST.
    destruct (i ++ 44 :: t ++ 93 :: rest) as [|x0 y0] eqn:EI; [destruct ST as (? & ? & -> & _); discriminate|]. rewrite <- EI.
    destruct (IH d (set_key new_node (lldtoa idx)) 44 (t ++ 93 :: rest) err ltac:(lia) ltac:(unfold zlen; lia) ltac:(split; reflexivity)
                ltac:(discriminate) eq_refl) as (q & n' & E & SK & SH).
    rewrite E. cbn [skip_p option_map]. rewrite SK. change (44 =? 93) with false. change (44 =? 44) with true. cbv iota.
    destruct (IHl d fuel (idx + 1) err ty key val (done ++ [n']) rest ltac:(lia) ltac:(lia) ltac:(lia) ltac:(unfold zlen; lia))
      as (ks & KE & KS).
    exists (n' :: ks). rewrite KE. split; [rewrite <- app_assoc; reflexivity|].
    cbn [arr_shape]. split; [|exact KS].
    exists (lldtoa idx). split; [apply lldtoa_dec; lia|exact SH].
  - (* the last member *)
    intros k kt v w w1 w2 i W K W1 W2 I IH d fuel idx err ty key val done rest D Fu Z.
    rewrite app_length in D. unfold zlen in *. rewrite app_length in Z. cbn [length] in Fu.
    destruct fuel as [|fuel]; [lia|].
    assert (Zi : zlen i < 2 ^ 31).
    { unfold zlen. repeat (rewrite ?app_length in Z; cbn [length] in Z). lia. }
    destruct (parse_member d err k kt w1 w2 i true v 125 rest K W1 W2 I IH (or_intror eq_refl) ltac:(lia) Zi)
      as (q & n' & E & SK & SH).
    rewrite <- app_assoc. cbn [app]. repeat (rewrite <- app_assoc; cbn [app]).
    rewrite (kid_loop_skip _ _ _ _ _ _ _ _ _ _ _ (34 :: kt ++ 34 :: w1 ++ 58 :: w2 ++ i ++ 125 :: rest));
      [|apply skip_ws; exact W|rewrite skip_id by lia; discriminate].
    cbn [kid_loop]. rewrite skip_id by lia. rewrite E. cbn [skip_p option_map]. rewrite SK.
    change (125 =? 125) with true. cbv iota.
    exists [n']. split; [reflexivity|]. cbn [obj_shape]. tauto.
  - (* a member and more *)
    intros k kt v w w1 w2 i l t W K W1 W2 I IH ML IHl d fuel idx err ty key val done rest D Fu Z.
    rewrite app_length in D. unfold zlen in *. rewrite app_length in Z. cbn [length] in Fu.
    destruct fuel as [|fuel]; [lia|].
    assert (Zi : zlen i < 2 ^ 31).
    { unfold zlen. repeat (rewrite ?app_length in Z; cbn [length] in Z). lia. }
    assert (Di : (length (34%Z :: kt ++ 34%Z :: w1 ++ 58%Z :: w2 ++ i) <= d)%nat).
    { repeat (rewrite ?app_length in D; cbn [length] in D). repeat (rewrite ?app_length; cbn [length]). lia. }
    assert (Zt : zlen t < 2 ^ 31 /\ (length t <= d)%nat).
    { unfold zlen. repeat (rewrite ?app_length in Z; cbn [length] in Z). repeat (rewrite ?app_length in D; cbn [length] in D). lia. }
    destruct Zt as [Zt Dt].
    destruct (parse_member d err k kt w1 w2 i false v 44 (t ++ 125 :: rest) K W1 W2 I IH eq_refl Di Zi)
      as (q & n' & E & SK & SH).
    repeat (rewrite <- app_assoc; cbn [app]).
    rewrite (kid_loop_skip _ _ _ _ _ _ _ _ _ _ _ (34 :: kt ++ 34 :: w1 ++ 58 :: w2 ++ i ++ 44 :: t ++ 125 :: rest));
      [|apply skip_ws; exact W|rewrite skip_id by lia; discriminate].
    cbn [kid_loop]. rewrite skip_id by lia. rewrite E. cbn [skip_p option_map]. rewrite SK.
    change (44 =? 125) with false. change (44 =? 44) with true. cbv iota.
    destruct (IHl d fuel (idx + 1) err ty key val (done ++ [n']) rest Dt ltac:(lia) Zt) as (ks & KE & KS).
    exists (n' :: ks). rewrite KE. split; [rewrite <- app_assoc; reflexivity|]. cbn [obj_shape]. tauto.
Qed.

(** no byte of such a text is 0 *)
Definition nz (t : list Z) : Prop := Forall (fun c => c <> 0) t.
Lemma ws_nz : forall w, ws w -> nz w.
Proof. intros w H. eapply Forall_impl; [|exact H]. unfold blank. intros c C. cbv beta. lia. Qed.
Lemma lex_nz : forall s t, strlex false s t -> nz t.
Proof.
  induction 1 as [|c s t P H IH|s t H IH|c e s t L]; [constructor| | |discriminate].
  - constructor; [destruct P as [P _]; lia|exact IH].
  - constructor; [lia|]. constructor; [lia|exact IH].
Qed.
Lemma word_nz : forall b, nz (word b).
Proof. intros []; repeat constructor; discriminate. Qed.
Theorem json_nz :
  (forall v t, jtext false v t -> nz t) /\ (forall last v i, item false last v i -> nz i) /\
  (forall l t, elems false l t -> nz t) /\ (forall l t, members false l t -> nz t).
Proof.
  assert (K : forall k kt, keylex false k kt -> nz kt) by (intros k kt [H _]; eapply lex_nz; exact H).
  apply (json_mutind false (fun _ t => nz t) (fun _ _ t => nz t) (fun _ t => nz t) (fun _ t => nz t)); intros;
    try discriminate; unfold nz in *;
    repeat (rewrite Forall_app || rewrite Forall_cons_iff);
    repeat split; try (apply Forall_nil); try discriminate; try assumption;
    try (apply ws_nz; assumption); try (apply word_nz); try (eapply K; eassumption).
  - match goal with X : numlex _ _ |- _ => destruct (numlex_chars _ X) as (A & _ & _) end.
    eapply Forall_impl; [|exact A]. intros c C. unfold num_char in C. cbv beta. lia.
  - eapply lex_nz. eassumption.
Qed.

Lemma cstr_app : forall t r, nz t -> cstr (t ++ r) = t ++ cstr r.
Proof.
  intros t r H. induction H as [|c t C H IH]; [reflexivity|]. cbn [app cstr].
  replace (c =? 0) with false by lia. rewrite IH. reflexivity.
Qed.

Theorem load_reads : forall v w t rest d, jtext false v t -> container v -> ws w -> zlen t < 2 ^ 31 ->
  (length t <= d)%nat -> exists n, json_load d (w ++ t ++ rest) = LTree n /\ shaped v None n.
Proof.
  intros v w t rest d T C W Z D. destruct json_reads as (R & _ & _ & _). destruct json_nz as (N & _ & _ & _).
  pose proof (jtext_starts _ _ T) as ST.
  destruct (R v t T d new_node (cstr rest) false D Z (conj eq_refl eq_refl) (or_introl C)) as (n & E & SH).
  exists n. unfold json_load. rewrite cstr_app by (apply ws_nz; exact W). rewrite cstr_app by (apply (N _ _ T)).
  rewrite skip_ws by exact W. rewrite starts_skip by exact ST. rewrite E.
  destruct (w ++ t ++ rest) eqn:EQ.
  - apply app_eq_nil in EQ as [_ EQ]. apply app_eq_nil in EQ as [EQ _]. destruct ST as (? & ? & -> & _). discriminate.
  - split; [reflexivity|exact SH].
Qed.
