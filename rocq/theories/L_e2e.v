(** Lemmas for a connection between two ends (C56). *)
From Coq Require Import ZArith List Bool Lia String.
From Verif Require Import Base S_memory M_memory L_memory M_bits S_ws M_ws L_ws S_netmsg M_netmsg L_netmsg P_netmsg S_json M_json L_json L_jsonread
  S_nettext M_nettext L_nettext P_nettext.
From Coq Require Import ZifyBool ZifyNat.
Import ListNotations.
Open Scope list_scope.
Open Scope Z_scope.

(** ** unpacking leaves a proper buffer *)
Lemma xor_len : forall k d i, List.length (ws_xor k i d) = List.length d.
Proof. induction d as [|b d IH]; intros i; [reflexivity|]. cbn [ws_xor List.length]. rewrite IH. reflexivity. Qed.
Lemma append_ok : forall out h, mem_ok out -> mem_ok (ws_append out h).
Proof.
  intros out h O. unfold ws_append. set (b := firstn _ (mem_live (h_mem h))).
  destruct (mem_cat_spec out b O) as [[A1 A2] _]. destruct (h_mask h =? 1); [|split; assumption].
  unfold mem_ok, msize in *. cbn [mbuf moff mmax].
  rewrite app_length, xor_len, firstn_length, skipn_length.
  split; lia.
Qed.
Lemma unpack_loop_ok : forall fuel s m out first op op' m' out', mem_ok out ->
  ws_unpack_loop fuel s m out first op = Some (Some (op', m', out')) -> mem_ok out'.
Proof.
  induction fuel as [|fuel IH]; intros s m out first op op' m' out' O H; cbn [ws_unpack_loop] in H; [discriminate|].
  destruct (ws_header false s m first op) as [[h|]|]; try discriminate.
  destruct (h_fin h =? 1); [injection H as <- <- <-; apply append_ok; exact O|].
  exact (IH _ _ _ _ _ _ _ _ (append_ok out h O) H).
Qed.
Lemma unpack_ok : forall m out r m' out', mem_ok out -> ws_unpack m out = Some (r, m', out') -> mem_ok out'.
Proof.
  intros m out r m' out' O H. unfold ws_unpack in H. destruct (mem_clear_spec out O) as [O0 _].
  destruct (ws_check m) as [ok|]; [|discriminate]. destruct (negb ok); [injection H as _ _ <-; exact O|].
  destruct (ws_unpack_loop _ _ _ _ _ _) as [[[[op m1] o1]|]|] eqn:E; try discriminate.
  2:{ injection H as _ _ <-. exact O0. }
  pose proof (unpack_loop_ok _ _ _ _ _ _ _ _ _ O0 E) as [A1 A2].
  destruct (op =? 1); [injection H as _ _ <-; split; assumption|].
  destruct (op =? 2); [|injection H as _ _ <-; split; assumption].
  destruct (mem_get_size o1) as [|n] eqn:Sz; [discriminate|]. injection H as _ _ <-.
  unfold mem_ok, msize, mem_get_size in *. cbn [mbuf moff mmax]. rewrite firstn_length. split; lia.
Qed.

(** ** receiving messages and decoding them *)
Definition reads (d : nat) (stale : nat -> Z) (e : Z * list Z) (x : bool * netmsg) : Prop :=
  forall out, mem_ok out -> mem_live out = snd e -> decoded_any d stale out = Some (Some x).

Lemma loop_decodes : forall d stale fuel m l m' ok xs, ws_recv_loop fuel m = Some (l, m', ok) ->
  Forall2 (reads d stale) l xs -> recv_loop d stale fuel m = Some (xs, m', ok).
Proof.
  induction fuel as [|fuel IH]; intros m l m' ok xs H F; cbn [ws_recv_loop] in H; [discriminate|]. cbn [recv_loop].
  unfold ws_recv_message in H. unfold recv_message.
  destruct (ws_unpack m (mem_create_size (16 * 1024))) as [[[r m1] out]|] eqn:U; [|discriminate].
  assert (O : mem_ok out) by (refine (unpack_ok _ _ _ _ _ _ U); apply mem_ok_create_size; lia).
  destruct r.
  - injection H as <- <- <-. inversion F. reflexivity.
  - injection H as <- <- <-. inversion F. reflexivity.
  - destruct (ws_recv_loop fuel m1) as [[[l2 m2] ok2]|] eqn:R; [|discriminate]. injection H as <- <- <-.
    inversion F as [|e x l0 xs0 F1 F2]; subst. rewrite (F1 out O eq_refl). destruct x as [b x].
    rewrite (IH _ _ _ _ _ R F2). reflexivity.
Qed.
Lemma chunks_decode : forall d stale chunks m l m' ok xs, ws_recv_chunks m chunks = Some (l, m', ok) ->
  Forall2 (reads d stale) l xs -> recv_chunks d stale m chunks = Some (xs, m', ok).
Proof.
  induction chunks as [|c chunks IH]; intros m l m' ok xs H F; cbn [ws_recv_chunks recv_chunks] in *.
  - injection H as <- <- <-. inversion F. reflexivity.
  - destruct (ws_recv_loop _ (mem_cat m c)) as [[[l1 m1] ok1]|] eqn:R; [|discriminate]. destruct ok1.
    + destruct (ws_recv_chunks m1 chunks) as [[[l2 m2] ok2]|] eqn:Q; [|discriminate]. injection H as <- <- <-.
      apply Forall2_app_inv_l in F as (x1 & x2 & F1 & F2 & ->).
      rewrite (loop_decodes _ _ _ _ _ _ _ _ R F1), (IH _ _ _ _ _ Q F2). reflexivity.
    + injection H as <- <- <-. rewrite (loop_decodes _ _ _ _ _ _ _ _ R F). reflexivity.
Qed.
Lemma recv_decodes : forall d stale batches m l m' ok xs, ws_recv m batches = Some (l, m', ok) ->
  Forall2 (reads d stale) l xs -> recv d stale m batches = Some (xs, m', ok).
Proof.
  induction batches as [|c batches IH]; intros m l m' ok xs H F; cbn [ws_recv recv] in *.
  - injection H as <- <- <-. inversion F. reflexivity.
  - destruct (ws_recv_chunks m c) as [[[l1 m1] ok1]|] eqn:R; [|discriminate]. destruct ok1.
    + destruct (ws_recv (mem_pack m1) batches) as [[[l2 m2] ok2]|] eqn:Q; [|discriminate]. injection H as <- <- <-.
      apply Forall2_app_inv_l in F as (x1 & x2 & F1 & F2 & ->).
      rewrite (chunks_decode _ _ _ _ _ _ _ _ R F1), (IH _ _ _ _ _ Q F2). reflexivity.
    + injection H as <- <- <-. rewrite (chunks_decode _ _ _ _ _ _ _ _ R F). reflexivity.
Qed.

(** ** sending: the bytes of an encoded message *)
Lemma lldtoa_byte : forall v, Forall is_byte (lldtoa v).
Proof.
  intros v. unfold lldtoa.
  assert (G : forall u, 0 <= u -> Forall is_byte (rev (lld_loop 20 u))).
  { intros u H. apply Forall_rev. eapply Forall_impl; [|apply lld_pos; exact H]. cbv beta. unfold is_byte. intros c C. lia. }
  destruct (Z.ltb_spec v 0); [constructor; [unfold is_byte; lia|]|]; apply G; lia.
Qed.
Lemma ssize_is_bytes : forall v, 0 <= v -> Forall is_byte (ssize_bytes v).
Proof.
  intros v H. unfold ssize_bytes. destruct (Z.ltb_spec 4294967295 v); [constructor; [unfold is_byte; lia|apply le_bytes_byte]|].
  destruct (Z.ltb_spec 65785 v); [constructor; [unfold is_byte; lia|apply le_bytes_byte]|].
  destruct (Z.ltb_spec 505 v); [constructor; [unfold is_byte; lia|apply le_bytes_byte]|].
  destruct (Z.ltb_spec 250 v); [constructor; [unfold is_byte; lia|apply le_bytes_byte]|].
  constructor; [unfold is_byte; lia|constructor].
Qed.
Lemma enc_str_byte : forall ok s, text_ok s -> Forall is_byte (enc_str ok s).
Proof.
  intros ok s H. unfold enc_str. destruct ok; [|constructor]. apply Forall_app.
  destruct s as [s|]; (split; [apply ssize_is_bytes; lia|]); [apply H|constructor].
Qed.
Lemma enc_int_byte : forall ok v, Forall is_byte (enc_int ok v).
Proof.
  intros ok v. unfold enc_int. destruct ok; [|constructor]. destruct (_ =? 0); [apply ssize_is_bytes; lia|].
  apply Forall_app. split; [apply ssize_is_bytes; lia|apply lldtoa_byte].
Qed.
Lemma sw_is_byte : forall m, is_byte (sw_byte m).
Proof.
  intros m. unfold sw_byte. destruct (sw_sno m), (sw_service m), (sw_cmd m), (sw_subject m), (sw_tag m), (sw_info m), (sw_more m);
    vm_compute; split; congruence.
Qed.
Lemma json_byte :
  (forall v t, jtext false v t -> Forall is_byte t) /\ (forall last v i, item false last v i -> Forall is_byte i) /\
  (forall l t, elems false l t -> Forall is_byte t) /\ (forall l t, members false l t -> Forall is_byte t).
Proof.
  assert (LX : forall s t, strlex false s t -> Forall is_byte t).
  { induction 1 as [|c s t P H IH|s t H IH|c e s t L]; [constructor| | |discriminate].
    - constructor; [destruct P as [P _]; unfold is_byte; lia|exact IH].
    - constructor; [unfold is_byte; lia|]. constructor; [unfold is_byte; lia|exact IH]. }
  assert (W : forall w, ws w -> Forall is_byte w).
  { intros w H. eapply Forall_impl; [|exact H]. unfold blank, is_byte. intros c C. cbv beta in *. lia. }
  assert (B : forall b, Forall is_byte (word b)) by (intros []; repeat constructor; unfold is_byte; lia).
  assert (K : forall k kt, keylex false k kt -> Forall is_byte kt) by (intros k kt [H _]; eapply LX; exact H).
  apply (json_mutind false (fun _ t => Forall is_byte t) (fun _ _ t => Forall is_byte t) (fun _ t => Forall is_byte t) (fun _ t => Forall is_byte t)); intros;
    try discriminate;
    repeat (rewrite Forall_app || rewrite Forall_cons_iff);
    repeat match goal with |- _ /\ _ => split | |- is_byte _ => unfold is_byte; lia end; try (apply Forall_nil); try assumption;
    try (apply W; assumption); try (apply B); try (eapply K; eassumption).
  - match goal with X : numlex _ _ |- _ => destruct (numlex_chars _ X) as (A & _ & _) end.
    eapply Forall_impl; [|exact A]. intros c C. unfold num_char in C. unfold is_byte. cbv beta in *. lia.
  - eapply LX. eassumption.
Qed.

(** what an encoded message is and what it is decoded to *)
Lemma encoded_reads : forall bytes i more out, fits bytes i -> mem_ok out ->
  exists enc, encoded bytes (fill i more) out = Some enc /\ mem_ok enc /\ Forall is_byte (mem_live enc) /\ mem_live enc <> [] /\
    (Z.of_nat (List.length (mem_live enc)) < 2 ^ 31 -> forall d stale, (List.length (mem_live enc) <= d)%nat ->
       exists m, content m = i /\ forall inp, mem_ok inp -> mem_live inp = mem_live enc -> decoded_any d stale inp = Some (Some (bytes, m))).
Proof.
  intros bytes i more out F O. destruct bytes; cbn [fits] in F.
  - destruct F as (Hn & Hs & T1 & T2 & T3 & T4 & Ht & Hv). unfold encoded. eexists. split; [reflexivity|].
    assert (Lt : list_tag (m_tag (fill i more)) = false).
    { cbn [fill m_tag]. destruct (i_tag i) as [t|]; [|reflexivity]. destruct Ht as (_ & A & B). unfold list_tag. lia. }
    pose proof (encoded_live (fill i more) out O Lt) as L. cbn [fill m_name] in L.
    split; [|split; [|split]].
    + unfold encoded_normal. rewrite Lt.
      assert (C : forall m b, mem_ok m -> mem_ok (mem_cat m b)) by (intros m b H; apply mem_cat_spec; exact H).
      destruct (mem_clear_spec out O) as [O0 _].
      apply str_set_spec, int_set_spec, str_set_spec, str_set_spec, str_set_spec, int_set_spec, C, C.
      destruct (m_name (fill i more)); [apply C|]; exact O0.
    + rewrite L. rewrite Forall_app. split; [destruct (i_name i) as [n|]; [apply Hn|constructor]|].
      constructor; [unfold is_byte; lia|]. constructor; [apply sw_is_byte|]. cbn [fill m_service m_cmd m_subject m_info].
      rewrite !Forall_app. repeat split; try apply enc_int_byte; apply enc_str_byte; assumption.
    + rewrite L. destruct (i_name i) as [[|]|]; discriminate.
    + intros _ d stale _. exists (fill i more). split; [destruct i as [nm [s|] sv cm sb [t|] inf vs]; reflexivity|].
      intros inp Oi Li. rewrite <- (app_nil_r (mem_live (encoded_normal (fill i more) out))) in Li.
      destruct O as [O1 O2]. pose proof Oi as [I1 I2]. unfold decoded_any.
      assert (Hn' : match i_name i with Some n => n <> [] /\ plain_name n | None => True end) by (destruct (i_name i); [cbn [name_ok] in Hn; tauto|exact Logic.I]).
      assert (E : decoded_normal stale inp = Some (DMsg (fill i more), inp)).
      { apply (decode_encode (fill i more) stale inp [] out); try exact (conj O1 O2); try exact (conj I1 I2);
          try reflexivity; try assumption; cbn [fill m_name m_service m_cmd m_subject m_info m_sno m_tag sw_sno sw_tag m_argvs].
        + destruct (i_sno i); [exact Hs|change (2 ^ 31) with 2147483648; lia].
        + destruct (i_sno i); [discriminate|reflexivity].
        + destruct (i_tag i); [exact (proj1 Ht)|lia].
        + destruct (i_tag i); [discriminate|reflexivity]. }
      rewrite E. reflexivity.
  - destruct (text_encoded i more out F O) as (t & enc & E & Oe & L & J & JL).
    exists enc. split; [exact E|]. split; [exact Oe|]. split; [|split].
    + rewrite L, Forall_app. split; [destruct F as (Hn & _); destruct (i_name i) as [n|]; [apply Hn|constructor]|].
      constructor; [unfold is_byte; lia|]. exact (proj1 json_byte _ _ J).
    + rewrite L. destruct (i_name i) as [[|]|]; discriminate.
    + intros Z d stale D.
      assert (Lt : (List.length t <= List.length (mem_live enc))%nat) by (rewrite L, app_length; cbn [List.length]; lia).
      destruct (text_decoded_same i d stale t F J (JL ltac:(lia) d ltac:(lia))) as (m & C & A).
      exists m. split; [exact C|]. intros inp Oi Li. apply A; [exact Oi|]. rewrite Li. exact L.
Qed.

(** ** the bytes sent for a message *)
Lemma data_len : forall f, (List.length (f_data f) <= List.length (frame_bytes f))%nat.
Proof.
  intros f. assert (M : forall k d i, List.length (mask_from k i d) = List.length d).
  { induction d as [|b d IH]; intros i; [reflexivity|]. cbn [mask_from List.length]. rewrite IH. reflexivity. }
  unfold frame_bytes. rewrite !app_length. destruct (f_key f); rewrite ?app_length, ?M; lia.
Qed.
Lemma make_spec : forall stale bytes i more, (forall k, is_byte (stale k)) -> fits bytes i ->
  exists w fs data, make_message stale bytes (fill i more) = Some w /\ w = message_bytes fs /\ message fs /\
    message_means fs (if bytes then 1 else 0) data /\ (List.length data <= List.length w)%nat /\
    (Z.of_nat (List.length w) < 2 ^ 31 -> forall d st, (List.length w <= d)%nat ->
       exists m, content m = i /\ reads d st ((if bytes then 1 else 0), data) (bytes, m)).
Proof.
  intros stale bytes i more St F.
  destruct (encoded_reads bytes i more (mem_create_size (16 * 1024)) F ltac:(apply mem_ok_create_size; lia)) as (enc & E & Oe & B & N & R).
  destruct (pack_lemma stale (mem_live enc) (if bytes then 1 else 0) (mem_create_size (16 * 1024)) St B
    ltac:(destruct bytes; unfold is_byte; lia) ltac:(apply mem_ok_create_size; lia) (or_introl N))
    as (fs & out' & P & Oo & L & M & MM & _ & _).
  exists (message_bytes fs), fs, (mem_live enc). unfold make_message. rewrite E, P, L.
  split; [reflexivity|]. split; [reflexivity|]. split; [exact M|]. split; [destruct bytes; exact MM|].
  assert (D : (List.length (mem_live enc) <= List.length (message_bytes fs))%nat).
  { assert (K : (List.length (message_data fs) <= List.length (message_bytes fs))%nat).
    { clear. unfold message_data, message_bytes. induction fs as [|f fs IH]; [cbn; lia|]. cbn [flat_map]. rewrite !app_length.
      assert (Q := data_len f). lia. }
    destruct MM as [(_ & _ & Q)|(_ & Q)]; [rewrite Q; exact K|]. rewrite Q, app_length in K. lia. }
  split; [exact D|]. intros Z d st Hd. destruct (R ltac:(lia) d st ltac:(lia)) as (m & C & Q). exists m. split; [exact C|].
  intros out Oout Lo. cbn [snd] in Lo. exact (Q out Oout Lo).
Qed.
