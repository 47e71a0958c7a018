(** C59 (SHA-1 and the accept value) and C61 (base64). *)
From Coq Require Import ZifyBool ZifyNat String.
From Verif Require Import Base S_sha1 S_hand M_sha1 L_sha1.
Open Scope list_scope.
Open Scope Z_scope.

(** ** C59: for every string, and whatever is in the working array before, the text sis_shacalc writes is the base64 text
    of the SHA-1 hash of FIPS 180-4.  (A string of 2^28 bytes or more overflows the int shift in line 123.) *)
Theorem C59_sha1 : forall src w, Forall (fun c => 0 < c < 256) src -> Z.of_nat (List.length src) < 2 ^ 28 -> List.length w = 80%nat ->
  shahash src w = sha1 src /\ shacalc src w = b64 (sha1 src).
Proof.
  intros src w F L LW.
  assert (B : Forall is_byte src) by (eapply Forall_impl; [|exact F]; unfold is_byte; intros; lia).
  assert (L' : Z.of_nat (List.length src) < 2 ^ 29) by (change (2 ^ 29) with (2 * 2 ^ 28); lia).
  split; [apply shahash_spec|apply shacalc_spec]; assumption.
Qed.
Print Assumptions C59_sha1.
(** the key of the example in RFC 6455, 1.3 *)
Example C59_sha1_ex : accept_value (txt "dGhlIHNhbXBsZSBub25jZQ==") = txt "s3pPLMBiTxaQ9kYGzzhZRbK+xOo=" /\
  shacalc (txt "dGhlIHNhbXBsZSBub25jZQ==258EAFA5-E914-47DA-95CA-C5AB0DC85B11") (repeat 7 80) = txt "s3pPLMBiTxaQ9kYGzzhZRbK+xOo=".
Proof. split; vm_compute; reflexivity. Qed.
(** the hash of "abc" and of the message of two blocks in FIPS 180 *)
Example C59_sha1_ex2 : sha1 (txt "abc") = [0xA9; 0x99; 0x3E; 0x36; 0x47; 0x06; 0x81; 0x6A; 0xBA; 0x3E; 0x25; 0x71; 0x78; 0x50; 0xC2; 0x6C; 0x9C; 0xD0; 0xD8; 0x9D] /\
  sha1 (txt "abcdbcdecdefdefgefghfghighijhijkijkljklmklmnlmnomnopnopq") =
  [0x84; 0x98; 0x3E; 0x44; 0x1C; 0x3B; 0xD2; 0x6E; 0xBA; 0xAE; 0x4A; 0xA1; 0xF9; 0x51; 0x29; 0xE5; 0xE5; 0x46; 0x70; 0xF1].
Proof. split; vm_compute; reflexivity. Qed.

(** ** C61: texts written are base64, and are read back. *)
Lemma encode_spec : forall l n, Forall is_byte l -> l <> [] -> (4 * ((List.length l + 2) / 3) + 1 <= n)%nat -> base64_encode l n = Some (b64 l ++ [0]).
Proof.
  intros l n F N LN. unfold base64_encode. destruct l as [|a l]; [congruence|]. destruct n as [|n]; [lia|]. rewrite be_loop_spec by (try exact F; unfold is_byte; lia).
  rewrite app_length, b64_length. cbn [List.length] in *. replace (_ <=? _)%nat with true by lia. reflexivity.
Qed.
Lemma b64_cons : forall a l, exists c r, b64 (a :: l) = c :: r.
Proof. intros a [|b [|c l]]; cbn [b64]; eauto. Qed.
Lemma decode_spec : forall l n, Forall is_byte l -> l <> [] -> (0 < n)%nat ->
  base64_decode (b64 l) n = if (List.length l + (if (List.length l mod 3 =? 0)%nat then 0 else 1) <=? n)%nat then DText l else DOver.
Proof.
  intros l n F N LN. unfold base64_decode. pose proof (b64_length l) as BL. pose proof (bd_loop_spec l 0 [] F eq_refl) as BD.
  destruct l as [|a l]; [congruence|]. destruct (b64_cons a l) as (c & r & E). rewrite E in *. destruct n as [|n]; [lia|].
  replace (List.length (c :: r) mod 4 =? 0)%nat with true by (symmetry; apply Nat.eqb_eq; rewrite BL, Nat.mul_comm; apply Nat.mod_mul; lia).
  cbn [negb]. rewrite BD. cbn [app]. unfold rest_part. destruct (List.length (a :: l) mod 3 =? 0)%nat; destruct (_ <=? _)%nat; reflexivity.
Qed.
Theorem C61_base64 : forall l n m, Forall is_byte l -> l <> [] -> (4 * ((List.length l + 2) / 3) + 1 <= n)%nat -> (List.length l + 1 <= m)%nat ->
  base64_encode l n = Some (b64 l ++ [0]) /\ base64_decode (b64 l) m = DText l.
Proof.
  intros l n m F N LN LM. split; [apply encode_spec; assumption|]. rewrite decode_spec by (try assumption; lia). destruct (_ mod 3 =? 0)%nat; replace (_ <=? _)%nat with true by lia; reflexivity.
Qed.
Print Assumptions C61_base64.
Example C61_base64_ex : base64_encode (txt "foobar!") 13 = Some (txt "Zm9vYmFyIQ==" ++ [0]) /\ base64_decode (txt "Zm9vYmFyIQ==") 8 = DText (txt "foobar!") /\
  b64 (txt "foobar!") = txt "Zm9vYmFyIQ==".
Proof. repeat split; vm_compute; reflexivity. Qed.
(** The size of the output that the caller passes is not used: any smaller one is written over. *)
Theorem C61_size_refuted : forall l n, Forall is_byte l -> l <> [] -> (0 < n < 4 * ((List.length l + 2) / 3) + 1)%nat -> base64_encode l n = None.
Proof.
  intros l n F N LN. unfold base64_encode. destruct l as [|a l]; [congruence|]. destruct n as [|n]; [lia|]. rewrite be_loop_spec by (try exact F; unfold is_byte; lia).
  rewrite app_length, b64_length. cbn [List.length] in *. replace (_ <=? _)%nat with false by lia. reflexivity.
Qed.
Print Assumptions C61_size_refuted.
Example C61_size_refuted_ex : base64_encode (txt "foobar!") 12 = None.
Proof. vm_compute. reflexivity. Qed.
(** A place for exactly the bytes decoded is too small by one, unless their number is a multiple of three. *)
Theorem C61_one_more_refuted : forall l, Forall is_byte l -> l <> [] -> (List.length l mod 3 <> 0)%nat -> base64_decode (b64 l) (List.length l) = DOver.
Proof.
  intros l F N M. rewrite decode_spec; [|exact F|exact N|destruct l; [congruence|cbn; lia]]. apply Nat.eqb_neq in M. rewrite M. replace (_ <=? _)%nat with false by lia. reflexivity.
Qed.
Print Assumptions C61_one_more_refuted.
Example C61_one_more_refuted_ex : base64_decode (txt "QQ==") 1 = DOver.
Proof. vm_compute. reflexivity. Qed.
(** Texts that are not base64 are read as if they were. *)
Theorem C61_strict_refuted : exists t l, base64_decode t 64 = DText l /\ l <> [] /\ b64 l <> t /\ forall l', Forall is_byte l' -> b64 l' <> t.
Proof.
  exists (txt "QQ=A"), [65]. split; [vm_compute; reflexivity|]. split; [discriminate|]. split; [vm_compute; discriminate|].
  intros l' F E. assert (N : l' <> []) by (intros ->; discriminate E). pose proof (decode_spec l' 64 F N ltac:(lia)) as D. rewrite E in D. change (base64_decode (txt "QQ=A") 64) with (DText [65]) in D.
  destruct (_ <=? _)%nat; [|discriminate D]. injection D as D. subst l'. vm_compute in E. discriminate E.
Qed.
Print Assumptions C61_strict_refuted.
