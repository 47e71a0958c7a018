(** Proofs about the step-wise table compressor. *)
From Verif Require Import Base S_bits M_bits L_bits L_bitcodec L_bitprops L_ext M_dynamic M_incrzip S_incrzip
  S_incrstep L_incrzip L_incrzip1 M_incrstep.
From Coq Require Import ZifyBool ZifyNat.

Definition cfg_cols (c : zcfg) (s : nat) : list column :=
  match nth_error (ztables c) s with Some t => columns (tfields t) | None => [] end.
Definition cfg_size (c : zcfg) (s : nat) : nat :=
  match nth_error (ztables c) s with Some t => tsize t | None => O end.

(** the configurations covered: no FLOAT/CHAR fields, and C int ranges *)
Definition cfg_ok (c : zcfg) : Prop :=
  Forall (fun t => Forall (field_ok (tsize t)) (tfields t)) (ztables c)
  /\ Z.of_nat (zkeys c) < 2 ^ 31 /\ Z.of_nat (length (ztables c)) < 2 ^ 31
  /\ Z.of_nat (zsize c) < 2 ^ 28.

(** calls that were accepted, as history events *)
Fixpoint accepted (ops : list zop) (flags : list bool) : list event :=
  match ops, flags with
  | ZStep k s recs :: ops', b :: fl => if b then EBag k s recs :: accepted ops' fl else accepted ops' fl
  | ZRestart b :: ops', _ :: fl => if b then EReset :: accepted ops' fl else accepted ops' fl
  | _, _ => []
  end.

Lemma set_slot_same m k s v : set_slot m k s v k s = v.
Proof. unfold set_slot. rewrite !Nat.eqb_refl. reflexivity. Qed.
Lemma set_slot_other m k s v k' s' : (k', s') <> (k, s) -> set_slot m k s v k' s' = m k' s'.
Proof.
  intros H. unfold set_slot. destruct (Nat.eqb_spec k' k), (Nat.eqb_spec s' s); cbn; auto. congruence.
Qed.

Section Step.
Variable c : zcfg.
Hypothesis Hc : cfg_ok c.

Definition item_ok := same_item (cfg_cols c).

Lemma last_default {A} (x : A) l d d' : last (x :: l) d = last (x :: l) d'.
Proof. revert x; induction l as [|y l IH]; intros x; [reflexivity|]. cbn [last] in *. apply IH. Qed.

Lemma same_item_of t k sx r r' : nth_error (ztables c) sx = Some t -> same_cov (tfields t) r r' ->
  item_ok (k, sx, r) (k, sx, r').
Proof.
  intros Ht H. split; [reflexivity|]. cbn [fst snd]. unfold cfg_cols. rewrite Ht. apply same_cov_values. assumption.
Qed.

Lemma table_fields_ok sx t : nth_error (ztables c) sx = Some t -> Forall (field_ok (tsize t)) (tfields t).
Proof. intros H. destruct Hc as (H1 & _). rewrite Forall_forall in H1. apply H1. eapply nth_error_In; eassumption. Qed.

(** one record *)
Lemma dec_one (d : dec) (zip : bool) k sx t r memE s s' n :
  nth_error (ztables c) sx = Some t -> (tsize t <= length (d_catch d))%nat ->
  rec_ok (tsize t) r -> length memE = tsize t -> diffs_ok (tfields t) memE r ->
  (if zip then sseen (d_slots d k sx) = true /\ same_cov (tfields t) memE (smem (d_slots d k sx))
   else memE = repeat 0 (tsize t)) ->
  rd s s' (bits_rec memE r (tfields t)) ->
  exists r' ct, dec_recs s d zip k sx t (S n) =
      dec_recs s' (mkdec (set_slot (d_slots d) k sx (mkslot true r')) ct (d_out d ++ [(k, sx, r')])) zip k sx t n
    /\ same_cov (tfields t) r r' /\ length ct = length (d_catch d).
Proof.
  intros Ht Hct Hr Hm Hdf Hz R. cbn [dec_recs].
  destruct (Nat.leb_spec (tsize t) (length (d_catch d))); [|lia]. cbn [negb].
  destruct (zget_rec_ok (tsize t) (if zip then Some (smem (d_slots d k sx)) else None) memE r (tfields t) s s'
     (firstn (tsize t) (d_catch d))) as (o & E1 & E2 & _ & E4); auto.
  { apply (table_fields_ok sx); assumption. }
  { rewrite firstn_length. lia. }
  { intros f Hin. destruct zip; cbn [mem_agrees].
    - destruct Hz as [_ [Z1 Z2]]. split; [congruence|]. intros p Hp. symmetry. apply Z2. exists f. auto.
    - intros i Hi. rewrite Hz. apply eval_zero. }
  rewrite E1.
  replace (zip && negb (sseen (d_slots d k sx)))%bool with false
    by (destruct zip; [destruct Hz as [-> _]; reflexivity|reflexivity]).
  exists o, (o ++ skipn (tsize t) (d_catch d)). split; [reflexivity|].
  split; [|rewrite app_length, skipn_length; lia].
  split; [destruct Hr; congruence|]. intros p Hp. symmetry. apply E4. assumption.
Qed.

(** all records of a bag whose slot both sides have seen *)
Lemma dec_recs_seen k sx t : nth_error (ztables c) sx = Some t -> forall recs d memE s s',
  (tsize t <= length (d_catch d))%nat -> Forall (rec_ok (tsize t)) recs -> length memE = tsize t ->
  all_diffs_ok (tfields t) memE recs ->
  sseen (d_slots d k sx) = true -> same_cov (tfields t) memE (smem (d_slots d k sx)) ->
  rd s s' (bits_recs memE (tfields t) recs) ->
  exists d' outs, dec_recs s d true k sx t (length recs) = Some (s', d')
    /\ d_out d' = d_out d ++ outs /\ Forall2 item_ok (map (fun r => (k, sx, r)) recs) outs
    /\ length (d_catch d') = length (d_catch d)
    /\ (forall k' s'', (k', s'') <> (k, sx) -> d_slots d' k' s'' = d_slots d k' s'')
    /\ sseen (d_slots d' k sx) = true /\ same_cov (tfields t) (last recs memE) (smem (d_slots d' k sx)).
Proof.
  intros Ht. induction recs as [|r recs IH]; intros d memE s s' Hct Hr Hm Hdf Hs Hsc R.
  - exists d, []. cbn [length dec_recs bits_recs] in *. destruct R as [_ _ _ R4 R5].
    destruct s as [a b], s' as [a' b']. cbn in *. subst. rewrite Nat.add_0_r, app_nil_r.
    repeat split; auto; apply Hsc.
  - cbn [bits_recs] in R. apply rd_app in R. destruct R as (s1 & R1 & R2).
    apply Forall_cons_iff in Hr. destruct Hr as [Hr1 Hr2]. destruct Hdf as [D1 D2].
    destruct (dec_one d true k sx t r memE s s1 (length recs) Ht Hct Hr1 Hm D1 (conj Hs Hsc) R1) as (r' & ct & E & S1 & L1).
    cbn [length]. rewrite E.
    edestruct (IH (mkdec (set_slot (d_slots d) k sx (mkslot true r')) ct (d_out d ++ [(k, sx, r')])) r s1 s')
      as (d' & outs & G1 & G2 & G3 & G4 & G5 & G6 & G7); cbn [d_slots d_catch d_out] in *;
      rewrite ?set_slot_same; cbn [sseen smem]; auto.
    { lia. } { apply Hr1. }
    exists d', ((k, sx, r') :: outs). rewrite G1. split; [reflexivity|].
    split; [rewrite G2, <- app_assoc; reflexivity|].
    split; [constructor; [eapply same_item_of; eassumption|assumption]|].
    split; [lia|]. split; [intros k' s'' Hne; rewrite G5 by assumption; apply set_slot_other; assumption|].
    split; [assumption|]. destruct recs as [|r2 recs]; [exact G7|].
    rewrite last_cons, (last_default r2 recs memE r). exact G7.
Qed.

(** the correspondence between the encoder's memory and the decoder's *)
Definition rel (E D : slots) : Prop :=
  forall k s t, (k < zkeys c)%nat -> nth_error (ztables c) s = Some t ->
    rec_ok (tsize t) (smem (E k s))
    /\ (sseen (E k s) = true -> sseen (D k s) = true /\ same_cov (tfields t) (smem (E k s)) (smem (D k s)))
    /\ (sseen (E k s) = false -> smem (E k s) = repeat 0 (tsize t)).

Definition catch_ok (d : dec) := forall s t, nth_error (ztables c) s = Some t -> (tsize t <= length (d_catch d))%nat.

Definition bag_slot (sl : slot) (recs : list (list Z)) : slot :=
  mkslot (match recs with [] => sseen sl | _ => true end) (last recs (smem sl)).

Lemma last_in {A} (l : list A) d : l <> [] -> In (last l d) l.
Proof.
  induction l as [|x l IH]; [congruence|]. intros _. destruct l as [|y l]; [left; reflexivity|].
  right. apply IH. discriminate.
Qed.

Lemma dec_bag_ok (E : slots) d k sx t recs s s' :
  (k < zkeys c)%nat -> nth_error (ztables c) sx = Some t -> rel E (d_slots d) -> catch_ok d ->
  Forall (rec_ok (tsize t)) recs -> Z.of_nat (length recs) < 2 ^ 31 ->
  (sseen (E k sx) = false -> (length recs <= 1)%nat) ->
  all_diffs_ok (tfields t) (smem (E k sx)) recs ->
  rd s s' (bits_bag (sseen (E k sx)) (Z.of_nat k) (Z.of_nat sx) (smem (E k sx)) (tfields t) recs) ->
  exists d' outs, dec_bag c s d = Some (s', d') /\ d_out d' = d_out d ++ outs
    /\ Forall2 item_ok (map (fun r => (k, sx, r)) recs) outs /\ catch_ok d'
    /\ rel (set_slot E k sx (bag_slot (E k sx) recs)) (d_slots d').
Proof.
  intros Hk Ht HR Hct Hr Hn H1 Hdf R. destruct Hc as (_ & Kb & Tb & _).
  assert (Hsx : (sx < length (ztables c))%nat) by (apply nth_error_Some; congruence).
  unfold bits_bag in R. apply rd_hdr in R; [|lia|lia|assumption].
  destruct R as (s1 & s2 & s3 & s4 & G1 & G2 & G3 & G4 & R).
  unfold dec_bag. rewrite G1, G2, G3, G4. rewrite to_s_small by (change (32 - 1) with 31; lia).
  rewrite !Nat2Z.id. cbn zeta.
  destruct (HR k sx t Hk Ht) as (M1 & M2 & M3).
  destruct recs as [|r0 recs0] eqn:Er.
  { cbn [length bits_recs] in *. exists d, []. destruct R as [_ _ _ R4 R5].
    destruct s4 as [a b], s' as [a' b']. cbn in R4, R5. subst. rewrite Nat.add_0_r, app_nil_r.
    split; [reflexivity|]. split; [reflexivity|]. split; [constructor|]. split; [assumption|].
    intros k' s'' t' Hk' Ht'. specialize (HR k' s'' t' Hk' Ht'). unfold set_slot, bag_slot.
    destruct (Nat.eqb_spec k' k), (Nat.eqb_spec s'' sx); cbn; auto. subst. exact HR. }
  rewrite <- Er in *. assert (Hne : recs <> []) by (rewrite Er; discriminate).
  destruct (length recs) as [|m] eqn:El; [destruct recs; [congruence|discriminate]|]. rewrite <- El in *.
  destruct (Z.ltb_spec (Z.of_nat k) (Z.of_nat (zkeys c))); [|lia].
  destruct (Z.ltb_spec (Z.of_nat sx) (Z.of_nat (length (ztables c)))); [|lia].
  cbn [andb]. rewrite Ht.
  assert (Hfin : forall d' outs, d_out d' = d_out d ++ outs ->
     (forall k' s'', (k', s'') <> (k, sx) -> d_slots d' k' s'' = d_slots d k' s'') ->
     length (d_catch d') = length (d_catch d) ->
     sseen (d_slots d' k sx) = true -> same_cov (tfields t) (last recs (smem (E k sx))) (smem (d_slots d' k sx)) ->
     catch_ok d' /\ rel (set_slot E k sx (bag_slot (E k sx) recs)) (d_slots d')).
  { intros d' outs _ F1 F2 F3 F4. split.
    - intros s0 t0 Hs0. rewrite F2. eapply Hct; eassumption.
    - intros k' s'' t' Hk' Ht'. specialize (HR k' s'' t' Hk' Ht').
      destruct (Nat.eq_dec k' k) as [->|Nk]; [destruct (Nat.eq_dec s'' sx) as [->|Ns]|].
      + rewrite set_slot_same. rewrite Ht in Ht'. injection Ht' as <-. unfold bag_slot.
        cbn [sseen smem]. split.
        * rewrite Forall_forall in Hr. apply Hr. apply last_in. assumption.
        * split; [intros _; auto|]. rewrite Er. discriminate.
      + rewrite set_slot_other by congruence. rewrite F1 by congruence. exact HR.
      + rewrite set_slot_other by congruence. rewrite F1 by congruence. exact HR. }
  destruct (sseen (E k sx)) eqn:Es.
  - cbn [Z.eqb negb]. destruct (M2 eq_refl) as [D1 D2].
    destruct (dec_recs_seen k sx t Ht recs d (smem (E k sx)) s4 s') as (d' & outs & A1 & A2 & A3 & A4 & A5 & A6 & A7); auto.
    { eapply Hct; eassumption. } { apply M1. }
    exists d', outs. split; [exact A1|]. split; [assumption|]. split; [assumption|]. eapply Hfin; eassumption.
  - cbn [Z.eqb negb]. specialize (H1 eq_refl).
    assert (Hl : recs0 = []) by (rewrite Er in H1; destruct recs0; [reflexivity|cbn in H1; lia]).
    subst recs0. subst recs. cbn [length bits_recs] in *.
    apply Forall_cons_iff in Hr. destruct Hr as [Hr1 _]. destruct Hdf as [Dd _].
    rewrite app_nil_r in R.
    destruct (dec_one d false k sx t r0 (smem (E k sx)) s4 s' 0 Ht) as (r' & ct & A1 & A2 & A3); auto.
    { eapply Hct; eassumption. } { apply M1. }
    rewrite A1. cbn [dec_recs].
    eexists _, [(k, sx, r')]. split; [reflexivity|]. cbn [d_out]. split; [reflexivity|].
    split; [constructor; [eapply same_item_of; eassumption|constructor]|].
    eapply (Hfin _ [(k, sx, r')]); cbn [d_out d_slots d_catch]; auto.
    + intros k' s'' Hne'. apply set_slot_other. assumption.
    + rewrite set_slot_same. reflexivity.
    + rewrite set_slot_same. exact A2.
Qed.

Lemma bits_uint_len v : (6 <= length (bits_uint v))%nat.
Proof.
  unfold bits_uint.
  repeat match goal with |- context [if ?b then _ else _] => destruct b end;
    rewrite app_length, !tobits_length; lia.
Qed.

Lemma bits_bag_len seen k s mem fs recs : (19 <= length (bits_bag seen k s mem fs recs))%nat.
Proof.
  unfold bits_bag, bits_hdr. rewrite !app_length, tobits_length.
  assert (A := bits_uint_len k). assert (B := bits_uint_len s). assert (C := bits_uint_len (Z.of_nat (length recs))). lia.
Qed.

Variable d0 : dec.

Record inv (e : enc) (exp : list (nat * nat * list Z)) (d1 : dec) (exp1 exp2 : list (nat * nat * list Z))
  (cur : list (list bool)) : Prop := mkinv {
  iv_exp : exp = exp1 ++ exp2;
  iv_run : dec_run c d0 (e_out e) = Some d1;
  iv_out : Forall2 item_ok exp1 (d_out d1);
  iv_cur : forall s s', rd s s' (concat cur) -> exists d2 outs, dec_bags c (length cur) s d1 = Some (s', d2)
    /\ d_out d2 = d_out d1 ++ outs /\ Forall2 item_ok exp2 outs /\ catch_ok d2 /\ rel (e_slots e) (d_slots d2);
  iv_bags : e_bags e = Z.of_nat (length cur);
  iv_size : length (bdat (e_s e)) = zsize c;
  iv_len : (19 * length cur <= bpos (e_s e))%nat;
  iv_cont : exists hdr, cont (e_s e) (hdr ++ concat cur)
    /\ (cur = [] -> hdr = [] /\ e_bagsize e = 0%nat /\ e_init e <> None)
    /\ (cur <> [] -> e_init e = None /\ exists ib s0, hdr = tobits 1 ib /\ 0 <= ib < 2
         /\ cont s0 (hdr ++ concat cur) /\ bpos s0 = bpos (e_s e)
         /\ zset_bags s0 (e_bags e) = Some (e_s e, e_bagsize e)) }.

Lemma dec_run_app d pkts p : dec_run c d (pkts ++ [p]) =
  match dec_run c d pkts with Some d1 => dec_step c d1 p | None => None end.
Proof.
  revert d; induction pkts as [|q pkts IH]; intros d; cbn.
  - destruct (dec_step c d p); reflexivity.
  - destruct (dec_step c d q); [apply IH|reflexivity].
Qed.

Lemma dec_bags_app n m s d : dec_bags c (n + m) s d =
  match dec_bags c n s d with Some (s', d') => dec_bags c m s' d' | None => None end.
Proof.
  revert s d; induction n as [|n IH]; intros s d; cbn [Nat.add dec_bags]; [reflexivity|].
  destruct (dec_bag c s d) as [[s1 d1]|]; [apply IH|reflexivity].
Qed.

Lemma inv_size_pos e exp d1 exp1 exp2 cur : inv e exp d1 exp1 exp2 cur ->
  (enc_size e = 0%nat <-> cur = []).
Proof.
  intros I. destruct (iv_cont _ _ _ _ _ _ I) as (hdr & C & H1 & H2). unfold enc_size, zgetsize. split.
  - intros H. destruct cur as [|b cur]; [reflexivity|].
    assert (L := iv_len _ _ _ _ _ _ I). cbn [length] in L.
    assert (X : (1 <= (bpos (e_s e) + 7) / 8)%nat) by (apply Nat.div_le_lower_bound; lia). lia.
  - intros E. destruct (H1 E) as (-> & -> & _). rewrite (ct_pos _ _ C), E. reflexivity.
Qed.

Lemma cap_bags e exp d1 exp1 exp2 cur : inv e exp d1 exp1 exp2 cur -> Z.of_nat (length cur) < 2 ^ 30.
Proof.
  intros I. destruct (iv_cont _ _ _ _ _ _ I) as (hdr & C & _). assert (L := iv_len _ _ _ _ _ _ I).
  assert (B := ct_cap _ _ C). rewrite (iv_size _ _ _ _ _ _ I) in B. destruct Hc as (_ & _ & _ & Hz). lia.
Qed.

(** handing over a packet *)
Lemma packet_decodes e exp d1 exp1 exp2 cur : inv e exp d1 exp1 exp2 cur -> cur <> [] ->
  exists d2, dec_run c d0 (e_out e ++ [firstn (enc_size e) (bdat (e_s e))]) = Some d2
    /\ Forall2 item_ok exp (d_out d2) /\ catch_ok d2 /\ rel (e_slots e) (d_slots d2).
Proof.
  intros I Hne. rewrite dec_run_app, (iv_run _ _ _ _ _ _ I).
  destruct (iv_cont _ _ _ _ _ _ I) as (hdr & C & _ & H2).
  destruct (H2 Hne) as (_ & ib & s0 & Hh & Hib & C0 & Hp & HS).
  assert (B := cap_bags _ _ _ _ _ _ I). assert (Hb := iv_bags _ _ _ _ _ _ I).
  assert (Hl : (0 < length cur)%nat) by (destruct cur; [congruence|cbn; lia]).
  assert (Hbr : 0 < e_bags e < 2 ^ 31) by lia.
  destruct (packet_ok _ _ _ _ _ C0 Hbr HS) as [R HB].
  unfold enc_size. set (pkt := firstn (zgetsize (e_s e) (e_bagsize e)) (bdat (e_s e))) in *.
  unfold dec_step. rewrite HB. destruct (Z.ltb_spec (e_bags e) 1); [lia|].
  apply rd_app in R. destruct R as (s1 & R1 & R2). rewrite Hh in R1.
  rewrite (bget_rd_small _ s1 1 ib R1) by (cbn; lia).
  destruct (iv_cur _ _ _ _ _ _ I _ _ R2) as (d2 & outs & D1 & D2 & D3 & D4 & D5).
  rewrite Hb, Nat2Z.id, D1. exists d2. split; [reflexivity|]. split; [|auto].
  rewrite D2, (iv_exp _ _ _ _ _ _ I). apply Forall2_app; [apply (iv_out _ _ _ _ _ _ I)|assumption].
Qed.

Lemma inv_emit e exp d1 exp1 exp2 cur ini : inv e exp d1 exp1 exp2 cur -> cur <> [] -> ini <> None ->
  exists d2, inv (mkenc (e_slots e) (mkbs (bdat (e_s e)) 0) ini 0 0
                 (e_out e ++ [firstn (enc_size e) (bdat (e_s e))])) exp d2 exp [] [].
Proof.
  intros I Hne Hini. destruct (packet_decodes _ _ _ _ _ _ I Hne) as (d2 & D1 & D2 & D3 & D4).
  exists d2. split; cbn [e_slots e_s e_init e_bags e_bagsize e_out bdat bpos]; auto.
  - rewrite app_nil_r. reflexivity.
  - intros s s' R. cbn in R. destruct R as [_ _ _ R4 R5]. cbn in R5.
    exists d2, []. destruct s as [a b], s' as [a' b']. cbn in *. subst. rewrite Nat.add_0_r, app_nil_r.
    split; [reflexivity|]. split; [reflexivity|]. split; [constructor|]. auto.
  - apply (iv_size _ _ _ _ _ _ I).
  - exists []. destruct (iv_cont _ _ _ _ _ _ I) as (hdr & C & _ & _). split; [apply cont_start; apply C|].
    split; [auto|congruence].
Qed.

Lemma rel_zero D : rel (zero_slots c) D.
Proof.
  intros k s t Hk Ht. unfold zero_slots. rewrite Ht. cbn. split; [apply rec_ok_zero|]. split; [discriminate|reflexivity].
Qed.

Lemma inv_reset e exp d1 exp1 exp2 : inv e exp d1 exp1 exp2 [] ->
  inv (mkenc (zero_slots c) (e_s e) (Some true) (e_bags e) (e_bagsize e) (e_out e)) exp d1 exp1 exp2 [].
Proof.
  intros [A1 A2 A3 A4 A5 A6 A7 A8].
  split; cbn [e_slots e_s e_init e_bags e_bagsize e_out]; auto.
  - intros s s' R. destruct (A4 s s' R) as (d2 & outs & B1 & B2 & B3 & B4 & B5).
    exists d2, outs. repeat (split; [assumption|]). apply rel_zero.
  - destruct A8 as (hdr & C & H1 & H2). exists hdr. split; [assumption|]. split; [|congruence].
    intros _. destruct (H1 eq_refl) as (X & Y & _). repeat split; auto. discriminate.
Qed.

Lemma inv_bag e exp d1 exp1 exp2 cur k sx t recs s sl s' n :
  inv e exp d1 exp1 exp2 cur -> (k < zkeys c)%nat -> nth_error (ztables c) sx = Some t ->
  Forall (rec_ok (tsize t)) recs -> Z.of_nat (length recs) < 2 ^ 31 ->
  (sseen (e_slots e k sx) = false -> (length recs <= 1)%nat) ->
  all_diffs_ok (tfields t) (smem (e_slots e k sx)) recs ->
  length (smem (e_slots e k sx)) = tsize t ->
  zbag (e_s e) (e_init e) (e_slots e k sx) (Z.of_nat k) (Z.of_nat sx) t recs = Some (s, sl) ->
  zset_bags s (e_bags e + 1) = Some (s', n) ->
  sl = bag_slot (e_slots e k sx) recs
  /\ exists cur', inv (mkenc (set_slot (e_slots e) k sx sl) s' None (e_bags e + 1) n (e_out e))
      (exp ++ map (fun r => (k, sx, r)) recs) d1 exp1 (exp2 ++ map (fun r => (k, sx, r)) recs) cur'.
Proof.
  intros I Hk Ht Hr Hn H1 Hdf Hm EB ES.
  destruct (iv_cont _ _ _ _ _ _ I) as (hdr & C & C1 & C2).
  assert (Hsx : (sx < length (ztables c))%nat) by (apply nth_error_Some; congruence).
  assert (Hcc := Hc). destruct Hcc as (_ & Kb & Tb & Zb).
  destruct (zbag_wrc (e_s e) s (e_init e) (e_slots e k sx) sl (Z.of_nat k) (Z.of_nat sx) t recs) as [W Esl]; auto;
    [eapply table_fields_ok; eassumption|lia|lia|apply C|apply C|].
  split; [exact Esl|].
  set (bag := bits_bag (sseen (e_slots e k sx)) (Z.of_nat k) (Z.of_nat sx) (smem (e_slots e k sx)) (tfields t) recs) in *.
  assert (CB := cont_wrc _ _ _ _ C W).
  assert (Hdr : exists ib, 0 <= ib < 2 /\ (hdr ++ concat cur) ++ bits_init (e_init e) ++ bag
                = tobits 1 ib ++ concat (cur ++ [bag])).
  { rewrite concat_app. cbn [concat]. rewrite app_nil_r. destruct cur as [|b0 cur0].
    - destruct (C1 eq_refl) as (-> & _ & Hi). destruct (e_init e) as [b|]; [|congruence].
      exists (Z.b2z b). split; [destruct b; cbn; lia|]. reflexivity.
    - destruct (C2 ltac:(discriminate)) as (-> & ib & s0 & -> & Hib & _). exists ib. split; [assumption|].
      cbn [bits_init]. rewrite app_nil_l, <- !app_assoc. reflexivity. }
  destruct Hdr as (ib & Hib & Hdr). rewrite Hdr in CB.
  assert (Lb := iv_len _ _ _ _ _ _ I). assert (Hbl := bits_bag_len (sseen (e_slots e k sx)) (Z.of_nat k) (Z.of_nat sx) (smem (e_slots e k sx)) (tfields t) recs).
  fold bag in Hbl.
  assert (Wl := wr_pos _ _ _ (proj1 W)). rewrite app_length in Wl.
  assert (Wd := wr_len _ _ _ (proj1 W)). rewrite (iv_size _ _ _ _ _ _ I) in Wd.
  assert (Hbb := iv_bags _ _ _ _ _ _ I). assert (Hcap := cap_bags _ _ _ _ _ _ I).
  assert (Hbr : 0 < e_bags e + 1 < 2 ^ 31) by lia.
  destruct (zset_bags_ok _ _ _ _ _ CB Hbr ES) as (CS & PS & _ & _ & _).
  assert (HLs : length (bdat s') = zsize c).
  { clear - ES Wd CB. unfold zset_bags in ES.
    set (a := mkbs (bdat s) (align8 (bpos s))) in *.
    assert (Ha : Forall is_byte (bdat a)) by apply CB.
    assert (Hq : (bpos a <= 8 * length (bdat a))%nat).
    { cbn [bdat bpos a]. rewrite align8_spec. assert (X := ct_cap _ _ CB).
      assert (Y : ((bpos s + 7) / 8 < S (length (bdat s)))%nat) by (apply Nat.div_lt_upper_bound; lia). lia. }
    destruct ((e_bags e + 1 <=? 250) && (0 <? e_bags e + 1)).
    - destruct (bput a _ 8) as [u|] eqn:E; [|discriminate]. injection ES as <- <-.
      apply bput_wrc in E; auto; [|lia]. cbn [bdat]. rewrite (wr_len _ _ _ (proj1 E)). exact Wd.
    - unfold bput2 in ES. destruct (e_bags e + 1 <=? 65535).
      + destruct (bput a _ 16) as [u1|] eqn:E1; [|discriminate]. destruct (bput u1 _ 8) as [u|] eqn:E; [|discriminate].
        injection ES as <- <-. apply bput_wrc in E1; auto; [|lia].
        apply bput_wrc in E; [|eapply wrc_byte; eassumption|eapply wrc_cap; eassumption|lia].
        cbn [bdat]. rewrite (wr_len _ _ _ (proj1 E)), (wr_len _ _ _ (proj1 E1)). exact Wd.
      + destruct (bput a _ 32) as [u1|] eqn:E1; [|discriminate]. destruct (bput u1 _ 8) as [u|] eqn:E; [|discriminate].
        injection ES as <- <-. apply bput_wrc in E1; auto; [|lia].
        apply bput_wrc in E; [|eapply wrc_byte; eassumption|eapply wrc_cap; eassumption|lia].
        cbn [bdat]. rewrite (wr_len _ _ _ (proj1 E)), (wr_len _ _ _ (proj1 E1)). exact Wd. }
  exists (cur ++ [bag]). split; cbn [e_slots e_s e_init e_bags e_bagsize e_out]; auto.
  - rewrite (iv_exp _ _ _ _ _ _ I), <- app_assoc. reflexivity.
  - apply (iv_run _ _ _ _ _ _ I).
  - apply (iv_out _ _ _ _ _ _ I).
  - intros u u' R. rewrite concat_app in R. cbn [concat] in R. rewrite app_nil_r in R.
    apply rd_app in R. destruct R as (u1 & R1 & R2).
    destruct (iv_cur _ _ _ _ _ _ I _ _ R1) as (d2 & outs & D1 & D2 & D3 & D4 & D5).
    destruct (dec_bag_ok (e_slots e) d2 k sx t recs u1 u') as (d3 & outs3 & F1 & F2 & F3 & F4 & F5); auto.
    exists d3, (outs ++ outs3). rewrite app_length. cbn [length].
    rewrite dec_bags_app, D1. cbn [dec_bags]. rewrite F1. split; [reflexivity|].
    split; [rewrite F2, D2, app_assoc; reflexivity|].
    split; [apply Forall2_app; assumption|]. split; [assumption|]. rewrite Esl. exact F5.
  - rewrite app_length. cbn [length]. lia.
  - rewrite app_length. cbn [length]. lia.
  - exists (tobits 1 ib). split; [assumption|]. split; [intros X; destruct cur; discriminate|].
    intros _. split; [reflexivity|]. exists ib, s. repeat split; auto; lia || apply CB.
Qed.

Definition Inv e exp := exists d1 exp1 exp2 cur, inv e exp d1 exp1 exp2 cur.

(** the specification's previous records are the encoder's memory *)
Definition linked (prev : nat -> nat -> option (list Z)) (E : slots) : Prop :=
  forall k s t, nth_error (ztables c) s = Some t ->
    rec_ok (tsize t) (smem (E k s))
    /\ E k s = match prev k s with Some r => mkslot true r | None => mkslot false (repeat 0 (tsize t)) end.

Lemma linked_zero : linked (fun _ _ => None) (zero_slots c).
Proof.
  intros k s t Ht. unfold zero_slots. rewrite Ht. split; [apply rec_ok_zero|reflexivity].
Qed.

Lemma enc_step_ok e exp prev k sx recs e' b : Inv e exp -> linked prev (e_slots e) ->
  enc_step c e k sx recs = Some (e', b) ->
  if b then
    Forall (fun r => length r = cfg_size c sx /\ Forall is_byte r) recs ->
    (prev k sx = None -> (length recs <= 1)%nat) ->
    steps_ok (cfg_cols c sx) (match prev k sx with Some r => r | None => repeat 0 (cfg_size c sx) end) recs ->
    Inv e' (exp ++ map (fun r => (k, sx, r)) recs)
    /\ linked (put prev k sx (match recs with [] => prev k sx | r :: recs' => Some (last recs' r) end)) (e_slots e')
  else e' = e.
Proof.
  intros I HL H. unfold enc_step in H.
  destruct (nth_error (ztables c) sx) as [t|] eqn:Ht; [|injection H as <- <-; reflexivity].
  destruct (Nat.ltb_spec k (zkeys c)) as [Hk|Hk]; cbn [negb] in H; [|injection H as <- <-; reflexivity].
  set (newsize := (length recs * tsize t + length recs * 8 + 256)%nat) in *.
  destruct (Nat.ltb_spec (zsize c) newsize) as [Hz|Hz]; [injection H as <- <-; reflexivity|].
  match type of H with context [zbag (e_s ?x) _ _ _ _ _ _] => set (e1 := x) in * end.
  assert (I1 : Inv e1 exp /\ e_slots e1 = e_slots e).
  { subst e1. destruct (Nat.ltb_spec (zsize c) (enc_size e + newsize)) as [Hs|Hs]; [|auto].
    destruct I as (d1 & exp1 & exp2 & cur & I). split; [|reflexivity].
    assert (Hne : cur <> []).
    { intros X. apply (inv_size_pos _ _ _ _ _ _ I) in X. lia. }
    destruct (inv_emit _ _ _ _ _ _ (Some false) I Hne ltac:(discriminate)) as (d2 & I2).
    exists d2, exp, [], []. exact I2. }
  clearbody e1. destruct I1 as [I1 Es]. cbn zeta in H.
  destruct (zbag _ _ _ _ _ _ _) as [[s sl]|] eqn:EB; [|discriminate].
  destruct (zset_bags s _) as [[s' n]|] eqn:ES; [|discriminate].
  injection H as <- <-.
  intros Hr H1 Hst. assert (HL0 := HL k sx t Ht). destruct HL0 as [M1 M2].
  unfold cfg_size, cfg_cols in *. rewrite Ht in *.
  assert (Hcc := Hc). destruct Hcc as (_ & _ & _ & Zb).
  destruct I1 as (d1 & exp1 & exp2 & cur & I1).
  rewrite Es in EB.
  destruct (inv_bag e1 exp d1 exp1 exp2 cur k sx t recs s sl s' n) as [Esl [cur' I2]]; auto.
  - lia.
  - rewrite Es, M2. destruct (prev k sx); [discriminate|]. intros _. apply H1. reflexivity.
  - rewrite Es. apply (steps_diffs (tsize t)); auto.
    + eapply table_fields_ok; eassumption.
    + rewrite M2. destruct (prev k sx); exact Hst.
  - rewrite Es. apply M1.
  - rewrite Es. assumption.
  - split; [exists d1, exp1, (exp2 ++ map (fun r => (k, sx, r)) recs), cur'; exact I2|].
    cbn [e_slots]. intros k' s'' t' Ht'. rewrite Es in *.
    destruct (HL k' s'' t' Ht') as [N1 N2].
    destruct (Nat.eq_dec k' k) as [->|Nk]; [destruct (Nat.eq_dec s'' sx) as [->|Ns]|].
    + rewrite set_slot_same. unfold put. rewrite !Nat.eqb_refl. cbn [andb].
      rewrite Ht in Ht'. injection Ht' as <-. rewrite Esl. unfold bag_slot. cbn [smem]. split.
      * destruct recs as [|r recs]; [assumption|]. rewrite Forall_forall in Hr. apply Hr. apply last_in. discriminate.
      * destruct recs as [|r recs].
        { cbn [last]. rewrite <- M2. destruct (e_slots e k sx); reflexivity. }
        { f_equal. destruct recs as [|r2 recs]; [reflexivity|]. rewrite last_cons. apply last_default. }
    + rewrite set_slot_other by congruence. split; [assumption|]. unfold put.
      destruct (Nat.eqb_spec s'' sx); [congruence|]. rewrite andb_false_r. assumption.
    + rewrite set_slot_other by congruence. split; [assumption|]. unfold put.
      destruct (Nat.eqb_spec k' k); [congruence|]. assumption.
Qed.

Lemma enc_restart_ok e exp prev b : Inv e exp -> linked prev (e_slots e) ->
  Inv (enc_restart c e b) exp
  /\ linked (if b then fun _ _ => None else prev) (e_slots (enc_restart c e b)).
Proof.
  intros I HL. destruct I as (d1 & exp1 & exp2 & cur & I). unfold enc_restart.
  destruct (Nat.ltb_spec 0 (enc_size e)) as [Hs|Hs].
  - assert (Hne : cur <> []) by (intros X; apply (inv_size_pos _ _ _ _ _ _ I) in X; lia).
    destruct b; cbn zeta; cbn [e_slots enc_emit].
    + split; [|apply linked_zero].
      destruct (inv_emit _ _ _ _ _ _ (Some true) I Hne ltac:(discriminate)) as (d2 & I2).
      exists d2, exp, [], []. exact (inv_reset _ _ _ _ _ I2).
    + split; [|assumption].
      destruct (inv_emit _ _ _ _ _ _ (Some false) I Hne ltac:(discriminate)) as (d2 & I2).
      exists d2, exp, [], []. exact I2.
  - assert (X : cur = []) by (apply (inv_size_pos _ _ _ _ _ _ I); lia). subst cur.
    destruct b; cbn zeta; cbn [e_slots].
    + split; [|apply linked_zero]. exists d1, exp1, exp2, []. apply inv_reset. assumption.
    + split; [|assumption]. exists d1, exp1, exp2, []. assumption.
Qed.

Lemma enc_run_ok ops : forall e exp prev e' fl, Inv e exp -> linked prev (e_slots e) ->
  enc_run c e ops = Some (e', fl) -> hist_ok (cfg_cols c) (cfg_size c) prev (accepted ops fl) ->
  Inv e' (exp ++ delivered (accepted ops fl)).
Proof.
  induction ops as [|[k s recs|b] ops IH]; intros e exp prev e' fl I HL H HH; cbn [enc_run] in H.
  - injection H as <- <-. cbn. rewrite app_nil_r. assumption.
  - destruct (enc_step c e k s recs) as [[e1 b]|] eqn:E; [|discriminate].
    destruct (enc_run c e1 ops) as [[e2 bs]|] eqn:E2; [|discriminate]. injection H as <- <-.
    assert (X := enc_step_ok _ _ _ _ _ _ _ _ I HL E). cbn [accepted] in *. destruct b.
    + cbn [hist_ok delivered] in *. destruct HH as (H1 & H2 & H3 & H4).
      destruct (X H1 H2 H3) as [I1 L1]. rewrite app_assoc. eapply IH; eassumption.
    + subst e1. eapply IH; eassumption.
  - destruct (enc_run c (enc_restart c e b) ops) as [[e2 bs]|] eqn:E2; [|discriminate]. injection H as <- <-.
    destruct (enc_restart_ok _ _ _ b I HL) as [I1 L1]. cbn [accepted] in *. destruct b.
    + cbn [hist_ok delivered] in *. eapply IH; eassumption.
    + eapply IH; eassumption.
Qed.

End Step.

Lemma Inv_start c catch : cfg_ok c -> (forall s t, nth_error (ztables c) s = Some t -> (tsize t <= length catch)%nat) ->
  Inv c (dec_start c catch) (enc_start c) [].
Proof.
  intros Hc Hct. exists (dec_start c catch), [], [], [].
  split; cbn [enc_start e_out e_slots e_s e_init e_bags e_bagsize bdat bpos d_out dec_start]; auto.
  - intros s s' R. destruct R as [_ _ _ R4 R5]. exists (dec_start c catch), [].
    destruct s as [a b], s' as [a' b']. cbn in *. subst. rewrite Nat.add_0_r.
    split; [reflexivity|]. split; [reflexivity|]. split; [constructor|]. split; [exact Hct|]. apply rel_zero. 
  - apply repeat_length.
  - exists []. split; [|split; [|congruence]].
    + apply cont_start. apply Forall_forall. intros x Hx. apply repeat_spec in Hx. subst. unfold is_byte; lia.
    + intros _. repeat split; auto. discriminate.
Qed.

Lemma stepwise_roundtrip_lemma c catch ops e fl : cfg_ok c ->
  (forall s t, nth_error (ztables c) s = Some t -> (tsize t <= length catch)%nat) ->
  enc_run c (enc_start c) ops = Some (e, fl) ->
  hist_ok (cfg_cols c) (cfg_size c) (fun _ _ => None) (accepted ops fl) ->
  exists d, dec_run c (dec_start c catch) (enc_stop e) = Some d
    /\ Forall2 (same_item (cfg_cols c)) (delivered (accepted ops fl)) (d_out d).
Proof.
  intros Hc Hct H HH.
  assert (I := enc_run_ok c Hc (dec_start c catch) ops _ [] _ e fl (Inv_start c catch Hc Hct) (linked_zero c) H HH).
  cbn [app] in I. destruct I as (d1 & exp1 & exp2 & cur & I).
  unfold enc_stop. destruct (Nat.ltb_spec 0 (enc_size e)) as [Hs|Hs].
  - assert (Hne : cur <> []) by (intros X; apply (inv_size_pos c _ _ _ _ _ _ _ I) in X; lia).
    destruct (packet_decodes c Hc _ _ _ _ _ _ _ I Hne) as (d2 & D1 & D2 & _ & _). eauto.
  - assert (X : cur = []) by (apply (inv_size_pos c _ _ _ _ _ _ _ I); lia). subst cur.
    exists d1. split; [apply (iv_run _ _ _ _ _ _ _ _ I)|].
    destruct (iv_cur _ _ _ _ _ _ _ _ I (mkbs [] 0) (mkbs [] 0)) as (d2 & outs & E & E2 & E3 & _).
    { split; cbn; auto. intros j Hj. cbn in Hj. lia. }
    cbn in E. injection E as <-. 
    assert (outs = []) by (destruct outs; [reflexivity|]; apply (f_equal (@length _)) in E2; rewrite app_length in E2; cbn in E2; lia).
    subst outs. assert (Hx : exp2 = []) by (inversion E3; reflexivity).
    assert (Hy := iv_exp _ _ _ _ _ _ _ _ I). rewrite Hx, app_nil_r in Hy. rewrite Hy.
    apply (iv_out _ _ _ _ _ _ _ _ I).
Qed.
