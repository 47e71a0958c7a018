(** Lemmas for the index file. *)
From Verif Require Import Base M_memory L_memory S_memory S_index M_mapfile L_mapfile M_index.
From Coq Require Import ZifyBool ZifyNat.

Definition enc_place (d : dplace) : list Z := let '(f, o, s) := d in ssize_bytes f ++ ssize_bytes o ++ ssize_bytes s.
Definition enc_text (x : list Z) : list Z := ssize_bytes (Z.of_nat (List.length x)) ++ x.
Definition enc_unit (u : iunit) : list Z :=
  iu_active u :: iu_ktype u :: iu_sdict u :: ssize_bytes (iu_fidx u) ++ ssize_bytes (iu_offset u) ++ ssize_bytes (iu_size u) ++
  ssize_bytes (iu_start u) ++ ssize_bytes (to_u 64 (iu_stop u - iu_start u)).
Definition enc_node (d : inode) : list Z :=
  enc_text (i_key d) ++ enc_text (match i_tab d with Some s => s | None => [] end) ++ ssize_bytes (Z.of_nat (List.length (i_units d))) ++ concat (map enc_unit (i_units d)).
Lemma ssize_cons : forall v, ssize_bytes v <> [].
Proof. intros v. unfold ssize_bytes. repeat match goal with |- context [if ?b then _ else _] => destruct b end; discriminate. Qed.
Lemma le1 : forall v, 0 <= v < 256 -> le_bytes 1 v = [v].
Proof. intros v H. cbn. rewrite Z.mod_small by lia. reflexivity. Qed.

(** * writing *)
Lemma dict_cat_ok : forall us m, mem_ok m -> Forall dplace_ok us ->
  mem_ok (fold_left dict_cat us m) /\ mem_live (fold_left dict_cat us m) = mem_live m ++ concat (map enc_place us).
Proof.
  induction us as [|[[f o] s] us IH]; intros m O F.
  - cbn. rewrite app_nil_r. auto.
  - inversion F as [|? ? F1 F2]; subst. destruct F1 as (A & B & C). cbn [fold_left map concat dict_cat enc_place].
    destruct (mem_cat_ssize_spec m f O ltac:(lia)) as [O1 E1].
    destruct (mem_cat_ssize_spec _ o O1 ltac:(lia)) as [O2 E2].
    destruct (mem_cat_ssize_spec _ s O2 ltac:(lia)) as [O3 E3].
    destruct (IH _ O3 F2) as [O4 E4]. split; [exact O4|]. rewrite E4, E3, E2, E1, <- !app_assoc. reflexivity.
Qed.
Lemma dict_page_eq : forall us, Forall dplace_ok us -> dict_page us = ssize_bytes (Z.of_nat (List.length us)) ++ concat (map enc_place us).
Proof.
  intros us F. unfold dict_page. destruct (mem_cat_ssize_spec mem_create (Z.of_nat (List.length us)) mem_ok_create ltac:(lia)) as [O E].
  destruct (dict_cat_ok us _ O F) as [_ E2]. rewrite E2, E. reflexivity.
Qed.
Lemma unit_cat_ok : forall m u, mem_ok m -> unit_ok u -> mem_ok (unit_cat m u) /\ mem_live (unit_cat m u) = mem_live m ++ enc_unit u.
Proof.
  intros m u O (A & B & C & D & E & F & G & H). unfold unit_cat. cbn zeta.
  destruct (mem_cat_byte_spec m (iu_active u) 1 O ltac:(auto)) as [O1 E1].
  destruct (mem_cat_byte_spec _ (iu_ktype u) 1 O1 ltac:(auto)) as [O2 E2].
  destruct (mem_cat_byte_spec _ (iu_sdict u) 1 O2 ltac:(auto)) as [O3 E3].
  destruct (mem_cat_ssize_spec _ (iu_fidx u) O3 ltac:(lia)) as [O4 E4].
  destruct (mem_cat_ssize_spec _ (iu_offset u) O4 ltac:(lia)) as [O5 E5].
  destruct (mem_cat_ssize_spec _ (iu_size u) O5 ltac:(lia)) as [O6 E6].
  destruct (mem_cat_ssize_spec _ (iu_start u) O6 ltac:(lia)) as [O7 E7].
  pose proof (Z.mod_pos_bound (iu_stop u - iu_start u) (2 ^ 64) ltac:(lia)) as W.
  destruct (mem_cat_ssize_spec _ (to_u 64 (iu_stop u - iu_start u)) O7 ltac:(unfold to_u; lia)) as [O8 E8].
  split; [exact O8|]. rewrite E8, E7, E6, E5, E4, E3, E2, E1, !le1 by assumption. rewrite <- !app_assoc. reflexivity.
Qed.
Lemma units_cat_ok : forall us m, mem_ok m -> Forall unit_ok us ->
  mem_ok (fold_left unit_cat us m) /\ mem_live (fold_left unit_cat us m) = mem_live m ++ concat (map enc_unit us).
Proof.
  induction us as [|u us IH]; intros m O F.
  - cbn. rewrite app_nil_r. auto.
  - inversion F as [|? ? F1 F2]; subst. cbn [fold_left map concat]. destruct (unit_cat_ok m u O F1) as [O1 E1].
    destruct (IH _ O1 F2) as [O2 E2]. split; [exact O2|]. rewrite E2, E1, <- app_assoc. reflexivity.
Qed.
(** a node that can be written and read *)
Definition node_ok (keys tabs : list (list Z)) (d : inode) : Prop :=
  (exists s, i_tab d = Some s /\ s <> [] /\ In s tabs) /\ In (i_key d) keys /\ (List.length (text_of (i_key d) (i_tab d)) <= 254)%nat /\
  Forall unit_ok (i_units d) /\ Z.of_nat (List.length (i_units d)) < 2 ^ 31.
Lemma node_cat_ok : forall keys tabs m d, mem_ok m -> node_ok keys tabs d ->
  exists m', node_cat m d = Some m' /\ mem_ok m' /\ mem_live m' = mem_live m ++ enc_node d.
Proof.
  intros keys tabs m d O ((s & T & _) & _ & _ & U & _). unfold node_cat, enc_node. rewrite T. cbn zeta. eexists. split; [reflexivity|].
  destruct (mem_cat_ssize_spec m (Z.of_nat (List.length (i_key d))) O ltac:(lia)) as [O1 E1].
  destruct (mem_cat_spec _ (i_key d) O1) as [O2 E2].
  destruct (mem_cat_ssize_spec _ (Z.of_nat (List.length s)) O2 ltac:(lia)) as [O3 E3].
  destruct (mem_cat_spec _ s O3) as [O4 E4].
  destruct (mem_cat_ssize_spec _ (Z.of_nat (List.length (i_units d))) O4 ltac:(lia)) as [O5 E5].
  destruct (units_cat_ok _ _ O5 U) as [O6 E6]. split; [exact O6|].
  rewrite E6, E5, E4, E3, E2, E1. unfold enc_text. rewrite <- !app_assoc. reflexivity.
Qed.
Lemma enc_node_len : forall d, (1 <= List.length (enc_node d))%nat.
Proof.
  intros d. unfold enc_node, enc_text. rewrite !app_length. pose proof (ssize_cons (Z.of_nat (List.length (i_key d)))) as H.
  destruct (ssize_bytes (Z.of_nat (List.length (i_key d)))); [congruence|cbn; lia].
Qed.
Definition encs (l : list inode) : list Z := concat (map enc_node l).
Lemma encs_app : forall a b, encs (a ++ b) = encs a ++ encs b.
Proof. intros. unfold encs. now rewrite map_app, concat_app. Qed.
Lemma encs_len : forall l, (List.length l <= List.length (encs l))%nat.
Proof. induction l as [|d l IH]; cbn; [lia|]. unfold encs in *. cbn. rewrite app_length. pose proof (enc_node_len d). lia. Qed.
Lemma size_live : forall m, mem_ok m -> mem_get_size m = List.length (mem_live m).
Proof. intros m _. unfold mem_get_size, mem_live. now rewrite skipn_length. Qed.
Lemma mem_clear_ok : forall m, mem_ok m -> mem_ok (mem_clear m) /\ mem_live (mem_clear m) = [].
Proof. intros m [A B]. unfold mem_clear, mem_ok, mem_live, msize in *. cbn in *. split; [lia|reflexivity]. Qed.
Lemma msg_pages_ok : forall keys tabs pmax l m pre, mem_ok m -> mem_live m = encs pre -> Forall (node_ok keys tabs) l ->
  exists gs, msg_pages pmax m l = Some (map encs gs) /\ concat gs = pre ++ l.
Proof.
  intros keys tabs pmax. induction l as [|d l IH]; intros m pre O E F.
  - cbn [msg_pages]. rewrite size_live, E by exact O. pose proof (encs_len pre) as LE. destruct pre as [|p pre].
    + exists []. split; reflexivity.
    + exists [p :: pre]. cbn [List.length] in LE. replace (0 <? _) with true by lia. split; [reflexivity|]. cbn. now rewrite app_nil_r.
  - inversion F as [|? ? F1 F2]; subst. cbn [msg_pages]. destruct (node_cat_ok keys tabs m d O F1) as (m1 & -> & O1 & E1).
    assert (E1' : mem_live m1 = encs (pre ++ [d])) by (rewrite E1, E, encs_app; unfold encs; cbn; now rewrite app_nil_r).
    destruct (pmax <? _).
    + destruct (mem_clear_ok m1 O1) as [O2 E2]. destruct (IH (mem_clear m1) [] O2 E2 F2) as (gs & -> & C).
      exists ((pre ++ [d]) :: gs). split; [cbn; now rewrite E1'|]. cbn [concat]. rewrite C. cbn. now rewrite <- app_assoc.
    + destruct (IH m1 (pre ++ [d]) O1 E1' F2) as (gs & -> & C). exists gs. split; [reflexivity|]. rewrite C, <- app_assoc. reflexivity.
Qed.

(** * reading *)
Lemma read_places_ok : forall stale us m rest, mem_ok m -> Forall dplace_ok us -> mem_live m = concat (map enc_place us) ++ rest ->
  exists m', read_places stale (List.length us) m = Some (us, m') /\ mem_ok m' /\ mem_live m' = rest.
Proof.
  induction us as [|[[f o] s] us IH]; intros m rest O F E.
  - exists m. split; [reflexivity|]. auto.
  - inversion F as [|? ? F1 F2]; subst. destruct F1 as (A & B & C). cbn [List.length read_places map concat enc_place] in *. rewrite <- !app_assoc in E.
    destruct (mem_get_ssize_spec stale m f _ O ltac:(lia) E) as (m1 & -> & O1 & E1 & _).
    destruct (mem_get_ssize_spec stale m1 o _ O1 ltac:(lia) E1) as (m2 & -> & O2 & E2 & _).
    destruct (mem_get_ssize_spec stale m2 s _ O2 ltac:(lia) E2) as (m3 & -> & O3 & E3 & _).
    destruct (IH m3 rest O3 F2 E3) as (m4 & -> & O4 & E4). exists m4. rewrite !to_u_small by lia. auto.
Qed.
Lemma read_unit_ok : forall stale m u rest, mem_ok m -> unit_ok u -> mem_live m = enc_unit u ++ rest ->
  exists m', read_unit stale m = Some (u, m') /\ mem_ok m' /\ mem_live m' = rest.
Proof.
  intros stale m u rest O (A & B & C & D & E & F & G & H) L. unfold enc_unit in L. cbn [app] in L. rewrite <- !app_assoc in L. unfold read_unit.
  destruct (mem_get_byte_step stale _ (iu_active u) _ O ltac:(unfold is_byte; lia) L) as (-> & O1 & L1).
  destruct (mem_get_byte_step stale _ (iu_ktype u) _ O1 ltac:(unfold is_byte; lia) L1) as (-> & O2 & L2).
  destruct (mem_get_byte_step stale _ (iu_sdict u) _ O2 ltac:(unfold is_byte; lia) L2) as (-> & O3 & L3).
  destruct (mem_get_ssize_spec stale _ (iu_fidx u) _ O3 ltac:(lia) L3) as (m4 & -> & O4 & L4 & _).
  destruct (mem_get_ssize_spec stale _ (iu_offset u) _ O4 ltac:(lia) L4) as (m5 & -> & O5 & L5 & _).
  destruct (mem_get_ssize_spec stale _ (iu_size u) _ O5 ltac:(lia) L5) as (m6 & -> & O6 & L6 & _).
  destruct (mem_get_ssize_spec stale _ (iu_start u) _ O6 ltac:(lia) L6) as (m7 & -> & O7 & L7 & _).
  pose proof (Z.mod_pos_bound (iu_stop u - iu_start u) (2 ^ 64) ltac:(lia)) as W.
  destruct (mem_get_ssize_spec stale _ (to_u 64 (iu_stop u - iu_start u)) _ O7 ltac:(unfold to_u; lia) L7) as (m8 & -> & O8 & L8 & _).
  exists m8. split; [|auto]. rewrite !to_u_small by lia.
  replace (to_u 64 (iu_start u + to_u 64 (iu_stop u - iu_start u))) with (iu_stop u).
  - destruct u; reflexivity.
  - unfold to_u. rewrite Zplus_mod_idemp_r. replace (iu_start u + (iu_stop u - iu_start u)) with (iu_stop u) by lia. symmetry. apply Z.mod_small. lia.
Qed.
Lemma read_iunits_ok : forall stale us m rest, mem_ok m -> Forall unit_ok us -> mem_live m = concat (map enc_unit us) ++ rest ->
  exists m', read_iunits stale (List.length us) m = Some (us, m') /\ mem_ok m' /\ mem_live m' = rest.
Proof.
  induction us as [|u us IH]; intros m rest O F E.
  - exists m. split; [reflexivity|]. auto.
  - inversion F as [|? ? F1 F2]; subst. cbn [List.length read_iunits map concat] in *. rewrite <- app_assoc in E.
    destruct (read_unit_ok stale m u _ O F1 E) as (m1 & -> & O1 & E1). destruct (IH m1 rest O1 F2 E1) as (m2 & -> & O2 & E2).
    exists m2. auto.
Qed.
Lemma to_s32_len : forall n, Z.of_nat n < 2 ^ 31 -> to_s 32 (Z.of_nat n) = Z.of_nat n.
Proof. intros n H. apply to_s_small; change (2 ^ (32 - 1)) with (2 ^ 31); lia. Qed.
Lemma read_text_ok : forall stale m x rest, mem_ok m -> Z.of_nat (List.length x) < 2 ^ 31 -> mem_live m = enc_text x ++ rest ->
  exists m', read_text stale m = Some (x, m') /\ mem_ok m' /\ mem_live m' = rest.
Proof.
  intros stale m x rest O L E. unfold enc_text in E. rewrite <- app_assoc in E. unfold read_text.
  destruct (mem_get_ssize_spec stale m (Z.of_nat (List.length x)) _ O ltac:(lia) E) as (m1 & -> & O1 & E1 & _).
  rewrite to_s32_len by exact L. replace (_ <? 0) with false by lia. rewrite Nat2Z.id.
  rewrite <- (Nat.add_0_r (moff m1)), (mem_peek_live stale m1 x rest 0) by auto. eexists. split; [reflexivity|].
  apply (mem_move_live m1 x rest); auto.
Qed.
Lemma read_node_ok : forall stale keys tabs m d rest, mem_ok m -> node_ok keys tabs d -> mem_live m = enc_node d ++ rest ->
  exists m', read_node stale keys tabs m = Some (text_of (i_key d) (i_tab d), d, m') /\ mem_ok m' /\ mem_live m' = rest.
Proof.
  intros stale keys tabs m d rest O ((s & T & NE & IT) & IK & LL & U & C) E. unfold enc_node in E. rewrite T in *. rewrite <- !app_assoc in E.
  cbn [text_of] in *. rewrite app_length in LL. cbn [List.length] in LL. unfold read_node.
  destruct (read_text_ok stale m (i_key d) _ O ltac:(lia) E) as (m1 & -> & O1 & E1).
  destruct (read_text_ok stale m1 s _ O1 ltac:(lia) E1) as (m2 & -> & O2 & E2).
  cbn zeta. unfold has. destruct (in_dec _ (i_key d) keys); [|contradiction]. cbn [negb].
  destruct (mem_get_ssize_spec stale m2 (Z.of_nat (List.length (i_units d))) _ O2 ltac:(lia) E2) as (m3 & -> & O3 & E3 & _).
  rewrite to_s32_len by exact C. rewrite Nat2Z.id.
  destruct (read_iunits_ok stale _ m3 rest O3 U E3) as (m4 & -> & O4 & E4). exists m4.
  split; [|auto]. destruct s as [|c s]; [congruence|]. destruct (in_dec _ (c :: s) tabs); [|contradiction].
  rewrite firstn_all2 by (rewrite app_length; cbn [List.length] in *; lia).
  destruct d as [dk dt du]; cbn [i_key i_tab i_units] in *. subst dt. destruct du; reflexivity.
Qed.

Section Dict.
Variables (kdict sdict : list dplace -> list (list Z)).
Definition put (i : named inode) (d : inode) : named inode := mset i (text_of (i_key d) (i_tab d)) d.
Lemma read_page_msg : forall stale kp sp g fuel idx m, mem_ok m -> Forall (node_ok (kdict kp) (sdict sp)) g -> mem_live m = encs g ->
  (List.length g <= fuel)%nat ->
  read_page kdict sdict fuel stale IndexMsg (mkrs (Some kp) (Some sp) idx) m = Some (mkrs (Some kp) (Some sp) (fold_left put g idx)).
Proof.
  intros stale kp sp. induction g as [|d g IH]; intros fuel idx m O F E L.
  - destruct fuel; cbn [read_page]; rewrite size_live, E by exact O; reflexivity.
  - inversion F as [|? ? F1 F2]; subst. pose proof (encs_len (d :: g)) as LE. cbn [List.length] in *. destruct fuel as [|fuel]; [lia|].
    cbn [read_page]. rewrite size_live, E by exact O. replace (0 <? _) with true by lia.
    change (encs (d :: g)) with (enc_node d ++ encs g) in E.
    destruct (read_node_ok stale (kdict kp) (sdict sp) m d (encs g) O F1 E) as (m1 & R & O1 & E1).
    change (keys_of kdict _) with (kdict kp). change (tabs_of sdict _) with (sdict sp). rewrite R. cbn [r_kn r_sn r_idx fold_left].
    apply IH; auto. lia.
Qed.
Lemma read_pages_msg : forall stale kp sp gs idx, Forall (Forall (node_ok (kdict kp) (sdict sp))) gs ->
  read_pages kdict sdict stale (mkrs (Some kp) (Some sp) idx) (map (fun p => (IndexMsg, p)) (map encs gs)) =
  Some (mkrs (Some kp) (Some sp) (fold_left put (concat gs) idx)).
Proof.
  intros stale kp sp. induction gs as [|g gs IH]; intros idx F; [reflexivity|]. inversion F as [|? ? F1 F2]; subst.
  cbn [map read_pages concat]. destruct (mem_cat_spec mem_create (encs g) mem_ok_create) as [O E].
  rewrite (read_page_msg stale kp sp g); auto; [|pose proof (encs_len g); lia]. rewrite IH by exact F2. rewrite fold_left_app. reflexivity.
Qed.
Lemma read_page_key : forall stale us st, Forall dplace_ok us -> Z.of_nat (List.length us) < 2 ^ 31 ->
  read_page kdict sdict (S (List.length (dict_page us))) stale IndexKey st (mem_cat mem_create (dict_page us)) = Some (mkrs (Some us) (r_sn st) (r_idx st)).
Proof.
  intros stale us st F L. destruct (mem_cat_spec mem_create (dict_page us) mem_ok_create) as [O E]. change (mem_live mem_create ++ ?x) with x in E.
  cbn [read_page]. rewrite size_live, E by exact O. pose proof (eq_trans E (dict_page_eq us F)) as E'.
  assert (P : (0 < List.length (dict_page us))%nat).
  { rewrite dict_page_eq by exact F. rewrite app_length. pose proof (ssize_cons (Z.of_nat (List.length us))). destruct (ssize_bytes (Z.of_nat (List.length us))); [congruence|cbn; lia]. }
  replace (0 <? _) with true by lia.
  destruct (mem_get_ssize_spec stale _ (Z.of_nat (List.length us)) _ O ltac:(lia) E') as (m1 & -> & O1 & E1 & _). rewrite to_s32_len by exact L. rewrite Nat2Z.id.
  rewrite <- (app_nil_r (concat _)) in E1. destruct (read_places_ok stale us m1 [] O1 F E1) as (m2 & -> & O2 & E2).
  destruct (List.length (dict_page us)); [lia|]. cbn [read_page]. rewrite size_live, E2 by exact O2. reflexivity.
Qed.
Lemma read_page_sdb : forall stale us st, Forall dplace_ok us -> Z.of_nat (List.length us) < 2 ^ 31 ->
  read_page kdict sdict (S (List.length (dict_page us))) stale IndexSdb st (mem_cat mem_create (dict_page us)) = Some (mkrs (r_kn st) (Some us) (r_idx st)).
Proof.
  intros stale us st F L. destruct (mem_cat_spec mem_create (dict_page us) mem_ok_create) as [O E]. change (mem_live mem_create ++ ?x) with x in E.
  cbn [read_page]. rewrite size_live, E by exact O. pose proof (eq_trans E (dict_page_eq us F)) as E'.
  assert (P : (0 < List.length (dict_page us))%nat).
  { rewrite dict_page_eq by exact F. rewrite app_length. pose proof (ssize_cons (Z.of_nat (List.length us))). destruct (ssize_bytes (Z.of_nat (List.length us))); [congruence|cbn; lia]. }
  replace (0 <? _) with true by lia.
  destruct (mem_get_ssize_spec stale _ (Z.of_nat (List.length us)) _ O ltac:(lia) E') as (m1 & -> & O1 & E1 & _). rewrite to_s32_len by exact L. rewrite Nat2Z.id.
  rewrite <- (app_nil_r (concat _)) in E1. destruct (read_places_ok stale us m1 [] O1 F E1) as (m2 & -> & O2 & E2).
  destruct (List.length (dict_page us)); [lia|]. cbn [read_page]. rewrite size_live, E2 by exact O2. reflexivity.
Qed.
End Dict.

(** * named lists *)
Lemma mget_mset : forall A (m : named A) n d n', mget (mset m n d) n' = if list_eq_dec Z.eq_dec n n' then Some d else mget m n'.
Proof.
  intros A. induction m as [|[x e] m IH]; intros n d n'; cbn [mset mget].
  - destruct (list_eq_dec Z.eq_dec n n'); reflexivity.
  - destruct (list_eq_dec Z.eq_dec x n) as [->|NE]; cbn [mget].
    + destruct (list_eq_dec Z.eq_dec n n'); reflexivity.
    + rewrite IH. destruct (list_eq_dec Z.eq_dec x n') as [->|NE']; [|reflexivity]. destruct (list_eq_dec Z.eq_dec n n'); [congruence|reflexivity].
Qed.
Lemma put_all : forall (m acc : named inode), NoDup (map fst (acc ++ m)) -> (forall n d, In (n, d) m -> n = text_of (i_key d) (i_tab d)) ->
  fold_left put (map snd m) acc = acc ++ m.
Proof.
  induction m as [|[n d] m IH]; intros acc N H; cbn [map snd fold_left]; [now rewrite app_nil_r|].
  unfold put at 2. rewrite <- (H n d) by now left.
  assert (E : mset acc n d = acc ++ [(n, d)]).
  { rewrite map_app in N. cbn [map fst] in N. apply NoDup_remove_2 in N. clear -N. induction acc as [|[x e] acc IH]; [reflexivity|].
    cbn [mset app]. destruct (list_eq_dec Z.eq_dec x n) as [->|NE]; [destruct N; now left|]. rewrite IH; [reflexivity|]. intros I. apply N. now right. }
  rewrite E, IH.
  - now rewrite <- app_assoc.
  - rewrite <- app_assoc. exact N.
  - intros n' d' I. apply H. now right.
Qed.

(** * the list that is written *)
Lemma same_series_ok : forall k t e, same_series k t e = true <-> e_key e = k /\ e_tab e = t.
Proof.
  intros k t e. unfold same_series. destruct (list_eq_dec Z.eq_dec (e_key e) k); cbn [andb]; [|split; [discriminate|tauto]].
  destruct (e_tab e) as [a|], t as [b|]; try (split; [discriminate|intros [_ E]; discriminate]); [|tauto].
  destruct (list_eq_dec Z.eq_dec a b); split; try congruence; [intros _; split; congruence|intros [_ E]; congruence].
Qed.
Definition told_apart (h : list entry) (k : list Z) (t : option (list Z)) : Prop :=
  forall e, In e h -> text_of (e_key e) (e_tab e) = text_of k t -> e_key e = k /\ e_tab e = t.
Definition built (h : list entry) (m : named inode) : Prop :=
  NoDup (map fst m) /\
  (forall n d, In (n, d) m -> n = text_of (i_key d) (i_tab d) /\ i_units d = blocks_of h (i_key d) (i_tab d) /\ exists e, In e h /\ e_key e = i_key d /\ e_tab e = i_tab d) /\
  (forall k t, told_apart h k t -> match mget m (text_of k t) with Some d => i_units d | None => [] end = blocks_of h k t).
Lemma blocks_snoc : forall h e k t, blocks_of (h ++ [e]) k t = blocks_of h k t ++ (if same_series k t e then [e_unit e] else []).
Proof. intros h e k t. unfold blocks_of. rewrite filter_app, map_app. cbn [filter]. destruct (same_series k t e); reflexivity. Qed.
Lemma add_built : forall h m e, built h m -> (forall x, In x (h ++ [e]) -> told_apart (h ++ [e]) (e_key x) (e_tab x)) -> built (h ++ [e]) (idx_add m e).
Proof.
  intros h m e (N & D & G) A. unfold idx_add. set (n := text_of (e_key e) (e_tab e)).
  assert (AE : told_apart (h ++ [e]) (e_key e) (e_tab e)) by (apply A, in_or_app; right; now left).
  assert (AH : told_apart h (e_key e) (e_tab e)) by (intros x I; apply AE, in_or_app; now left).
  assert (SE : forall k t, told_apart (h ++ [e]) k t -> same_series k t e = if list_eq_dec Z.eq_dec n (text_of k t) then true else false).
  { intros k t T. destruct (list_eq_dec Z.eq_dec n (text_of k t)) as [E|E].
    - apply same_series_ok. apply T; [apply in_or_app; right; now left|exact E].
    - destruct (same_series k t e) eqn:S; [|reflexivity]. apply same_series_ok in S. destruct S as [S1 S2]. destruct E. unfold n. congruence. }
  assert (S1 : same_series (e_key e) (e_tab e) e = true) by now apply same_series_ok.
  (* the new node *)
  assert (X : exists d', (match mget m n with Some d => mset m n (mkin (i_key d) (i_tab d) (i_units d ++ [e_unit e])) | None => mset m n (mkin (e_key e) (e_tab e) [e_unit e]) end) = mset m n d' /\
     i_key d' = e_key e /\ i_tab d' = e_tab e /\ i_units d' = blocks_of h (e_key e) (e_tab e) ++ [e_unit e]).
  { pose proof (G _ _ AH) as Q. fold n in Q. destruct (mget m n) as [d|] eqn:M.
    - eexists. split; [reflexivity|]. cbn [i_key i_tab i_units]. destruct (D _ _ (mget_in _ _ _ _ M)) as (D1 & _ & x & D3 & D4 & D5).
      assert (K : i_key d = e_key e /\ i_tab d = e_tab e).
      { destruct (AH x D3) as [K1 K2]; [rewrite D4, D5; fold n; now rewrite <- D1|]. split; congruence. }
      destruct K as [K1 K2]. rewrite Q. auto.
    - eexists. split; [reflexivity|]. cbn [i_key i_tab i_units]. rewrite <- Q. auto. }
  destruct X as (d' & -> & K1 & K2 & K3). split; [|split].
  - now apply mset_nodup.
  - intros x d I. apply mset_in in I; [|exact N]. destruct I as [[-> ->]|[NE I]].
    + split; [unfold n; congruence|]. split; [|exists e; split; [apply in_or_app; right; now left|auto]].
      rewrite K1, K2, K3, blocks_snoc, S1. reflexivity.
    + destruct (D _ _ I) as (D1 & D2 & y & D3 & D4 & D5). split; [exact D1|]. split.
      * rewrite blocks_snoc. destruct (same_series (i_key d) (i_tab d) e) eqn:S; [|now rewrite app_nil_r].
        apply same_series_ok in S. destruct S as [S2 S3]. destruct NE. rewrite D1. unfold n. congruence.
      * exists y. split; [apply in_or_app; now left|auto].
  - intros k t T. rewrite mget_mset, blocks_snoc, (SE k t T). destruct (list_eq_dec Z.eq_dec n (text_of k t)) as [E|E].
    + destruct (T e) as [T1 T2]; [apply in_or_app; right; now left|exact E|]. rewrite K3, T1, T2. reflexivity.
    + rewrite app_nil_r. apply G. intros x I. apply T, in_or_app. now left.
Qed.
Lemma all_built : forall h, (forall x, In x h -> told_apart h (e_key x) (e_tab x)) -> built h (fold_left idx_add h []).
Proof.
  intros h. induction h as [|e h IH] using rev_ind; intros A.
  - split; [constructor|]. split; [intros n d []|]. intros k t _. reflexivity.
  - rewrite fold_left_app. cbn [fold_left]. apply add_built; [|exact A]. apply IH. intros x I y J.
    apply A; apply in_or_app; now left.
Qed.
