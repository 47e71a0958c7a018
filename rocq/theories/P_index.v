(** Properties of the index file: C64. *)
From Coq Require Import String.
From Verif Require Import Base M_memory S_server S_index M_mapfile M_index L_mapfile L_index.
From Coq Require Import ZifyBool ZifyNat.
Open Scope list_scope.
Open Scope Z_scope.

(** All series have a table and can be told apart by "key.table" within 254 bytes, all names are in the dictionaries: after
    writing the index and reading it, a reader of any series gets exactly its blocks in the order of writing.  What is missing:
    keys without table (C64_plain_refuted), series with the same text (C64_names_refuted, C64_long_refuted). *)
Theorem C64_index_partial : forall stale pmax kdict sdict kp sp h,
  Forall dplace_ok kp -> Forall dplace_ok sp -> Z.of_nat (List.length kp) < 2 ^ 31 -> Z.of_nat (List.length sp) < 2 ^ 31 ->
  Z.of_nat (List.length h) < 2 ^ 31 ->
  Forall (fun e => unit_ok (e_unit e) /\ In (e_key e) (kdict kp) /\ (exists s, e_tab e = Some s /\ s <> [] /\ In s (sdict sp)) /\
                   (List.length (text_of (e_key e) (e_tab e)) <= 254)%nat) h ->
  (forall e e', In e h -> In e' h -> text_of (e_key e) (e_tab e) = text_of (e_key e') (e_tab e') -> e_key e = e_key e' /\ e_tab e = e_tab e') ->
  exists pages st, write_index pmax (Some kp) (Some sp) (fold_left idx_add h []) = Some pages /\
    read_index kdict sdict stale pages = Some st /\ r_kn st = Some kp /\ r_sn st = Some sp /\
    forall k s, (List.length (text_of k (Some s)) <= 254)%nat ->
      (forall e, In e h -> text_of (e_key e) (e_tab e) = text_of k (Some s) -> e_key e = k /\ e_tab e = Some s) ->
      find_blocks st k s = blocks_of h k (Some s).
Proof.
  intros stale pmax kdict sdict kp sp h FK FS LK LS LH FE A.
  destruct (all_built h) as (N & D & G); [intros x I y J; now apply A|]. set (m := fold_left idx_add h []) in *.
  rewrite Forall_forall in FE.
  assert (NO : Forall (node_ok (kdict kp) (sdict sp)) (map snd m)).
  { apply Forall_forall. intros d I. apply in_map_iff in I. destruct I as ([n d'] & E & I). cbn in E. subst d'.
    destruct (D _ _ I) as (D1 & D2 & e & D3 & D4 & D5). destruct (FE _ D3) as (U & K & T & L). rewrite <- D4, <- D5 in D2.
    unfold node_ok. rewrite <- D4, <- D5. split; [exact T|]. split; [exact K|]. split; [exact L|]. rewrite D2. split.
    - apply Forall_forall. intros u J. unfold blocks_of in J. apply in_map_iff in J. destruct J as (e' & <- & J). apply filter_In in J.
      now apply FE.
    - unfold blocks_of. rewrite map_length. assert (F : forall g, (List.length (filter (same_series (e_key e) (e_tab e)) g) <= List.length g)%nat).
      { induction g as [|x g IH]; [cbn; lia|]. cbn. destruct (same_series _ _ x); cbn; lia. }
      specialize (F h). lia. }
  destruct (msg_pages_ok (kdict kp) (sdict sp) pmax (map snd m) mem_create [] L_memory.mem_ok_create eq_refl NO) as (gs & P & C). cbn [app] in C.
  assert (NG : Forall (Forall (node_ok (kdict kp) (sdict sp))) gs).
  { rewrite <- C in NO. clear -NO. induction gs as [|g gs IH]; [constructor|]. cbn [concat] in NO. apply Forall_app in NO. destruct NO. constructor; auto. }
  eexists _, (mkrs (Some kp) (Some sp) m). split; [unfold write_index; rewrite P; reflexivity|]. split; [|split; [reflexivity|split; [reflexivity|]]].
  - unfold read_index. cbn [app read_pages]. rewrite read_page_key by assumption. cbn [r_sn r_idx].
    rewrite read_page_sdb by assumption. cbn [r_kn r_idx]. rewrite read_pages_msg by exact NG. rewrite C.
    rewrite (put_all m []) by (exact N || (intros n d I; apply (D _ _ I))). reflexivity.
  - intros k s L T. unfold find_blocks. cbn [r_idx]. rewrite firstn_all2 by exact L. apply G. intros e I. now apply T.
Qed.
Print Assumptions C64_index_partial.

(** three series, one with two blocks; page limit 20: several pages *)
Definition u0 := mkiu 1 2 1 0 100 5000 1639094400000 1639180799000.
Definition u1 := mkiu 1 2 1 1 70000 300 1639353600000 1639353600000.
Definition h3 := [mkent (bs "sh600000"%string) (Some (bs "stk_day"%string)) u0; mkent (bs "sz000001"%string) (Some (bs "stk_day"%string)) u1;
                  mkent (bs "sh600000"%string) (Some (bs "stk_day"%string)) u1; mkent (bs "sh600000"%string) (Some (bs "stk_min"%string)) u0].
Definition kd3 (_ : list dplace) := [bs "sh600000"; bs "sz000001"]%string.
Definition sd3 (_ : list dplace) := [bs "stk_day"; bs "stk_min"]%string.
Example C64_index_ex :
  Forall dplace_ok [(0, 50, 40)] /\
  Forall (fun e => unit_ok (e_unit e) /\ In (e_key e) (kd3 []) /\ (exists s, e_tab e = Some s /\ s <> [] /\ In s (sd3 [])) /\
                   (List.length (text_of (e_key e) (e_tab e)) <= 254)%nat) h3 /\
  (forall e e', In e h3 -> In e' h3 -> text_of (e_key e) (e_tab e) = text_of (e_key e') (e_tab e') -> e_key e = e_key e' /\ e_tab e = e_tab e') /\
  blocks_of h3 (bs "sh600000"%string) (Some (bs "stk_day"%string)) = [u0; u1] /\
  option_map (@List.length _) (write_index 20 (Some [(0, 50, 40)]) (Some [(0, 90, 60)]) (fold_left idx_add h3 [])) = Some 5%nat.
Proof.
  split; [repeat constructor; cbn; lia|]. split.
  - unfold h3. repeat apply Forall_cons; try apply Forall_nil; (split; [cbn; unfold unit_ok; cbn; lia|]; split; [cbn; auto|]; split; [eexists; split; [reflexivity|]; split; [discriminate|cbn; auto]|cbn; lia]).
  - split; [|split; vm_compute; reflexivity].
    intros e e' I I'. unfold h3 in *. cbn [In] in I, I'. decompose [or] I; subst; try contradiction; decompose [or] I'; subst; try contradiction;
      vm_compute; intros E; try discriminate; auto.
Qed.

(** A key without table: writing the index reads a null pointer. *)
Theorem C64_plain_refuted : exists kdict sdict kp sp h, Forall dplace_ok kp /\ Forall dplace_ok sp /\
  Forall (fun e => unit_ok (e_unit e) /\ In (e_key e) (kdict kp) /\ e_tab e = None) h /\ List.length h = 1%nat /\
  forall pmax, write_index pmax (Some kp) (Some sp) (fold_left idx_add h []) = None /\ (sdict : list dplace -> list (list Z)) sp <> [].
Proof.
  exists kd3, sd3, [(0, 50, 40)], [(0, 90, 60)], [mkent (bs "sh600000"%string) None u0].
  split; [repeat constructor; cbn; lia|]. split; [repeat constructor; cbn; lia|]. split; [|split; [reflexivity|]].
  - apply Forall_cons; [|apply Forall_nil]. split; [cbn; unfold unit_ok; cbn; lia|]. split; [cbn; auto|reflexivity].
  - intros pmax. split; [reflexivity|discriminate].
Qed.
Print Assumptions C64_plain_refuted.

(** Table "c" of key "a.b" and table "b.c" of key "a": each reader gets the blocks of both. *)
Theorem C64_names_refuted : exists kdict sdict kp sp h k s, Forall dplace_ok kp /\ Forall dplace_ok sp /\
  Forall (fun e => unit_ok (e_unit e) /\ In (e_key e) (kdict kp) /\ exists s, e_tab e = Some s /\ s <> [] /\ In s (sdict sp)) h /\
  forall stale, exists pages st, write_index 16777215 (Some kp) (Some sp) (fold_left idx_add h []) = Some pages /\
    read_index kdict sdict stale pages = Some st /\ blocks_of h k (Some s) = [u1] /\ find_blocks st k s = [u0; u1].
Proof.
  exists (fun _ => [bs "a.b"; bs "a"]%string), (fun _ => [bs "c"; bs "b.c"]%string), [(0, 50, 40)], [(0, 90, 60)],
    [mkent (bs "a.b"%string) (Some (bs "c"%string)) u0; mkent (bs "a"%string) (Some (bs "b.c"%string)) u1], (bs "a"%string), (bs "b.c"%string).
  split; [repeat constructor; cbn; lia|]. split; [repeat constructor; cbn; lia|]. split.
  - repeat apply Forall_cons; try apply Forall_nil; (split; [cbn; unfold unit_ok; cbn; lia|]; split; [cbn; auto|]; eexists; split; [reflexivity|]; split; [discriminate|cbn; auto]).
  - intros stale. eexists _, _. split; [vm_compute; reflexivity|]. split; [vm_compute; reflexivity|]. split; vm_compute; reflexivity.
Qed.
Print Assumptions C64_names_refuted.

(** Keys of 255 bytes that differ in the last one: the reader of one gets the blocks of the other. *)
Theorem C64_long_refuted : exists kdict sdict kp sp h k s, Forall dplace_ok kp /\ Forall dplace_ok sp /\
  Forall (fun e => unit_ok (e_unit e) /\ In (e_key e) (kdict kp) /\ exists s, e_tab e = Some s /\ s <> [] /\ In s (sdict sp)) h /\
  (forall e e', In e h -> In e' h -> text_of (e_key e) (e_tab e) = text_of (e_key e') (e_tab e') -> e_key e = e_key e' /\ e_tab e = e_tab e') /\
  forall stale, exists pages st, write_index 16777215 (Some kp) (Some sp) (fold_left idx_add h []) = Some pages /\
    read_index kdict sdict stale pages = Some st /\ blocks_of h k (Some s) = [u0] /\ find_blocks st k s = [u1].
Proof.
  exists (fun _ => [repeat 97 254 ++ [98]; repeat 97 254 ++ [99]]), (fun _ => [bs "d"]%string), [(0, 50, 40)], [(0, 90, 60)],
    [mkent (repeat 97 254 ++ [98]) (Some (bs "d"%string)) u0; mkent (repeat 97 254 ++ [99]) (Some (bs "d"%string)) u1],
    (repeat 97 254 ++ [98]), (bs "d"%string).
  split; [repeat constructor; cbn; lia|]. split; [repeat constructor; cbn; lia|]. split; [|split].
  - repeat apply Forall_cons; try apply Forall_nil; (split; [cbn; unfold unit_ok; cbn; lia|]; split; [cbn [In]; auto|]; eexists; split; [reflexivity|]; split; [discriminate|cbn; auto]).
  - intros e e' I I'. cbn [In] in I, I'. decompose [or] I; subst; try contradiction; decompose [or] I'; subst; try contradiction;
      cbn [e_key e_tab text_of]; intros E; auto; rewrite <- !app_assoc in E; apply app_inv_head in E; discriminate.
  - intros stale. eexists _, _. split; [vm_compute; reflexivity|]. split; [vm_compute; reflexivity|]. split; vm_compute; reflexivity.
Qed.
Print Assumptions C64_long_refuted.
