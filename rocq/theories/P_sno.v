(** C66: files that keep the order of arrival give back the records in that order. *)
From Coq Require Import String.
From Verif Require Import Base S_server S_sub M_sub M_memory S_sno M_mapfile M_sno L_sno.
From Coq Require Import ZifyBool ZifyNat.
Open Scope list_scope.
Open Scope Z_scope.

Lemma short_total : forall keys tabs sizes h G, map (row_of keys tabs) (concat (map fst G)) = arrived keys tabs sizes h ->
  Z.of_nat (List.length (arrived keys tabs sizes h)) < 2 ^ 31 -> short G.
Proof.
  intros keys tabs sizes h G E L. rewrite <- E, map_length in L. clear E. unfold short. apply Forall_forall. intros g I.
  assert (List.length (fst g) <= List.length (concat (map fst G)))%nat; [|lia]. clear L.
  induction G as [|a G IH]; [destruct I|]. cbn [map concat]. rewrite app_length. destruct I as [->|I]; [lia|]. specialize (IH I). lia.
Qed.

(** whatever is written, in whatever portions, and however often the pages are full or the writing is ended and started again: a
    reader of the whole file gets all records, each under its key and table, in the order in which they arrived *)
Theorem C66_whole_partial : forall pmax pn stale keys tabs sizes h, 0 < pn -> (forall t, (0 < sizes t)%nat) -> series_clear keys tabs ->
  Z.of_nat (List.length keys) < 2 ^ 31 -> Z.of_nat (List.length tabs) < 2 ^ 31 -> Forall (act_ok keys tabs sizes) h ->
  Z.of_nat (List.length (arrived keys tabs sizes h)) < 2 ^ 31 ->
  exists c, write_all pmax keys tabs sizes h = Some c /\ sub_whole pn stale keys tabs c = Some (arrived keys tabs sizes h).
Proof.
  intros pmax pn stale keys tabs sizes h PN SZ CLR LK LT F L. destruct (write_all_ok keys tabs CLR sizes SZ pmax h F) as (c & G & E & I & R & _).
  exists c. split; [exact E|]. unfold sub_whole. pose proof I as (S1 & _ & _ & _ & _ & GP & FF & _). rewrite S1, FF.
  rewrite (file_read keys tabs sizes pn stale PN LK LT G [] GP (short_total _ _ _ _ _ R L) (nil_holds pn)). now rewrite R.
Qed.
Print Assumptions C66_whole_partial.

(** a subscription of some keys and tables gets exactly the records asked for, in order of arrival, as long as the index fits into
    one block and there are not more than 65536 pages *)
Theorem C66_part_partial : forall pmax pn stale keys tabs sizes h imax ilen ks ts, 0 < pn -> (forall t, (0 < sizes t)%nat) -> series_clear keys tabs ->
  Z.of_nat (List.length keys) < 2 ^ 31 -> Z.of_nat (List.length tabs) < 2 ^ 31 -> Forall (act_ok keys tabs sizes) h ->
  Z.of_nat (List.length (arrived keys tabs sizes h)) < 2 ^ 31 -> Z.of_nat (List.length h) < 2 ^ 16 ->
  Forall (fun n => S_sub.has COMMA n = false) keys -> Forall (fun n => S_sub.has COMMA n = false) tabs -> (forall d, 0 <= ilen d) ->
  (forall c, write_all pmax keys tabs sizes h = Some c -> fold_right Z.add 0 (map ilen (map snd (c_idx c))) <= imax) ->
  exists c, write_all pmax keys tabs sizes h = Some c /\
    sub_part pn imax ilen stale keys tabs ks ts c = Some (filter (asked ks ts) (arrived keys tabs sizes h)).
Proof.
  intros pmax pn stale keys tabs sizes h imax ilen ks ts PN SZ CLR LK LT F L LH CK CT IP IM.
  destruct (write_all_ok keys tabs CLR sizes SZ pmax h F) as (c & G & E & I & R & Q).
  exists c. split; [exact E|].
  rewrite (part_read keys tabs CLR sizes SZ pn stale PN LK LT c G imax ilen ks ts I ltac:(lia) (short_total _ _ _ _ _ R L) IP (IM c E) CK CT). now rewrite R.
Qed.
Print Assumptions C66_part_partial.

Definition ex_keys : list (list Z) := [bs "k1"; bs "k10"; bs "z"]%string.
Definition ex_tabs : list (list Z) := [bs "a"; bs "b"]%string.
Definition ex_sz (t : nat) : nat := match t with O => 2%nat | _ => 1%nat end.
Definition ex_h : list act := [Put 0 0 [1;2;3;4]; Put 2 1 [5]; Put 1 0 [6;7]; Put 0 0 [8;9]; Cut; Put 2 1 [10;11;12]; Put 2 0 [13;14]; Put 0 1 [15]; Put 1 1 [16;17]].
Lemma ex_clear : series_clear ex_keys ex_tabs.
Proof.
  split.
  - intros k t kn tn EK ET. assert (List.length kn <= 3)%nat by (do 3 (destruct k as [|k]; [injection EK as <-; cbn; lia|]); destruct k; discriminate EK).
    assert (List.length tn <= 1)%nat by (do 2 (destruct t as [|t]; [injection ET as <-; cbn; lia|]); destruct t; discriminate ET). rewrite app_length. cbn. lia.
  - intros k t k' t' kn tn kn' tn' EK ET EK' ET' E.
    do 3 (destruct k as [|k]; [do 2 (destruct t as [|t]; [injection EK as <-; injection ET as <-;
      do 3 (destruct k' as [|k']; [do 2 (destruct t' as [|t']; [injection EK' as <-; injection ET' as <-; first [discriminate E|split; reflexivity]|]); destruct t'; discriminate ET'|]);
      destruct k'; discriminate EK'|]); destruct t; discriminate ET|]); destruct k; discriminate EK.
Qed.
Lemma ex_act : Forall (act_ok ex_keys ex_tabs ex_sz) ex_h.
Proof. unfold ex_h. repeat apply Forall_cons; try apply Forall_nil; cbn; repeat split; lia. Qed.
(** the hypotheses are met by three keys, two tables, fifteen records, several pages *)
Example C66_whole_example :
  (0 < 2 /\ (forall t, (0 < ex_sz t)%nat) /\ series_clear ex_keys ex_tabs /\ Z.of_nat (List.length ex_keys) < 2 ^ 31 /\ Z.of_nat (List.length ex_tabs) < 2 ^ 31 /\
   Forall (act_ok ex_keys ex_tabs ex_sz) ex_h /\ Z.of_nat (List.length (arrived ex_keys ex_tabs ex_sz ex_h)) < 2 ^ 31) /\
  exists c, write_all 8 ex_keys ex_tabs ex_sz ex_h = Some c /\ c_pages c = 6 /\
    option_map (map r_data) (sub_whole 2 (fun _ => 9) ex_keys ex_tabs c) =
      Some [[1;2];[3;4];[5];[6;7];[8;9];[10];[11];[12];[13;14];[15];[16];[17]].
Proof.
  split.
  - split; [lia|]. split; [intros [|t]; cbn; lia|]. split; [exact ex_clear|]. split; [cbn; lia|]. split; [cbn; lia|]. split; [exact ex_act|]. vm_compute. reflexivity.
  - eexists. split; [vm_compute; reflexivity|]. split; vm_compute; reflexivity.
Qed.
Example C66_part_example :
  (Z.of_nat (List.length ex_h) < 2 ^ 16 /\ Forall (fun n => S_sub.has COMMA n = false) ex_keys /\ Forall (fun n => S_sub.has COMMA n = false) ex_tabs /\
   (forall c, write_all 8 ex_keys ex_tabs ex_sz ex_h = Some c -> fold_right Z.add 0 (map (fun d => 10 * Z.of_nat (List.length (n_units d))) (map snd (c_idx c))) <= 1000)) /\
  exists c, write_all 8 ex_keys ex_tabs ex_sz ex_h = Some c /\
    option_map (map r_data) (sub_part 2 1000 (fun d => 10 * Z.of_nat (List.length (n_units d))) (fun _ => 9) ex_keys ex_tabs (bs "q,k1"%string) (bs "*"%string) c) =
      Some [[1;2];[3;4];[6;7];[8;9];[15];[16];[17]].
Proof.
  split.
  - split; [cbn; lia|]. split; [repeat constructor|]. split; [repeat constructor|].
    assert (X : match write_all 8 ex_keys ex_tabs ex_sz ex_h with Some c => fold_right Z.add 0 (map (fun d => 10 * Z.of_nat (List.length (n_units d))) (map snd (c_idx c))) <=? 1000 | None => false end = true) by (vm_compute; reflexivity).
    intros c E. rewrite E in X. lia.
  - eexists. split; [vm_compute; reflexivity|]. vm_compute. reflexivity.
Qed.

(** SIS_DISK_MAXLEN_SNOPAGE, sis_disk.io.h:114 *)
Definition snopage : Z := 536870911.
(** names with a point: key "a.b" with table "c" and key "a" with table "b.c" share one catch: the record of the second is
    delivered as one of the first *)
Theorem C66_names_refuted : exists keys tabs h o, NoDup keys /\ NoDup tabs /\
  forall pn stale, 0 < pn -> exists c, write_all snopage keys tabs (fun _ => 1%nat) h = Some c /\
    sub_whole pn stale keys tabs c = Some o /\ In (mkrow (bs "a"%string) (bs "b.c"%string) [2]) (arrived keys tabs (fun _ => 1%nat) h) /\
    ~ In (mkrow (bs "a"%string) (bs "b.c"%string) [2]) o /\ In (mkrow (bs "a.b"%string) (bs "c"%string) [2]) o.
Proof.
  exists [bs "a.b"; bs "a"]%string, [bs "c"; bs "b.c"]%string, [Put 0 0 [1]; Put 1 1 [2]], [mkrow (bs "a.b"%string) (bs "c"%string) [1]; mkrow (bs "a.b"%string) (bs "c"%string) [2]].
  split; [repeat constructor; cbn; intuition discriminate|]. split; [repeat constructor; cbn; intuition discriminate|].
  intros pn stale PN.
  assert (W : exists c, write_all snopage [bs "a.b"; bs "a"]%string [bs "c"; bs "b.c"]%string (fun _ => 1%nat) [Put 0 0 [1]; Put 1 1 [2]] = Some c /\
    c_sizes c = (fun _ => 1%nat) /\ c_file c = file_of [([(0%nat, 0%nat, [1]); (0%nat, 0%nat, [2])], [(0%nat, 0%nat)])]).
  { eexists. split; [vm_compute; reflexivity|]. split; vm_compute; reflexivity. }
  destruct W as (c & W1 & W2 & W3). exists c. split; [exact W1|]. split.
  - unfold sub_whole. rewrite W2, W3. 
    rewrite (file_read [bs "a.b"; bs "a"]%string [bs "c"; bs "b.c"]%string (fun _ => 1%nat) pn stale PN); [reflexivity|cbn; lia|cbn; lia| | |apply nil_holds].
    + apply Forall_cons; [|apply Forall_nil]. split; [|split].
      * repeat constructor.
      * repeat constructor.
      * cbn. intros k t x [X|[X|[]]]; injection X as <- <- <-; now left.
    + apply Forall_cons; [cbn; lia|apply Forall_nil].
  - cbn. split; [right; now left|]. split; [|now right; left]. intros [X|[X|[]]]; discriminate X.
Qed.
Print Assumptions C66_names_refuted.

(** an index of several blocks: the number of pages is taken anew from every block, 676 and 783; when the last one has earlier pages
    only, what was written later is not delivered.  Two keys, two pages; every node of the index fills a block *)
Definition ix_h : list act := [Put 0 0 [1]; Put 1 0 [2]; Cut; Put 0 0 [3]].
Definition ix_keys : list (list Z) := [bs "a"; bs "b"]%string.
Definition ix_tabs : list (list Z) := [bs "t"%string].
Theorem C66_index_refuted : exists keys tabs h ks ts o, series_clear keys tabs /\ Forall (act_ok keys tabs (fun _ => 1%nat)) h /\
  forall imax ilen stale, (forall d, imax < ilen d) -> exists c, write_all snopage keys tabs (fun _ => 1%nat) h = Some c /\
    sub_part 1048576 imax ilen stale keys tabs ks ts c = Some o /\ exists r, In r (filter (asked ks ts) (arrived keys tabs (fun _ => 1%nat) h)) /\ ~ In r o.
Proof.
  exists ix_keys, ix_tabs, ix_h, (bs "a"%string), (bs "*"%string), [mkrow (bs "a"%string) (bs "t"%string) [1]]. split; [|split].
  - split.
    + intros k t kn tn EK ET. assert (List.length kn <= 1)%nat by (do 2 (destruct k as [|k]; [injection EK as <-; cbn; lia|]); destruct k; discriminate EK).
      assert (List.length tn <= 1)%nat by (destruct t as [|t]; [injection ET as <-; cbn; lia|]; destruct t; discriminate ET). rewrite app_length. cbn. lia.
    + intros k t k' t' kn tn kn' tn' EK ET EK' ET' E. destruct t as [|t]; [|destruct t; discriminate ET]. destruct t' as [|t']; [|destruct t'; discriminate ET'].
      injection ET as <-. injection ET' as <-.
      do 2 (destruct k as [|k]; [injection EK as <-; do 2 (destruct k' as [|k']; [injection EK' as <-; first [discriminate E|split; reflexivity]|]); destruct k'; discriminate EK'|]); destruct k; discriminate EK.
  - unfold ix_h. repeat apply Forall_cons; try apply Forall_nil; cbn; repeat split; lia.
  - intros imax ilen stale IL.
    assert (W : exists c, write_all snopage ix_keys ix_tabs (fun _ => 1%nat) ix_h = Some c /\
      c = mksc 2 0 0 [] (c_file c) [(bs "a.t"%string, mksn 0 0 [(0%nat, 0); (3%nat, 1)]); (bs "b.t"%string, mksn 1 0 [(1%nat, 0)])] (fun _ => 1%nat) /\
      c_file c = [Msg [0;0;0;1]; Msg [1;0;1;2]; End; Msg [0;0;0;3]; End]).
    { eexists. split; [vm_compute; reflexivity|]. split; vm_compute; reflexivity. }
    destruct W as (c & W1 & W2 & W3). exists c. split; [exact W1|]. rewrite W3 in W2. rewrite W2. split.
    + unfold sub_part. cbn [c_idx map snd idx_blocks app]. replace (imax <? 0 + ilen (mksn 0 0 [(0%nat, 0); (3%nat, 1)])) with true by (pose proof (IL (mksn 0 0 [(0%nat, 0); (3%nat, 1)])); lia).
      cbn [idx_blocks app]. replace (imax <? 0 + ilen (mksn 1 0 [(1%nat, 0)])) with true by (pose proof (IL (mksn 1 0 [(1%nat, 0)])); lia).
      vm_compute. reflexivity.
    + exists (mkrow (bs "a"%string) (bs "t"%string) [3]). split; [vm_compute; tauto|]. cbn. intros [X|[]]; discriminate X.
Qed.
Print Assumptions C66_index_refuted.

(** a new structure of a table with another size of records: the reader takes the blocks that were written before with the new size;
    two records of two bytes become three of one byte, none of which was written *)
Definition rs_h : list act := [Put 0 0 [1;2;3;4]; Cut; Resize 0 1; Put 0 0 [7]].
Theorem C66_resize_refuted : exists keys tabs sizes h o, series_clear keys tabs /\
  forall stale, exists c, write_all snopage keys tabs sizes h = Some c /\ sub_whole 1048576 stale keys tabs c = Some o /\
    map r_data (arrived keys tabs sizes h) = [[1;2];[3;4];[7]] /\ ~ In [1;2] (map r_data o) /\ ~ In [3;4] (map r_data o).
Proof.
  exists [bs "a"%string], ix_tabs, (fun _ => 2%nat), rs_h, (map (mkrow (bs "a"%string) (bs "t"%string)) [[1];[1];[4];[7]]). split.
  - split.
    + intros k t kn tn EK ET. destruct k as [|[|k]]; try discriminate EK. destruct t as [|[|t]]; try discriminate ET. injection EK as <-. injection ET as <-. cbn. lia.
    + intros k t k' t' kn tn kn' tn' EK ET EK' ET' E. destruct k as [|[|k]]; try discriminate EK. destruct t as [|[|t]]; try discriminate ET.
      destruct k' as [|[|k']]; try discriminate EK'. destruct t' as [|[|t']]; try discriminate ET'. split; reflexivity.
  - intros stale.
    assert (W : exists c, write_all snopage [bs "a"%string] ix_tabs (fun _ => 2%nat) rs_h = Some c /\
      c_file c = [Msg [0;0;0;1;2;1;3;4]; End; Msg [0;0;0;7]; End] /\ c_sizes c = (fun j => if Nat.eqb j 0 then 1%nat else 2%nat)).
    { eexists. split; [vm_compute; reflexivity|]. split; vm_compute; reflexivity. }
    destruct W as (c & W1 & W2 & W3). exists c. split; [exact W1|]. split.
    + unfold sub_whole. rewrite W2, W3. vm_compute. reflexivity.
    + split; [vm_compute; reflexivity|]. split; cbn; intuition discriminate.
Qed.
Print Assumptions C66_resize_refuted.
