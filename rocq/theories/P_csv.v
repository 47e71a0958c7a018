(** Properties of CSV texts: C69. *)
From Verif Require Import Base S_csv M_csv L_csv S_server.
From Coq Require Import ZifyBool ZifyNat String.
Open Scope list_scope. Open Scope Z_scope.

(** Whatever bytes a file holds and in whatever pieces it is read: every line with an end gives the row of its cells, without
    the blanks at their ends; what follows the last line end is not read. *)
Theorem C69_read_partial : forall piece sep ls rest, (1 <= piece)%nat -> sep <> 10 -> Forall (fun l => ~ In 10 l) ls -> ~ In 10 rest ->
  exists rows, csv_read piece sep (List.concat (map (fun l => l ++ [10]) ls) ++ rest) = Some rows /\ Forall2 (row_of sep) ls rows.
Proof.
  intros piece sep ls rest P S F N. fold (texts ls). unfold csv_read. rewrite (pieces_ok (parse_line sep) _ piece _ [] ls rest P (fun H => H) eq_refl F N (Nat.lt_succ_diag_r _)).
  eexists. split; [reflexivity|]. clear - S. induction ls as [|l ls IH]; cbn [got_rows flat_map]; [constructor|].
  destruct (line_row sep l S) as (r & E & R). rewrite E. constructor; [exact R|exact IH].
Qed.
Print Assumptions C69_read_partial.
(** such lines can always be found, so that the theorem is about every file *)
Theorem C69_lines : forall file, exists ls rest, file = List.concat (map (fun l => l ++ [10]) ls) ++ rest /\ Forall (fun l => ~ In 10 l) ls /\ ~ In 10 rest.
Proof. exact lines_exist. Qed.
Print Assumptions C69_lines.
Lemma drop_blanks : forall a, blanks a -> forall x, drop_low (a ++ x) = drop_low x.
Proof. induction 1 as [|c a C B IH]; intros x; [reflexivity|]. cbn [app drop_low]. replace (32 <? c) with false by lia. apply IH. Qed.
(** and the cells are determined by the line *)
Theorem C69_cells : forall p t u, stripped p t -> stripped p u -> t = u.
Proof.
  assert (H : forall p t, stripped p t -> t = c_trim p).
  { intros p t (a & b & z & E & BA & BB & N0 & Z0 & T).
    assert (C : chars p = a ++ t ++ b).
    { rewrite E. replace (a ++ t ++ b ++ z) with ((a ++ t ++ b) ++ z) by (now rewrite <- !app_assoc). rewrite chars_app.
      destruct (existsb (Z.eqb 0) (a ++ t ++ b)) eqn:X.
      - apply existsb_exists in X. destruct X as (x & I & X). apply Z.eqb_eq in X. subst x. contradiction.
      - rewrite chars_id by exact N0. destruct Z0 as [->|Z0]; [cbn; now rewrite app_nil_r|]. destruct z as [|x z]; [cbn in Z0; lia|]. cbn in Z0. subst x. cbn. now rewrite app_nil_r. }
    unfold c_trim. rewrite C. rewrite !rev_app_distr, <- app_assoc. rewrite drop_blanks by (unfold blanks in *; rewrite Forall_forall in *; intros x I; apply BB, in_rev; exact I).
    destruct T as [->|[T1 T2]].
    - cbn [rev app]. rewrite <- (app_nil_r (rev a)), drop_blanks; [reflexivity|]. unfold blanks in *. rewrite Forall_forall in *. intros x I. apply BA, in_rev. exact I.
    - rewrite (drop_id (rev t ++ rev a)); [|right; rewrite last_rev in T2; destruct (rev t) eqn:R; [cbn in T2; lia|exact T2]].
      rewrite rev_app_distr, !rev_involutive. rewrite drop_blanks by exact BA. symmetry. apply drop_id. right. exact T1. }
  intros p t u T U. rewrite (H p t T), (H p u U). reflexivity.
Qed.
Print Assumptions C69_cells.

(** The reader that calls back for every line gives the pieces between the separators, exactly, in whatever pieces the file is
    read. *)
Theorem C69_sub_partial : forall piece sep ls rest, (1 <= piece)%nat -> sep <> 10 -> Forall (fun l => ~ In 10 l) ls -> ~ In 10 rest ->
  exists rows, csv_sub piece sep (List.concat (map (fun l => l ++ [10]) ls) ++ rest) = Some rows /\
    Forall2 (fun l r => r <> [] /\ l ++ [10] = joined sep r /\ Forall (fun p => ~ In sep p) r) ls rows.
Proof.
  intros piece sep ls rest P S F N. fold (texts ls). unfold csv_sub. rewrite (pieces_ok (sub_line sep) _ piece _ [] ls rest P (fun H => H) eq_refl F N (Nat.lt_succ_diag_r _)).
  eexists. split; [reflexivity|]. clear - S. induction ls as [|l ls IH]; cbn [got_rows flat_map]; [constructor|].
  destruct (sub_row sep l S) as (r & E & R). rewrite E. constructor; [exact R|exact IH].
Qed.
Print Assumptions C69_sub_partial.

(** What was written cell by cell is read back: every row, every cell with the text that stands for it. *)
Theorem C69_round_trip_partial : forall piece rows, (1 <= piece)%nat -> Forall fine_row rows ->
  exists text out, put_rows [] rows = Some text /\ csv_read piece 44 text = Some out /\ Forall2 (Forall2 shows) rows out.
Proof.
  intros piece rows P F. exists (texts (map wline rows)), (map (map (fun c => c_trim (wtext c))) rows).
  split; [apply rows_ok; auto|]. assert (LF : Forall noLF (map wline rows)).
  { rewrite Forall_forall in *. intros l I. apply in_map_iff in I. destruct I as (r & <- & I). apply row_read. apply F. exact I. }
  split.
  - unfold csv_read. etransitivity; [exact (pieces_ok (parse_line 44) _ piece _ [] (map wline rows) [] P (fun H => H) (eq_sym (app_nil_r _)) LF (fun H => H) (Nat.lt_succ_diag_r _))|].
    f_equal. clear - F. induction F as [|r rows FR F IH]; [reflexivity|]. cbn [map got_rows flat_map]. rewrite (proj1 (row_read r FR)). cbn [app]. f_equal. exact IH.
  - clear - F. induction F as [|r rows [FR _] F IH]; cbn [map]; constructor; [apply shows_row; exact FR|exact IH].
Qed.
Print Assumptions C69_round_trip_partial.
(** a signed number comes back as the same number, by both readers, also in the last column *)
Theorem C69_numbers : forall t v, numeral t v -> - 2 ^ 63 <= v < 2 ^ 63 ->
  c_atoll t = Some v /\ forall a b, blanks a -> blanks b -> ~ In 0 (a ++ b) -> (List.length (a ++ t ++ b) <= 63)%nat -> sub_int (a ++ t ++ b) = Some v.
Proof.
  intros t v N V. split; [exact (atoll_ok t v N V)|]. intros a b BA BB N0 L. unfold sub_int. replace (Nat.ltb _ 64) with true by (symmetry; apply Nat.ltb_lt; lia).
  assert (C : Forall (fun c => c = 45 \/ digit c) t).
  { destruct N as (d & _ & D & _ & [[-> _]|[-> _]]); [|constructor; [auto|]]; (eapply Forall_impl; [|exact D]; auto). }
  destruct (numeral_clean t C) as (_ & _ & T0 & T).
  rewrite <- (atoll_ok t v N V). f_equal. apply (C69_cells (a ++ t ++ b)); [apply trim_stripped|]. exists a, b, []. rewrite !app_nil_r.
  split; [reflexivity|]. split; [exact BA|]. split; [exact BB|]. split; [|split; [left; reflexivity|exact T]].
  intros K. apply in_app_or in K. destruct K as [K|K]; [apply N0, in_or_app; left; exact K|]. apply in_app_or in K.
  destruct K as [K|K]; [exact (T0 K)|apply N0, in_or_app; right; exact K].
Qed.
Print Assumptions C69_numbers.

(** a plus sign may stand in front of the digits *)
Theorem C69_plus : forall d, d <> [] -> Forall digit d -> dec_value d < 2 ^ 63 -> c_atoll (43 :: d) = Some (dec_value d).
Proof.
  intros d N D V. unfold c_atoll. change (skip_space (43 :: d)) with (43 :: d). cbv iota. change (43 =? 45) with false. change (43 =? 43) with true. cbv iota.
  pose proof (read_digits_ok d 0 [] D (or_introl eq_refl)) as E. rewrite app_nil_r in E. rewrite E. fold (dec_value d).
  assert (P : 0 <= dec_value d).
  { unfold dec_value. assert (H : forall e a, Forall digit e -> 0 <= a -> 0 <= fold_left (fun a c => a * 10 + (c - 48)) e a); [|apply H; [exact D|lia]].
    induction e as [|c e IH]; intros a F A; [exact A|]. inversion F as [|? ? C F']; subst. cbn [fold_left]. apply IH; [exact F'|]. unfold digit in C. lia. }
  cbv zeta. replace ((- 2 ^ 63 <=? dec_value d) && (dec_value d <? 2 ^ 63)) with true by lia. reflexivity.
Qed.
Print Assumptions C69_plus.
Example C69_ex_plus : Forall digit (bs "0012") /\ c_atoll (bs "+0012") = Some 12.
Proof. split; [repeat constructor; unfold digit; cbn; lia|vm_compute; reflexivity]. Qed.
(** for a cell that is not there, the value given by the caller is used *)
Theorem C69_default : forall head rows idx field dflt,
  (nth_error rows idx = None \/ exists r, nth_error rows idx = Some r /\ nth_error r field = None) ->
  fget_int (head :: rows) (Z.of_nat idx) (Z.of_nat field) dflt = Some dflt.
Proof.
  intros head rows idx field dflt H. unfold fget_int, fget_str, lget. replace (Z.of_nat idx + 1 <? 0) with false by lia.
  replace (Z.to_nat (Z.of_nat idx + 1)) with (S idx) by lia. cbn [nth_error]. destruct H as [->|(r & -> & E)]; [reflexivity|].
  apply nth_error_None in E. replace ((Z.of_nat field <? 0) || (Z.of_nat field >? Z.of_nat (Datatypes.length r) - 1)) with true by lia. reflexivity.
Qed.
Print Assumptions C69_default.
Example C69_ex_default : fget_int [[bs "a"]; [bs "5"]] 0 1 7 = Some 7 /\ fget_int [[bs "a"]; [bs "5"]] 1 0 7 = Some 7 /\ fget_int [[bs "a"]; [bs "5"]] 0 0 7 = Some 5.
Proof. repeat split; vm_compute; reflexivity. Qed.
(** a column copied into a buffer of the caller is a text that fits with its end, and all of the column that fits *)
Lemma chars_cut : forall l n, chars (firstn n l) = firstn n (chars l).
Proof. induction l as [|c l IH]; intros [|n]; [reflexivity| reflexivity| cbn [firstn chars]; reflexivity |]. cbn [firstn chars]. destruct (c =? 0); [reflexivity|]. cbn [firstn]. now rewrite IH. Qed.
Lemma chars_no_zero : forall l, ~ In 0 (chars l).
Proof. induction l as [|c l IH]; [intros []|]. cbn [chars]. destruct (Z.eqb_spec c 0); [intros []|]. intros [K|K]; [lia|exact (IH K)]. Qed.
Theorem C69_sub_string : forall c oz, (1 <= oz)%nat ->
  exists rest, chars c = sub_string c oz ++ rest /\ (S (List.length (sub_string c oz)) <= oz)%nat /\ ~ In 0 (sub_string c oz) /\
    (rest <> [] -> S (List.length (sub_string c oz)) = oz).
Proof.
  intros c oz P. unfold sub_string. rewrite chars_cut. exists (skipn (oz - 1) (chars c)). split; [now rewrite firstn_skipn|].
  split; [rewrite firstn_length; lia|]. split.
  - intros K. apply (chars_no_zero c). rewrite <- (firstn_skipn (oz - 1) (chars c)). apply in_or_app. now left.
  - intros R. rewrite firstn_length. destruct (Nat.le_gt_cases (oz - 1) (List.length (chars c))) as [L|L]; [lia|]. rewrite skipn_all2 in R by lia. congruence.
Qed.
Print Assumptions C69_sub_string.
Example C69_ex_sub_string : sub_string (bs "abcdef") 4 = bs "abc" /\ sub_string [97; 0; 98] 4 = [97].
Proof. split; vm_compute; reflexivity. Qed.
(** a new file holds exactly what is written, whatever was there before *)
Theorem C69_new_file : forall old text, write_file true old text = text.
Proof. reflexivity. Qed.
Print Assumptions C69_new_file.
Example C69_ex_new_file : write_file true (Some (bs "old text")) (bs "new") = bs "new" /\ write_file false (Some (bs "old text")) (bs "new") = bs "new text".
Proof. split; vm_compute; reflexivity. Qed.
(** writing fails for a field of characters without bytes and for the least number only *)
Theorem C69_written : forall out c, put_cell out c = None <-> c = CText [] \/ c = CInt (- 2 ^ 63).
Proof.
  intros out c. destruct c as [v|v|raw|t|]; cbn [put_cell].
  - unfold make_int, ll2str. destruct (Z.eqb_spec v (- 2 ^ 63)) as [->|N].
    + split; [right; reflexivity|reflexivity].
    + split; [discriminate|]. intros [H|H]; [discriminate|]. injection H as E. exfalso. exact (N E).
  - split; [discriminate|]. intros [H|H]; discriminate.
  - destruct raw as [|x raw]; cbn [make_str]; (split; [|]).
    + left; reflexivity.
    + reflexivity.
    + discriminate.
    + intros [H|H]; discriminate.
  - split; [discriminate|]. intros [H|H]; discriminate.
  - cbn [make_str]. split; [discriminate|]. intros [H|H]; discriminate.
Qed.
Print Assumptions C69_written.
Example C69_ex_written : put_cell (bs "1") (CText []) = None /\ put_cell (bs "1") (CText [0]) = Some (bs "1,").
Proof. split; vm_compute; reflexivity. Qed.

(** A cell is found by the name of its column. *)
Lemma head_index_no : forall hs i name found, ~ In name hs -> head_index i hs name found = found.
Proof.
  induction hs as [|h hs IH]; intros i name found N; [reflexivity|]. cbn [head_index]. destruct (list_eq_dec Z.eq_dec h name) as [->|]; [exfalso; apply N; left; reflexivity|].
  apply IH. intros K. apply N. right. exact K.
Qed.
Theorem C69_names_partial : forall head rows idx j name r c, NoDup head -> nth_error head j = Some name -> nth_error rows idx = Some r -> nth_error r j = Some c ->
  get_str (head :: rows) (Z.of_nat idx) name = Some c /\ forall d, get_int (head :: rows) (Z.of_nat idx) name d = c_atoll c.
Proof.
  intros head rows idx j name r c ND H R C.
  assert (HI : forall i found, head_index i head name found = i + Z.of_nat j).
  { clear R C. revert j H. induction ND as [|h hs NI ND IH]; intros [|j] H i found; cbn in H; try discriminate; cbn [head_index].
    - injection H as ->. destruct (list_eq_dec Z.eq_dec name name); [|congruence]. rewrite head_index_no by exact NI. lia.
    - destruct (list_eq_dec Z.eq_dec h name) as [->|]; [exfalso; apply NI; eapply nth_error_In; exact H|]. rewrite (IH j H). lia. }
  assert (G : get_str (head :: rows) (Z.of_nat idx) name = Some c).
  { unfold get_str. cbn [head_of]. rewrite HI. unfold fget_str, lget. replace (Z.of_nat idx + 1 <? 0) with false by lia.
    replace (Z.to_nat (Z.of_nat idx + 1)) with (S idx) by lia. cbn [nth_error]. rewrite R.
    assert (L : (j < List.length r)%nat) by (apply nth_error_Some; congruence).
    replace ((0 + Z.of_nat j <? 0) || (0 + Z.of_nat j >? Z.of_nat (List.length r) - 1)) with false by lia.
    replace (0 + Z.of_nat j <? 0) with false by lia. replace (Z.to_nat (0 + Z.of_nat j)) with j by lia. exact C. }
  split; [exact G|]. intros d. unfold get_int. now rewrite G.
Qed.
Print Assumptions C69_names_partial.

(** a table of a code of eight characters, a time, a signed number and a price, read in pieces of seven bytes *)
Definition tab : list (list cell) :=
  [[CText (bs "code"); CText (bs "time"); CText (bs "diff"); CText (bs "price")];
   [CText (bs "SH600600"); CUint 18446744073709551615; CInt (-9223372036854775807); CDec (bs "12.50")];
   [CText (bs "A B" ++ [0; 0; 7; 0; 0]); CUint 0; CInt 7; CNone]].
Example C69_case : Forall fine_row tab /\
  match put_rows [] tab with
  | None => False
  | Some t => t = bs "code,time,diff,price" ++ [13; 10] ++ bs "SH600600,18446744073709551615,-9223372036854775807,12.50" ++ [13; 10] ++ bs "A B,0,7, " ++ [13; 10] /\
     match csv_read 7 44 t with
     | None => False
     | Some rows => rows = [[bs "code"; bs "time"; bs "diff"; bs "price"]; [bs "SH600600"; bs "18446744073709551615"; bs "-9223372036854775807"; bs "12.50"]; [bs "A B"; bs "0"; bs "7"; []]] /\
        get_int rows 0 (bs "diff") 0 = Some (-9223372036854775807) /\ get_int rows 1 (bs "open") 5 = Some 5 /\ get_str rows 1 (bs "code") = Some (bs "A B")
     end
  end.
Proof.
  split.
  - assert (FT : forall raw, forallb (fun c => (0 <=? c) && (c <? 256) && negb (c =? 44) && negb (c =? 10)) raw && (32 <? hd 0 (chars raw)) && (32 <? last (chars raw) 0) = true -> fine (CText raw)).
    { intros raw H. apply andb_prop in H. destruct H as [H H3]. apply andb_prop in H. destruct H as [H1 H2]. rewrite forallb_forall in H1. cbn [fine].
      split; [intros ->; discriminate|]. split; [intros K; specialize (H1 44 K); discriminate|]. split; [intros K; specialize (H1 10 K); discriminate|].
      split; [right; lia|]. apply Forall_forall. intros x I. specialize (H1 x I). lia. }
    assert (FD : forall t, forallb (fun c => (32 <? c) && (c <? 256) && negb (c =? 44)) t && Nat.ltb 0 (List.length t) && Nat.leb (List.length t) 14 = true -> fine (CDec t)).
    { intros t H. apply andb_prop in H. destruct H as [H H3]. apply andb_prop in H. destruct H as [H1 H2]. rewrite forallb_forall in H1. cbn [fine].
      split; [intros ->; discriminate|]. split; [apply Nat.leb_le; exact H3|]. apply Forall_forall. intros x I. specialize (H1 x I). lia. }
    assert (ROW : forall c r, Forall fine (c :: r) -> not_empty c -> fine_row (c :: r)) by (intros c r F N; split; [exact F|exists c, r; auto]).
    unfold tab. repeat (apply Forall_cons; [apply ROW; [|discriminate]; repeat (apply Forall_cons; [first [apply FT; reflexivity|apply FD; reflexivity|exact Logic.I|cbn [fine]; change (2 ^ 63) with 9223372036854775808; change (2 ^ 64) with 18446744073709551616; lia]|]); apply Forall_nil|]).
    apply Forall_nil.
  - vm_compute. repeat split; reflexivity.
Qed.
Example C69_read_case : csv_read 3 124 (bs " a | b" ++ [13; 10] ++ [10] ++ bs "x|" ++ [10] ++ bs "lost") = Some [[bs "a"; bs "b"]; [[]]; [bs "x"; []]].
Proof. vm_compute. reflexivity. Qed.
Example C69_sub_case : csv_sub 3 124 (bs " a | b" ++ [13; 10] ++ [10] ++ bs "x|" ++ [10] ++ bs "lost") = Some [[bs " a "; bs " b" ++ [13; 10]]; [[10]]; [bs "x"; [10]]].
Proof. vm_compute. reflexivity. Qed.
Example C69_numbers_case : numeral (bs "-120") (-120) /\ sub_int (bs " -120" ++ [13; 10]) = Some (-120).
Proof. split; [|reflexivity]. exists (bs "120"). split; [discriminate|]. split; [cbn; unfold digit; repeat (apply Forall_cons; [lia|]); apply Forall_nil|]. split; [right; discriminate|]. right. split; reflexivity. Qed.

(** ** what goes wrong *)
(** A row that begins with an empty field loses its first column: all others move to the left. *)
Theorem C69_first_empty_refuted : exists row, Forall fine row /\ row <> [] /\
  forall piece, (1 <= piece)%nat -> exists text out, put_rows [] [row] = Some text /\ csv_read piece 44 text = Some [out] /\ (List.length out < List.length row)%nat.
Proof.
  exists [CText [0; 0]; CInt 5]. split; [|split; [discriminate|]].
  - constructor; [|constructor; [cbn; lia|constructor]]. cbn. split; [discriminate|]. split; [intuition discriminate|]. split; [intuition discriminate|]. split; [left; reflexivity|repeat constructor; lia].
  - intros piece P. exists ([53; 13] ++ [10]), [[53]]. split; [reflexivity|]. split; [|cbn; lia].
    unfold csv_read. rewrite (pieces_ok (parse_line 44) _ piece _ [] [[53; 13]] []); [reflexivity|exact P|intros []|reflexivity|repeat constructor; intros K; cbn in K; intuition discriminate|intros K; cbn in K; intuition discriminate|apply Nat.lt_succ_diag_r].
Qed.
Print Assumptions C69_first_empty_refuted.
(** A comma in a field makes two cells of it. *)
Theorem C69_comma_refuted : exists raw, raw <> [] /\ tight (chars raw) /\
  forall piece, (1 <= piece)%nat -> exists text out, put_rows [] [[CText raw]] = Some text /\ csv_read piece 44 text = Some [out] /\ List.length out = 2%nat.
Proof.
  exists (bs "a,b"). split; [discriminate|]. split; [right; vm_compute; split; reflexivity|].
  intros piece P. exists (bs "a,b" ++ [13] ++ [10]), [bs "a"; bs "b"]. split; [reflexivity|]. split; [|reflexivity].
  unfold csv_read. rewrite (pieces_ok (parse_line 44) _ piece _ [] [bs "a,b" ++ [13]] []); [reflexivity|exact P|intros []|reflexivity|repeat constructor; intros K; cbn in K; intuition discriminate|intros K; cbn in K; intuition discriminate|apply Nat.lt_succ_diag_r].
Qed.
Print Assumptions C69_comma_refuted.
(** A number with decimals is cut to 14 bytes: another number is written, without notice. *)
Theorem C69_double_refuted : exists t, Forall (fun c => digit c \/ c = 46) t /\
  forall piece, (1 <= piece)%nat -> exists text out c, put_rows [] [[CInt 1; CDec t]] = Some text /\ csv_read piece 44 text = Some [[out; c]] /\
    c = firstn 14 t /\ c <> t /\ ~ In 46 c /\ In 46 t.
Proof.
  exists (bs "1234567890123456.25"). split; [cbn; unfold digit; repeat (apply Forall_cons; [lia|]); apply Forall_nil|].
  intros piece P. exists (bs "1,12345678901234" ++ [13] ++ [10]), (bs "1"), (bs "12345678901234"). split; [reflexivity|]. split.
  - unfold csv_read. rewrite (pieces_ok (parse_line 44) _ piece _ [] [bs "1,12345678901234" ++ [13]] []); [reflexivity|exact P|intros []|reflexivity|repeat constructor; intros K; cbn in K; intuition discriminate|intros K; cbn in K; intuition discriminate|apply Nat.lt_succ_diag_r].
  - split; [reflexivity|]. split; [discriminate|]. split; [intros K; cbn in K; intuition discriminate|vm_compute; tauto].
Qed.
Print Assumptions C69_double_refuted.
(** The last line of a file is not read if it has no line end. *)
Theorem C69_last_line_refuted : exists line, line <> [] /\ ~ In 10 line /\ forall piece, (1 <= piece)%nat ->
  csv_read piece 44 (bs "a" ++ [10] ++ line) = Some [[bs "a"]] /\ csv_size [[bs "a"]] = 0.
Proof.
  exists (bs "1"). split; [discriminate|]. split; [intros K; cbn in K; intuition discriminate|]. intros piece P. split; [|reflexivity]. unfold csv_read. rewrite (pieces_ok (parse_line 44) _ piece _ [] [bs "a"] (bs "1")); [reflexivity|exact P|intros []|reflexivity|repeat constructor; intros K; cbn in K; intuition discriminate|intros K; cbn in K; intuition discriminate|apply Nat.lt_succ_diag_r].
Qed.
Print Assumptions C69_last_line_refuted.
(** An empty file has -1 records. *)
Theorem C69_size_refuted : exists file, forall piece sep, exists rows, csv_read piece sep file = Some rows /\ csv_size rows < 0.
Proof. exists []. intros. exists []. split; [unfold csv_read; cbn [read_pieces List.length]; now rewrite firstn_nil|reflexivity]. Qed.
Print Assumptions C69_size_refuted.
(** With two columns of one name the second hides the first. *)
Theorem C69_names_refuted : exists rows name, get_str rows 0 name <> fget_str rows 0 0 /\ head_of rows = [name; name].
Proof. exists [[bs "v"; bs "v"]; [bs "1"; bs "2"]], (bs "v"). split; [vm_compute; discriminate|reflexivity]. Qed.
Print Assumptions C69_names_refuted.
(** The reader with a callback gives the line end as part of the last column: a text that was written is not the text read. *)
Theorem C69_line_end_refuted : exists c, fine c /\ forall piece, (1 <= piece)%nat -> exists text out, put_rows [] [[c]] = Some text /\
  csv_sub piece 44 text = Some [[out]] /\ ~ shows c (sub_string out 64).
Proof.
  exists (CText (bs "ab")). split; [cbn; split; [discriminate|]; split; [intuition discriminate|]; split; [intuition discriminate|]; split; [right; split; vm_compute; reflexivity|cbn; repeat (apply Forall_cons; [lia|]); apply Forall_nil]|].
  intros piece P. exists (bs "ab" ++ [13] ++ [10]), (bs "ab" ++ [13; 10]). split; [reflexivity|]. split; [|vm_compute; discriminate].
  unfold csv_sub. rewrite (pieces_ok (sub_line 44) _ piece _ [] [bs "ab" ++ [13]] []); [reflexivity|exact P|intros []|reflexivity|repeat constructor; intros K; cbn in K; intuition discriminate|intros K; cbn in K; intuition discriminate|apply Nat.lt_succ_diag_r].
Qed.
Print Assumptions C69_line_end_refuted.
(** A number in a cell of 64 bytes or more is copied over the end of an array of 64 bytes. *)
Theorem C69_long_cell_refuted : exists cell : nat -> list Z, forall n, (64 <= n)%nat -> c_atoll (c_trim (cell n)) = Some 1 /\ sub_int (cell n) = None.
Proof.
  exists (fun n => repeat 32 n ++ [49]). intros n N. split.
  - replace (c_trim (repeat 32 n ++ [49])) with [49]; [reflexivity|]. apply (C69_cells (repeat 32 n ++ [49])); [|apply trim_stripped].
    exists (repeat 32 n), [], []. split; [reflexivity|]. split; [apply Forall_forall; intros x I; apply repeat_spec in I; lia|]. split; [constructor|].
    split; [|split; [left; reflexivity|right; split; vm_compute; reflexivity]]. intros K. apply in_app_or in K. destruct K as [K|K]; [apply repeat_spec in K; lia|cbn in K; intuition discriminate].
  - unfold sub_int. rewrite app_length, repeat_length. replace (Nat.ltb _ 64) with false; [reflexivity|]. symmetry. apply Nat.ltb_ge. cbn [List.length]. lia.
Qed.
Print Assumptions C69_long_cell_refuted.
(** Writing to a file that is not new begins at its beginning: old rows are overwritten in part, and mixed with the new ones. *)
Theorem C69_append_refuted : exists r1 r2 t1 t2, put_rows [] [r1] = Some t1 /\ put_rows [] [r2] = Some t2 /\
  forall piece, (1 <= piece)%nat -> exists out, csv_read piece 44 (write_file false (Some (write_file true None t1)) t2) = Some out /\ out <> [[bs "1234567"]; [bs "8"]] /\ out <> [[bs "8"]; [bs "1234567"]].
Proof.
  exists [CInt 1234567], [CInt 8], (bs "1234567" ++ [13; 10]), (bs "8" ++ [13; 10]). split; [reflexivity|]. split; [reflexivity|].
  intros piece P. exists [[bs "8"]; [bs "4567"]]. split; [|split; discriminate].
  unfold csv_read. rewrite (pieces_ok (parse_line 44) _ piece _ [] [bs "8" ++ [13]; bs "4567" ++ [13]] []); [reflexivity|exact P|intros []|reflexivity|repeat constructor; intros K; cbn in K; intuition discriminate|intros K; cbn in K; intuition discriminate|apply Nat.lt_succ_diag_r].
Qed.
Print Assumptions C69_append_refuted.
