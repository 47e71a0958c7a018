(** C77: a query returns exactly the records and fields it asks for, and a deletion leaves exactly the others. *)
From Coq Require Import String.
From Verif Require Import Base S_server S_map S_table M_dynamic M_table S_json M_json M_netmsg M_tabdef S_rectext M_rectext S_fmap M_fmap P_fmap S_query M_query L_tabdef L_jsonwrite L_json L_rectext L_query.
From Verif Require P_rectext.
From Coq Require Import ZifyBool ZifyNat.
Open Scope list_scope. Open Scope Z_scope.

Section Q.
(** the time of a record, and any quotient in the search *)
Variables (mi : list Z -> Z) (quot : Z -> Z -> Z).
Hypothesis Q0 : nonneg_quot quot.

Lemma chosen_recs ds (u : @funit (list Z)) info l d s : series mi ds (fu_recs u) -> request info l -> fits info d -> selects l s -> 0 < total ds ->
  exists n, node_of info n d l /\ read_recs mi quot u (init_cmd n) = Some (chosen mi s (fu_recs u)) /\
    Forall (record ds) (chosen mi s (fu_recs u)) /\ Z.of_nat (List.length (chosen mi s (fu_recs u))) < 2 ^ 31.
Proof.
  intros (O & T & R & L) RQ F S TP. destruct (request_node info l d RQ F) as (n & N). exists n. split; [exact N|].
  pose proof (node_recs mi quot u info n d l s Q0 O T N S) as E. split; [exact E|]. destruct (read_sub mi quot u _ _ E) as (A & B).
  split; [|nia]. apply Forall_forall. intros x I. rewrite Forall_forall in R. apply R, A, I.
Qed.
Lemma len2 {A B} (P : A -> B -> Prop) l m : Forall2 P l m -> List.length l = List.length m.
Proof. induction 1; cbn [List.length]; congruence. Qed.
Lemma size_pos ds t : simple_table ds -> M_table.create ds = Some t -> 0 < total ds.
Proof. intros ST C. apply (count_recs ds t [] ST C); [constructor|cbn; lia]. Qed.

(** Without names of fields, the answer in one of the forms of text is an object with the records asked for, with all their
    fields, under the key; there is no answer if there are none. *)
Theorem C77_text : forall ds t (u : @funit (list Z)) key info l d s f, simple_table ds -> M_table.create ds = Some t -> series mi ds (fu_recs u) -> plain_key key ->
  request info l -> fits info d -> selects l s -> names_given l None -> form_given l f -> f <> AsBytes ->
  Forall (showable ds) (chosen mi s (fu_recs u)) ->
  match chosen mi s (fu_recs u) with
  | [] => cmd_get mi quot d t u key info = QNull
  | recs => exists v txt, cmd_get mi quot d t u key info = QText txt /\ jtext false (JObj [(key, v)]) txt /\ shown_rows ds recs v
  end.
Proof.
  intros ds t u key info l d s f ST C SE K RQ F S NG FG NB SH. pose proof (size_pos ds t ST C) as TP.
  destruct (chosen_recs ds u info l d s SE RQ F S TP) as (n & N & E & R & L).
  rewrite (node_get mi quot d t u key info n l f N FG).
  assert (G : (match f with AsBytes => get_sds mi quot t u n | AsArray => get_chars mi quot t u key OArray n | AsJson => get_chars mi quot t u key OJson n end) =
    of_text (to_array_text t (Some key) (List.concat (chosen mi s (fu_recs u))))).
  { destruct f; [| |congruence]; unfold get_chars; rewrite E, (node_fields info n d l None N NG); reflexivity. }
  rewrite G. destruct (chosen mi s (fu_recs u)) as [|r recs] eqn:EC.
  - unfold to_array_text. reflexivity.
  - destruct (all_text ds t key (r :: recs) ST C K ltac:(discriminate) L SH) as (v & txt & A & B & D). exists v, txt. rewrite A. split; [reflexivity|]. split; assumption.
Qed.

(** With names of fields that the table has, the answer as an array is the array of the records asked for, each the array of the
    values of these fields in the order of the names. *)
Theorem C77_array : forall ds t (u : @funit (list Z)) key info l d s names xs, simple_table ds -> M_table.create ds = Some t -> series mi ds (fu_recs u) ->
  request info l -> fits info d -> selects l s -> names_given l (Some names) -> fields_named ds names xs -> Z.of_nat (List.length names) < 2 ^ 31 ->
  form_given l AsArray -> Forall (showable ds) (chosen mi s (fu_recs u)) ->
  exists vs txt, cmd_get mi quot d t u key info = QText txt /\ jtext false (JArr vs) txt /\ Forall2 (shown_part xs) (chosen mi s (fu_recs u)) vs.
Proof.
  intros ds t u key info l d s names xs ST C SE RQ F S NG FN LN FG SH. pose proof (size_pos ds t ST C) as TP.
  destruct (chosen_recs ds u info l d s SE RQ F S TP) as (n & N & E & R & L). set (recs := chosen mi s (fu_recs u)) in *.
  rewrite (node_get mi quot d t u key info n l AsArray N FG). unfold get_chars. rewrite E, (node_fields info n d l (Some names) N NG).
  destruct (found_units ds t names xs ST C FN) as (U & IX).
  assert (LX : Z.of_nat (List.length xs) < 2 ^ 31) by (rewrite <- (len2 _ _ _ FN); exact LN).
  destruct (parts_short ds xs recs ST IX SH LX) as (PS & PV).
  destruct (array_text (parts xs recs)) as (txt & A & B); [unfold parts; rewrite map_length; exact L|exact PS|].
  exists (map (fun r => JArr (map item_val r)) (parts xs recs)), txt. split; [|split; [exact B|exact PV]].
  destruct (count_recs ds t recs ST C R L) as (RC & TS & _ & _).
  pose proof (part_rows ds xs recs ST IX SH 0 [] eq_refl) as PR. cbn [app] in PR.
  unfold fields_to_array, rows_of. rewrite RC, U, TS, PR. clear E. clearbody recs. destruct recs as [|r recs]; cbn [List.length].
  - change (array_of None []) with (array_of None (parts xs [])). rewrite A. reflexivity.
  - rewrite A. reflexivity.
Qed.

(** As JSON it is an object of the numbers of the fields under their names, and of the array under the key. *)
Theorem C77_json : forall ds t (u : @funit (list Z)) key info l d s names xs, simple_table ds -> plain_names ds -> M_table.create ds = Some t -> series mi ds (fu_recs u) ->
  plain_key key -> request info l -> fits info d -> selects l s -> names_given l (Some names) -> fields_named ds names xs -> Z.of_nat (List.length names) < 2 ^ 31 ->
  form_given l AsJson -> Forall (showable ds) (chosen mi s (fu_recs u)) ->
  exists fs vs txt, cmd_get mi quot d t u key info = QText txt /\ jtext false (JObj [(bs "fields"%string, JObj fs); (key, JArr vs)]) txt /\
    numbered_names 0 xs fs /\ Forall2 (shown_part xs) (chosen mi s (fu_recs u)) vs.
Proof.
  intros ds t u key info l d s names xs ST PN C SE K RQ F S NG FN LN FG SH. pose proof (size_pos ds t ST C) as TP.
  destruct (chosen_recs ds u info l d s SE RQ F S TP) as (n & N & E & R & L). set (recs := chosen mi s (fu_recs u)) in *.
  rewrite (node_get mi quot d t u key info n l AsJson N FG). unfold get_chars. rewrite E, (node_fields info n d l (Some names) N NG).
  destruct (found_units ds t names xs ST C FN) as (U & IX).
  assert (LX : Z.of_nat (List.length xs) < 2 ^ 31) by (rewrite <- (len2 _ _ _ FN); exact LN).
  destruct (parts_short ds xs recs ST IX SH LX) as (PS & PV).
  destruct (names_shape ds xs ST PN IX 0 ltac:(lia) ltac:(lia)) as (fs & N1 & N2 & N3 & N4 & N5).
  destruct (object_text key [JN 7 (Some w_fields) None (names_nodes 0 (map unit_at xs))] [(bs "fields"%string, JObj fs)] (parts xs recs) K) as (txt & A & B).
  - unfold parts. rewrite map_length. exact L.
  - exact PS.
  - cbn [obj_shape]. split; [|exact Logic.I]. apply shaped_obj. cbn [jkey jty jval jkids]. split; [reflexivity|]. split; [reflexivity|]. split; [reflexivity|exact N1].
  - constructor; [|constructor]. cbn [fst snd]. split; [discriminate|]. split; [apply P_json.plain_all; reflexivity|]. apply readable_obj. split; assumption.
  - constructor; [|constructor]. apply short_kids. cbn [short_str]. split; [reflexivity|]. split; [exact Logic.I|exact N4].
  - exists fs, (map (fun r => JArr (map item_val r)) (parts xs recs)), txt. split; [|split; [exact B|split; [exact N2|exact PV]]].
    destruct (count_recs ds t recs ST C R L) as (RC & TS & _ & _).
    pose proof (part_rows ds xs recs ST IX SH 0 [] eq_refl) as PR. cbn [app] in PR.
    unfold fields_to_json, rows_of. rewrite RC, U, TS, PR. cbn [app] in A. rewrite A. reflexivity.
Qed.

(** As bytes it is the bytes of the records asked for. *)
Theorem C77_bytes : forall ds t (u : @funit (list Z)) key info l d s, simple_table ds -> M_table.create ds = Some t -> series mi ds (fu_recs u) ->
  request info l -> fits info d -> selects l s -> names_given l None -> form_given l AsBytes ->
  cmd_get mi quot d t u key info = QBytes (List.concat (chosen mi s (fu_recs u))).
Proof.
  intros ds t u key info l d s ST C SE RQ F S NG FG. pose proof (size_pos ds t ST C) as TP.
  destruct (chosen_recs ds u info l d s SE RQ F S TP) as (n & N & E & R & L).
  rewrite (node_get mi quot d t u key info n l AsBytes N FG). unfold get_sds. rewrite E, (node_fields info n d l None N NG). reflexivity.
Qed.

(** With names it is the bytes of the named fields of each record; names the table does not have are passed over, and there is no
    answer if nothing is left. *)
Theorem C77_bytes_fields : forall ds t (u : @funit (list Z)) key info l d s names, simple_table ds -> M_table.create ds = Some t -> series mi ds (fu_recs u) ->
  request info l -> fits info d -> selects l s -> names_given l (Some names) -> Forall short_name names -> form_given l AsBytes ->
  cmd_get mi quot d t u key info = match List.concat (map (part_bytes ds names) (chosen mi s (fu_recs u))) with [] => QNull | b => QBytes b end.
Proof.
  intros ds t u key info l d s names ST C SE RQ F S NG SN FG. pose proof (size_pos ds t ST C) as TP.
  destruct (chosen_recs ds u info l d s SE RQ F S TP) as (n & N & E & R & L). set (recs := chosen mi s (fu_recs u)) in *.
  rewrite (node_get mi quot d t u key info n l AsBytes N FG). unfold get_sds. rewrite E, (node_fields info n d l (Some names) N NG).
  exact (struct_ok ds t names recs ST C R SN L).
Qed.

(** A deletion leaves exactly the records outside of the range, or of other times. *)
Theorem C77_del : forall ds (u : @funit (list Z)) txt l d s, series mi ds (fu_recs u) -> request (Some txt) l -> fits (Some txt) d -> removes l s ->
  exists u', cmd_del mi quot d u (Some txt) = DDone u' /\ fu_recs u' = left_over mi s (fu_recs u).
Proof.
  intros ds u txt l d s (O & T & _ & _) RQ F S. destruct (request_node _ l d RQ F) as ([n|] & N); cbn [node_of] in N; [|contradiction].
  destruct N as (LD & H). unfold cmd_del. rewrite LD. unfold io_del, removes in *. destruct (member (bs "range"%string) l) as [v|] eqn:MR.
  - destruct S as (r & a & b & va & -> & MS & WA & WB & ->).
    destruct (member_some _ _ _ _ H MR) as (c & k & -> & SH). apply L_json.shaped_obj in SH as (_ & _ & _ & SH).
    rewrite (start_there _ _ _ SH MS), (int_of _ _ _ _ _ _ SH MS WA), (int_or _ _ _ _ _ SH WB).
    assert (IA : is_int64 a) by (destruct WA as (? & _ & _ & X); exact X).
    assert (IB : is_int64 b) by (unfold whole_or in WB; destruct (member _ r) in WB; [destruct WB as (? & _ & _ & X); exact X|subst b; exact IA]).
    destruct (del_range mi quot Q0 u a b O T IA IB) as (u' & A & B). rewrite A. exists u'. split; [reflexivity|exact B].
  - rewrite (member_none _ _ _ H MR). destruct S as (v & r & m & va & MW & -> & MS & WA & M0 & ->).
    destruct (member_some _ _ _ _ H MW) as (c & k & -> & SH). apply L_json.shaped_obj in SH as (_ & _ & _ & SH).
    rewrite (start_there _ _ _ SH MS), (int_of _ _ _ _ _ _ SH MS WA).
    assert (IA : is_int64 m) by (destruct WA as (? & _ & _ & X); exact X). unfold is_int64 in IA.
    rewrite to_u_small by (change (2 ^ 64) with (2 ^ 63 * 2); lia).
    destruct (del_where mi quot Q0 u m O) as (u' & A & B). rewrite A. exists u'. split; [reflexivity|exact B].
Qed.
(** A range without a beginning, and a time without its value, delete nothing. *)
Theorem C77_del_nothing : forall (u : @funit (list Z)) txt l d, request (Some txt) l -> fits (Some txt) d ->
  (exists r, member (bs "range"%string) l = Some (JObj r) /\ member (bs "start"%string) r = None) \/
  (exists r, member (bs "range"%string) l = None /\ member (bs "where"%string) l = Some (JObj r) /\ member (bs "start"%string) r = None) ->
  cmd_del mi quot d u (Some txt) = DNothing.
Proof.
  intros u txt l d RQ F S. destruct (request_node _ l d RQ F) as ([n|] & N); cbn [node_of] in N; [|contradiction].
  destruct N as (LD & H). unfold cmd_del. rewrite LD. unfold io_del. destruct S as [(r & MR & MS)|(r & MR & MW & MS)].
  - destruct (member_some _ _ _ _ H MR) as (c & k & -> & SH). apply L_json.shaped_obj in SH as (_ & _ & _ & SH).
    unfold has_start. rewrite (member_none _ _ _ SH MS). reflexivity.
  - rewrite (member_none _ _ _ H MR). destruct (member_some _ _ _ _ H MW) as (c & k & -> & SH). apply L_json.shaped_obj in SH as (_ & _ & _ & SH).
    unfold has_start. rewrite (member_none _ _ _ SH MS). reflexivity.
Qed.

(** A time without its value finds nothing: there is no answer as a text, and no bytes. *)
Theorem C77_get_nothing : forall ds t (u : @funit (list Z)) key txt l d f r, series mi ds (fu_recs u) -> request (Some txt) l -> fits (Some txt) d ->
  member (bs "range"%string) l = None -> member (bs "where"%string) l = Some (JObj r) -> member (bs "start"%string) r = None ->
  member (bs "offset"%string) r = None -> names_given l None -> form_given l f ->
  cmd_get mi quot d t u key (Some txt) = match f with AsBytes => QBytes [] | _ => QNull end.
Proof.
  intros ds t u key txt l d f r (O & T & _ & _) RQ F MR MW MS MO NG FG. destruct (request_node _ l d RQ F) as ([n|] & N); cbn [node_of] in N; [|contradiction].
  rewrite (node_get mi quot d t u key (Some txt) (Some n) l f N FG).
  assert (E : read_recs mi quot u (init_cmd (Some n)) = Some []).
  { destruct N as (_ & H). unfold init_cmd. rewrite (member_none _ _ _ H MR). destruct (member_some _ _ _ _ H MW) as (c & k & -> & SH).
    apply L_json.shaped_obj in SH as (_ & _ & _ & SH). unfold has_start, get_offset. rewrite (member_none _ _ _ SH MS).
    unfold node_int, node_str. rewrite (member_none _ _ _ SH MO). change (to_s 32 0) with 0. unfold read_recs. cbn [q_where q_start q_offset].
    destruct (C16_where mi quot Q0 u (to_u 64 (- 1)) O) as (q & E & W). rewrite E.
    replace (filter (fun x => mi x =? to_u 64 (- 1)) (fu_recs u)) with (@nil (list Z)) in W; [exact (answered _ _ _ W)|].
    symmetry. clear - T. change (to_u 64 (- 1)) with (2 ^ 64 - 1). unfold times_ok in T. induction (fu_recs u) as [|x xs IH]; [reflexivity|]. cbn [filter].
    pose proof (T x (or_introl eq_refl)) as B. replace (mi x =? 2 ^ 64 - 1) with false by (symmetry; apply Z.eqb_neq; change (2 ^ 64) with (2 ^ 63 * 2); lia).
    apply IH. intros y I. apply T. right. exact I. }
  destruct f; unfold get_chars, get_sds; rewrite E, (node_fields (Some txt) (Some n) d l None N NG); reflexivity.
Qed.
(** Where no record is asked for, the names of fields are not looked at: the array is empty, whatever the names. *)
Theorem C77_array_empty : forall ds t (u : @funit (list Z)) key info l d s names, simple_table ds -> M_table.create ds = Some t -> series mi ds (fu_recs u) ->
  request info l -> fits info d -> selects l s -> names_given l (Some names) -> form_given l AsArray -> chosen mi s (fu_recs u) = [] ->
  exists txt, cmd_get mi quot d t u key info = QText txt /\ jtext false (JArr []) txt.
Proof.
  intros ds t u key info l d s names ST C SE RQ F S NG FG CH. pose proof (size_pos ds t ST C) as TP.
  destruct (chosen_recs ds u info l d s SE RQ F S TP) as (n & N & E & R & L). rewrite CH in E, R, L.
  rewrite (node_get mi quot d t u key info n l AsArray N FG). unfold get_chars. rewrite E, (node_fields info n d l (Some names) N NG).
  destruct (array_text []) as (txt & A & B); [cbn; lia|constructor|]. exists txt. split; [|exact B].
  destruct (count_recs ds t [] ST C R L) as (RC & TS & _ & _).
  unfold fields_to_array. rewrite RC. cbn [List.length]. rewrite A. reflexivity.
Qed.
End Q.
Print Assumptions C77_text. Print Assumptions C77_array. Print Assumptions C77_json. Print Assumptions C77_bytes. Print Assumptions C77_bytes_fields. Print Assumptions C77_del.
Print Assumptions C77_del_nothing. Print Assumptions C77_get_nothing. Print Assumptions C77_array_empty.

(** * Examples *)
Definition q (s : string) : list Z := map (fun c => if c =? 39 then 34 else c) (bs s).
Definition ds : list fdef :=
  [mkdef (bs "t"%string) K_MSEC 8 1 0 true false; mkdef (bs "chg"%string) K_INT 2 1 0 false false; mkdef (bs "name"%string) K_CHAR 4 1 0 false false].
Definition tb : table :=
  mkt [mktf (bs "t"%string) (mkfield 84 8 1 0) 0 true false; mktf (bs "chg"%string) (mkfield 73 2 1 8) 0 false false;
       mktf (bs "name"%string) (mkfield 67 4 1 10) 0 false false] [] [(bs "t"%string, 1); (bs "chg"%string, 2); (bs "name"%string, 3)] 14 1 1 [].
Definition time (r : list Z) : Z := le_val (firstn 8 r).
Definition rec1 (m c n : Z) : list Z := [m; 0; 0; 0; 0; 0; 0; 0] ++ [c; 0] ++ [97; n; 0; 0].
Definition recs : list (list Z) := [rec1 10 1 98; rec1 20 2 34; rec1 20 3 99; rec1 30 4 100].
Definition ser (l : list (list Z)) : @funit (list Z) := mkfunit l [] (time (hd [] l)) (time (last l [])) 5.

Lemma quot_ok : nonneg_quot Z.div.
Proof. intros a b A B. apply Z.div_pos; lia. Qed.
Lemma made_tb : M_table.create ds = Some tb.
Proof. vm_compute. reflexivity. Qed.
Lemma simple_ds : simple_table ds.
Proof.
  refine (conj _ (conj _ _)).
  - cbn [ds distinct_names]. split; [intros _ e [<-|[<-|[]]] _; vm_compute; reflexivity|]. split; [intros _ e [<-|[]] _; vm_compute; reflexivity|].
    split; [intros _ e []|exact Logic.I].
  - reflexivity.
  - constructor; [intros _; split; [reflexivity|left; split; reflexivity]|]. constructor; [intros _; split; [reflexivity|left; split; reflexivity]|].
    constructor; [intros _; split; [reflexivity|right; reflexivity]|constructor].
Qed.
Lemma layout_ds : layout ds = [(mkdef (bs "t"%string) K_MSEC 8 1 0 true false, 0); (mkdef (bs "chg"%string) K_INT 2 1 0 false false, 8);
                               (mkdef (bs "name"%string) K_CHAR 4 1 0 false false, 10)].
Proof. vm_compute. reflexivity. Qed.
Lemma series_recs : series time ds recs.
Proof.
  refine (conj _ (conj _ (conj _ _))).
  - unfold in_order. change (map time recs) with [10; 20; 20; 30]. repeat constructor; lia.
  - intros x [<-|[<-|[<-|[<-|[]]]]]; vm_compute; split; congruence.
  - repeat (constructor; [split; [apply P_rectext.bytes_ok; reflexivity|reflexivity]|]). constructor.
  - reflexivity.
Qed.
Lemma showable_recs : Forall (showable ds) recs.
Proof.
  constructor; [|constructor; [|constructor; [|constructor; [|constructor]]]]; (split; [split; [apply P_rectext.bytes_ok; reflexivity|reflexivity]|]); rewrite layout_ds;
    (constructor; [split; reflexivity|constructor; [split; reflexivity|constructor; [|constructor]]]);
    repeat (apply Forall_cons; [unfold plain; lia|]); apply Forall_nil.
Qed.
Definition plainb (s : list Z) : bool := forallb (fun c => (32 <=? c) && (c <? 256) && negb (c =? 34) && negb (c =? 92)) s.
Lemma j_str s : plainb s = true -> jtext false (JStr s) (34 :: s ++ [34]).
Proof. intros H. apply T_str. apply P_json.lex_self. apply P_json.plain_all. exact H. Qed.
Lemma dec_ok z s : match s with [] => false | _ => forallb (fun c => (48 <=? c) && (c <=? 57)) s end = true ->
  fold_left (fun a c => a * 10 + (c - 48)) s 0 = z -> (s = [48] \/ hd 0 s <> 48) -> is_dec z s.
Proof.
  intros A B C. split; [|split; assumption]. split; [intros ->; discriminate A|]. apply Forall_forall. intros c I.
  destruct s as [|x s]; [discriminate|]. rewrite forallb_forall in A. specialize (A c I). unfold digit. lia.
Qed.
Lemma j_num z s : is_dec z s -> jtext false (JNum s) s.
Proof. intros D. apply T_num. exact (L_nettext.dec_num _ _ D). Qed.
Lemma k_ok k : k <> [] -> plainb k = true -> keylex false k k.
Proof. intros A B. apply L_jsonwrite.plain_keylex; [exact A|]. apply P_json.plain_all. exact B. Qed.
Lemma m_last k v t : k <> [] -> plainb k = true -> jtext false v t -> members false [(k, v)] (34 :: k ++ 34 :: 58 :: t).
Proof.
  intros A B J. pose proof (M_last false k k v [] [] [] (t ++ []) ltac:(constructor) (k_ok k A B) ltac:(constructor) ltac:(constructor) (I_val false true v t [] J ltac:(constructor))) as M.
  cbn [app] in M. rewrite app_nil_r in M. exact M.
Qed.
Lemma m_cons k v t l r : k <> [] -> plainb k = true -> jtext false v t -> members false l r -> members false ((k, v) :: l) (34 :: k ++ 34 :: 58 :: t ++ 44 :: r).
Proof.
  intros A B J R. pose proof (M_cons false k k v [] [] [] (t ++ []) l r ltac:(constructor) (k_ok k A B) ltac:(constructor) ltac:(constructor) (I_val false false v t [] J ltac:(constructor)) R) as M.
  cbn [app] in M. rewrite app_nil_r in M. exact M.
Qed.
Definition whole10 : whole (JNum (bs "10"%string)) 10.
Proof. eexists. split; [reflexivity|]. split; [left; split; [lia|]; apply dec_ok; [reflexivity|reflexivity|right; discriminate]|lia]. Qed.
Definition whole20 : whole (JNum (bs "20"%string)) 20.
Proof. eexists. split; [reflexivity|]. split; [left; split; [lia|]; apply dec_ok; [reflexivity|reflexivity|right; discriminate]|lia]. Qed.

(** names and times from 10 to 20, in each of the forms *)
Definition from_to : list (list Z * jv) := [(bs "start"%string, JNum (bs "10"%string)); (bs "stop"%string, JNum (bs "20"%string))].
Definition asked (f : string) : list (list Z * jv) :=
  [(bs "range"%string, JObj from_to); (bs "fields"%string, JStr (bs "Name , t"%string)); (bs "format"%string, JStr (bs f))].
Definition asked_text (f : list Z) : list Z := q "{'range':{'start':10,'stop':20},'fields':'Name , t','format':'" ++ f ++ q "'}".
Lemma asked_ok f : plainb (bs f) = true -> request (Some (asked_text (bs f))) (asked f).
Proof.
  intros H. cbn [request].
  assert (D1 : is_dec 10 (bs "10"%string)) by (apply dec_ok; [reflexivity|reflexivity|right; discriminate]).
  assert (D2 : is_dec 20 (bs "20"%string)) by (apply dec_ok; [reflexivity|reflexivity|right; discriminate]).
  pose proof (T_obj false _ _ (m_cons (bs "range"%string) _ _ _ _ ltac:(discriminate) eq_refl
    (T_obj false _ _ (m_cons (bs "start"%string) _ _ _ _ ltac:(discriminate) eq_refl (j_num _ _ D1) (m_last (bs "stop"%string) _ _ ltac:(discriminate) eq_refl (j_num _ _ D2))))
    (m_cons (bs "fields"%string) _ _ _ _ ltac:(discriminate) eq_refl (j_str (bs "Name , t"%string) eq_refl)
      (m_last (bs "format"%string) _ _ ltac:(discriminate) eq_refl (j_str (bs f) H))))) as J.
  unfold asked, from_to. revert J. generalize (bs f). intros x J.
  match type of J with jtext _ _ ?t => replace (asked_text x) with t; [exact J|] end.
  unfold asked_text. cbn. rewrite <- ?app_assoc. cbn. reflexivity.
Qed.
Lemma asked_selects f : selects (asked f) (Between 10 20 false).
Proof. refine (ex_intro _ from_to (ex_intro _ 10 (ex_intro _ 20 (ex_intro _ 0 (ex_intro _ _ (conj eq_refl (conj eq_refl (conj whole10 (conj whole20 (conj eq_refl (conj _ eq_refl))))))))))). lia. Qed.
Lemma name_ok n : match n with [] => false | _ => forallb (fun c => (32 <? c) && negb (c =? 44)) n end = true -> a_name n.
Proof.
  intros H. assert (A : n <> []) by (intros ->; discriminate H). destruct n as [|x n]; [easy|]. rewrite forallb_forall in H.
  split; [exact A|]. split; [intros I; specialize (H _ I); lia|apply Forall_forall; intros c I; specialize (H _ I); lia].
Qed.
Lemma asked_names f : names_given (asked f) (Some [bs "Name"%string; bs "t"%string]).
Proof.
  exists (bs "Name , t"%string). split; [reflexivity|]. exists [bs "Name"%string; bs "t"%string]. split; [|reflexivity]. split; [discriminate|].
  exists [bs "Name "%string; bs " t"%string]. split; [reflexivity|]. constructor; [|constructor; [|constructor]].
  - split; [apply name_ok; reflexivity|]. exists [], [32]. split; [reflexivity|]. split; [constructor|constructor; [lia|constructor]].
  - split; [apply name_ok; reflexivity|]. exists [32], []. split; [reflexivity|]. split; [constructor; [lia|constructor]|constructor].
Qed.
Definition xs : list (fdef * Z) := [(mkdef (bs "name"%string) K_CHAR 4 1 0 false false, 10); (mkdef (bs "t"%string) K_MSEC 8 1 0 true false, 0)].
Lemma asked_fields : fields_named ds [bs "Name"%string; bs "t"%string] xs.
Proof. constructor; [vm_compute; reflexivity|constructor; [vm_compute; reflexivity|constructor]]. Qed.
Lemma asked_chosen : chosen time (Between 10 20 false) recs = [rec1 10 1 98; rec1 20 2 34; rec1 20 3 99].
Proof. vm_compute. reflexivity. Qed.
Example C77_array_ex :
  simple_table ds /\ M_table.create ds = Some tb /\ series time ds recs /\ request (Some (asked_text (bs "array"%string))) (asked "array"%string) /\
  selects (asked "array"%string) (Between 10 20 false) /\ names_given (asked "array"%string) (Some [bs "Name"%string; bs "t"%string]) /\
  fields_named ds [bs "Name"%string; bs "t"%string] xs /\ form_given (asked "array"%string) AsArray /\ Forall (showable ds) recs /\
  cmd_get time Z.div 100 tb (ser recs) (bs "k.s"%string) (Some (asked_text (bs "array"%string))) = QText (q "[['ab',10],['a\'',20],['ac',20]]").
Proof.
  refine (conj simple_ds (conj made_tb (conj series_recs (conj (asked_ok "array"%string eq_refl) (conj (asked_selects _) (conj (asked_names _) (conj asked_fields (conj _ (conj showable_recs _))))))))).
  - eexists. eexists. split; [reflexivity|]. left. reflexivity.
  - vm_compute. reflexivity.
Qed.
Example C77_json_ex : plain_names ds /\ form_given (asked "json"%string) AsJson /\ plain_key (bs "k.s"%string) /\
  cmd_get time Z.div 100 tb (ser recs) (bs "k.s"%string) (Some (asked_text (bs "json"%string))) =
    QText (q "{'fields':{'name':0,'t':1},'k.s':[['ab',10],['a\'',20],['ac',20]]}").
Proof.
  refine (conj _ (conj _ (conj _ _))).
  - repeat (constructor; [split; [split; [discriminate|split; [apply P_json.plain_all; reflexivity|cbn; lia]]|cbn; lia]|]). constructor.
  - eexists. eexists. split; [reflexivity|]. left. reflexivity.
  - split; [discriminate|]. split; [apply P_json.plain_all; reflexivity|cbn; lia].
  - vm_compute. reflexivity.
Qed.
Example C77_bytes_fields_ex : form_given (asked "bytes"%string) AsBytes /\ Forall short_name [bs "Name"%string; bs "t"%string] /\
  cmd_get time Z.div 100 tb (ser recs) (bs "k.s"%string) (Some (asked_text (bs "bytes"%string))) =
    QBytes ([97; 98; 0; 0] ++ [10; 0; 0; 0; 0; 0; 0; 0] ++ [97; 34; 0; 0] ++ [20; 0; 0; 0; 0; 0; 0; 0] ++ [97; 99; 0; 0] ++ [20; 0; 0; 0; 0; 0; 0; 0]).
Proof.
  refine (conj _ (conj _ _)).
  - eexists. eexists. split; [reflexivity|]. left. reflexivity.
  - constructor; [split; cbn; lia|constructor; [split; cbn; lia|constructor]].
  - vm_compute. reflexivity.
Qed.
(** without a request: the newest; the second before a time; from a time of which there is no record, with the one before *)
Example C77_text_ex : selects [] (Between (- 1) 0 false) /\ names_given [] None /\ form_given [] AsArray /\
  cmd_get time Z.div 100 tb (ser recs) (bs "k.s"%string) None = QText (q "{'k.s':[30,4,'ad']}") /\
  cmd_get time Z.div 100 tb (ser recs) (bs "k.s"%string) (Some (q "{'where':{'start':30,'offset':-2},'fields':'*'}")) = QText (q "{'k.s':[20,2,'a\'']}") /\
  cmd_get time Z.div 100 tb (ser recs) (bs "k.s"%string) (Some (q "{'range':{'start':15,'stop':-1,'ifprev':1}}")) =
    QText (q "{'k.s':[[10,1,'ab'],[20,2,'a\''],[20,3,'ac'],[30,4,'ad']]}") /\
  cmd_get time Z.div 100 tb (ser recs) (bs "k.s"%string) (Some (q "{'where':{'start':15}}")) = QNull.
Proof. repeat split; vm_compute; reflexivity. Qed.
Example C77_bytes_ex :
  cmd_get time Z.div 100 tb (ser recs) (bs "k.s"%string) (Some (q "{'where':{'start':20},'format':'struct'}")) = QBytes (rec1 20 2 34 ++ rec1 20 3 99).
Proof. vm_compute. reflexivity. Qed.
Example C77_del_ex : exists u', removes (asked "x"%string) (Between 10 20 false) /\
  cmd_del time Z.div 100 (ser recs) (Some (asked_text (bs "x"%string))) = DDone u' /\ fu_recs u' = [rec1 30 4 100].
Proof.
  exists (mkfunit [rec1 30 4 100] [] 30 30 0).
  refine (conj (ex_intro _ from_to (ex_intro _ 10 (ex_intro _ 20 (ex_intro _ _ (conj eq_refl (conj eq_refl (conj whole10 (conj whole20 eq_refl)))))))) (conj _ eq_refl)).
  vm_compute. reflexivity.
Qed.
Example C77_nothing_ex :
  cmd_del time Z.div 100 (ser recs) (Some (q "{'range':{'stop':20}}")) = DNothing /\ cmd_del time Z.div 100 (ser recs) (Some (q "{'where':{'stop':20}}")) = DNothing /\
  cmd_get time Z.div 100 tb (ser recs) (bs "k.s"%string) (Some (q "{'where':{'stop':20}}")) = QNull /\
  cmd_get time Z.div 100 tb (ser recs) (bs "k.s"%string) (Some (q "{'where':{'stop':20},'format':'bytes'}")) = QBytes [] /\
  cmd_get time Z.div 100 tb (ser recs) (bs "k.s"%string) (Some (q "{'where':{'start':15},'fields':'nobody'}")) = QText (bs "[]"%string) /\
  chosen time (At 15) recs = [].
Proof. refine (conj _ (conj _ (conj _ (conj _ (conj _ _))))); vm_compute; reflexivity. Qed.

(** * What does not hold *)
(** the answer to a request on the example *)
Definition ask (s : string) : qres := cmd_get time Z.div 1000 tb (ser recs) (bs "k.s"%string) (Some (q s)).

(** A name the table does not have, in one of the forms of text, or names that are not given as a text: the program crashes. *)
Theorem C77_unknown_refuted : M_table.create ds = Some tb /\ series time ds recs /\ Forall (showable ds) recs /\
  ask "{'fields':'price'}" = QCrash /\ ask "{'fields':'t,','format':'json'}" = QText (q "{'fields':{'t':0},'k.s':[[30]]}") /\
  ask "{'fields':'t,,name'}" = QCrash /\ ask "{'fields':['t','name']}" = QCrash.
Proof. refine (conj made_tb (conj series_recs (conj showable_recs _))). repeat split; vm_compute; reflexivity. Qed.
Print Assumptions C77_unknown_refuted.

(** As bytes names that are not known are passed over, but one of 128 bytes is written past the end of a buffer on the stack. *)
Theorem C77_long_name_refuted : exists n, (forall c, In c n -> 97 <= c <= 122) /\ field_of ds n = None /\ List.length n = 128%nat /\
  cmd_get time Z.div 1000 tb (ser recs) (bs "k.s"%string) (Some (q "{'format':'bytes','fields':'" ++ n ++ q "'}")) = QCrash /\
  cmd_get time Z.div 1000 tb (ser recs) (bs "k.s"%string) (Some (q "{'format':'bytes','fields':'" ++ tl n ++ q ",chg'}")) = QBytes [4; 0].
Proof.
  exists (repeat 97 128). split; [intros c I; apply repeat_spec in I; lia|]. repeat split; vm_compute; reflexivity.
Qed.
Print Assumptions C77_long_name_refuted.

(** A name may end in a point and the number of an element; it is not compared with the number of elements: bytes of other fields
    and from outside of the records are sent. *)
Theorem C77_index_refuted : M_table.create ds = Some tb /\
  ask "{'format':'bytes','fields':'chg.1'}" = QBytes (bytes_at (rec1 30 4 100) 10 2) /\
  ask "{'format':'bytes','fields':'t.9999'}" = QOutside /\ ask "{'format':'bytes','fields':'t.-9999'}" = QOutside.
Proof. refine (conj made_tb _). repeat split; vm_compute; reflexivity. Qed.
Print Assumptions C77_index_refuted.

(** With a repeated field the numbers under the names are not the columns: b has the number 1, where there is the second a. *)
Theorem C77_columns_refuted : exists ds t rec, M_table.create ds = Some t /\ record ds rec /\
  cmd_get time Z.div 1000 t (ser [rec]) (bs "k.s"%string) (Some (q "{'fields':'a,b','format':'json'}")) =
    QText (q "{'fields':{'a0':0,'a1':0,'b':1},'k.s':[[1,2,3]]}").
Proof.
  exists [mkdef (bs "t"%string) K_MSEC 8 1 0 true false; mkdef (bs "a"%string) K_UINT 1 2 0 false false; mkdef (bs "b"%string) K_UINT 1 1 0 false false],
    (mkt [mktf (bs "t"%string) (mkfield 84 8 1 0) 0 true false; mktf (bs "a"%string) (mkfield 85 1 2 8) 0 false false; mktf (bs "b"%string) (mkfield 85 1 1 10) 0 false false] []
         [(bs "t"%string, 1); (bs "a"%string, 2); (bs "b"%string, 3)] 11 1 1 []), [10; 0; 0; 0; 0; 0; 0; 0; 1; 2; 3].
  refine (conj _ (conj (conj _ _) _)); [vm_compute; reflexivity|apply P_rectext.bytes_ok; reflexivity|reflexivity|vm_compute; reflexivity].
Qed.
Print Assumptions C77_columns_refuted.

(** The member ifprev given as true is taken as zero, and a range without a start as the newest record. *)
Theorem C77_range_refuted : series time ds recs /\
  ask "{'range':{'start':15,'stop':15,'ifprev':1}}" = QText (q "{'k.s':[10,1,'ab']}") /\ ask "{'range':{'start':15,'stop':15,'ifprev':true}}" = QNull /\
  ask "{'range':{'stop':20}}" = QText (q "{'k.s':[30,4,'ad']}").
Proof. refine (conj series_recs _). repeat split; vm_compute; reflexivity. Qed.
Print Assumptions C77_range_refuted.

(** An unknown form gives no answer. *)
Theorem C77_form_refuted : series time ds recs /\ ask "{'format':'text'}" = QNull /\ ask "{'format':'text','fields':'t'}" = QNull.
Proof. refine (conj series_recs _). split; vm_compute; reflexivity. Qed.
Print Assumptions C77_form_refuted.

(** Without parameters nothing should be deleted, says the comment at sisdb_io_del: but the records of time zero are. *)
Definition recs0 : list (list Z) := [rec1 0 1 98; rec1 20 2 99].
Definition drop (l : list (list Z)) (s : string) : option (list (list Z)) :=
  match cmd_del time Z.div 1000 (ser l) (Some (q s)) with DDone u => Some (fu_recs u) | _ => None end.
Theorem C77_del_none_refuted : series time ds recs0 /\ drop recs0 "{}" = Some [rec1 20 2 99] /\ drop recs0 "{'start':20}" = Some [rec1 20 2 99].
Proof.
  refine (conj (conj _ (conj _ (conj _ _))) _).
  - unfold in_order. change (map time recs0) with [0; 20]. repeat constructor; lia.
  - intros x [<-|[<-|[]]]; vm_compute; split; congruence.
  - repeat (constructor; [split; [apply P_rectext.bytes_ok; reflexivity|reflexivity]|]). constructor.
  - reflexivity.
  - split; vm_compute; reflexivity.
Qed.
Print Assumptions C77_del_none_refuted.
(** A del without a request reads the length of the null pointer. *)
Theorem C77_del_crash_refuted : forall mi quot d u, cmd_del mi quot d u None = DCrash.
Proof. reflexivity. Qed.
Print Assumptions C77_del_crash_refuted.
(** The same range is shown by get and deleted by del differently: from the fourth last on, only this one is shown, but all four are deleted. *)
Theorem C77_del_more_refuted : series time ds recs /\
  ask "{'range':{'start':-4}}" = QText (q "{'k.s':[10,1,'ab']}") /\ drop recs "{'range':{'start':-4}}" = Some [].
Proof. refine (conj series_recs _). split; vm_compute; reflexivity. Qed.
Print Assumptions C77_del_more_refuted.
