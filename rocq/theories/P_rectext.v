(** C74: records shown as JSON texts, and records set from JSON texts. *)
From Coq Require Import String.
From Verif Require Import Base S_server S_map S_table M_dynamic M_table S_json M_json M_netmsg M_tabdef S_rectext M_rectext L_rectext.
From Coq Require Import ZifyBool ZifyNat.
Open Scope list_scope. Open Scope Z_scope.

(** The text made for records is a JSON text that gives, for every record and every field in order, the number the field stands
    for or its text: one array for a single record, an array of arrays otherwise. *)
Theorem C74_get : forall ds t recs, simple_table ds -> create ds = Some t ->
  recs <> [] -> Z.of_nat (List.length recs) < 2 ^ 31 -> Forall (showable ds) recs ->
  exists v txt, to_array_text t None (List.concat recs) = Some (WText txt) /\ jtext false v txt /\ shown_rows ds recs v.
Proof. exact array_get. Qed.
Print Assumptions C74_get.

(** Setting from any JSON text of an array of the values of a record, or of an array of such arrays, with whatever blanks:
    exactly these records. *)
Theorem C74_set_array : forall ds t recs v txt d, simple_table ds -> create ds = Some t ->
  Forall (record ds) recs -> rows ds recs v -> jtext false v txt ->
  Z.of_nat (List.length txt) < 2 ^ 31 -> (List.length txt <= d)%nat ->
  set_bytes d t txt = CBytes (List.concat recs).
Proof.
  intros ds t recs v txt d ST C RR RV J L1 L2.
  assert (H : hd 0 txt = 91).
  { pose proof (text_first v txt J) as H. destruct RV as [(r & _ & l & -> & _)|(_ & l & -> & _)]; exact H. }
  destruct txt as [|c txt]; [discriminate H|]. cbn [hd] in H. subst c. unfold set_bytes.
  change (91 =? 123) with false. change (91 =? 91) with true. exact (array_set ds t recs v _ d ST C RR RV J L1 L2).
Qed.
Print Assumptions C74_set_array.

(** Setting from any JSON text of an object: the values go to the fields of their names (ignoring case), other names are
    passed over, and fields that are not given are zero. *)
Theorem C74_set_object : forall ds t rec v txt d, simple_table ds -> short_names ds -> create ds = Some t ->
  record ds rec -> named_row ds rec v -> jtext false v txt ->
  Z.of_nat (List.length txt) < 2 ^ 31 -> (List.length txt <= d)%nat ->
  set_bytes d t txt = CBytes rec.
Proof.
  intros ds t rec v txt d ST SN C RR RV J L1 L2.
  assert (H : hd 0 txt = 123).
  { pose proof (text_first v txt J) as H. destruct RV as (l & -> & _). exact H. }
  destruct txt as [|c txt]; [discriminate H|]. cbn [hd] in H. subst c. unfold set_bytes.
  change (123 =? 123) with true. exact (object_set ds t rec v _ d ST SN C RR RV J L1 L2).
Qed.
Print Assumptions C74_set_object.

(** Texts that are neither an array nor an object are refused, whatever they hold. *)
Theorem C74_other : forall d t txt, (forall r, txt <> 91 :: r) -> (forall r, txt <> 123 :: r) -> set_bytes d t txt = CNull.
Proof.
  intros d t [|c r] A B; [reflexivity|]. cbn [set_bytes]. destruct (c =? 123) eqn:E; [exfalso; apply (B r); f_equal; lia|].
  destruct (c =? 91) eqn:F; [exfalso; apply (A r); f_equal; lia|reflexivity].
Qed.
Print Assumptions C74_other.
Example C74_other_ex : (forall r, bs " [1,2]"%string <> 91 :: r) /\ (forall r, bs " [1,2]"%string <> 123 :: r).
Proof. split; intros r X; vm_compute in X; discriminate X. Qed.

(** So records shown and set again are the same. *)
Theorem C74_roundtrip : forall ds t recs, simple_table ds -> create ds = Some t ->
  recs <> [] -> Z.of_nat (List.length recs) < 2 ^ 31 -> Forall (showable ds) recs -> Forall (clean ds) recs ->
  exists txt, to_array_text t None (List.concat recs) = Some (WText txt) /\
    (Z.of_nat (List.length txt) < 2 ^ 31 -> forall d, (List.length txt <= d)%nat -> set_bytes d t txt = CBytes (List.concat recs)).
Proof.
  intros ds t recs ST C N L A B. destruct (array_get ds t recs ST C N L A) as (v & txt & E & J & SR).
  exists txt. split; [exact E|]. intros L1 d L2. apply (C74_set_array ds t recs v txt d ST C); try assumption.
  - eapply Forall_impl; [|exact A]. intros r X. apply X.
  - apply shown_rows_rows; assumption.
Qed.
Print Assumptions C74_roundtrip.

(** a table of a time, a signed number and a text; two records *)
Definition ex_ds : list fdef :=
  [mkdef (bs "time"%string) K_MSEC 8 1 0 true false; mkdef (bs "chg"%string) K_INT 2 1 0 false false; mkdef (bs "name"%string) K_CHAR 4 1 0 false false].
Definition ex_t : table :=
  mkt [mktf (bs "time"%string) (mkfield 84 8 1 0) 0 true false; mktf (bs "chg"%string) (mkfield 73 2 1 8) 0 false false;
       mktf (bs "name"%string) (mkfield 67 4 1 10) 0 false false] [] [(bs "time"%string, 1); (bs "chg"%string, 2); (bs "name"%string, 3)] 14 1 1 [].
Definition ex_recs : list (list Z) :=
  [[1; 1; 0; 0; 0; 0; 0; 0] ++ [251; 255] ++ [97; 34; 0; 0]; [0; 0; 0; 0; 0; 0; 0; 127] ++ [0; 128] ++ [97; 98; 99; 100]].
Definition q (s : string) : list Z := map (fun c => if c =? 39 then 34 else c) (bs s).
Lemma ex_simple : simple_table ex_ds.
Proof.
  refine (conj _ (conj _ _)).
  - cbn [ex_ds distinct_names]. split; [intros _ e [<-|[<-|[]]] _; vm_compute; reflexivity|]. split; [intros _ e [<-|[]] _; vm_compute; reflexivity|].
    split; [intros _ e []|exact Logic.I].
  - reflexivity.
  - constructor; [intros _; split; [reflexivity|left; split; reflexivity]|]. constructor; [intros _; split; [reflexivity|left; split; reflexivity]|].
    constructor; [intros _; split; [reflexivity|right; reflexivity]|constructor].
Qed.
Lemma bytes_ok l : forallb (fun c => (0 <=? c) && (c <? 256)) l = true -> Forall is_byte l.
Proof. intros H. rewrite forallb_forall in H. apply Forall_forall. intros c I. specialize (H c I). unfold is_byte. lia. Qed.
Lemma ex_layout : layout ex_ds = [(mkdef (bs "time"%string) K_MSEC 8 1 0 true false, 0); (mkdef (bs "chg"%string) K_INT 2 1 0 false false, 8);
                                  (mkdef (bs "name"%string) K_CHAR 4 1 0 false false, 10)].
Proof. vm_compute. reflexivity. Qed.
Example C74_roundtrip_ex :
  simple_table ex_ds /\ create ex_ds = Some ex_t /\ Forall (showable ex_ds) ex_recs /\ Forall (clean ex_ds) ex_recs /\
  to_array_text ex_t None (List.concat ex_recs) = Some (WText (q "[[257,-5,'a\''],[9151314442816847872,-32768,'abcd']]")) /\
  set_bytes 100 ex_t (q "[[257,-5,'a\''],[9151314442816847872,-32768,'abcd']]") = CBytes (List.concat ex_recs).
Proof.
  refine (conj ex_simple (conj _ (conj _ (conj _ (conj _ _))))); [vm_compute; reflexivity| | |vm_compute; reflexivity|vm_compute; reflexivity].
  - constructor; [|constructor; [|constructor]]; (split; [split; [apply bytes_ok; reflexivity|reflexivity]|]); rewrite ex_layout;
      (constructor; [split; reflexivity|constructor; [split; reflexivity|constructor; [|constructor]]]);
      repeat (apply Forall_cons; [unfold plain; lia|]); apply Forall_nil.
  - constructor; [|constructor; [|constructor]]; unfold clean; rewrite ex_layout;
      (constructor; [intros X; discriminate X|constructor; [intros X; discriminate X|constructor; [intros _; reflexivity|constructor]]]).
Qed.
Print Assumptions C74_roundtrip_ex.

(** blanks, and numbers and texts that are cut to the width of the field; an array for a single record *)
Example C74_set_array_ex : exists v,
  Forall (record ex_ds) [[1; 0; 0; 0; 0; 0; 0; 0] ++ [1; 0] ++ [97; 98; 99; 100]] /\
  rows ex_ds [[1; 0; 0; 0; 0; 0; 0; 0] ++ [1; 0] ++ [97; 98; 99; 100]] v /\ jtext false v (q "[ 1, 65537, 'abcdef' ]") /\
  set_bytes 100 ex_t (q "[ 1, 65537, 'abcdef' ]") = CBytes ([1; 0; 0; 0; 0; 0; 0; 0] ++ [1; 0] ++ [97; 98; 99; 100]).
Proof.
  exists (JArr [JNum [49]; JNum [54; 53; 53; 51; 55]; JStr [97; 98; 99; 100; 101; 102]]).
  assert (D : forall z s, (match s with [] => false | _ => forallb (fun c => (48 <=? c) && (c <=? 57)) s end = true) ->
    fold_left (fun a c => a * 10 + (c - 48)) s 0 = z -> (s = [48] \/ hd 0 s <> 48) -> is_dec z s).
  { intros z s A B C. split; [|split; assumption]. split; [intros ->; discriminate A|]. apply Forall_forall. intros c I.
    destruct s as [|x s]; [discriminate|]. rewrite forallb_forall in A. specialize (A c I). unfold digit. lia. }
  assert (D1 : is_dec 1 [49]) by (apply D; [reflexivity|reflexivity|right; cbn; lia]).
  assert (D2 : is_dec 65537 [54; 53; 53; 51; 55]) by (apply D; [reflexivity|reflexivity|right; cbn; lia]).
  refine (conj _ (conj _ (conj _ _))).
  - constructor; [|constructor]. split; [apply bytes_ok; reflexivity|reflexivity].
  - left. eexists. split; [reflexivity|]. eexists. split; [reflexivity|]. rewrite ex_layout.
    constructor; [|constructor; [|constructor; [|constructor]]].
    + exists 1, [49]. split; [reflexivity|]. split; [left; split; [lia|exact D1]|]. split; [lia|reflexivity].
    + exists 65537, [54; 53; 53; 51; 55]. split; [reflexivity|]. split; [left; split; [lia|exact D2]|]. split; [lia|reflexivity].
    + exists [97; 98; 99; 100; 101; 102]. split; [reflexivity|]. split; [|reflexivity].
      repeat (apply Forall_cons; [lia|]); apply Forall_nil.
  - change (q "[ 1, 65537, 'abcdef' ]") with (91 :: ([32] ++ ([49] ++ []) ++ 44 :: ([32] ++ ([54; 53; 53; 51; 55] ++ []) ++ 44 :: ([32] ++ ((34 :: [97; 98; 99; 100; 101; 102] ++ [34]) ++ [32])))) ++ [93]).
    assert (W0 : ws []) by constructor. assert (W1 : ws [32]) by (constructor; [left; reflexivity|constructor]).
    apply T_arr. apply E_cons; [exact W1|apply I_val; [apply T_num; exact (L_nettext.dec_num _ _ D1)|exact W0]|].
    apply E_cons; [exact W1|apply I_val; [apply T_num; exact (L_nettext.dec_num _ _ D2)|exact W0]|].
    apply E_last; [exact W1|]. apply I_val; [|exact W1]. apply T_str. apply P_json.lex_self. apply P_json.plain_all. reflexivity.
  - vm_compute. reflexivity.
Qed.

(** an object without all fields and with another name *)
Example C74_set_object_ex : exists v,
  short_names ex_ds /\ record ex_ds ([0; 0; 0; 0; 0; 0; 0; 0] ++ [7; 0] ++ [97; 0; 0; 0]) /\
  named_row ex_ds ([0; 0; 0; 0; 0; 0; 0; 0] ++ [7; 0] ++ [97; 0; 0; 0]) v /\ jtext false v (q "{'Name':'a','x':1,'chg':7}") /\
  set_bytes 100 ex_t (q "{'Name':'a','x':1,'chg':7}") = CBytes ([0; 0; 0; 0; 0; 0; 0; 0] ++ [7; 0] ++ [97; 0; 0; 0]).
Proof.
  exists (JObj [(bs "Name"%string, JStr [97]); ([120], JNum [49]); (bs "chg"%string, JNum [55])]).
  assert (D : forall c, 49 <= c <= 57 -> is_dec (c - 48) [c]).
  { intros c H. split; [|split; [cbn; lia|right; cbn; lia]]. split; [discriminate|]. constructor; [unfold digit; lia|constructor]. }
  refine (conj _ (conj _ (conj _ (conj _ _)))).
  - constructor; [|constructor; [|constructor; [|constructor]]]; (split; [cbn; lia|cbn; lia]).
  - split; [apply bytes_ok; reflexivity|reflexivity].
  - eexists. split; [reflexivity|]. rewrite ex_layout. constructor; [|constructor; [|constructor; [|constructor]]].
    + vm_compute. reflexivity.
    + exists 7, [55]. split; [reflexivity|]. split; [left; split; [lia|exact (D 55 ltac:(lia))]|]. split; [lia|reflexivity].
    + exists [97]. split; [reflexivity|]. split; [constructor; [lia|constructor]|reflexivity].
  - change (q "{'Name':'a','x':1,'chg':7}") with
      (123 :: ([] ++ 34 :: bs "Name"%string ++ 34 :: [] ++ 58 :: [] ++ ((34 :: [97] ++ [34]) ++ []) ++ 44 ::
              ([] ++ 34 :: [120] ++ 34 :: [] ++ 58 :: [] ++ ([49] ++ []) ++ 44 ::
              ([] ++ 34 :: bs "chg"%string ++ 34 :: [] ++ 58 :: [] ++ ([55] ++ [])))) ++ [125]).
    assert (W0 : ws []) by constructor.
    assert (K : forall k, k <> [] -> forallb (fun c => (32 <=? c) && (c <? 256) && negb (c =? 34) && negb (c =? 92)) k = true -> keylex false k k).
    { intros k A B. apply L_jsonwrite.plain_keylex; [exact A|]. apply P_json.plain_all. exact B. }
    apply T_obj. apply M_cons; try exact W0; [apply K; [discriminate|reflexivity]| |].
    { apply I_val; [|exact W0]. apply T_str. apply P_json.lex_self. apply P_json.plain_all. reflexivity. }
    apply M_cons; try exact W0; [apply K; [discriminate|reflexivity]| |].
    { apply I_val; [|exact W0]. apply T_num. apply P_json.num_digit. lia. }
    apply M_last; try exact W0; [apply K; [discriminate|reflexivity]|]. apply I_val; [|exact W0]. apply T_num. apply P_json.num_digit. lia.
  - vm_compute. reflexivity.
Qed.

(** * What does not hold *)
(** shown and set again *)
Definition back (t : table) (key : option (list Z)) (mem : list Z) : cres :=
  match to_array_text t key mem with Some (WText txt) => set_bytes (List.length txt) t txt | _ => CBad end.

(** An array is set by its number of values, compared with the number of fields; but repeated fields are shown with all their
    elements.  Records of tables with a repeated field cannot be set again: zeros are stored without an error. *)
Theorem C74_repeated_refuted : exists ds t rec, create ds = Some t /\ record ds rec /\ rec <> repeat 0 8 /\
  to_array_text t None rec = Some (WText (q "[1,2]")) /\ back t None rec = CBytes (repeat 0 8).
Proof.
  exists [mkdef [97] K_INT 4 2 0 false false], (mkt [mktf [97] (mkfield 73 4 2 0) 0 false false] [] [([97], 1)] 8 0 0 []), [1; 0; 0; 0; 2; 0; 0; 0].
  refine (conj _ (conj (conj _ _) (conj _ (conj _ _)))); [vm_compute; reflexivity|apply bytes_ok; reflexivity|reflexivity|discriminate|vm_compute; reflexivity|vm_compute; reflexivity].
Qed.
Print Assumptions C74_repeated_refuted.

(** An array with one value for each field is taken, but the values are given to the elements one after the other: the value of
    the second field goes into the second element of the first one. *)
Theorem C74_shift_refuted : exists ds t, create ds = Some t /\ map df_name ds = [[97]; [98]] /\ set_bytes 100 t (q "[1,2]") = CBytes [1; 2; 0].
Proof.
  exists [mkdef [97] K_UINT 1 2 0 false false; mkdef [98] K_UINT 1 1 0 false false],
    (mkt [mktf [97] (mkfield 85 1 2 0) 0 false false; mktf [98] (mkfield 85 1 1 2) 0 false false] [] [([97], 1); ([98], 2)] 3 0 0 []).
  refine (conj _ (conj _ _)); vm_compute; reflexivity.
Qed.
Print Assumptions C74_shift_refuted.

(** two tables for the following *)
Definition ab : table :=
  mkt [mktf [97] (mkfield 85 1 1 0) 0 false false; mktf [98] (mkfield 85 1 1 1) 0 false false] [] [([97], 1); ([98], 2)] 2 0 0 [].
Lemma ab_made : create [mkdef [97] K_UINT 1 1 0 false false; mkdef [98] K_UINT 1 1 0 false false] = Some ab.
Proof. vm_compute. reflexivity. Qed.

(** A row with a wrong number of values is passed over, but its place is not: behind the others a record of zeros is stored. *)
Theorem C74_rows_refuted : exists ds t txt, create ds = Some t /\ simple_table ds /\ txt = q "[[1],[2,3]]" /\ set_bytes 100 t txt = CBytes ([2; 3] ++ [0; 0]).
Proof.
  exists [mkdef [97] K_UINT 1 1 0 false false; mkdef [98] K_UINT 1 1 0 false false], ab, (q "[[1],[2,3]]").
  refine (conj ab_made (conj (conj _ (conj _ _)) (conj eq_refl _))).
  - cbn [distinct_names]. split; [intros _ e [<-|[]] _; vm_compute; reflexivity|]. split; [intros _ e []|exact Logic.I].
  - reflexivity.
  - constructor; [intros _; split; [reflexivity|left; split; reflexivity]|]. constructor; [intros _; split; [reflexivity|left; split; reflexivity]|constructor].
  - vm_compute. reflexivity.
Qed.
Print Assumptions C74_rows_refuted.

(** An empty array, an empty object, and an object with other names only: each stores a record of zeros. *)
Theorem C74_empty_refuted : exists ds t, create ds = Some t /\ set_bytes 100 t (q "[]") = CBytes [0; 0] /\ set_bytes 100 t (q "{}") = CBytes [0; 0] /\
  set_bytes 100 t (q "{'c':1}") = CBytes [0; 0].
Proof.
  exists [mkdef [97] K_UINT 1 1 0 false false; mkdef [98] K_UINT 1 1 0 false false], ab.
  refine (conj ab_made (conj _ (conj _ _))); vm_compute; reflexivity.
Qed.
Print Assumptions C74_empty_refuted.

(** The answer to a get is the array under the name of the key.  Given to set, its object has none of the names of the fields: a
    record of zeros is stored instead of the two. *)
Theorem C74_answer_refuted : exists ds t recs, create ds = Some t /\ Forall (record ds) recs /\
  to_array_text t (Some (q "k.t")) (List.concat recs) = Some (WText (q "{'k.t':[[1,2],[3,4]]}")) /\
  back t (Some (q "k.t")) (List.concat recs) = CBytes [0; 0].
Proof.
  exists [mkdef [97] K_UINT 1 1 0 false false; mkdef [98] K_UINT 1 1 0 false false], ab, [[1; 2]; [3; 4]].
  refine (conj ab_made (conj _ (conj _ _))); [|vm_compute; reflexivity|vm_compute; reflexivity].
  constructor; [split; [apply bytes_ok; reflexivity|reflexivity]|]. constructor; [split; [apply bytes_ok; reflexivity|reflexivity]|constructor].
Qed.
Print Assumptions C74_answer_refuted.

(** Numbers of 2^63 and more are shown, but come back as 2^63 - 1. *)
Theorem C74_large_refuted : exists ds t rec, create ds = Some t /\ record ds rec /\ le_val rec = 2 ^ 63 + 5 /\
  to_array_text t None rec = Some (WText (q "[9223372036854775813]")) /\ exists rec', back t None rec = CBytes rec' /\ le_val rec' = 2 ^ 63 - 1.
Proof.
  exists [mkdef [97] K_UINT 8 1 0 false false], (mkt [mktf [97] (mkfield 85 8 1 0) 0 false false] [] [([97], 1)] 8 0 0 []), [5; 0; 0; 0; 0; 0; 0; 128].
  refine (conj _ (conj (conj _ _) (conj _ (conj _ _)))); [vm_compute; reflexivity|apply bytes_ok; reflexivity|reflexivity|vm_compute; reflexivity|vm_compute; reflexivity|].
  exists [255; 255; 255; 255; 255; 255; 255; 127]. split; vm_compute; reflexivity.
Qed.
Print Assumptions C74_large_refuted.

(** In an object the elements of a repeated field have the name of the field and their number: element 1 of field a and a field a1
    are one and the same name, so that one value is stored in both. *)
Theorem C74_names_refuted : exists ds t, create ds = Some t /\ distinct_names ds /\ short_names ds /\
  set_bytes 100 t (q "{'a0':1,'a1':2,'b':3}") = CBytes [1; 2; 2; 3].
Proof.
  exists [mkdef [97] K_UINT 1 2 0 false false; mkdef [97; 49] K_UINT 1 1 0 false false; mkdef [98] K_UINT 1 1 0 false false],
    (mkt [mktf [97] (mkfield 85 1 2 0) 0 false false; mktf [97; 49] (mkfield 85 1 1 2) 0 false false; mktf [98] (mkfield 85 1 1 3) 0 false false] []
         [([97], 1); ([97; 49], 2); ([98], 3)] 4 0 0 []).
  refine (conj _ (conj _ (conj _ _))); [vm_compute; reflexivity| | |vm_compute; reflexivity].
  - cbn [distinct_names]. split; [intros _ e [<-|[<-|[]]] _; vm_compute; reflexivity|]. split; [intros _ e [<-|[]] _; vm_compute; reflexivity|].
    split; [intros _ e []|exact Logic.I].
  - constructor; [|constructor; [|constructor; [|constructor]]]; (split; [cbn; lia|cbn; lia]).
Qed.
Print Assumptions C74_names_refuted.

(** A name with a point is looked up as a path: a field of such a name cannot be set under its name. *)
Theorem C74_point_refuted : exists ds t, create ds = Some t /\ simple_table ds /\
  set_bytes 100 t (q "{'a.b':5}") = CBytes [0] /\ set_bytes 100 t (q "{'a':{'b':5}}") = CBytes [5].
Proof.
  exists [mkdef [97; 46; 98] K_UINT 1 1 0 false false], (mkt [mktf [97; 46; 98] (mkfield 85 1 1 0) 0 false false] [] [([97; 46; 98], 1)] 1 0 0 []).
  refine (conj _ (conj (conj _ (conj _ _)) (conj _ _))); [vm_compute; reflexivity| |reflexivity| |vm_compute; reflexivity|vm_compute; reflexivity].
  - cbn [distinct_names]. split; [intros _ e []|exact Logic.I].
  - constructor; [intros _; split; [reflexivity|left; split; reflexivity]|constructor].
Qed.
Print Assumptions C74_point_refuted.

(** A text with a backslash does not come back, and grows. *)
Theorem C74_escapes_refuted : exists ds t rec, create ds = Some t /\ record ds rec /\ simple_table ds /\ clean ds rec /\
  back t None rec <> CBytes rec /\ back t None rec = CBytes [97; 92; 92; 98].
Proof.
  exists [mkdef [110] K_CHAR 4 1 0 false false], (mkt [mktf [110] (mkfield 67 4 1 0) 0 false false] [] [([110], 1)] 4 0 0 []), [97; 92; 98; 0].
  refine (conj _ (conj (conj _ _) (conj (conj _ (conj _ _)) (conj _ (conj _ _)))));
    [vm_compute; reflexivity|apply bytes_ok; reflexivity|reflexivity| |reflexivity| | | |vm_compute; reflexivity].
  - cbn [distinct_names]. split; [intros _ e []|exact Logic.I].
  - constructor; [intros _; split; [reflexivity|right; reflexivity]|constructor].
  - unfold clean. change (layout [mkdef [110] K_CHAR 4 1 0 false false]) with [(mkdef [110] K_CHAR 4 1 0 false false, 0)].
    constructor; [intros _; reflexivity|constructor].
  - vm_compute. discriminate.
Qed.
Print Assumptions C74_escapes_refuted.
