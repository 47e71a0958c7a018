(** C73: table definitions survive being written to a dictionary and read back. *)
From Coq Require Import String.
From Verif Require Import Base S_server S_map S_table M_dynamic M_table S_json M_json M_netmsg S_tabdef M_tabdef L_tabdef.
From Coq Require Import ZifyBool ZifyNat.
Open Scope list_scope. Open Scope Z_scope.

(** All tables of a dictionary come back as they were made: the same fields at the same places with the same kinds, lengths,
    repetitions, decimals and flags, the same record size and the same special fields.  Reading the dictionary once more
    adds no version. *)
Theorem C73_roundtrip : forall defs ts,
  fine_names (map fst defs) ->
  Forall2 (fun nd nt => fst nd = fst nt /\ fine_table (snd nd) /\ create (snd nd) = Some (snd nt)) defs ts ->
  exists txt, dict_text ts = WText txt /\
    (Z.of_nat (List.length txt) < 2 ^ 31 -> forall d, (List.length txt <= d)%nat ->
       let known := map (fun nt => (fst nt, [snd nt])) ts in
       read_dict d txt [] = Some known /\ read_dict d txt known = Some known).
Proof.
  intros defs ts (N1 & N2 & N3) H. apply dict_read.
  - clear N3. induction H as [|nd nt defs ts (E & F & C) _ IH]; constructor; inversion N1; inversion N2; subst; [|apply IH; assumption].
    unfold fine_nt. rewrite <- E. split; [assumption|]. split; [assumption|].
    destruct (fine_created _ _ F C) as (A & B & _). rewrite A. exact B.
  - clear N1 N2 N3. induction H as [|nd nt defs ts (E & F & C) _ IH]; constructor; [|exact IH].
    split; [apply (node_back _ _ _ F C)|]. apply same_info_refl. apply (fine_created _ _ F C).
  - replace (map fst ts) with (map fst defs); [exact N3|]. clear N1 N2 N3.
    induction H as [|nd nt defs ts (E & F & C) _ IH]; [reflexivity|]. cbn [map]. rewrite E, IH. reflexivity.
Qed.
Print Assumptions C73_roundtrip.

(** With several versions of a table in one dictionary, or tables already known: the version in use afterwards has the fields of the
    last one written under its name (ignoring case), and tables that are not in the dictionary stay as they are. *)
Theorem C73_versions : forall defs ts m,
  Forall plain_name (map fst defs) -> Forall (fun n => Z.of_nat (List.length n) < 2 ^ 28) (map fst defs) ->
  Forall2 (fun nd nt => fst nd = fst nt /\ fine_table (snd nd) /\ create (snd nd) = Some (snd nt)) defs ts ->
  exists txt, dict_text ts = WText txt /\
    (Z.of_nat (List.length txt) < 2 ^ 31 -> forall d, (List.length txt <= d)%nat ->
      exists m', read_dict d txt m = Some m' /\
        forall name, match find (fun nt => same_name name (fst nt)) (rev ts) with
                     | Some nt => exists t', latest m' name = Some t' /\ fields_of t' = fields_of (snd nt)
                     | None => latest m' name = latest m name
                     end).
Proof.
  intros defs ts m N1 N2 H. apply dict_versions.
  - induction H as [|nd nt defs ts (E & F & C) _ IH]; constructor; inversion N1; inversion N2; subst; [|apply IH; assumption].
    unfold fine_nt. rewrite <- E. split; [assumption|]. split; [assumption|].
    destruct (fine_created _ _ F C) as (A & B & _). rewrite A. exact B.
  - clear N1 N2. induction H as [|nd nt defs ts (E & F & C) _ IH]; constructor; [|exact IH].
    split; [apply (node_back _ _ _ F C)|]. apply same_info_refl. apply (fine_created _ _ F C).
Qed.
Print Assumptions C73_versions.

(** the tables of the example below, read twice with a changed one in between *)
Example C73_versions_ex :
  let t1 := mkt [mktf [97] (mkfield 73 4 1 0) 0 false false] [] [([97], 1)] 4 0 0 [] in
  let t2 := mkt [mktf [97] (mkfield 73 8 1 0) 0 false false] [] [([97], 1)] 8 0 0 [] in
  create [mkdef [97] 73 4 1 0 false false] = Some t1 /\ create [mkdef [97] 73 8 1 0 false false] = Some t2 /\
  match dict_text [([116], t2); ([84], t1)] with
  | WText txt => read_dict 100 txt [([84], [t1]); ([117], [t2])] = Some [([84], [t1; t2; t1]); ([117], [t2])]
  | _ => False
  end.
Proof. vm_compute. tauto. Qed.

(** two tables with times, prices, repeated numbers and flags *)
Definition ex_defs : list (list Z * list fdef) :=
  [(bs "stk_snap"%string,
     [mkdef (bs "time"%string) 84 8 1 0 true false; mkdef (bs "newp"%string) 80 4 1 2 false false;
      mkdef (bs "bad"%string) 0 4 1 0 false false; mkdef (bs "asks"%string) 85 4 5 0 false true]);
   (bs "info"%string, [mkdef (bs "name"%string) 67 16 1 0 true true; mkdef (bs "rate"%string) 80 8 1 0 false false])].
Definition ex_tabs : list (list Z * table) :=
  [(bs "stk_snap"%string,
     mkt [mktf (bs "time"%string) (mkfield 84 8 1 0) 0 true false; mktf (bs "newp"%string) (mkfield 80 4 1 8) 2 false false;
          mktf (bs "asks"%string) (mkfield 85 4 5 12) 0 false true] []
         [(bs "time"%string, 1); (bs "newp"%string, 2); (bs "asks"%string, 3)] 32 1 1 [3]);
   (bs "info"%string,
     mkt [mktf (bs "name"%string) (mkfield 67 16 1 0) 0 true true; mktf (bs "rate"%string) (mkfield 80 8 1 16) 3 false false] []
         [(bs "name"%string, 1); (bs "rate"%string, 2)] 24 0 1 [1])].
Example C73_roundtrip_ex :
  fine_names (map fst ex_defs) /\
  Forall2 (fun nd nt => fst nd = fst nt /\ fine_table (snd nd) /\ create (snd nd) = Some (snd nt)) ex_defs ex_tabs /\
  dict_text ex_tabs = WText (map (fun c => if c =? 39 then 34 else c) (bs
    "{'stk_snap':{'fields':{'time':['T',8,1,0,'I'],'newp':['P',4,1,2],'asks':['U',4,5,0,'O']}},'info':{'fields':{'name':['C',16,1,0,'IO'],'rate':['P',8,1,3]}}}"%string)).
Proof.
  assert (P : forall s, forallb (fun c => (32 <=? c) && (c <? 256) && negb (c =? 34) && negb (c =? 92)) s = true -> Forall plain s) by exact P_json.plain_all.
  refine (conj _ (conj _ _)).
  - refine (conj _ (conj _ _)).
    + constructor; [split; [discriminate|apply P; reflexivity]|]. constructor; [split; [discriminate|apply P; reflexivity]|]. constructor.
    + constructor; [reflexivity|]. constructor; [reflexivity|]. constructor.
    + cbn [map ex_defs fst apart_names]. split; [constructor; [reflexivity|constructor]|]. split; [constructor|exact Logic.I].
  - assert (F : forall d, (good_def d = false) \/ (forallb (fun c => (32 <=? c) && (c <? 256) && negb (c =? 34) && negb (c =? 92)) (df_name d) = true /\ df_name d <> [] /\
        (List.length (df_name d) <=? 31)%nat = true /\ existsb (Z.eqb (df_style d)) kinds = true /\ (0 <=? df_dot d) && (df_dot d <? 256) = true) -> fine_def d).
    { intros d [X|(A & B & C & D & E)] G; [congruence|]. split; [split; [exact B|apply P; exact A]|].
      split; [apply Nat.leb_le; exact C|]. apply existsb_exists in D as (k & I & K). split; [apply Z.eqb_eq in K; congruence|lia]. }
    constructor; [|constructor; [|constructor]]; (refine (conj eq_refl (conj (conj _ _) _)); [| |vm_compute; reflexivity]).
    + cbn [snd]. constructor; [apply F; right; repeat split; discriminate|]. constructor; [apply F; right; repeat split; discriminate|].
      constructor; [apply F; left; reflexivity|]. constructor; [apply F; right; repeat split; discriminate|]. constructor.
    + cbn [snd distinct_names].
      split; [intros _ e [<-|[<-|[<-|[]]]] ?; vm_compute; reflexivity|].
      split; [intros _ e [<-|[<-|[]]] ?; vm_compute; reflexivity|].
      split; [intros X; discriminate X|]. split; [intros _ e []|exact Logic.I].
    + cbn [snd]. constructor; [apply F; right; repeat split; discriminate|]. constructor; [apply F; right; repeat split; discriminate|]. constructor.
    + cbn [snd distinct_names]. split; [intros _ e [<-|[]] ?; vm_compute; reflexivity|]. split; [intros _ e []|exact Logic.I].
  - vm_compute. reflexivity.
Qed.

(** what one definition becomes *)
Definition again (ds : list fdef) : option (list (list Z * list table)) :=
  match create ds with
  | Some t => match dict_text [([116], t)] with WText txt => read_dict 2000 txt [] | _ => None end
  | None => None
  end.
Definition sizes (ds : list fdef) : option (nat * Z) := match create ds with Some t => Some (length (t_fields t), t_size t) | None => None end.
Definition sizes_again (ds : list fdef) : option (nat * Z) :=
  match again ds with Some [(_, [t])] => Some (length (t_fields t), t_size t) | _ => None end.
Definition first_again (ds : list fdef) : option tfield := match again ds with Some [(_, [t])] => field_at t 0 | _ => None end.

(** A line of a definition is read as it is written: the kind by its word or letter in any case, other words are no kind (and the
    line makes no field), the flags in either case; what is not given is a length of 4, one value, no decimals. *)
Theorem C73_read : forall n name s fl, jkey n = Some name -> node_str n [48] = Some s -> node_str n [52] = Some fl ->
  exists d, def_of n = Some d /\ df_name d = name /\
    (forall k, In k kinds -> (df_style d = k <-> names_kind s k)) /\
    ((forall k, ~ names_kind s k) -> good_def d = false) /\
    (df_idx d = true <-> In 73 fl \/ In 105 fl) /\ (df_only d = true <-> In 79 fl \/ In 111 fl) /\
    (node_str n [49] = None -> df_len d = 4) /\ (node_str n [50] = None -> df_count d = 1) /\ (node_str n [51] = None -> df_dot d = 0).
Proof.
  intros n name s fl K S F. unfold def_of. rewrite K, S, F. eexists. split; [reflexivity|]. cbn [df_name df_style df_idx df_only df_len df_count df_dot].
  assert (CE : forall a b, case_eq a b = same_name a b) by reflexivity.
  assert (CL : forall a b, same_name a b = true -> forall c, same_name a c = same_name b c).
  { intros a b. unfold same_name. match goal with |- context [list_eq_dec Z.eq_dec ?x ?y] => destruct (list_eq_dec Z.eq_dec x y) as [E|] end; [|intros X; discriminate X].
    intros _ c. now rewrite E. }
  assert (W : forall k, names_kind s k <-> k <> 0 /\ get_style (Some s) = k).
  { intros k. cbn [get_style]. split.
    - intros (w & I & E). vm_compute in I. rewrite !CE.
      repeat (destruct I as [I|I]; [injection I as <- <-; split; [discriminate|]; destruct E as [E|E]; rewrite !(CL _ _ E); vm_compute; reflexivity|]).
      contradiction.
    - intros (N & E). repeat match type of E with (if ?c then _ else _) = _ => destruct c eqn:X;
        [subst k; apply orb_true_iff in X; rewrite !CE in X; eexists; split; [|exact X]; vm_compute; tauto|clear X] end.
      symmetry in E. contradiction. }
  split; [reflexivity|]. split; [|split; [|split; [|split]]].
  - intros k I. rewrite (W k). split; [|tauto]. intros E. split; trivial. intros ->. vm_compute in I. intuition discriminate.
  - intros N. assert (Z0 : get_style (Some s) = 0).
    { destruct (Z.eq_dec (get_style (Some s)) 0) as [|X]; trivial. exfalso. apply (N (get_style (Some s))). apply W. auto. }
    unfold good_def. cbn [df_style]. now rewrite Z0.
  - cbn [flagged]. rewrite existsb_exists. split.
    + intros (c & I & E). apply orb_true_iff in E. rewrite !Z.eqb_eq in E. destruct E as [->| ->]; auto.
    + intros [I|I]; eexists; (split; [exact I|reflexivity]).
  - cbn [flagged]. rewrite existsb_exists. split.
    + intros (c & I & E). apply orb_true_iff in E. rewrite !Z.eqb_eq in E. destruct E as [->| ->]; auto.
    + intros [I|I]; eexists; (split; [exact I|reflexivity]).
  - unfold node_int. repeat split; intros ->; reflexivity.
Qed.
Print Assumptions C73_read.
(** a field "Vol" written as ["FLOAT", "8", "o"] with the parts 0, 1 and 4 *)
Example C73_read_ex :
  let n := JN 3 (Some (bs "Vol"%string)) None
             [JN 2 (Some [48]) (Some (bs "FLOAT"%string)) []; JN 1 (Some [49]) (Some (bs "8"%string)) []; JN 2 (Some [52]) (Some (bs "o"%string)) []] in
  node_str n [48] = Some (bs "FLOAT"%string) /\ node_str n [52] = Some (bs "o"%string) /\ names_kind (bs "FLOAT"%string) 70 /\
  def_of n = Some (mkdef (bs "Vol"%string) 70 8 1 0 false true).
Proof.
  cbv zeta. split; [vm_compute; reflexivity|]. split; [vm_compute; reflexivity|]. split; [|vm_compute; reflexivity].
  exists (bs "float"%string). split; [vm_compute; tauto|left; vm_compute; reflexivity].
Qed.
(** A definition that is broken is passed over, wherever it stands: the others are read as if it were not there.  So are lines
    without a name in a definition. *)
Theorem C73_broken : forall m l1 n l2,
  (find_key (jkids n) w_fields = None \/ jkey n = None \/ (exists f, find_key (jkids n) w_fields = Some f /\ create (defs_of (jkids f)) = None) ->
   add_nodes m (l1 ++ n :: l2) = add_nodes m (l1 ++ l2)) /\
  (jkey n = None -> defs_of (l1 ++ n :: l2) = defs_of (l1 ++ l2)).
Proof.
  intros m l1 n l2. split.
  - intros H. revert m. induction l1 as [|x l1 IH]; intros m.
    + cbn [app add_nodes]. unfold create_node. destruct H as [H|[H|(f & H & E)]].
      * now rewrite H.
      * rewrite H. now destruct (match find_key (jkids n) w_fields with Some f => create (defs_of (jkids f)) | None => None end).
      * now rewrite H, E.
    + cbn [app add_nodes]. destruct (create_node x); [destruct (jkey x)|]; apply IH.
  - intros H. induction l1 as [|x l1 IH]; cbn [app defs_of].
    + unfold def_of. now rewrite H.
    + now rewrite IH.
Qed.
Print Assumptions C73_broken.
(** {"a": {"f": 1}, "b": {"fields": {"x": ["I", 4]}}}: b is read *)
Example C73_broken_ex :
  let a := JN 7 (Some (bs "a"%string)) None [JN 1 (Some (bs "f"%string)) (Some (bs "1"%string)) []] in
  let b := JN 7 (Some (bs "b"%string)) None [JN 7 (Some w_fields) None [JN 6 (Some (bs "x"%string)) None
             [JN 2 (Some [48]) (Some (bs "I"%string)) []; JN 1 (Some [49]) (Some (bs "4"%string)) []]]] in
  find_key (jkids a) w_fields = None /\ create_node b <> None /\ map fst (add_nodes [] [a; b]) = [bs "b"%string].
Proof. cbv zeta. split; [vm_compute; reflexivity|]. split; [vm_compute; discriminate|vm_compute; reflexivity]. Qed.

(** Names are stored with 31 bytes, but told apart by all of them: two fields whose names begin with the same 31 bytes are one
    field after reading back, and the second one's bytes belong to no field. *)
Theorem C73_long_names_refuted : exists ds,
  Forall (fun d => plain_name (df_name d) /\ (length (df_name d) <= 32)%nat /\ good_def d = true) ds /\ distinct_names ds /\
  sizes ds = Some (2%nat, 8) /\ sizes_again ds = Some (1%nat, 8).
Proof.
  exists [mkdef (repeat 97 31 ++ [49]) 73 4 1 0 false false; mkdef (repeat 97 31 ++ [50]) 73 4 1 0 false false].
  refine (conj _ (conj _ (conj _ _))); [| |vm_compute; reflexivity|vm_compute; reflexivity].
  - constructor; [|constructor; [|constructor]]; (split; [split; [discriminate|apply P_json.plain_all; reflexivity]|]); split; [cbn; lia|reflexivity|cbn; lia|reflexivity].
  - cbn [distinct_names]. split; [intros _ e [<-|[]] _; vm_compute; reflexivity|]. split; [intros _ e []|exact Logic.I].
Qed.
Print Assumptions C73_long_names_refuted.

(** A name given twice keeps the bytes of the first field in every record, but not in the definition that is stored: after
    reading back the records are shorter, and the fields behind have moved. *)
Theorem C73_repeated_refuted : exists ds,
  Forall fine_def ds /\ sizes ds = Some (2%nat, 16) /\ sizes_again ds = Some (2%nat, 12).
Proof.
  exists [mkdef [97] 73 4 1 0 false false; mkdef [97] 73 8 1 0 false false; mkdef [98] 73 4 1 0 false false].
  refine (conj _ (conj _ _)); [|vm_compute; reflexivity|vm_compute; reflexivity].
  assert (P : forall c, 97 <= c <= 98 -> plain_name [c]) by (intros c H; split; [discriminate|constructor; [unfold plain; lia|constructor]]).
  constructor; [|constructor; [|constructor; [|constructor]]]; intros _;
    (split; [apply P; lia|]); (split; [cbn; lia|]); (split; [left; reflexivity|cbn; lia]).
Qed.
Print Assumptions C73_repeated_refuted.

(** The decimals are kept in one byte: a price with 256 decimals has none, and after reading back it has three. *)
Theorem C73_decimals_refuted : exists ds t u,
  create ds = Some t /\ field_at t 0 = Some u /\ f_dot u = 0 /\ option_map f_dot (first_again ds) = Some 3.
Proof.
  exists [mkdef [97] 80 4 1 256 false false], (mkt [mktf [97] (mkfield 80 4 1 0) 0 false false] [] [([97], 1)] 4 0 0 []), (mktf [97] (mkfield 80 4 1 0) 0 false false).
  vm_compute. tauto.
Qed.
Print Assumptions C73_decimals_refuted.

(** A name with a backslash (or a quote) comes back with one more, so that it is not found under its own name, and grows with
    every writing. *)
Theorem C73_escapes_refuted : exists ds,
  sizes ds = Some (1%nat, 4) /\ first_again ds <> None /\ option_map (fun u => f_name u) (first_again ds) <> option_map (fun d => df_name d) (hd_error ds).
Proof.
  exists [mkdef [97; 92; 98] 73 4 1 0 false false]. vm_compute. refine (conj eq_refl (conj _ _)); discriminate.
Qed.
Print Assumptions C73_escapes_refuted.
