(** C76: configuration files. *)
From Coq Require Import ZArith List Lia Bool ZifyBool ZifyNat.
From Coq Require Import String.
From Verif Require Import Base S_json S_hand S_conf M_netmsg M_json M_conf L_json L_conf L_conf2 L_conf3.
Import ListNotations.
Open Scope list_scope.
Open Scope Z_scope.

(** A file in the notation of S_conf is read as exactly its settings, in order, those of the included
    files standing in the place of the include; for any gaps and notes, all contents and any nesting
    the stack has room for. *)
Theorem C76_open : forall files path fn c es d,
  files fn = Some c -> c <> [] -> entries files path true es c -> (levels (JObj es) <= d)%nat ->
  exists l, conf_open files path fn d = HTree (Some (JN 1 None None l)) /\ shaped (JObj es) None (JN 7 None None l).
Proof.
  intros files path fn c es d F N E L. rewrite levels_obj in L.
  destruct (open_text files path fn c es d F N E ltac:(lia)) as (l & R & Sh). exists l. split; [exact R|].
  apply shaped_obj. cbn [jkey jty jval jkids]. auto.
Qed.
Print Assumptions C76_open.

(** An object given as a text is read as exactly its settings. *)
Theorem C76_load : forall files g l t u d,
  gap g -> vtext files [] true (JObj l) t -> parted u -> (levels (JObj l) + 1 <= d)%nat ->
  exists n, conf_load files d (g ++ t ++ u) = HTree (Some n) /\ shaped (JObj l) None n.
Proof.
  intros files g l t u d G V P L. apply load_text; [exact G|exact V| |exact L|].
  - destruct P as [->|P]; [left; reflexivity|right]. destruct u as [|c u]; [cbn [hd] in P; lia|]. exists c, u. cbn [hd] in P. split; [reflexivity|lia].
  - assert (K : forall q b, exists r, cskip b (q ++ [0]) = Some r).
    { induction q as [|c q IH]; intros b; [destruct b; exists [0]; reflexivity|]. cbn [app cskip].
      destruct (c =? 0); [eexists; reflexivity|]. destruct b; [apply IH|]. destruct (c <=? 32); [apply IH|]. destruct (c =? 35); [apply IH|].
      eexists; reflexivity. }
    apply K.
Qed.
Print Assumptions C76_load.

(** A file of several objects with gaps between them: the callback gets each of them once, in order and
    with exactly its settings, in whatever pieces the file is read. *)
Theorem C76_sub : forall files ls d pieces,
  objects files ls (List.concat pieces) -> Forall (fun l => (levels (JObj l) + 1 <= d)%nat) ls ->
  Forall2 (fun l h => exists n, h = HTree (Some n) /\ shaped (JObj l) None n) ls (conf_sub files d pieces).
Proof. intros files ls d pieces O L. rewrite sub_concat. apply objects_drain; assumption. Qed.
Print Assumptions C76_sub.

(** Whatever the files hold, opening one reads nothing behind a buffer and the loops end. *)
Theorem C76_safe : forall files path fn d,
  conf_open files path fn d <> HFault /\ conf_open files path fn d <> HFuel.
Proof. exact open_good. Qed.
Print Assumptions C76_safe.

(** ** An example. *)
Definition file1 (n t : list Z) : list Z -> option (list Z) := fun m => if list_eq_dec Z.eq_dec m n then Some t else None.
Definition file2 (n t n' t' : list Z) : list Z -> option (list Z) :=
  fun m => if list_eq_dec Z.eq_dec m n then Some t else if list_eq_dec Z.eq_dec m n' then Some t' else None.
Definition main_text : list Z := txt "# server" ++ [10] ++ txt "port : 7328" ++ [10] ++ txt "include log.conf #x" ++ [10] ++ txt "l:[1.5, ""a""]".
Definition log_text : list Z := txt "dir:/tmp" ++ [10] ++ txt "max:3".
Definition main_files := file2 (txt "/c/main") main_text (txt "/c/log.conf") log_text.

Lemma ex_words : forall (P : Z -> Prop) (b : Z -> bool) s, (forall c, b c = true -> P c) -> forallb b s = true -> Forall P s.
Proof. intros P b s I H. rewrite forallb_forall in H. apply Forall_forall. intros c C. apply I, H, C. Qed.
Lemma ex_key : forall k, k <> [] -> forallb (fun c => (32 <? c) && negb (c =? 58)) k = true -> hd 0 k <> 35 -> hd 0 k <> 125 ->
  at_include (k ++ [0]) = false -> key k.
Proof.
  intros k N F A B C. split; [exact N|]. split; [eapply ex_words; [|exact F]; intros c H; cbv beta in *; lia|]. split; [exact A|]. split; [exact B|].
  intros (w & r & -> & W). unfold at_include in C. rewrite <- app_assoc in C. rewrite starts_yes in C by exact W. discriminate.
Qed.
Lemma ex_gap : forall g, forallb (fun c => (0 <? c) && (c <=? 32)) g = true -> gap g.
Proof. induction g as [|c g IH]; intros H; [constructor|]. cbn [forallb] in H. apply andb_prop in H as [H1 H2]. constructor; [lia|apply IH; exact H2]. Qed.
Lemma ex_spaces : forall s, forallb (Z.eqb 32) s = true -> spaces s.
Proof. intros s H. eapply ex_words; [|exact H]. intros c E. cbv beta in *. lia. Qed.

Lemma main_entries : entries main_files (txt "/c/") true
  [(txt "port", JNum (txt "7328")); (txt "dir", JStr (txt "/tmp")); (txt "max", JNum (txt "3")); (txt "l", JArr [JNum (txt "1.5"); JStr (txt "a")])] main_text.
Proof.
  assert (NC : forall s, forallb (fun c => (c =? 45) || (c =? 46) || ((48 <=? c) && (c <=? 57))) s = true ->
     (hd 0 s = 45 \/ 48 <= hd 0 s <= 57) -> number s).
  { intros s F H. split; [exact H|]. eapply ex_words; [|exact F]. intros c C. cbv beta in *. unfold numc, digit. lia. }
  change main_text with (((txt "# server" ++ [10]) ++ txt "port" ++ txt " " ++ 58 :: txt " " ++ txt "7328") ++
    (([10] ++ txt "include" ++ txt " " ++ txt "log.conf") ++
    (((txt " #x" ++ [10]) ++ txt "l" ++ [] ++ 58 :: [] ++ 91 :: ([] ++ txt "1.5" ++ [] ++ 44 :: (txt " " ++ (34 :: txt "a" ++ [34]) ++ [])) ++ [93]) ++ []))).
  apply (F_more _ _ true [(txt "port", JNum (txt "7328"))]); [| right; left; cbn; lia |].
  { apply M_set.
    - apply (G_note (txt " server") 10 []); [|left; reflexivity|constructor].
      eapply (ex_words _ (fun c => negb (c =? 0) && negb (c =? 10) && negb (c =? 13))); [|reflexivity]. intros c H. cbv beta in *. unfold eol. lia.
    - apply ex_key; try discriminate; reflexivity.
    - apply ex_spaces. reflexivity.
    - apply ex_gap. reflexivity.
    - apply V_num. apply NC; [reflexivity|cbn; lia]. }
  apply (F_more _ _ true [(txt "dir", JStr (txt "/tmp")); (txt "max", JNum (txt "3"))]); [|right; left; cbn; lia|].
  { apply (M_inc main_files (txt "/c/") true [10] (txt "include") (txt " ") (txt "log.conf") log_text); try reflexivity; try discriminate.
    - apply ex_gap. reflexivity.
    - apply ex_gap. reflexivity.
    - split; [discriminate|]. eapply (ex_words _ (fun c => (32 <? c) && negb (c =? 35) && negb (c =? 44) && negb (c =? 93) && negb (c =? 125))); [|reflexivity].
      intros c H. cbv beta in *. unfold wordc. lia.
    - change log_text with (([] ++ txt "dir" ++ [] ++ 58 :: [] ++ txt "/tmp") ++ (([10] ++ txt "max" ++ [] ++ 58 :: [] ++ txt "3") ++ [])).
      apply (F_more _ _ false [(txt "dir", JStr (txt "/tmp"))]); [|right; left; cbn; lia|].
      + apply M_set; [apply ex_gap; reflexivity|apply ex_key; try discriminate; reflexivity|apply ex_spaces; reflexivity|apply ex_gap; reflexivity|].
        apply V_bare. split; [discriminate|]. split; [|cbn; unfold digit; lia].
        eapply (ex_words _ (fun c => (32 <? c) && negb (c =? 35) && negb (c =? 44) && negb (c =? 93) && negb (c =? 125))); [|reflexivity].
        intros c H. cbv beta in *. unfold wordc. lia.
      + apply (F_more _ _ false [(txt "max", JNum (txt "3"))]); [|left; reflexivity|].
        * apply M_set; [apply ex_gap; reflexivity|apply ex_key; try discriminate; reflexivity|apply ex_spaces; reflexivity|apply ex_gap; reflexivity|].
          apply V_num. apply NC; [reflexivity|cbn; lia].
        * apply F_end. apply T_gap. constructor. }
  apply (F_more _ _ true [(txt "l", JArr [JNum (txt "1.5"); JStr (txt "a")])]); [|left; reflexivity|apply F_end, T_gap; constructor].
  apply M_set; [|apply ex_key; try discriminate; reflexivity|apply ex_spaces; reflexivity|apply ex_gap; reflexivity|].
  - apply (G_blank 32); [lia|]. apply (G_note (txt "x") 10 []); [|left; reflexivity|constructor].
    repeat constructor; unfold eol; cbn; lia.
  - apply (V_arr _ _ true _ ([] ++ txt "1.5" ++ [] ++ 44 :: (txt " " ++ (34 :: txt "a" ++ [34]) ++ []))); [cbn; lia|].
    apply E_more; [constructor|apply V_num, NC; [reflexivity|cbn; lia]| |constructor|].
    + intros (w & r & E & W). destruct w as [|x w]; [discriminate|]. cbn in E. injection E as <- _. discriminate.
    + apply E_one; [apply ex_gap; reflexivity| | |constructor].
      * apply V_quoted. split; [discriminate|]. repeat constructor; cbn; lia.
      * intros (w & r & E & W). destruct w as [|x w]; [discriminate|]. cbn in E. injection E as <- _. discriminate.
Qed.
Example C76_open_ex :
  entries main_files (txt "/c/") true
    [(txt "port", JNum (txt "7328")); (txt "dir", JStr (txt "/tmp")); (txt "max", JNum (txt "3")); (txt "l", JArr [JNum (txt "1.5"); JStr (txt "a")])] main_text /\
  conf_open main_files (txt "/c/") (txt "/c/main") 3 = HTree (Some (JN 1 None None
    [JN 2 (Some (txt "port")) (Some (txt "7328")) []; JN 5 (Some (txt "dir")) (Some (txt "/tmp")) []; JN 2 (Some (txt "max")) (Some (txt "3")) [];
     JN 6 (Some (txt "l")) None [JN 4 (Some (txt "0")) (Some (txt "1.5")) []; JN 5 (Some (txt "1")) (Some (txt "a")) []]])).
Proof. split; [exact main_entries|vm_compute; reflexivity]. Qed.

Definition none : list Z -> option (list Z) := fun _ => None.
Lemma small_obj : forall files k v, key k -> number v -> vtext files [] true (JObj [(k, JNum v)]) (123 :: (k ++ 58 :: v) ++ [125]).
Proof.
  intros files k v K V. apply V_obj. replace (k ++ 58 :: v) with (([] ++ k ++ [] ++ 58 :: [] ++ v) ++ []) by (cbn [app]; rewrite app_nil_r; reflexivity).
  apply M_one; [|constructor]. apply M_set; [constructor|exact K|constructor|constructor|apply V_num; exact V].
Qed.
Lemma sub_objects : objects none [[(txt "a", JNum (txt "1"))]; [(txt "b", JNum (txt "2"))]] (txt "{a:1} {b:2}").
Proof.
  assert (N : forall c, 48 <= c <= 57 -> number [c]) by (intros c C; split; [right; exact C|apply Forall_cons; [right; right; exact C|apply Forall_nil]]).
  assert (P : forall a c, a <> 35 -> a <> 123 -> a <> 125 -> c <> 35 -> c <> 123 -> c <> 125 -> paired [a; 58; c]).
  { intros. repeat (apply B_char; [assumption || lia ..|]). constructor. }
  change (txt "{a:1} {b:2}") with ([] ++ 123 :: (txt "a" ++ 58 :: txt "1") ++ 125 :: (txt " " ++ 123 :: (txt "b" ++ 58 :: txt "2") ++ 125 :: [])).
  apply Os_more; [constructor| |apply P; cbn; lia|apply Os_more; [apply ex_gap; reflexivity| |apply P; cbn; lia|apply Os_end, T_gap; constructor]].
  - apply small_obj; [apply ex_key; try discriminate; reflexivity|apply N; cbn; lia].
  - apply small_obj; [apply ex_key; try discriminate; reflexivity|apply N; cbn; lia].
Qed.
Example C76_load_ex :
  vtext none [] true (JObj [(txt "a", JNum (txt "1"))]) (txt "{a:1}") /\ gap (txt " ") /\
  conf_load none 3 (txt " " ++ txt "{a:1}" ++ []) = HTree (Some (JN 7 None None [JN 2 (Some (txt "a")) (Some (txt "1")) []])).
Proof.
  split; [|split; [apply ex_gap; reflexivity|vm_compute; reflexivity]].
  apply (small_obj none (txt "a") (txt "1")); [apply ex_key; try discriminate; reflexivity|].
  split; [right; cbn; unfold digit; lia|]. apply Forall_cons; [right; right; cbn; unfold digit; lia|apply Forall_nil].
Qed.
Example C76_sub_ex :
  objects none [[(txt "a", JNum (txt "1"))]; [(txt "b", JNum (txt "2"))]] (List.concat [txt "{a:1"; txt "} {b:"; txt "2}"]) /\
  conf_sub none 3 [txt "{a:1"; txt "} {b:"; txt "2}"] =
    [HTree (Some (JN 7 None None [JN 2 (Some (txt "a")) (Some (txt "1")) []])); HTree (Some (JN 7 None None [JN 2 (Some (txt "b")) (Some (txt "2")) []]))].
Proof. split; [exact sub_objects|vm_compute; reflexivity]. Qed.
Example C76_safe_ex : conf_open (file1 (txt "f") (txt "abc")) [] (txt "f") 3 = HNull /\ 
  conf_open (file1 (txt "f") [97; 0; 58]) [] (txt "f") 3 = HTree (Some (JN 1 None None [JN 5 (Some [97]) (Some [58]) []])).
Proof. split; vm_compute; reflexivity. Qed.

(** ** What goes wrong. *)
(** The header asks that a JSON text can be read as a configuration (sis_conf.h:11).  The quotes of its
    names stay part of the names, so none of its settings is found. *)
Theorem C76_json_refuted : exists v t, jtext false v t /\ forall d, exists n,
  conf_load none (S (S (S d))) t = HTree (Some n) /\ ~ shaped v None n /\
  json_load (length t) t = LTree (JN 7 None None [JN 2 (Some (txt "a")) (Some (txt "1")) []]) /\
  map jkey (jkids n) = [Some (txt """a""")].
Proof.
  exists (JObj [(txt "a", JNum (txt "1"))]), (txt "{""a"":1}"). split.
  - change (txt "{""a"":1}") with (123 :: ([] ++ 34 :: txt "a" ++ 34 :: [] ++ 58 :: [] ++ txt "1" ++ []) ++ [125]).
    apply T_obj. apply M_last; [constructor| |constructor|constructor|].
    + split; [apply (SL_plain false 97 [] []); [unfold plain; lia|constructor]|]. intros _. split; [discriminate|]. cbn. lia.
    + apply I_val; [|constructor]. apply T_num. split; [|intros _; cbn; lia].
      exists [], (txt "1"), [], []. split; [reflexivity|]. split; [left; reflexivity|]. split; [right|split; left; reflexivity].
      split; [split; [discriminate|repeat constructor; cbn; lia]|cbn; lia].
  - intros d. exists (JN 7 None None [JN 2 (Some (txt """a""")) (Some (txt "1")) []]). split; [vm_compute; reflexivity|].
    split; [|split; [vm_compute; reflexivity|reflexivity]].
    intros (_ & _ & _ & (K & _) & _). discriminate.
Qed.
Print Assumptions C76_json_refuted.

(** A quoted string ends at the first blank.  What is left of it becomes the next name and takes the
    value of the next setting, which is lost; there is no error. *)
Theorem C76_blank_refuted : exists c, forall files path fn d, files fn = Some c ->
  c = txt "a:""b c"" d:1" /\
  conf_open files path fn (S (S d)) = HTree (Some (JN 1 None None
    [JN 5 (Some (txt "a")) (Some (txt "b")) []; JN 2 (Some (txt "c""")) (Some (txt "1")) []])).
Proof.
  exists (txt "a:""b c"" d:1"). intros files path fn d F. split; [reflexivity|]. unfold conf_open, read_file. rewrite F. vm_compute. reflexivity.
Qed.
Print Assumptions C76_blank_refuted.

(** A file with an empty quoted string is refused as a whole. *)
Theorem C76_empty_refuted : exists c, forall files path fn d, files fn = Some c ->
  c = txt "a:1 b:"""" " /\ conf_open files path fn (S (S d)) = HNull.
Proof. exists (txt "a:1 b:"""" "). intros files path fn d F. split; [reflexivity|]. unfold conf_open, read_file. rewrite F. vm_compute. reflexivity. Qed.
Print Assumptions C76_empty_refuted.

(** A file cut off behind a comma is accepted without an error, with an entry without a name. *)
Theorem C76_cut_refuted : exists c, forall files path fn d, files fn = Some c ->
  c = txt "a:{b:1," /\
  conf_open files path fn (S (S d)) = HTree (Some (JN 1 None None
    [JN 7 (Some (txt "a")) None [JN 2 (Some (txt "b")) (Some (txt "1")) []; JN 0 None None []]])).
Proof. exists (txt "a:{b:1,"). intros files path fn d F. split; [reflexivity|]. unfold conf_open, read_file. rewrite F. vm_compute. reflexivity. Qed.
Print Assumptions C76_cut_refuted.

(** Where a comma is missing the later setting takes the place of the earlier, without an error. *)
Theorem C76_comma_refuted : exists c, forall files path fn d, files fn = Some c ->
  c = txt "a:{b:1 c:2}" /\
  conf_open files path fn (S (S d)) = HTree (Some (JN 1 None None
    [JN 7 (Some (txt "a")) None [JN 2 (Some (txt "c")) (Some (txt "2")) []]])).
Proof. exists (txt "a:{b:1 c:2}"). intros files path fn d F. split; [reflexivity|]. unfold conf_open, read_file. rewrite F. vm_compute. reflexivity. Qed.
Print Assumptions C76_comma_refuted.

(** A word that starts with a digit is taken apart: in an array the digits are lost and the entries are
    numbered from 1, without an error. *)
Theorem C76_digit_refuted : exists c, forall files path fn d, files fn = Some c ->
  c = txt "a:[10x,20]" /\
  conf_open files path fn (S (S d)) = HTree (Some (JN 1 None None
    [JN 6 (Some (txt "a")) None [JN 5 (Some (txt "1")) (Some (txt "x")) []; JN 2 (Some (txt "2")) (Some (txt "20")) []]])).
Proof. exists (txt "a:[10x,20]"). intros files path fn d F. split; [reflexivity|]. unfold conf_open, read_file. rewrite F. vm_compute. reflexivity. Qed.
Print Assumptions C76_digit_refuted.

(** A setting whose name begins with include is taken for the name of a file, and where there is no such
    file the whole is refused. *)
Theorem C76_name_refuted : exists c, forall files fn d, files fn = Some c -> files (txt "s:3") = None ->
  c = txt "includes:3" /\ conf_open files [] fn (S (S d)) = HNull.
Proof.
  exists (txt "includes:3"). intros files fn d F N. split; [reflexivity|]. unfold conf_open, read_file. rewrite F.
  assert (E : include_body files [] (pvalue files [] (S d)) (pinclude files [] (S d)) new_node (txt "includes:3" ++ [0; 0]) = COk [new_node] None true).
  { unfold include_body, read_file.
    replace (cskip false (skipn 7 (txt "includes:3" ++ [0; 0]))) with (Some (txt "s:3" ++ [0; 0])) by (vm_compute; reflexivity).
    replace (scan stop_word (txt "s:3" ++ [0; 0])) with (Some (txt "s:3", [0; 0])) by (vm_compute; reflexivity).
    change (firstn 1023 ([] ++ txt "s:3")) with (txt "s:3"). rewrite N. reflexivity. }
  unfold conf_parse. replace (cskip false (txt "includes:3" ++ [0; 0])) with (Some (txt "includes:3" ++ [0; 0])) by (vm_compute; reflexivity).
  change (pinclude files [] (S (S d))) with (include_body files [] (pvalue files [] (S d)) (pinclude files [] (S d))).
  revert E. generalize (pvalue files [] (S (S d))) (include_body files [] (pvalue files [] (S d)) (pinclude files [] (S d))).
  intros pv pi E. clear - E. vm_compute in E. vm_compute. rewrite E. reflexivity.
Qed.
Print Assumptions C76_name_refuted.

(** The settings of a file included by an included file are lost but for the first, if anything follows
    the include. *)
Theorem C76_nested_refuted : exists main a b, forall path d,
  let files := fun n => if list_eq_dec Z.eq_dec n (path ++ txt "m") then Some main
                        else if list_eq_dec Z.eq_dec n (path ++ txt "a") then Some a
                        else if list_eq_dec Z.eq_dec n (path ++ txt "b") then Some b else None in
  main = txt "include a" /\ a = txt "include b z:3" /\ b = txt "x:1 y:2" /\ (path = txt "/c/" ->
  conf_open files path (path ++ txt "m") (S (S (S d))) = HTree (Some (JN 1 None None
    [JN 2 (Some (txt "x")) (Some (txt "1")) []; JN 2 (Some (txt "z")) (Some (txt "3")) []]))).
Proof.
  exists (txt "include a"), (txt "include b z:3"), (txt "x:1 y:2"). intros path d files. split; [reflexivity|]. split; [reflexivity|]. split; [reflexivity|].
  intros ->. subst files. vm_compute. reflexivity.
Qed.
Print Assumptions C76_nested_refuted.

(** A file that includes itself uses up any stack. *)
Lemma self_deep : forall d n, pinclude (file1 (txt "f") (txt "include f")) [] d n (txt "include f" ++ [0; 0]) = CDeep.
Proof.
  induction d as [|d IH]; intros n; [reflexivity|].
  assert (G : forall pv pi n, pi n (txt "include f" ++ [0; 0]) = CDeep ->
     include_body (file1 (txt "f") (txt "include f")) [] pv pi n (txt "include f" ++ [0; 0]) = CDeep).
  { clear. intros pv pi n H. vm_compute in H. vm_compute. rewrite H. reflexivity. }
  apply G. apply IH.
Qed.
Theorem C76_self_refuted : exists c, c = txt "include f" /\ forall d, conf_open (file1 (txt "f") c) [] (txt "f") d = HDeep.
Proof.
  exists (txt "include f"). split; [reflexivity|]. intros d. pose proof (self_deep d new_node) as H.
  unfold conf_open, conf_parse. change (read_file (file1 (txt "f") (txt "include f")) (txt "f")) with (Some (txt "include f" ++ [0; 0])).
  replace (cskip false (txt "include f" ++ [0; 0])) with (Some (txt "include f" ++ [0; 0])) by (vm_compute; reflexivity).
  revert H. generalize (pvalue (file1 (txt "f") (txt "include f")) [] d) (pinclude (file1 (txt "f") (txt "include f")) [] d).
  intros pv pi H. vm_compute in H. vm_compute. rewrite H. reflexivity.
Qed.
Print Assumptions C76_self_refuted.

(** A text whose name comes last, as behind a comma before the closing brace, makes sis_conf_load read
    behind its buffer. *)
Theorem C76_load_refuted : exists t, t = txt "{a:1,}" /\ forall files d, conf_load files (S (S d)) t = HFault.
Proof. exists (txt "{a:1,}"). split; [reflexivity|]. intros files d. vm_compute. reflexivity. Qed.
Print Assumptions C76_load_refuted.

(** sis_conf_load does not look for errors: what was read before one is handed out, a name without a
    value last. *)
Theorem C76_error_refuted : exists t, t = txt "{a:1, b:}" /\ forall files d, conf_load files (S (S d)) t =
  HTree (Some (JN 7 None None [JN 2 (Some (txt "a")) (Some (txt "1")) []; JN 0 (Some (txt "b")) None []])).
Proof. exists (txt "{a:1, b:}"). split; [reflexivity|]. intros files d. vm_compute. reflexivity. Qed.
Print Assumptions C76_error_refuted.

(** Where a comma stands between the objects of a file the callback is given no node from the second on. *)
Theorem C76_sub_refuted : exists t, t = txt "{a:1},{b:2}" /\ forall files d, conf_sub files (S (S d)) [t] =
  [HTree (Some (JN 7 None None [JN 2 (Some (txt "a")) (Some (txt "1")) []])); HTree None].
Proof. exists (txt "{a:1},{b:2}"). split; [reflexivity|]. intros files d. vm_compute. reflexivity. Qed.
Print Assumptions C76_sub_refuted.
