(** C50, C51, C52: reading and writing JSON. *)
From Coq Require Import ZArith List Lia Bool ZifyBool ZifyNat.
From Coq Require Import String Ascii.
From Verif Require Import Base S_json M_netmsg M_json L_json L_jsonread L_jsonwrite.
Import ListNotations.
Open Scope list_scope.
Open Scope Z_scope.

(** a text, with ' for the double quote *)
Definition jt (s : string) : list Z :=
  map (fun c => if Z.of_nat (nat_of_ascii c) =? 39 then 34 else Z.of_nat (nat_of_ascii c)) (list_ascii_of_string s).

(** ** C50: reading a JSON text *)

(** Every array or object of the grammar with [lax = false] is read as the tree of its value, with any
    blanks in front, whatever follows it, and room on the stack for as many calls as it has bytes. *)
Theorem C50_partial : forall v w t rest d, jtext false v t -> container v -> ws w ->
  Z.of_nat (List.length t) < 2 ^ 31 -> (List.length t <= d)%nat ->
  exists n, json_load d (w ++ t ++ rest) = LTree n /\ shaped v None n.
Proof. exact load_reads. Qed.
Print Assumptions C50_partial.

Lemma plain_all : forall s, forallb (fun c => (32 <=? c) && (c <? 256) && negb (c =? 34) && negb (c =? 92)) s = true -> Forall plain s.
Proof.
  intros s H. rewrite forallb_forall in H. apply Forall_forall. intros c C. specialize (H c C). unfold plain. lia.
Qed.
Lemma lex_self : forall lax s, Forall plain s -> strlex lax s s.
Proof. intros lax s H. induction H; constructor; assumption. Qed.
Lemma num_digit : forall lax c, 49 <= c <= 57 -> numlex lax [c].
Proof.
  intros lax c H. split.
  - exists [], [c], [], []. split; [reflexivity|]. split; [left; reflexivity|]. split; [right|split; left; reflexivity].
    split; [split; [discriminate|repeat constructor; lia]|cbn; lia].
  - intros _. cbn. lia.
Qed.
Lemma key_a : forall lax, keylex lax [97] [97].
Proof.
  intros lax. split; [apply lex_self, plain_all; reflexivity|]. intros _. split; [discriminate|]. cbn. lia.
Qed.

(** {'a': [1, 'x\'y', true ], 'k':false,'z':{}} *)
Example C50_ok : exists n, json_load 60 (jt "{'a': [1, 'x\'y', true ], 'k':false,'z':{}} tail") = LTree n /\
  shaped (JObj [([97], JArr [JNum [49]; JStr [120; 34; 121]; JBool true]); ([107], JBool false); ([122], JObj [])]) None n.
Proof.
  change (jt "{'a': [1, 'x\'y', true ], 'k':false,'z':{}} tail") with
    ([] ++ jt "{'a': [1, 'x\'y', true ], 'k':false,'z':{}}" ++ jt " tail").
  apply C50_partial; [|exact Logic.I|constructor|reflexivity|vm_compute; repeat constructor].
  change (jt "{'a': [1, 'x\'y', true ], 'k':false,'z':{}}") with (123 :: jt "'a': [1, 'x\'y', true ], 'k':false,'z':{}" ++ [125]).
  apply T_obj.
  refine (M_cons false [97] [97] _ [] [] [32] (jt "[1, 'x\'y', true ]" ++ []) _ (jt " 'k':false,'z':{}") _ (key_a false) _ _ _ _).
  1,2: constructor.
  { repeat constructor. }
  - apply I_val; [|constructor].
    change (jt "[1, 'x\'y', true ]") with (91 :: jt "1, 'x\'y', true " ++ [93]). apply T_arr.
    refine (E_cons false _ [] ([49] ++ []) _ (jt " 'x\'y', true ") _ _ _); [constructor| |].
    { apply I_val; [apply T_num, num_digit; lia|constructor]. }
    refine (E_cons false _ [32] (jt "'x\'y'" ++ []) _ (jt " true ") _ _ _); [repeat constructor| |].
    { apply I_val; [|constructor]. change (jt "'x\'y'") with (34 :: jt "x\'y" ++ [34]). apply T_str.
      change (jt "x\'y") with (120 :: 92 :: 34 :: [121]).
      apply SL_plain; [unfold plain; lia|]. apply SL_quote. apply SL_plain; [unfold plain; lia|]. constructor. }
    refine (E_last false _ [32] (word true ++ 32 :: []) _ _); [repeat constructor|]. apply I_blank. constructor.
  - refine (M_cons false [107] [107] _ [32] [] [] (word false) _ (jt "'z':{}") _ _ _ _ _ _).
    1,3,4: repeat constructor.
    { split; [apply lex_self, plain_all; reflexivity|]. intros _. split; [discriminate|]. cbn. lia. }
    { apply I_comma. }
    refine (M_last false [122] [122] _ [] [] [] (jt "{}" ++ []) _ _ _ _ _).
    1,3,4: constructor.
    { split; [apply lex_self, plain_all; reflexivity|]. intros _. split; [discriminate|]. cbn. lia. }
    apply I_val; [|constructor]. apply (T_obj0 false []). constructor.
Qed.

(** the JSON text {'a':X} of a value *)
Lemma obj1 : forall v i, item true true v i -> jtext true (JObj [([97], v)]) (jt "{'a':" ++ i ++ [125]).
Proof.
  intros v i I. change (jt "{'a':" ++ i ++ [125]) with (123 :: (34 :: 97 :: 34 :: 58 :: i) ++ [125]).
  apply T_obj. refine (M_last true [97] [97] v [] [] [] i _ (key_a true) _ _ I); constructor.
Qed.

(** {'a':true} is not read at all: the word takes the bracket with it. *)
Theorem C50_true_refuted : exists v t, jtext true v t /\ container v /\
  json_load (S (List.length t)) t = LNull.
Proof.
  exists (JObj [([97], JBool true)]), (jt "{'a':true}"). split; [|split; [exact Logic.I|reflexivity]].
  apply (obj1 (JBool true) (word true)). apply (I_word true true true []); [reflexivity|constructor].
Qed.
Print Assumptions C50_true_refuted.

(** In {'a':{'a':true}} the inner object is read, but asked for its 'a' the answer is false. *)
Theorem C50_nested_true_refuted : exists t n c, jtext true (JObj [([97], JObj [([97], JBool true)])]) t /\
  json_load (S (List.length t)) t = LTree n /\ find_key (jkids n) [97] = Some c /\
  get_bool c [97] true = false.
Proof.
  exists (jt "{'a':{'a':true}}"). eexists. eexists. split; [|split; [reflexivity|split; reflexivity]].
  apply (obj1 _ (jt "{'a':true}")). change (jt "{'a':true}") with (jt "{'a':true}" ++ []). apply I_val; [|constructor].
  apply (obj1 (JBool true) (word true)). apply (I_word true true true []); [reflexivity|constructor].
Qed.
Print Assumptions C50_nested_true_refuted.

(** {'a':null,'b':1} is read without an error and without the member 'b'. *)
Theorem C50_null_refuted : exists t n, jtext true (JObj [([97], JNull); ([98], JNum [49])]) t /\
  json_load (S (List.length t)) t = LTree n /\ find_key (jkids n) [98] = None.
Proof.
  exists (jt "{'a':null,'b':1}"). eexists. split; [|split; reflexivity].
  change (jt "{'a':null,'b':1}") with (123 :: ([] ++ 34 :: [97] ++ 34 :: [] ++ 58 :: [] ++ ([110; 117; 108; 108] ++ []) ++ 44 ::
    ([] ++ 34 :: [98] ++ 34 :: [] ++ 58 :: [] ++ ([49] ++ []))) ++ [125]).
  apply T_obj. apply M_cons.
  - constructor.
  - apply key_a.
  - constructor.
  - constructor.
  - apply I_val; [apply T_null; reflexivity|constructor].
  - apply M_last; [constructor| |constructor|constructor|].
    + split; [apply lex_self, plain_all; reflexivity|discriminate].
    + apply I_val; [apply T_num, num_digit; lia|constructor].
Qed.
Print Assumptions C50_null_refuted.

(** [1E5,2] is read without an error as an array of one element, 1. *)
Theorem C50_exponent_refuted : exists t n, jtext true (JArr [JNum [49; 69; 53]; JNum [50]]) t /\
  json_load (S (List.length t)) t = LTree n /\ List.length (jkids n) = 1%nat.
Proof.
  exists (jt "[1E5,2]"). eexists. split; [|split; reflexivity].
  change (jt "[1E5,2]") with (91 :: ([] ++ ([49; 69; 53] ++ []) ++ 44 :: ([] ++ ([50] ++ []))) ++ [93]).
  apply T_arr. apply E_cons; [constructor| |].
  - apply I_val; [|constructor]. apply T_num. split; [|discriminate].
    exists [], [49], [], [69; 53]. split; [reflexivity|]. split; [left; reflexivity|].
    split; [right; split; [split; [discriminate|repeat constructor; lia]|cbn; lia]|]. split; [left; reflexivity|].
    right. exists 69, [], [53]. split; [reflexivity|]. split; [right; reflexivity|]. split; [left; reflexivity|].
    split; [discriminate|repeat constructor; lia].
  - apply E_last; [constructor|]. apply I_val; [apply T_num, num_digit; lia|constructor].
Qed.
Print Assumptions C50_exponent_refuted.

(** The member of {'':1} gets the rest of the text as its name. *)
Theorem C50_empty_key_refuted : exists t n, jtext true (JObj [([], JNum [49])]) t /\
  json_load (S (List.length t)) t = LTree n /\ find_key (jkids n) [] = None.
Proof.
  exists (jt "{'':1}"). eexists. split; [|split; reflexivity].
  change (jt "{'':1}") with (123 :: ([] ++ 34 :: [] ++ 34 :: [] ++ 58 :: [] ++ ([49] ++ [])) ++ [125]).
  apply T_obj. apply M_last; [constructor| |constructor|constructor|].
  - split; [constructor|discriminate].
  - apply I_val; [apply T_num, num_digit; lia|constructor].
Qed.
Print Assumptions C50_empty_key_refuted.

(** The value of {'a':'\\'}, a backslash, is lost. *)
Theorem C50_backslash_refuted : exists t n c, jtext true (JObj [([97], JStr [92])]) t /\
  json_load (S (List.length t)) t = LTree n /\ find_key (jkids n) [97] = Some c /\ jval c = None.
Proof.
  exists (jt "{'a':'\\'}"). eexists. eexists. split; [|split; [reflexivity|split; reflexivity]].
  apply (obj1 (JStr [92]) (jt "'\\'")). change (jt "'\\'") with ((34 :: [92; 92] ++ [34]) ++ []).
  apply I_val; [|constructor]. apply T_str. apply SL_esc; [reflexivity|constructor|constructor].
Qed.
Print Assumptions C50_backslash_refuted.

(** ** C51: reading any bytes *)

(** Whatever the bytes, the parser stops, and room for one call more than there are bytes suffices. *)
Theorem C51_terminates : forall content d, (List.length content < d)%nat ->
  json_load d content = LNull \/ exists n, json_load d content = LTree n.
Proof.
  intros content d H. unfold json_load. destruct content as [|b r] eqn:E; [left; reflexivity|]. rewrite <- E in *.
  assert (L : (List.length (skip (cstr content)) < d)%nat).
  { pose proof (skip_len (cstr content)). assert (C : (List.length (cstr content) <= List.length content)%nat).
    { clear. induction content as [|c l IH]; [auto|]. cbn [cstr]. destruct (c =? 0); cbn [List.length]; lia. }
    lia. }
  destruct (parse_goes d false new_node (skip (cstr content)) L) as (q & e & n & P & _). rewrite P.
  destruct e; [left; reflexivity|right; exists n; reflexivity].
Qed.
Print Assumptions C51_terminates.
(** both answers occur *)
Example C51_ok : json_load 4 (jt "[1]") = LTree (JN 6 None None [JN 2 (Some [48]) (Some [49]) []]) /\
  json_load 3 (jt "[1") = LNull.
Proof. split; reflexivity. Qed.

(** However much room there is, a text of one byte more uses it up: the depth of the calls is chosen
    by the sender. *)
Theorem C51_depth_refuted : forall d, exists content, List.length content = S d /\ json_load d content = LDeep.
Proof.
  intros d. exists (repeat 91 (S d)). split; [apply repeat_length|].
  assert (N : nz (repeat 91 (S d))).
  { apply Forall_forall. intros c C. apply repeat_spec in C. subst. discriminate. }
  unfold json_load. replace (cstr (repeat 91 (S d))) with (repeat 91 (S d)).
  2:{ pose proof (cstr_app (repeat 91 (S d)) [] N) as E. rewrite !app_nil_r in E. symmetry. exact E. }
  replace (skip (repeat 91 (S d))) with (repeat 91 (S d)) by reflexivity.
  rewrite nested_deep by lia. reflexivity.
Qed.
Print Assumptions C51_depth_refuted.

(** A text that is not JSON is accepted: {'a':1,'b':'x with no end. *)
Theorem C51_accepts_refuted : exists t n, (forall v, ~ jtext true v t) /\ json_load (S (List.length t)) t = LTree n.
Proof.
  exists (jt "{'a':1,'b':'x"). eexists. split; [|reflexivity].
  intros v H.
  assert (L : last (jt "{'a':1,'b':'x") 0 = 120) by reflexivity.
  assert (Hd : hd 0 (jt "{'a':1,'b':'x") = 123) by reflexivity.
  remember (jt "{'a':1,'b':'x") as t eqn:E. clear E.
  assert (LL : forall c x d, last (c :: x ++ [d]) 0 = d).
  { intros c x d. change (c :: x ++ [d]) with ((c :: x) ++ [d]). apply last_last. }
  inversion H as [|s (N & _)|s u|w W|l u EL|w W|l u EL]; subst; try (cbn [hd] in Hd; discriminate).
  - destruct N as (sg & i & f & e & -> & Sg & I & _ & _). destruct Sg as [->| ->]; [|cbn in Hd; discriminate].
    destruct I as [->|[[N D] _]]; [cbn in Hd; discriminate|]. destruct i as [|x i]; [easy|]. inversion D; subst.
    cbn [app hd] in Hd. unfold digit in *. lia.
  - rewrite LL in L. discriminate.
  - rewrite LL in L. discriminate.
Qed.
Print Assumptions C51_accepts_refuted.

(** ** C52: writing a tree *)

(** The buffers are never overrun, in either format, for any tree whose strings are below 2^28 bytes. *)
Theorem C52_fits : forall fmt n, short (2 ^ 28) n -> json_output fmt n <> WOver.
Proof. intros fmt n H. apply never_over; [lia|exact H]. Qed.
Print Assumptions C52_fits.

(** The tree of a value that can be read back is written as a JSON text of that value, and reading the
    text gives the same tree. *)
Theorem C52_partial : forall fmt v n, container v -> readable v -> shaped v None n -> short (2 ^ 28) n ->
  exists t, json_output fmt n = WText t /\ jtext false v t /\
    (Z.of_nat (List.length t) < 2 ^ 31 -> forall d, (List.length t <= d)%nat -> json_load d t = LTree n).
Proof.
  intros fmt v n C R S0 M. destruct (json_writes v None n fmt 0 ltac:(lia) S0 R M) as (t & E & W).
  assert (T : jtext false v t) by (destruct v; try exact W; destruct C).
  exists t. split; [exact E|]. split; [exact T|]. intros Z d D.
  destruct (C50_partial v [] t [] d T C ltac:(constructor) Z D) as (n' & L & S1).
  cbn [app] in L. rewrite app_nil_r in L. rewrite L. f_equal. exact (shaped_unique v None n' n S1 S0).
Qed.
Print Assumptions C52_partial.

(** {'a':[true,-2.5],'b':'q\'q'} *)
Definition tree52 : jnode :=
  JN 7 None None [JN 6 (Some [97]) None [JN 3 (Some [48]) (Some (word true)) []; JN 4 (Some [49]) (Some [45; 50; 46; 53]) []];
                  JN 5 (Some [98]) (Some [113; 34; 113]) []].
Example C52_ok : exists v, container v /\ readable v /\ shaped v None tree52 /\ short (2 ^ 28) tree52 /\
  json_output false tree52 = WText (jt "{'a':[true,-2.5],'b':'q\'q'}").
Proof.
  exists (JObj [([97], JArr [JBool true; JNum [45; 50; 46; 53]]); ([98], JStr [113; 34; 113])]).
  split; [exact Logic.I|]. split; [|split; [|split; [|reflexivity]]].
  - apply readable_obj. split; [intros X; exact X|].
    constructor; [|constructor; [|constructor]]; cbn [fst snd].
    + split; [discriminate|]. split; [apply plain_all; reflexivity|]. apply readable_arr. split; [intros X; exact X|].
      constructor; [exact Logic.I|]. constructor; [|constructor]. split; [|intros _; cbn; lia].
      exists [45], [50], [46; 53], []. split; [reflexivity|]. split; [right; reflexivity|].
      split; [right; split; [split; [discriminate|repeat constructor; lia]|cbn; lia]|]. split; [|left; reflexivity].
      right. exists [53]. split; [reflexivity|]. split; [discriminate|repeat constructor; lia].
    + split; [discriminate|]. split; [apply plain_all; reflexivity|]. cbn [readable].
      constructor; [left; unfold plain; lia|]. constructor; [right; reflexivity|]. constructor; [left; unfold plain; lia|constructor].
  - assert (D : forall i c, 48 <= c <= 57 -> i = c - 48 -> is_dec i [c]).
    { intros i c C ->. split; [split; [discriminate|repeat constructor; lia]|]. split; [cbn; lia|].
      destruct (Z.eq_dec c 48) as [->|N]; [left; reflexivity|right; exact N]. }
    apply shaped_obj. cbn [jkey jty jval jkids tree52 obj_shape]. split; [reflexivity|]. split; [reflexivity|]. split; [reflexivity|].
    split; [|split; [cbn; tauto|exact Logic.I]].
    apply shaped_arr. cbn [jkey jty jval jkids arr_shape]. split; [reflexivity|]. split; [reflexivity|]. split; [reflexivity|].
    split; [exists [48]; split; [apply D; lia|cbn; tauto]|]. split; [|exact Logic.I].
    exists [49]. split; [apply D; lia|]. cbn [shaped jkey jty jval jkids]. split; [reflexivity|]. split; [|split; reflexivity].
    left. split; [reflexivity|]. exists [45; 50], 53, []. split; [reflexivity|]. unfold digit. lia.
  - cbn [short short_str tree52 word List.length]. repeat split.
Qed.

(** A string with a newline comes back as one with a backslash and an n. *)
Theorem C52_control_refuted : exists v n t n', container v /\ shaped v None n /\ short (2 ^ 28) n /\
  json_output false n = WText t /\ json_load (S (List.length t)) t = LTree n' /\ n' <> n.
Proof.
  exists (JObj [([97], JStr [10])]), (JN 7 None None [JN 5 (Some [97]) (Some [10]) []]), (jt "{'a':'\n'}"),
         (JN 7 None None [JN 5 (Some [97]) (Some [92; 110]) []]).
  split; [exact Logic.I|]. split; [cbn; repeat split|]. split; [cbn; repeat split|]. split; [reflexivity|]. split; [reflexivity|]. discriminate.
Qed.
Print Assumptions C52_control_refuted.

(** A true at the end of an object makes what is written unreadable. *)
Theorem C52_true_refuted : exists v n t, container v /\ shaped v None n /\ short (2 ^ 28) n /\
  json_output false n = WText t /\ json_load (S (List.length t)) t = LNull.
Proof.
  exists (JObj [([97], JBool true)]), (JN 7 None None [JN 3 (Some [97]) (Some (word true)) []]), (jt "{'a':true}").
  split; [exact Logic.I|]. split; [cbn; repeat split|]. split; [cbn; repeat split|]. split; reflexivity.
Qed.
Print Assumptions C52_true_refuted.

(** Names are looked up without regard to case: in {'A':1,'a':2} the member 'a' is never found. *)
Theorem C50_case_refuted : exists t n c,
  jtext false (JObj [([65], JNum [49]); ([97], JNum [50])]) t /\
  json_load (S (List.length t)) t = LTree n /\ find_key (jkids n) [97] = Some c /\ jval c = Some [49].
Proof.
  exists (jt "{'A':1,'a':2}"). eexists. eexists. split; [|split; [reflexivity|split; reflexivity]].
  change (jt "{'A':1,'a':2}") with (123 :: jt "'A':1,'a':2" ++ [125]). apply T_obj.
  refine (M_cons false [65] [65] _ [] [] [] ([49] ++ []) _ (jt "'a':2") _ _ _ _ _ _).
  1,3,4: constructor.
  { split; [apply lex_self, plain_all; reflexivity|]. intros _. split; [discriminate|]. cbn. lia. }
  { apply I_val; [apply T_num, num_digit; lia|constructor]. }
  refine (M_last false [97] [97] _ [] [] [] ([50] ++ []) _ (key_a false) _ _ _).
  1,2,3: constructor.
  apply I_val; [apply T_num, num_digit; lia|constructor].
Qed.
Print Assumptions C50_case_refuted.
