(** Lemmas about the client worker. *)
From Verif Require Import Base S_sub M_sub L_sub S_client M_client.
From Coq Require Import ZifyBool ZifyNat.
Open Scope list_scope. Open Scope Z_scope.

Lemma upd_same {A} (f : nat -> A) i v : upd f i v i = v.
Proof. unfold upd. rewrite Nat.eqb_refl. reflexivity. Qed.
Lemma upd_other {A} (f : nat -> A) i j v : j <> i -> upd f i v j = f j.
Proof. intros H. unfold upd. destruct (Nat.eqb_spec j i); [contradiction|reflexivity]. Qed.
Lemma find_in n l i : find_ask n l = Some i -> In (n, i) l.
Proof.
  unfold find_ask. destruct (find _ l) as [x|] eqn:F; [|discriminate]. intros E. injection E as <-. apply find_some in F as [I E].
  apply Z.eqb_eq in E. subst n. destruct x; exact I.
Qed.
Lemma in_find n l i : In (n, i) l -> exists j, find_ask n l = Some j.
Proof.
  intros I. unfold find_ask. destruct (find _ l) as [x|] eqn:F; [eexists; reflexivity|]. pose proof (find_none _ _ F _ I) as N. cbn in N. lia.
Qed.
Lemma in_drop n l x : In x (drop_ask n l) <-> In x l /\ fst x <> n.
Proof. unfold drop_ask. rewrite filter_In. split; intros [A B]; (split; [exact A|]); lia. Qed.

Section Client.
Variables (req : nat -> call) (auth : bool).
Notation sub := (sub req).

(** has its number; is in the map or was; has been sent *)
Definition numbered (p : phase) : Prop := match p with P0 | PRead | PInc _ | PDone Refused => False | _ => True end.
Definition past (p : phase) : Prop := match p with PClear | PSend | PWait | PDone Success | PDone Failure => True | _ => False end.
Definition off (p : phase) : Prop := match p with PWait | PDone Success | PDone Failure => True | _ => False end.
Definition answered (s : client) (i : nat) : Prop := exists a d, In (i, a, d) (told s).
(** the numbering: no two calls at it at the same time, and not more than fit *)
Definition numbering (p : phase) : bool := match p with PRead | PInc _ => true | _ => false end.
Definition calm (s : client) : Prop :=
  (forall i j, numbering (ph s i) = true -> numbering (ph s j) = true -> i = j) /\ sno s <= 16777215.
Inductive runs (s0 : client) : client -> Prop :=
| runs0 : runs s0 s0
| runs1 s e s' : runs s0 s -> happens req auth e s = Some s' -> calm s' -> runs s0 s'.

Hypothesis NW : forall i, q_wait (req i) = true -> sub i = false.
Hypothesis SH : forall i, is_sub (q_cmd (req i)) <> None.

Definition is_reply (a : answer) (d : Z * list Z) : Prop := exists t, a_tag a = Some t /\ d = reply t (a_info a).
Record inv (s : client) : Prop := mkinv {
  iA : bad s = false;
  iA0 : 0 <= sno s;
  iB : forall i r, ph s i = PInc r -> r = sno s;
  iC : forall i, numbered (ph s i) -> 0 <= num s i < sno s;
  iD : forall i j, numbered (ph s i) -> numbered (ph s j) -> num s i = num s j -> i = j;
  iE : forall n i, In (n, i) (asks s) -> past (ph s i) /\ num s i = n /\ freed s i = false;
  iF : forall n i, In (n, i) (sent s) -> past (ph s i) /\ num s i = n /\ (sub i = false -> off (ph s i));
  iG : forall i, freed s i = true -> sub i = false /\ answered s i;
  iH : forall i a d, In (i, a, d) (told s) -> a_for a = i /\ is_reply a d /\ past (ph s i) /\ (sub i = false -> off (ph s i));
  iJ : forall i, q_wait (req i) = true ->
       match ph s i with
       | PSend => got s i = None
       | PWait => match got s i with None => ~ answered s i | Some d => exists a, In (i, a, d) (told s) end
       | PDone Refused => True
       | PDone o => exists a d, In (i, a, d) (told s) /\ o = means (fst d)
       | _ => True
       end;
  iK : forall i, sub i = false -> (List.length (filter (fun x => Nat.eqb (fst (fst x)) i) (told s)) <= 1)%nat;
  iL : forall n i, sub i = false -> answered s i -> In (n, i) (asks s) -> net s = NDel i;
  iM : match net s with
       | NIdle => True
       | NGot a i => In (num s i, i) (asks s) /\ a_for a = i /\ a_tag a <> None /\ (sub i = false -> off (ph s i) /\ ~ answered s i)
       | NDel i => In (num s i, i) (asks s) /\ answered s i
       end;
  iO : forall i, past (ph s i) -> (sub i = true \/ ~ answered s i) -> In (num s i, i) (asks s);
  iP : match status s with SInit => True | _ => conn s = true end }.

Lemma past_num p : past p -> numbered p.
Proof. destruct p as [| | | | | | |[]]; cbn; tauto. Qed.
Lemma off_past p : off p -> past p.
Proof. destruct p as [| | | | | | |[]]; cbn; tauto. Qed.
Lemma inv0 old : inv (start old).
Proof. constructor; cbn; try (intros; contradiction); try lia; try discriminate; try tauto; try (intros; lia). Qed.

Definition jprop (s : client) (i : nat) (p : phase) : Prop :=
  match p with
  | PSend => got s i = None
  | PWait => match got s i with None => ~ answered s i | Some d => exists a, In (i, a, d) (told s) end
  | PDone Refused => True
  | PDone o => exists a d, In (i, a, d) (told s) /\ o = means (fst d)
  | _ => True
  end.
Ltac at_i i j := destruct (Nat.eq_dec j i) as [->|?]; [rewrite ?upd_same in *|rewrite ?upd_other in * by assumption].
Ltac fields := cbn [bad sno ph num asks freed sent told net got status conn set_ph set_net] in *.
(** A step of a call that changes nothing but its phase keeps all that holds for the others. *)
Lemma move i p s : inv s -> (past (ph s i) <-> past p) -> (off (ph s i) -> off p) -> (numbered (ph s i) <-> numbered p) ->
  (forall r, p = PInc r -> r = sno s) -> (q_wait (req i) = true -> jprop s i p) -> inv (set_ph s i p).
Proof.
  intros [A A0 B C D E F G H J K L M O P] c1 c2 c3 c4 c5. constructor; fields; auto.
  - intros j r X. at_i i j; eauto.
  - intros j X. at_i i j; [apply C; tauto|auto].
  - intros j k X Y. at_i i j; at_i i k; intros Z; apply D; tauto.
  - intros n j I. destruct (E n j I) as (X & Y). split; [|exact Y]. at_i i j; tauto.
  - intros n j I. destruct (F n j I) as (X & Y & Z). at_i i j; tauto.
  - intros j a d I. destruct (H j a d I) as (X & Y & Z & W). at_i i j; tauto.
  - intros j W. at_i i j; [exact (c5 W)|exact (J j W)].
  - destruct (net s) as [|a j|j]; auto. destruct M as (X & Y & Z & W). split; [exact X|split; [exact Y|split; [exact Z|intros S; destruct (W S) as (W1 & W2); split; [|exact W2]]]]. at_i i j; auto.
  - intros j X. at_i i j; [apply O; tauto|apply O; exact X].
Qed.
Lemma step_go i s s' : inv s -> calm s -> go req i s = Some s' -> calm s' -> inv s'.
Proof.
  intros I [C1 C2] ST CS. unfold go in ST. destruct (ph s i) as [| |r| | | | |o] eqn:PH.
  - destruct (status s) eqn:SS; [| |destruct (is_sub (q_cmd (req i))) eqn:IS; [|destruct (SH i IS)]]; injection ST as <-;
      apply move; auto; rewrite ?PH; cbn; try tauto; try discriminate.
  - injection ST as <-. apply move; auto; rewrite ?PH; cbn; try tauto. intros r E. injection E as <-. reflexivity.
  - (* the number *)
    injection ST as <-. destruct I as [A A0 B C D E F G H J K L M O P]. pose proof (B i r PH) as ->. destruct CS as [_ CS]. fields.
    assert (W : to_u 32 (sno s + 1) = sno s + 1) by (unfold to_u; apply Z.mod_small; lia). rewrite W in *.
    assert (W2 : sno s mod 16777215 = sno s) by (apply Z.mod_small; lia). rewrite W2.
    constructor; fields; auto; try lia.
    + intros j r X. at_i i j; [discriminate|]. exfalso. apply n. apply (C1 j i); [rewrite X|rewrite PH]; reflexivity.
    + intros j X. at_i i j; [lia|]. specialize (C j X). lia.
    + intros j k X Y. at_i i j; at_i i k; auto; intros Z; exfalso; [specialize (C k Y)|specialize (C j X)]; lia.
    + intros n j I. destruct (E n j I) as (X & Y). at_i i j; [rewrite PH in X; destruct X|auto].
    + intros n j I. destruct (F n j I) as (X & Y). at_i i j; [rewrite PH in X; destruct X|auto].
    + intros j a d I. destruct (H j a d I) as (X & Y & Z & V). at_i i j; [rewrite PH in Z; destruct Z|auto].
    + intros j X. at_i i j; [exact Logic.I|exact (J j X)].
    + destruct (net s) as [|a j|j]; auto.
      * destruct M as (X & Y & Z & V). at_i i j; [|auto]. destruct (E _ _ X) as (N & _). rewrite PH in N. destruct N.
      * destruct M as (X & Y). at_i i j; [|auto]. destruct (E _ _ X) as (N & _). rewrite PH in N. destruct N.
    + intros j X. at_i i j; [destruct X|exact (O j X)].
  - (* into the map *)
    injection ST as <-. destruct I as [A A0 B C D E F G H J K L M O P].
    set (p := if q_wait (req i) then PClear else PSend). assert (PP : past p) by (unfold p; destruct (q_wait _); exact Logic.I).
    assert (NF : forall j, In (num s i, j) (asks s) -> False).
    { intros j I. destruct (E _ _ I) as (X & Y & _). assert (j = i); [|subst j; rewrite PH in X; destruct X].
      apply D; auto; [apply past_num; exact X|rewrite PH; exact Logic.I]. }
    assert (FF : free_ask (num s i) s = freed s).
    { unfold free_ask. destruct (find_ask _ _) eqn:FA; [|reflexivity]. destruct (NF _ (find_in _ _ _ FA)). }
    assert (ND : ~ answered s i) by (intros (a & d & I); destruct (H _ _ _ I) as (_ & _ & X & _); rewrite PH in X; destruct X).
    constructor; fields; rewrite ?FF; auto.
    + intros j r X. at_i i j; [unfold p in X; destruct (q_wait _); discriminate|eauto].
    + intros j X. at_i i j; [apply C; rewrite PH; exact Logic.I|auto].
    + intros j k X Y. at_i i j; at_i i k; auto; intros Z; apply D; auto; rewrite PH; exact Logic.I.
    + intros n j [I|I].
      * injection I as <- <-. rewrite upd_same. split; [exact PP|split; [reflexivity|]]. destruct (freed s i) eqn:FR; [|reflexivity]. destruct (ND (proj2 (G i FR))).
      * apply in_drop in I as [I _]. destruct (E n j I) as (X & Y). at_i i j; [rewrite PH in X; destruct X|auto].
    + intros n j I. destruct (F n j I) as (X & Y). at_i i j; [rewrite PH in X; destruct X|auto].
    + intros j a d I. destruct (H j a d I) as (X & Y & Z & V). at_i i j; [rewrite PH in Z; destruct Z|auto].
    + intros j X. at_i i j; [unfold p; rewrite X; exact Logic.I|exact (J j X)].
    + intros n j S AN [I|I]; [injection I as _ ->; contradiction|]. apply in_drop in I as [I _]. eauto.
    + assert (NI : forall j, past (ph s j) -> num s j <> num s i).
      { intros j X Y. assert (j = i); [|subst j; rewrite PH in X; destruct X]. apply D; auto; [apply past_num; exact X|rewrite PH; exact Logic.I]. }
      destruct (net s) as [|a j|j]; auto.
      * destruct M as (X & Y & Z & V). destruct (E _ _ X) as (N & _). split; [right; apply in_drop; split; [exact X|apply NI; exact N]|]. at_i i j; [rewrite PH in N; destruct N|auto].
      * destruct M as (X & Y). destruct (E _ _ X) as (N & _). split; [right; apply in_drop; split; [exact X|apply NI; exact N]|exact Y].
    + intros j X Y. at_i i j; [left; reflexivity|]. right. apply in_drop. split; [exact (O j X Y)|].
      cbn. intros Z. apply n. apply D; auto; [apply past_num; exact X|rewrite PH; exact Logic.I].
  - (* sw_tag = 0 *)
    injection ST as <-. destruct I as [A A0 B C D E F G H J K L M O P].
    constructor; fields; auto.
    + intros j r X. at_i i j; [discriminate|eauto].
    + intros j X. at_i i j; [apply C; rewrite PH; exact Logic.I|auto].
    + intros j k X Y. at_i i j; at_i i k; auto; intros Z; apply D; auto; rewrite PH; exact Logic.I.
    + intros n j I. destruct (E n j I) as (X & Y). at_i i j; [split; [exact Logic.I|exact Y]|auto].
    + intros n j I. destruct (F n j I) as (X & Y & Z). at_i i j; [|auto]. split; [exact Logic.I|split; [exact Y|]]. intros S. specialize (Z S). rewrite PH in Z. destruct Z.
    + intros j a d I. destruct (H j a d I) as (X & Y & Z & V). at_i i j; [|auto]. split; [exact X|split; [exact Y|split; [exact Logic.I|]]]. intros S. specialize (V S). rewrite PH in V. destruct V.
    + intros j X. at_i i j; [reflexivity|exact (J j X)].
    + destruct (net s) as [|a j|j]; auto. destruct M as (X & Y & Z & V). split; [exact X|split; [exact Y|split; [exact Z|intros S; destruct (V S) as (V1 & V2); split; [|exact V2]]]]. at_i i j; [|auto]. rewrite PH in V1. destruct V1.
    + intros j X. at_i i j; [apply O; rewrite PH; exact Logic.I|exact (O j X)].
  - (* the request is sent *)
    assert (NF : freed s i = false).
    { destruct (freed s i) eqn:FR; [|reflexivity]. destruct I as [A A0 B C D E F G H J K L M O P]. destruct (G i FR) as (S & a & d & I).
      destruct (H _ _ _ I) as (_ & _ & _ & V). specialize (V S). rewrite PH in V. destruct V. }
    rewrite NF in ST. injection ST as <-. destruct I as [A A0 B C D E F G H J K L M O P].
    set (p := if q_wait (req i) then PWait else PDone Success). assert (PP : off p) by (unfold p; destruct (q_wait _); exact Logic.I).
    constructor; fields; auto.
    + intros j r X. at_i i j; [unfold p in X; destruct (q_wait _); discriminate|eauto].
    + intros j X. at_i i j; [apply C; rewrite PH; exact Logic.I|auto].
    + intros j k X Y. at_i i j; at_i i k; auto; intros Z; apply D; auto; rewrite PH; exact Logic.I.
    + intros n j I. destruct (E n j I) as (X & Y). at_i i j; [split; [apply off_past; exact PP|exact Y]|auto].
    + intros n j I. assert (I' : (n, j) = (num s i, i) \/ In (n, j) (sent s)) by (destruct (conn s); [destruct I as [<-|I]; auto|auto]). destruct I' as [I'|I'].
      * injection I' as -> ->. rewrite upd_same. split; [apply off_past; exact PP|auto].
      * destruct (F n j I') as (X & Y & Z). at_i i j; [split; [apply off_past; exact PP|auto]|auto].
    + intros j a d I. destruct (H j a d I) as (X & Y & Z & V). at_i i j; [|auto]. split; [exact X|split; [exact Y|split; [apply off_past; exact PP|intros _; exact PP]]].
    + intros j X. at_i i j; [|exact (J j X)]. unfold p. rewrite X. pose proof (J i X) as JJ. rewrite PH in JJ. rewrite JJ.
      intros (a & d & I). destruct (H _ _ _ I) as (_ & _ & _ & V). specialize (V (NW i X)). rewrite PH in V. destruct V.
    + destruct (net s) as [|a j|j]; auto. destruct M as (X & Y & Z & V). split; [exact X|split; [exact Y|split; [exact Z|intros S; destruct (V S) as (V1 & V2); split; [|exact V2]]]]. at_i i j; auto.
    + intros j X. at_i i j; [apply O; rewrite PH; exact Logic.I|exact (O j X)].
  - destruct (got s i) as [[t x]|] eqn:GT; [|discriminate]. injection ST as <-. assert (K := iJ s I i).
    apply move; auto; rewrite ?PH; try (destruct (t <? 0); cbn; tauto); [destruct (t <? 0); discriminate|].
    intros W. specialize (K W). rewrite PH, GT in K. destruct K as (a & Ia). destruct (t <? 0) eqn:T; exists a, (t, x); (split; [exact Ia|]); cbn [fst]; unfold means; rewrite T; reflexivity.
  - discriminate.
Qed.
Lemma answered_more s i x : (exists a d, In (i, a, d) (told s)) -> exists a d, In (i, a, d) (x :: told s).
Proof. intros (a & d & I). exists a, d. right. exact I. Qed.
Lemma step_net s s' : inv s -> net_go req s = Some s' -> inv s'.
Proof.
  intros I ST. unfold net_go in ST. destruct I as [A A0 B C D E F G H J K L M O P]. destruct (net s) as [|a i|i] eqn:N; [discriminate| |].
  - destruct M as (MI & MF & MT & MS). destruct (E _ _ MI) as (PA & _ & FR). rewrite FR in ST.
    destruct (a_tag a) as [t|] eqn:TG; [|congruence]. set (d := reply t (a_info a)) in *.
    assert (SN : sub i = false -> ~ answered s i) by (intros S; apply MS; exact S).
    assert (CNT : sub i = false -> filter (fun x => Nat.eqb (fst (fst x)) i) (told s) = []).
    { intros S. destruct (filter _ (told s)) as [|[[j b] e] r] eqn:FL; [reflexivity|]. exfalso. apply (SN S).
      assert (X : In (j, b, e) (filter (fun x => Nat.eqb (fst (fst x)) i) (told s))) by (rewrite FL; left; reflexivity).
      apply filter_In in X as [X Y]. cbn in Y. apply Nat.eqb_eq in Y. subst j. exists b, e. exact X. }
    assert (EX : s' = mkc (sno s) (ph s) (num s) (asks s) (freed s) (if q_wait (req i) then upd (got s) i (Some d) else got s) (status s) (conn s) (NDel i) (sent s)
                         ((i, a, d) :: told s) (bad s) /\ (q_wait (req i) = true -> ph s i = PWait)).
    { destruct (q_wait (req i)) eqn:W.
      - specialize (J i W). destruct (MS (NW i W)) as (X & Y).
        destruct (ph s i) as [| |r| | | | |[]]; try (destruct X); try (injection ST as <-; split; [reflexivity|reflexivity]).
        all: destruct J as (b & e & Z & _); destruct Y; exists b, e; exact Z.
      - injection ST as <-. split; [reflexivity|discriminate]. }
    destruct EX as (-> & EW). constructor; fields; auto.
    + intros j X. destruct (G j X). split; [assumption|apply answered_more; assumption].
    + intros j b e [X|X]; [|eauto]. injection X as <- <- <-. split; [exact MF|]. split; [exists t; auto|]. split; [exact PA|]. intros S. apply MS. exact S.
    + intros j W. destruct (Nat.eq_dec j i) as [->|NE].
      * rewrite (EW W), W, upd_same. exists a. left. reflexivity.
      * pose proof (J j W) as X. assert (GE : (if q_wait (req i) then upd (got s) i (Some d) else got s) j = got s j) by (destruct (q_wait (req i)); [apply upd_other; exact NE|reflexivity]).
        rewrite GE. destruct (ph s j) as [| |r| | | | |[]]; auto.
        -- destruct (got s j); [destruct X as (b & X); exists b; right; exact X|]. intros (b & e & [Y|Y]); [injection Y as -> _ _; contradiction|]. apply X. exists b, e. exact Y.
        -- destruct X as (b & e & X & Y). exists b, e. split; [right; exact X|exact Y].
        -- destruct X as (b & e & X & Y). exists b, e. split; [right; exact X|exact Y].
    + intros j S. cbn [filter fst]. destruct (Nat.eqb_spec i j) as [->|NE]; [rewrite (CNT S); cbn; lia|exact (K j S)].
    + intros n j S (b & e & [X|X]) Y; [injection X as <- _ _; reflexivity|]. specialize (L n j S (ex_intro _ b (ex_intro _ e X)) Y). discriminate L.
    + split; [exact MI|]. exists a, d. left. reflexivity.
    + intros j X Y. apply O; [exact X|]. destruct Y as [Y|Y]; [left; exact Y|right]. intros Z. apply Y. apply answered_more. exact Z.
  - destruct M as (MI & MA). destruct (E _ _ MI) as (PA & _ & FR). rewrite FR in ST. destruct (sub i) eqn:S.
    + injection ST as <-. constructor; fields; auto. intros n j X Y Z. specialize (L n j X Y Z). injection L as ->. congruence.
    + injection ST as <-. 
      assert (U : forall n j, In (n, j) (asks s) -> n = num s i -> j = i).
      { intros n j X ->. destruct (E _ _ X) as (Y & Z & _). apply D; auto using past_num. }
      assert (FA : find_ask (num s i) (asks s) = Some i).
      { destruct (in_find _ _ _ MI) as (j & X). rewrite X. f_equal. eapply U; [apply find_in; exact X|reflexivity]. }
      unfold free_ask. rewrite FA. constructor; fields; auto.
      * intros n j X. apply in_drop in X as [X Y]. destruct (E _ _ X) as (Z & V & W). at_i i j; [|auto]. cbn in Y. congruence.
      * intros j X. at_i i j; [exact (conj S MA)|exact (G j X)].
      * intros n j X Y Z. apply in_drop in Z as [Z V]. specialize (L n j X Y Z). injection L as ->. destruct (E _ _ Z) as (_ & W & _). cbn in V. congruence.
      * intros j X Y. apply in_drop. split; [exact (O j X Y)|]. cbn. intros Z. assert (j = i) as -> by (apply D; auto using past_num). destruct Y as [Y|Y]; [congruence|contradiction].
Qed.
Lemma inv_resend s : inv s -> conn s = true -> inv (resend req s).
Proof.
  intros [A A0 B C D E F G H J K L M O P] CN. constructor; cbn [resend]; fields; auto.
  intros n i X. apply in_app_or in X as [X|X]; [|eauto]. apply filter_In in X as [X Y]. cbn in Y. destruct (E _ _ X) as (Z & V & _). split; [exact Z|split; [exact V|congruence]].
Qed.
Lemma step_recv a s : inv s -> net s = NIdle -> In (a_name a, a_for a) (sent s) -> inv (recv req a s).
Proof.
  intros I N IN. unfold recv. destruct (status s) eqn:SS; [exact I| |].
  - destruct (a_tag a) as [[]|]; auto. apply inv_resend; [exact I|]. pose proof (iP _ I) as P. rewrite SS in P. exact P.
  - destruct (find_ask (a_name a) (asks s)) as [i|] eqn:FA; [|exact I]. destruct (a_tag a) as [t|] eqn:TG; [|exact I].
    destruct I as [A A0 B C D E F G H J K L M O P]. apply find_in in FA. destruct (E _ _ FA) as (X & Y & Z). destruct (F _ _ IN) as (U & V & W).
    assert (a_for a = i) as EQ by (apply D; auto using past_num; congruence).
    constructor; fields; auto.
    + intros n j S AN Q. specialize (L n j S AN Q). congruence.
    + split; [rewrite Y; exact FA|]. split; [exact EQ|]. split; [rewrite TG; discriminate|]. intros S. rewrite EQ in W. split; [auto|].
      intros AN. specialize (L _ _ S AN FA). congruence.
Qed.
Lemma step e s s' : inv s -> calm s -> happens req auth e s = Some s' -> calm s' -> inv s'.
Proof.
  intros I CA ST CS. destruct e as [i|a| | | |]; cbn [happens] in ST.
  - exact (step_go i s s' I CA ST CS).
  - destruct (net s) eqn:N; try discriminate. destruct (existsb _ (sent s)) eqn:EX; [|discriminate]. injection ST as <-.
    apply step_recv; auto. apply existsb_exists in EX as ([n j] & X & Y). cbn in Y. apply andb_prop in Y as [Y Z]. apply Z.eqb_eq in Y. apply Nat.eqb_eq in Z. subst. exact X.
  - exact (step_net s s' I ST).
  - destruct (conn s); [discriminate|]. injection ST as <-. destruct I. constructor; fields; auto; [intros ? ? []|destruct auth; reflexivity].
  - destruct (net s); try discriminate. destruct (status s) eqn:SS; try discriminate. injection ST as <-. apply inv_resend; [exact I|]. pose proof (iP _ I) as P. rewrite SS in P. exact P.
  - destruct (net s) eqn:N; try discriminate. destruct (conn s); [|discriminate]. injection ST as <-. destruct I. constructor; fields; auto; [intros ? ? []|].
    intros n j S AN Q. specialize (iL0 n j S AN Q). congruence.
Qed.
Lemma calm0 old : calm (start old).
Proof. split; [intros i j X; discriminate X|cbn; lia]. Qed.
Lemma runs_inv s0 s : inv s0 -> calm s0 -> runs s0 s -> inv s /\ calm s.
Proof. intros I C R. induction R as [|s e s' R IH ST CS]; [auto|]. destruct IH as [IH1 IH2]. split; [exact (step e s s' IH1 IH2 ST CS)|exact CS]. Qed.
End Client.

(** * which commands are subscriptions *)
Lemma before_app a l : has DOT a = false -> before_dot (a ++ DOT :: l) = a.
Proof. induction a as [|c a IH]; cbn; [reflexivity|]. unfold has in *. cbn [existsb]. intros H. apply orb_false_iff in H as [H1 H2]. rewrite Z.eqb_sym, H1. f_equal. exact (IH H2). Qed.
Lemma after_app a l : has DOT a = false -> after_dot (a ++ DOT :: l) = l.
Proof. induction a as [|c a IH]; cbn; [reflexivity|]. unfold has in *. cbn [existsb]. intros H. apply orb_false_iff in H as [H1 H2]. rewrite Z.eqb_sym, H1. exact (IH H2). Qed.
Lemma has_app_dot a l : has DOT (a ++ DOT :: l) = true.
Proof. unfold has. rewrite existsb_app. cbn [existsb]. rewrite Z.eqb_refl. apply orb_true_r. Qed.
Lemma is_sub_word service w : has DOT service = false -> has COMMA w = false -> Z.of_nat (List.length service) < 128 -> Z.of_nat (List.length w) < 128 ->
  is_sub (service ++ DOT :: w) = Some true /\ sub_word w \/ is_sub (service ++ DOT :: w) = Some false /\ ~ sub_word w.
Proof.
  intros D C L1 L2. unfold is_sub. rewrite (divide_spec 128 (service ++ DOT :: w) []); [|lia|cbn [app]; rewrite before_app by exact D; exact L1|rewrite after_app by exact D; exact L2].
  rewrite has_app_dot, after_app by exact D. rewrite subcmp_covers by exact C.
  assert (X : names_cover (negb true) SUBS w = true <-> sub_word w).
  { unfold names_cover, SUBS. change (parts _) with [[115; 117; 98]; [122; 115; 117; 98]; [104; 115; 117; 98]]. cbn [existsb name_covers negb].
    rewrite !orb_true_iff, orb_false_r, !same_iff || rewrite !orb_true_iff, !same_iff. unfold sub_word. change lowcase with S_server.lower.
    cbn [map]. split; intros H; repeat (destruct H as [H|H]); try discriminate; auto; cbn in H |- *; rewrite ?H; auto. }
  destruct (names_cover (negb true) SUBS w); [left|right]; (split; [reflexivity|]); [tauto|]. intros Y. apply X in Y. discriminate.
Qed.
