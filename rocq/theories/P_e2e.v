(** Messages over a connection: C56. *)
From Coq Require Import ZArith List Bool Lia String.
From Verif Require Import Base M_memory L_memory S_ws M_ws L_ws S_netmsg M_netmsg P_netmsg S_json M_json S_nettext M_nettext L_nettext P_nettext L_e2e.
From Coq Require Import ZifyBool ZifyNat.
Import ListNotations.
Open Scope list_scope.
Open Scope Z_scope.

(** the bytes of some content sent in the binary or the text form, whatever memory held before *)
Definition sends (s : bool * netinfo) (w : list Z) : Prop :=
  exists stale more, (forall k, is_byte (stale k)) /\ make_message stale (fst s) (fill (snd s) more) = Some w.
(** the contents a receiver finds, each with the form it came in *)
Definition contents (got : list (bool * netmsg)) : list (bool * netinfo) := map (fun x => (fst x, content (snd x))) got.

(** C56: sending never fails for contents the form can carry. *)
Theorem C56_sends : forall stale bytes i more, (forall k, is_byte (stale k)) -> fits bytes i ->
  exists w, make_message stale bytes (fill i more) = Some w /\ w <> [].
Proof.
  intros stale bytes i more St F. destruct (make_spec stale bytes i more St F) as (w & fs & data & E & W & M & _).
  exists w. split; [exact E|]. rewrite W. destruct M; cbn [message_bytes flat_map]; intros K; apply app_eq_nil in K as [K _];
    assert (Q := frame_bytes_len f); rewrite K in Q; cbn in Q; lia.
Qed.
Print Assumptions C56_sends.

(** the messages behind the bytes sent *)
Lemma wires_are : forall d stale sent wires, Forall (fun s => fits (fst s) (snd s)) sent -> Forall2 sends sent wires ->
  Forall (fun w => Z.of_nat (List.length w) < 2 ^ 27 /\ (List.length w <= d)%nat) wires ->
  exists ms l xs, map message_bytes ms = wires /\ Forall message ms /\ delivers ms l /\ Forall2 (reads d stale) l xs /\ contents xs = sent.
Proof.
  intros d stale sent wires F S. revert F. induction S as [|s w sent wires (st & more & St & E) S IH]; intros F B.
  - exists [], [], []. repeat split; constructor.
  - apply Forall_cons_iff in F as [F1 F2]. apply Forall_cons_iff in B as [[B1 B2] B3].
    destruct (IH F2 B3) as (ms & l & xs & A1 & A2 & A3 & A4 & A5). destruct s as [bytes i]. cbn [fst snd] in *.
    destruct (make_spec st bytes i more St F1) as (w' & fs & data & E' & W & M & MM & _ & R).
    rewrite E in E'. injection E' as <-.
    destruct (R ltac:(change (2 ^ 27) with 134217728 in B1; change (2 ^ 31) with 2147483648; lia) d stale B2) as (m & C & Q).
    exists (fs :: ms), (((if bytes then 1 else 0), data) :: l), ((bytes, m) :: xs).
    split; [cbn [map]; rewrite A1, W; reflexivity|]. split; [constructor; assumption|]. split; [constructor; assumption|].
    split; [constructor; assumption|]. cbn [contents map fst snd]. rewrite C. f_equal. exact A5.
Qed.

(** a beginning of some words is some of the words and a beginning of the next *)
Lemma cut : forall (ws : list (list Z)) p later, p ++ later = concat ws ->
  exists k pre, p = concat (firstn k ws) ++ pre /\ (k <= List.length ws)%nat /\ (k = List.length ws -> pre = []) /\
    forall w, nth_error ws k = Some w -> exists rest, rest <> [] /\ pre ++ rest = w.
Proof.
  induction ws as [|w ws IH]; intros p later H.
  - cbn [concat] in H. apply app_eq_nil in H as [-> _]. exists 0%nat, []. split; [reflexivity|]. split; [cbn; lia|].
    split; [reflexivity|]. intros w K. discriminate.
  - cbn [concat] in H. destruct (Nat.le_gt_cases (List.length w) (List.length p)) as [L|L].
    + destruct (app_prefix _ _ _ _ H L) as (x & E1 & E2).
      destruct (IH x later (eq_sym E2)) as (k & pre & A & B & C & D).
      exists (S k), pre. split; [cbn [firstn concat]; rewrite <- app_assoc, <- A; exact E1|]. split; [cbn [List.length]; lia|].
      split; [intros K; apply C; cbn [List.length] in K; lia|]. exact D.
    + exists 0%nat, p. split; [reflexivity|]. split; [lia|]. split; [cbn [List.length]; lia|].
      intros w' K. injection K as <-. symmetry in H. destruct (app_prefix _ _ _ _ H ltac:(lia)) as (x & E1 & E2).
      exists x. split; [|symmetry; exact E1]. intros ->. rewrite app_nil_r in E1. subst. lia.
Qed.

Lemma delivers_firstn : forall k ms l, delivers ms l -> delivers (firstn k ms) (firstn k l).
Proof. induction k as [|k IH]; intros ms l D; [constructor|]. destruct D; [constructor|]. cbn [firstn]. constructor; auto. Qed.
Lemma reads_firstn : forall d stale k l xs, Forall2 (reads d stale) l xs -> Forall2 (reads d stale) (firstn k l) (firstn k xs).
Proof. induction k as [|k IH]; intros l xs D; [constructor|]. destruct D; [constructor|]. cbn [firstn]. constructor; auto. Qed.

(** C56, partial: at every moment, however the bytes sent were cut into chunks and read in batches, the
    receiver has been handed the contents of exactly the messages that arrived completely, in order and
    each in its form, holds the beginning of the next, and the connection is up.  [d]: the room for
    nested calls; messages and chunks are below 128 MB. *)
Theorem C56_partial : forall d stale sent wires batches later m,
  Forall (fun s => fits (fst s) (snd s)) sent -> Forall2 sends sent wires ->
  Forall (fun w => Z.of_nat (List.length w) < 2 ^ 27 /\ (List.length w <= d)%nat) wires ->
  mem_ok m -> mem_live m = [] ->
  concat (concat batches) ++ later = concat wires ->
  Forall (fun c => Z.of_nat (List.length c) < 2 ^ 27) (concat batches) ->
  exists k got m', recv d stale m batches = Some (got, m', true) /\ contents got = firstn k sent /\
    (k <= List.length sent)%nat /\ concat (concat batches) = concat (firstn k wires) ++ mem_live m' /\
    (forall w, nth_error wires k = Some w -> (List.length (mem_live m') < List.length w)%nat) /\
    (later = [] -> k = List.length sent /\ mem_live m' = []).
Proof.
  intros d stale sent wires batches later m F S B O L H Hc.
  destruct (wires_are d stale sent wires F S B) as (ms & l & xs & A1 & A2 & A3 & A4 & A5).
  destruct (cut wires _ _ H) as (k & pre & P & K & Kn & Kw).
  assert (Len : List.length wires = List.length sent) by (clear - S; induction S; cbn [List.length]; congruence).
  assert (Sm : Forall small ms).
  { rewrite <- A1 in B. apply Forall_map in B. eapply Forall_impl; [|exact B]. intros fs [X _]. exact X. }
  assert (St : concat (firstn k wires) = stream (firstn k ms)).
  { rewrite <- A1, firstn_map. unfold stream. rewrite flat_map_concat_map. reflexivity. }
  assert (I : incomplete (2 ^ 27) pre).
  { destruct (nth_error wires k) as [w|] eqn:E.
    - destruct (Kw w eq_refl) as (rest & R1 & R2). rewrite <- A1 in E. rewrite nth_error_map in E.
      destruct (nth_error ms k) as [fs|] eqn:Ef; [|discriminate]. cbn [option_map] in E. injection E as E.
      apply nth_error_In in Ef. exists fs, rest. split; [rewrite Forall_forall in A2; exact (A2 fs Ef)|]. split; [exact R1|].
      split; [congruence|]. rewrite Forall_forall in Sm. exact (Sm fs Ef).
    - apply nth_error_None in E. rewrite (Kn ltac:(lia)). set (f := mkframe true 0 1 None Len7 []).
      exists [f], (message_bytes [f]). split; [apply msg_last; [|reflexivity]; repeat split; cbn; try lia; constructor|].
      split; [discriminate|]. split; [reflexivity|]. vm_compute. reflexivity. }
  assert (FF : forall (Q : list frame -> Prop), Forall Q ms -> Forall Q (firstn k ms)).
  { intros Q X. rewrite <- (firstn_skipn k ms) in X. apply Forall_app in X as [X _]. exact X. }
  destruct (recv_all pre batches (firstn k ms) (firstn k l) m I (FF _ A2) (FF _ Sm) (delivers_firstn k _ _ A3) O L
    ltac:(rewrite <- St; exact P) Hc) as (m' & R & Lm).
  exists k, (firstn k xs), m'. split; [exact (recv_decodes _ _ _ _ _ _ _ _ R (reads_firstn _ _ k _ _ A4))|].
  split; [unfold contents in *; rewrite <- firstn_map, A5; reflexivity|]. split; [lia|]. split; [rewrite Lm; exact P|].
  split; [|].
  - intros w E. destruct (Kw w E) as (rest & R1 & R2). rewrite Lm, <- R2, app_length. destruct rest; [easy|]. cbn [List.length]. lia.
  - intros ->. rewrite app_nil_r in H. rewrite Lm.
    destruct (Nat.eq_dec k (List.length wires)) as [E|E]; [split; [lia|exact (Kn E)]|]. exfalso.
    destruct (nth_error wires k) as [w|] eqn:Ew; [|apply nth_error_None in Ew; lia].
    destruct (Kw w eq_refl) as (rest & R1 & R2). rewrite P in H.
    rewrite <- (firstn_skipn k wires) in H at 2. rewrite concat_app in H. apply app_inv_head in H.
    assert (Sk : exists t, skipn k wires = w :: t).
    { destruct (nth_error_split _ _ Ew) as (a & b & W & La). exists b. rewrite W, <- La.
      rewrite skipn_app, skipn_all, Nat.sub_diag. reflexivity. }
    destruct Sk as (t & Sk). rewrite Sk in H. cbn [concat] in H. rewrite <- R2, <- app_assoc in H.
    rewrite <- (app_nil_r pre) in H at 1. apply app_inv_head in H. destruct rest; [easy|discriminate].
Qed.
Print Assumptions C56_partial.

(** a binary and a text message, arriving in three pieces *)
Definition two56 : list (bool * netinfo) := [(true, ex_info); (false, info55)].
Definition wires56 : list (list Z) :=
  [match make_message (fun _ => 7) true (fill ex_info false) with Some w => w | None => [] end;
   match make_message (fun _ => 9) false (fill info55 true) with Some w => w | None => [] end].
Example C56_ok : Forall (fun s => fits (fst s) (snd s)) two56 /\ Forall2 sends two56 wires56 /\
  map (@List.length Z) wires56 = [29%nat; 72%nat] /\
  match recv 100 (fun _ => 0) mem_create [[firstn 20 (concat wires56); firstn 30 (skipn 20 (concat wires56))]; [skipn 50 (concat wires56)]] with
  | Some (got, m, true) => contents got = two56 /\ mem_live m = []
  | _ => False
  end.
Proof.
  split; [|split; [|split; [vm_compute; reflexivity|vm_compute; split; reflexivity]]].
  - constructor; [|constructor; [exact (proj1 C55_ok)|constructor]]. cbn [fst snd fits].
    destruct C22_example as ((N1 & N2) & T & _). unfold fits_bytes, ex_info in *.
    cbn [i_name i_sno i_service i_cmd i_subject i_tag i_info i_values name_ok text_ok tag_ok] in *.
    assert (Q : forall s, s <> [] -> forallb (fun c => (0 <=? c) && (c <? 256)) s = true -> Forall is_byte s).
    { intros s _ H. apply Forall_forall. intros c I. rewrite forallb_forall in H. apply H in I. unfold is_byte. lia. }
    split; [split; [exact N1|split; [apply Q; [discriminate|reflexivity]|exact N2]]|]. split; [change (2 ^ 31) with 2147483648; lia|].
    do 2 (split; [split; [discriminate|split; [apply Q; [discriminate|reflexivity]|reflexivity]]|]). split; [exact Logic.I|].
    split; [exact T|]. split; [lia|reflexivity].
  - constructor; [exists (fun _ => 7), false; split; [intros; unfold is_byte; lia|vm_compute; reflexivity]|].
    constructor; [exists (fun _ => 9), true; split; [intros; unfold is_byte; lia|vm_compute; reflexivity]|]. constructor.
Qed.

(** C56 refuted: a message whose name has 128 bytes is sent but refused by the receiver, which gives the
    connection up; the message behind it is lost although its form can carry it. *)
Definition long56 : netinfo := mkinfo (Some (repeat 97 128)) None None None None None None None.
Definition next56 : netinfo := mkinfo None (Some 1) None None None None None None.
Definition lost56 : list (list Z) :=
  [match make_message (fun _ => 0) true (fill long56 false) with Some w => w | None => [] end;
   match make_message (fun _ => 0) true (fill next56 false) with Some w => w | None => [] end].
Theorem C56_name_refuted : exists i j wires m', i_name i = Some (repeat 97 128) /\ fits true j /\
  Forall2 sends [(true, i); (true, j)] wires /\
  recv 100 (fun _ => 0) mem_create [[concat wires]] = Some ([], m', false).
Proof.
  assert (G : exists m', recv 100 (fun _ => 0) mem_create [[concat lost56]] = Some ([], m', false)) by (eexists; vm_compute; reflexivity).
  destruct G as (m' & G). exists long56, next56, lost56, m'. split; [reflexivity|]. split; [|split; [|exact G]].
  - unfold fits, fits_bytes, next56. cbn [i_name i_sno i_service i_cmd i_subject i_tag i_info i_values name_ok text_ok tag_ok].
    change (2 ^ 31) with 2147483648. repeat split; lia.
  - constructor; [|constructor; [|constructor]]; exists (fun _ => 0), false; (split; [intros; unfold is_byte; lia|]);
      vm_compute; reflexivity.
Qed.
Print Assumptions C56_name_refuted.
