(** Text network messages: C55. *)
From Coq Require Import ZArith List Bool Lia String.
From Verif Require Import Base S_server M_memory L_memory S_netmsg M_netmsg L_netmsg P_netmsg S_json M_json P_json
  S_nettext M_nettext L_nettext.
Import ListNotations.
Open Scope list_scope.
Open Scope Z_scope.

(** C55, partial: any content with a plain name, a serial number of 64 bits, fields without backslash
    and control characters and a tag that does not announce a list is written, and the text is decoded
    to the same content, also when a field is empty; [more] is lost.  [d] nested calls of the JSON
    parser are enough if they are as many as the text has bytes. *)
Theorem C55_roundtrip_partial : forall i more out, fits_text i -> mem_ok out ->
  exists enc, encoded false (fill i more) out = Some enc /\ mem_ok enc /\
    (Z.of_nat (List.length (mem_live enc)) < 2 ^ 31 -> forall d stale inp, mem_ok inp -> mem_live inp = mem_live enc ->
       (List.length (mem_live enc) <= d)%nat ->
       exists m, decoded_any d stale inp = Some (Some (false, m)) /\ content m = i).
Proof.
  intros i more out F O. destruct (text_encoded i more out F O) as (t & enc & E & Oe & L & J & JL).
  exists enc. split; [exact E|]. split; [exact Oe|]. intros Z d stale inp Oi Li D.
  assert (Lt : (List.length t <= List.length (mem_live enc))%nat) by (rewrite L, app_length; cbn [List.length]; lia).
  rewrite L in Li.
  destruct (text_decoded_same i d stale t F J (JL ltac:(lia) d ltac:(lia))) as (m & A & B). exists m. split; [exact (B inp Oi Li)|exact A].
Qed.
Print Assumptions C55_roundtrip_partial.

(** a1:{'sno':-5000000000,'cmd':'get','tag':-3,'info':''} with quotes in the service's name *)
Definition info55 : netinfo :=
  mkinfo (Some [97; 49]) (Some (-5000000000)) (Some [100; 34; 98]) (Some [103; 101; 116]) None (Some (-3)) (Some []) None.
Example C55_ok : fits_text info55 /\
  match encoded false (fill info55 false) mem_create with
  | Some enc => mem_live enc = [97; 49; 58] ++ jt "{'sno':-5000000000,'service':'d\'b','cmd':'get','tag':-3,'info':''}" /\
      match decoded_any 100 (fun _ => 0) enc with Some (Some (false, m)) => content m = info55 | _ => False end
  | None => False
  end.
Proof.
  split; [|vm_compute; split; reflexivity].
  assert (P : forall s, forallb (fun c => (32 <=? c) && (c <? 256) && negb (c =? 92)) s = true -> Forall (fun c => S_json.plain c \/ c = 34) s).
  { intros s H. apply Forall_forall. intros c I. rewrite forallb_forall in H. apply H in I. unfold S_json.plain. lia. }
  unfold fits_text, info55. cbn [i_name i_sno i_service i_cmd i_subject i_tag i_info i_values name_ok text_field tag_ok].
  split; [split; [discriminate|split]|].
  - repeat (constructor; [unfold is_byte; lia|]). constructor.
  - split; [cbn; lia|]. repeat constructor; cbn; intros H; decompose [or] H; try discriminate; assumption.
  - split; [change (2 ^ 63) with 9223372036854775808; lia|].
    do 2 (split; [split; [apply P; reflexivity|reflexivity]|]). split; [exact Logic.I|]. split; [split; [constructor|reflexivity]|].
    split; [lia|reflexivity].
Qed.

(** what is decoded from the text of some content: None when the receiver refuses it *)
Definition echo_text (i : netinfo) : option netinfo :=
  match encoded false (fill i true) mem_create with
  | Some enc => match decoded_any 1000 (fun _ => 0) enc with Some (Some (_, m)) => Some (content m) | _ => None end
  | None => None
  end.
Definition just (s : list Z) : netinfo := mkinfo None None None None None None (Some s) None.

(** C55 refuted: a line feed arrives as two characters, a backslash and an n. *)
Theorem C55_control_refuted : exists i j, i_info i = Some [97; 10; 98] /\ echo_text i = Some j /\ i_info j = Some [97; 92; 110; 98].
Proof. exists (just [97; 10; 98]). eexists. split; [reflexivity|]. split; [vm_compute; reflexivity|reflexivity]. Qed.
Print Assumptions C55_control_refuted.

(** C55 refuted: a field that ends in a backslash is lost when it is the last one. *)
Theorem C55_backslash_refuted : exists i j, i_info i = Some [97; 92] /\ echo_text i = Some j /\ i_info j = None.
Proof. exists (just [97; 92]). eexists. split; [reflexivity|]. split; [vm_compute; reflexivity|reflexivity]. Qed.
Print Assumptions C55_backslash_refuted.

(** C55 refuted: a field that ends in a backslash and is not the last one takes the punctuation behind
    it along, and all later fields are lost, here the command and the info. *)
Theorem C55_swallow_refuted : exists i j, i_service i = Some [97; 92] /\ i_cmd i = Some [103; 101; 116] /\ i_info i = Some [120] /\
  echo_text i = Some j /\ i_service j = Some [97; 92; 34; 44] /\ i_cmd j = None /\ i_info j = None.
Proof.
  exists (mkinfo None None (Some [97; 92]) (Some [103; 101; 116]) None None (Some [120]) None). eexists.
  split; [reflexivity|]. split; [reflexivity|]. split; [reflexivity|]. split; [vm_compute; reflexivity|].
  split; [reflexivity|]. split; reflexivity.
Qed.
Print Assumptions C55_swallow_refuted.

(** C55 refuted: a field is cut at its first zero byte. *)
Theorem C55_zero_refuted : exists i j, i_info i = Some [97; 0; 98] /\ echo_text i = Some j /\ i_info j = Some [97].
Proof. exists (just [97; 0; 98]). eexists. split; [reflexivity|]. split; [vm_compute; reflexivity|reflexivity]. Qed.
Print Assumptions C55_zero_refuted.

(** C55 refuted: a list of values is not written. *)
Theorem C55_values_refuted : exists i j, i_values i = Some [[49]; [50]] /\ echo_text i = Some j /\ i_values j = None.
Proof.
  exists (mkinfo None None None None None (Some 5) None (Some [[49]; [50]])). eexists. split; [reflexivity|].
  split; [vm_compute; reflexivity|reflexivity].
Qed.
Print Assumptions C55_values_refuted.
