(** Binary network messages: C22 (round trip), C42 (safe decoding). *)
From Verif Require Import Base S_memory M_memory L_memory S_netmsg M_netmsg L_netmsg.
From Coq Require Import ZifyBool ZifyNat.

(** the message a sender fills in for some content: the switches tell which fields are present *)
Definition fill (i : netinfo) (more : bool) : netmsg :=
  mkmsg (i_name i)
        (is_some (i_sno i)) (is_some (i_service i)) (is_some (i_cmd i)) (is_some (i_subject i))
        (is_some (i_tag i)) (is_some (i_info i)) more
        (match i_sno i with Some v => v | None => 0 end)
        (i_service i) (i_cmd i) (i_subject i)
        (match i_tag i with Some v => v | None => 0 end) (i_info i) (i_values i).
(** the content a receiver finds in a message *)
Definition content (m : netmsg) : netinfo :=
  mkinfo (m_name m) (if sw_sno m then Some (m_sno m) else None) (m_service m) (m_cmd m) (m_subject m)
         (if sw_tag m then Some (m_tag m) else None) (m_info m) (m_argvs m).

(** C22, partial: any content with a plain name, non-empty fields, a serial number of 32 bits and
    a tag that does not announce a list is decoded to the same content, whatever follows it in the
    buffer and whatever is left in the memory behind; the buffer is left as it was. *)
Theorem C22_roundtrip_partial : forall i more stale out inp rest,
  (moff out <= length (mbuf out))%nat -> msize out <= mmax out ->
  (moff inp <= length (mbuf inp))%nat -> msize inp <= mmax inp ->
  match i_name i with Some n => n <> [] /\ plain_name n | None => True end ->
  match i_sno i with Some v => - 2 ^ 31 <= v < 2 ^ 31 | None => True end ->
  text_ok (i_service i) -> text_ok (i_cmd i) -> text_ok (i_subject i) -> text_ok (i_info i) ->
  match i_tag i with Some t => - 128 <= t < 128 /\ t <> 5 /\ t <> 7 | None => True end ->
  i_values i = None ->
  mem_live inp = mem_live (encoded_normal (fill i more) out) ++ rest ->
  exists m, decoded_normal stale inp = Some (DMsg m, inp) /\ content m = i /\ sw_more m = more.
Proof.
  intros i more stale out inp rest A1 A2 B1 B2 Hn Hs T1 T2 T3 T4 Ht Hv L.
  exists (fill i more). split; [|split; [|reflexivity]].
  - apply (decode_encode (fill i more) stale inp rest out); try exact (conj A1 A2); try exact (conj B1 B2);
      try reflexivity; try assumption; cbn [fill m_name m_service m_cmd m_subject m_info m_sno m_tag sw_sno sw_tag m_argvs].
    + destruct (i_sno i); [exact Hs|change (2 ^ 31) with 2147483648; lia].
    + destruct (i_sno i); [discriminate|reflexivity].
    + destruct (i_tag i); [exact (proj1 Ht)|lia].
    + destruct (i_tag i); [discriminate|reflexivity].
    + destruct (i_tag i) as [t|]; [|reflexivity]. unfold list_tag. destruct Ht as [_ [Ha Hb]]. lia.
  - destruct i as [nm [s|] sv cm sb [t|] inf vs]; reflexivity.
Qed.
Print Assumptions C22_roundtrip_partial.

Definition ex_info : netinfo :=
  mkinfo (Some [97; 49]) (Some (-70001)) (Some [100; 98]) (Some [103; 101; 116]) None (Some (-3)) (Some [0; 255; 58; 123]) None.
Example C22_example :
  match i_name ex_info with Some n => n <> [] /\ plain_name n | None => True end /\
  text_ok (i_info ex_info) /\
  mem_live (encoded_normal (fill ex_info false) mem_create) =
    [97; 49; 58; 183; 6; 45; 55; 48; 48; 48; 49; 2; 100; 98; 3; 103; 101; 116; 2; 45; 51; 4; 0; 255; 58; 123] /\
  match decoded_normal (fun _ => 0) (encoded_normal (fill ex_info false) mem_create) with
  | Some (DMsg m, _) => content m = ex_info | _ => False end.
Proof.
  split; [|split; [|split]].
  - cbn [ex_info i_name]. split; [discriminate|]. split; [cbn; lia|].
    repeat constructor; cbn; intros H; decompose [or] H; try discriminate; assumption.
  - cbn [ex_info i_info text_ok]. split; [discriminate|]. split; [|vm_compute; reflexivity].
    repeat (constructor; [unfold is_byte; lia|]). constructor.
  - vm_compute. reflexivity.
  - vm_compute. reflexivity.
Qed.

(** what is decoded from the encoding of some content *)
Definition echo (i : netinfo) : option netinfo :=
  match decoded_normal (fun _ => 0) (encoded_normal (fill i false) mem_create) with
  | Some (DMsg m, _) => Some (content m) | _ => None end.
Definition plain : netinfo := mkinfo None None None None None None None None.

(** C22 refuted: the serial number is written through an int (sis_net_int_set_memory, 955), so
    2^32 + 1 comes back as 1. *)
Theorem C22_serial_number_refuted : exists i j, i_sno i = Some (2 ^ 32 + 1) /\ echo i = Some j /\ i_sno j = Some 1.
Proof.
  exists (mkinfo None (Some (2 ^ 32 + 1)) None None None None None None). eexists. split; [reflexivity|].
  split; [vm_compute; reflexivity|reflexivity].
Qed.
Print Assumptions C22_serial_number_refuted.

(** C22 refuted: a list of values is written but never read (1148-1158). *)
Theorem C22_values_refuted : exists i j, i_values i = Some [[1]; [2; 3]] /\ echo i = Some j /\ i_values j = None.
Proof.
  exists (mkinfo None None None None None (Some 7) None (Some [[1]; [2; 3]])). eexists. split; [reflexivity|].
  split; [vm_compute; reflexivity|reflexivity].
Qed.
Print Assumptions C22_values_refuted.

(** C22 refuted: an empty field comes back absent (1090). *)
Theorem C22_empty_field_refuted : exists i j, i_info i = Some [] /\ echo i = Some j /\ i_info j = None.
Proof.
  exists (mkinfo None None None None None None (Some []) None). eexists. split; [reflexivity|].
  split; [vm_compute; reflexivity|reflexivity].
Qed.
Print Assumptions C22_empty_field_refuted.

(** C22 refuted: a name with a colon comes back as another name and other fields, and a name of
    128 bytes is refused. *)
Theorem C22_name_refuted :
  (exists i j, i_name i = Some [97; 58; 255; 1] /\ i_cmd i = None /\ echo i = Some j /\ i_name j = Some [97] /\ i_name j <> i_name i) /\
  (exists i, i_name i = Some (repeat 97 128) /\ echo i = None).
Proof.
  split.
  - exists (mkinfo (Some [97; 58; 255; 1]) None None None None None None None). eexists. split; [reflexivity|].
    split; [reflexivity|]. split; [vm_compute; reflexivity|]. split; [reflexivity|discriminate].
  - exists (mkinfo (Some (repeat 97 128)) None None None None None None None). split; [reflexivity|].
    vm_compute. reflexivity.
Qed.
Print Assumptions C22_name_refuted.

(** C42 refuted: a message of eight bytes, received before any login, makes the decoder copy a
    megabyte from behind the buffer (sis_net_memory_get_sds, 1084-1097, never compares the length
    with what was received). *)
Theorem C42_decode_safe_refuted : exists bytes, length bytes = 8%nat /\ Forall is_byte bytes /\
  forall stale inp, mem_live inp = bytes -> (moff inp <= length (mbuf inp))%nat -> msize inp <= mmax inp ->
    mmax inp <= 1000000 -> decoded_normal stale inp = None.
Proof.
  exists [58; 130; 253; 0; 0; 16; 0; 120]. split; [reflexivity|]. split.
  - repeat (constructor; [unfold is_byte; lia|]). constructor.
  - intros stale inp L A B M. exact (c42_main stale inp L (conj A B) M).
Qed.
Print Assumptions C42_decode_safe_refuted.
