(** Websocket framing: properties C19, C20 and C21. *)
From Verif Require Import Base S_memory M_memory L_memory M_bits S_ws M_ws L_ws.

(** C19: packing any content writes a message that RFC 6455 allows a server to send and that
    stands for exactly this content and kind.  [stale] is what the allocated memory contained.
    Missing: the empty text, see the refutation below. *)
Theorem C19_pack_partial : forall stale inb info out,
  (forall i, is_byte (stale i)) -> Forall is_byte inb -> is_byte info -> mem_ok out ->
  inb <> [] \/ Z.odd info = true ->
  exists fs out', ws_pack stale inb info out = Some out' /\ mem_ok out' /\ mem_live out' = message_bytes fs /\ message fs
    /\ message_means fs (if Z.odd info then info else 0) inb
    /\ fragments (if Z.odd info then 2 else 1) fs /\ Forall (server_frame (Z.to_nat 16368)) fs.
Proof. exact pack_lemma. Qed.
Print Assumptions C19_pack_partial.

Example C19_pack_ex :
  match ws_pack (fun _ => 77) [10; 20; 30] 3 mem_create with
  | Some o => mem_live o = [0x82; 4; 10; 20; 30; 3] | None => False end.
Proof. vm_compute. reflexivity. Qed.

(** two-byte length; and a content that needs three frames meets the hypotheses *)
Example C19_pack_long_ex :
  match ws_pack (fun _ => 77) (repeat 7 200) 0 mem_create with
  | Some o => firstn 5 (mem_live o) = [0x81; 126; 0; 200; 7] /\ length (mem_live o) = 204%nat
  | None => False end
  /\ exists fs out', ws_pack (fun _ => 77) (repeat 7 (Z.to_nat 40000)) 0 mem_create = Some out'
     /\ mem_live out' = message_bytes fs /\ length (message_data fs) = Z.to_nat 40000 /\ Forall (server_frame (Z.to_nat 16368)) fs.
Proof.
  split; [vm_compute; auto|].
  destruct (C19_pack_partial (fun _ => 77) (repeat 7 (Z.to_nat 40000)) 0 mem_create) as (fs & o & A & _ & B & _ & C & F & D).
  - intros _. unfold is_byte. lia.
  - apply Forall_forall. intros x Hx. apply repeat_spec in Hx. subst x. unfold is_byte. lia.
  - unfold is_byte. lia.
  - apply mem_ok_create.
  - left. intros E. apply (f_equal (@length Z)) in E. rewrite repeat_length in E. cbn [length] in E. lia.
  - exists fs, o. split; [exact A|]. split; [exact B|]. split; [|exact D]. destruct C as [(_ & _ & <-)|(C & _)].
    + apply repeat_length.
    + exfalso. destruct fs; [exact F|]. destruct F as [F _]. cbn [message_op Z.odd] in *. lia.
Qed.

(** C19: unpacking any message (any fragmentation, masking, length encoding) that means
    [data] with info [info] yields just that and leaves the following bytes.  Received bytes
    in the buffer are below 256 MB. *)
Theorem C19_unpack_partial : forall m out fs rest info data,
  mem_ok m -> mem_ok out -> message fs -> Forall is_byte rest ->
  mem_live m = message_bytes fs ++ rest -> Z.of_nat (length (mem_live m)) < 2 ^ 28 -> message_means fs info data ->
  exists m' out', ws_unpack m out = Some (WsMsg info, m', out') /\ mem_ok m' /\ mem_live m' = rest /\ mem_ok out' /\ mem_live out' = data.
Proof. exact unpack_means. Qed.
Print Assumptions C19_unpack_partial.

(** a masked text in two fragments, followed by two more bytes *)
Definition ex_msg : list frame :=
  [mkframe false 0 1 (Some [1; 2; 3; 4]) Len7 [72; 101; 108]; mkframe true 0 0 (Some [9; 8; 7; 6]) Len16 [108; 111]].
Example C19_unpack_ex :
  match ws_unpack (mem_cat mem_create (message_bytes ex_msg ++ [5; 6])) mem_create with
  | Some (WsMsg i, m, o) => i = 0 /\ mem_live m = [5; 6] /\ mem_live o = [72; 101; 108; 108; 111]
  | _ => False end.
Proof. vm_compute. auto. Qed.

(** C19: the round trip *)
Theorem C19_roundtrip_partial : forall stale inb info out,
  (forall i, is_byte (stale i)) -> Forall is_byte inb -> is_byte info -> mem_ok out ->
  inb <> [] \/ Z.odd info = true ->
  exists out', ws_pack stale inb info out = Some out' /\
    forall m o rest, mem_ok m -> mem_ok o -> Forall is_byte rest -> mem_live m = mem_live out' ++ rest ->
      Z.of_nat (length (mem_live m)) < 2 ^ 28 ->
      exists m' o', ws_unpack m o = Some (WsMsg (if Z.odd info then info else 0), m', o') /\ mem_live m' = rest /\ mem_live o' = inb.
Proof. exact ws_roundtrip. Qed.
Print Assumptions C19_roundtrip_partial.

Example C19_roundtrip_ex :
  match ws_pack (fun _ => 0) (repeat 7 300) 1 mem_create with
  | Some o => match ws_unpack (mem_cat mem_create (mem_live o ++ [1])) mem_create with
              | Some (WsMsg i, m, o2) => i = 1 /\ mem_live m = [1] /\ length (mem_live o2) = 300%nat
              | _ => False end
  | None => False end.
Proof. vm_compute. auto. Qed.

(** C19 fails for the empty text: nothing at all is sent *)
Theorem C19_empty_refuted : exists stale, (forall i, is_byte (stale i)) /\
  match ws_pack stale [] 0 mem_create with
  | Some o => mem_live o = [] | None => False end.
Proof. exact ws_empty. Qed.
Print Assumptions C19_empty_refuted.

(** C20: a strict prefix of a message is left alone and reported as incomplete.  Missing:
    buffers of 256 MB and more, see below. *)
Theorem C20_prefix_waits_partial : forall m out fs rest,
  mem_ok m -> mem_ok out -> message fs -> mem_live m ++ rest = message_bytes fs -> rest <> [] ->
  Z.of_nat (length (mem_live m)) < 2 ^ 28 -> ws_unpack m out = Some (WsWait, m, out).
Proof. exact ws_unpack_prefix. Qed.
Print Assumptions C20_prefix_waits_partial.

Example C20_prefix_ex : forall k, In k (seq 0 (length (message_bytes ex_msg))) ->
  match ws_unpack (mem_cat mem_create (firstn k (message_bytes ex_msg))) mem_create with
  | Some (WsWait, m, _) => mem_live m = firstn k (message_bytes ex_msg) | _ => False end.
Proof. intros k Hk. vm_compute in Hk. decompose [or] Hk; subst; try contradiction; vm_compute; reflexivity. Qed.

(** C20: a connection hands over exactly the messages of its byte stream, in order, however the
    stream is cut into chunks and however the chunks are grouped into reads; the incomplete rest
    [pre] is kept.  Chunks and messages are below 128 MB. *)
Theorem C20_any_chunks_partial : forall pre batches ms l m,
  incomplete (2 ^ 27) pre -> Forall message ms -> Forall (fun fs => Z.of_nat (length (message_bytes fs)) < 2 ^ 27) ms ->
  delivers ms l -> mem_ok m -> mem_live m = [] -> concat (concat batches) = stream ms ++ pre ->
  Forall (fun c => Z.of_nat (length c) < 2 ^ 27) (concat batches) ->
  exists m', ws_recv m batches = Some (l, m', true) /\ mem_live m' = pre.
Proof. exact recv_all. Qed.
Print Assumptions C20_any_chunks_partial.

Example C20_chunks_ex :
  let bs := message_bytes ex_msg ++ message_bytes ex_msg in
  match ws_recv mem_create [[firstn 7 bs; firstn 12 (skipn 7 bs)]; []; [skipn 19 bs; [1]]] with
  | Some (l, m, true) => l = [(0, [72; 101; 108; 108; 111]); (0, [72; 101; 108; 108; 111])] /\ mem_live m = [1]
  | _ => False end.
Proof. vm_compute. auto. Qed.

(** C20, C21 fail for 256 MB of received zero bytes (empty fragments without end): moving over
    a fragment puts the bit position at the end of the buffer and the next header is read
    outside the received bytes. *)
Theorem C21_large_refuted : exists bs, Forall is_byte bs /\ Z.of_nat (length bs) = 2 ^ 28 /\
  forall m out, mem_ok m -> mem_live m = bs -> ws_unpack m out = None.
Proof. exact ws_large. Qed.
Print Assumptions C21_large_refuted.

(** C21: whatever bytes (below 256 MB) were received, unpacking is defined; it waits and changes
    nothing, or it consumes exactly one message; the only exception is a binary message without
    payload. *)
Theorem C21_any_bytes_partial : forall m out,
  mem_ok m -> mem_ok out -> Forall is_byte (mem_live m) -> Z.of_nat (length (mem_live m)) < 2 ^ 28 ->
  (exists fs rest, message fs /\ mem_live m = message_bytes fs ++ rest /\ message_op fs = 2 /\ message_data fs = [] /\ ws_unpack m out = None) \/
  (exists m' out' res, ws_unpack m out = Some (res, m', out') /\ mem_ok m' /\ mem_ok out'
     /\ (res = WsWait -> m' = m /\ out' = out)
     /\ (res <> WsWait -> exists fs, message fs /\ mem_live m = message_bytes fs ++ mem_live m')).
Proof. exact ws_unpack_total. Qed.
Print Assumptions C21_any_bytes_partial.

Example C21_any_bytes_ex :
  match ws_unpack (mem_cat mem_create [0x8A; 0x85; 1; 2; 3; 4; 5; 6; 7; 8; 9; 255]) mem_create with
  | Some (WsError, m, _) => mem_live m = [255] | _ => False end.
Proof. vm_compute. reflexivity. Qed.

(** C21 fails for the two bytes of an empty binary message: the info byte is read from before
    the output buffer and the size of the output becomes 2^64 - 1 *)
Theorem C21_empty_binary_refuted : exists m out, mem_reach m /\ mem_reach out /\ mem_live m = [0x82; 0x00] /\ ws_unpack m out = None.
Proof. exact ws_empty_binary. Qed.
Print Assumptions C21_empty_binary_refuted.
