(** Specification of the websocket handshake (C60): RFC 6455, sections 1.3, 4.1, 4.2; lines as in RFC 7230. *)
From Coq Require Import String Ascii.
From Verif Require Import Base S_sha1.
Open Scope list_scope.
Open Scope Z_scope.

Definition txt (s : string) : list Z := map (fun c => Z.of_nat (nat_of_ascii c)) (list_ascii_of_string s).
Definition CRLF : list Z := [13; 10].
Definition GUID : list Z := txt "258EAFA5-E914-47DA-95CA-C5AB0DC85B11".
(** the name of the field with the key *)
Definition KEY : list Z := txt "Sec-WebSocket-Key".

(** The value a server proves itself with. *)
Definition accept_value (key : list Z) : list Z := b64 (sha1 (key ++ GUID)).

(** A request: a first line and fields. *)
Record request := mkreq { q_line : list Z; q_fields : list (list Z * list Z) }.
Definition field_text (f : list Z * list Z) : list Z := fst f ++ [58; 32] ++ snd f ++ CRLF.
Definition req_text (q : request) : list Z := q_line q ++ CRLF ++ concat (map field_text (q_fields q)) ++ CRLF.

(** no zero, no end of line *)
Definition line_byte (c : Z) : Prop := 0 < c < 256 /\ c <> 13 /\ c <> 10.
Definition is_line (l : list Z) : Prop := Forall line_byte l.
Definition req_ok (q : request) : Prop :=
  is_line (q_line q) /\ q_line q <> [] /\ Forall (fun f => is_line (fst f) /\ fst f <> [] /\ is_line (snd f)) (q_fields q).
(** names of fields are compared without regard to case (RFC 7230, 3.2) *)
Definition low (c : Z) : Z := if (65 <=? c) && (c <=? 90) then c + 32 else c.
Definition same_name (a b : list Z) : Prop := map low a = map low b.
(** keys are the base64 text of 16 bytes *)
Definition is_key (k : list Z) : Prop := exists n, List.length n = 16%nat /\ Forall is_byte n /\ k = b64 n.
Definition request_key (q : request) (k : list Z) : Prop := exists n, In (n, k) (q_fields q) /\ same_name n KEY.

Definition contains (sub l : list Z) : Prop := exists a b, l = a ++ sub ++ b.

(** An answer that accepts: status 101 and the right value. *)
Definition good_answer (key l : list Z) : Prop :=
  exists line fields, l = req_text (mkreq line fields) /\ req_ok (mkreq line fields) /\
    (exists reason, line = txt "HTTP/1.1 101 " ++ reason) /\ In (txt "Sec-WebSocket-Accept", accept_value key) fields.
