(** What a text network message may carry (C55), and messages of both forms (C56).  Nothing here
    mentions the program. *)
From Coq Require Import ZArith List Bool Lia.
From Verif Require Import Base S_netmsg S_json.
Import ListNotations.
Open Scope Z_scope.

(** a field the JSON text form can carry: bytes from 32 on without backslash *)
Definition text_field (t : option (list Z)) : Prop :=
  match t with None => True | Some s => Forall (fun c => plain c \/ c = 34) s /\ Z.of_nat (List.length s) < 2 ^ 28 end.

Definition name_ok (n : option (list Z)) : Prop :=
  match n with Some n => n <> [] /\ Forall is_byte n /\ plain_name n | None => True end.
(** a tag that does not announce a list of values *)
Definition tag_ok (t : option Z) : Prop :=
  match t with Some t => - 128 <= t < 128 /\ t <> 5 /\ t <> 7 | None => True end.

(** contents the text form carries *)
Definition fits_text (i : netinfo) : Prop :=
  name_ok (i_name i) /\ match i_sno i with Some v => - 2 ^ 63 < v < 2 ^ 63 | None => True end /\
  text_field (i_service i) /\ text_field (i_cmd i) /\ text_field (i_subject i) /\ text_field (i_info i) /\
  tag_ok (i_tag i) /\ i_values i = None.

(** contents the binary form carries *)
Definition fits_bytes (i : netinfo) : Prop :=
  name_ok (i_name i) /\ match i_sno i with Some v => - 2 ^ 31 <= v < 2 ^ 31 | None => True end /\
  text_ok (i_service i) /\ text_ok (i_cmd i) /\ text_ok (i_subject i) /\ text_ok (i_info i) /\
  tag_ok (i_tag i) /\ i_values i = None.

(** [bytes]: the binary form *)
Definition fits (bytes : bool) (i : netinfo) : Prop := if bytes then fits_bytes i else fits_text i.
