(** Specification of the binary network message (C22, C42). *)
From Verif Require Import Base.

(** what a message carries: an absent field is None, an absent serial number or tag is None *)
Record netinfo := mkinfo {
  i_name : option (list Z);
  i_sno : option Z;
  i_service : option (list Z);
  i_cmd : option (list Z);
  i_subject : option (list Z);
  i_tag : option Z;
  i_info : option (list Z);
  i_values : option (list (list Z)) }.

(** a name a receiver can tell from what follows: at most 127 bytes without NUL, colon,
    brackets and braces *)
Definition plain_name (n : list Z) : Prop :=
  (length n < 128)%nat /\ Forall (fun c => ~ In c [0; 58; 91; 93; 123; 125]) n.

Definition text_ok (t : option (list Z)) : Prop :=
  match t with None => True | Some s => s <> [] /\ Forall is_byte s /\ Z.of_nat (length s) < 2 ^ 63 end.
