(** Specification of stored table definitions (C73): which definitions must come back unchanged. *)
From Coq Require Import String.
From Verif Require Import Base S_server S_map S_table S_json.
Open Scope list_scope. Open Scope Z_scope.

(** the kinds of fields and their letters: I W T S M D U F C P *)
Definition kinds : list Z := [73; 87; 84; 83; 77; 68; 85; 70; 67; 80].
(** the words for them; a kind is written as its word or its letter, in any case *)
Definition words : list (list Z * Z) :=
  combine (map bs ["int"; "wsec"; "msec"; "second"; "minute"; "date"; "uint"; "float"; "char"; "price"]%string) kinds.
Definition names_kind (s : list Z) (k : Z) : Prop := exists w, In (w, k) words /\ (same_name s w = true \/ same_name s [k] = true).
(** a name that JSON texts can hold without escapes *)
Definition plain_name (n : list Z) : Prop := n <> [] /\ Forall plain n.
(** a line of a definition, if it makes a field: a plain name of at most 31 bytes, a kind, decimals in a byte *)
Definition fine_def (d : fdef) : Prop :=
  good_def d = true -> plain_name (df_name d) /\ (length (df_name d) <= 31)%nat /\ In (df_style d) kinds /\ 0 <= df_dot d < 256.
Definition fine_table (ds : list fdef) : Prop := Forall fine_def ds /\ distinct_names ds.
(** names of tables: plain, different ignoring case *)
Fixpoint apart_names (ns : list (list Z)) : Prop :=
  match ns with [] => True | n :: r => Forall (fun m => same_name n m = false) r /\ apart_names r end.
Definition fine_names (ns : list (list Z)) : Prop := Forall plain_name ns /\ Forall (fun n => Z.of_nat (length n) < 2 ^ 28) ns /\ apart_names ns.
