(** Model of the dynamic strings of src/core/sis_sds.c and src/core/sis_sds.h: a header before the bytes holds a type, a
    length and, except for type 5, the room; all writes are checked against the memory that was requested.
    Not modelled: memory that cannot be had (the functions return NULL), sis_sdscatvprintf, splitting, joining, quoting,
    sis_sdsmapchars, the win32 build without realloc (WARN_NOUSE_REALLOC). *)
From Coq Require Import ZifyBool ZifyNat.
From Verif Require Import Base S_csv M_csv S_sds.

Record sds := mk { s_ty : Z; s_len : Z; s_alloc : Z; s_buf : list Z }.

(** sis_sds.h:27-54 and 58-62: width of the length in the header; type 5 keeps five bits in the flags *)
Definition bits (t : Z) : Z := if t =? 0 then 5 else if t =? 1 then 8 else if t =? 2 then 16 else if t =? 3 then 32 else 64.

(** memory of n bytes as malloc gives it: any bytes; [j] says which *)
Definition fresh (j : nat -> Z) (n : Z) : list Z := map j (seq 0 (Z.to_nat n)).
(** realloc: the old bytes as far as they fit, then any bytes *)
Definition regrow (j : nat -> Z) (b : list Z) (n : Z) : list Z :=
  firstn (Z.to_nat n) b ++ skipn (length b) (fresh j n).
(** memcpy / memset / single stores to s + off; None outside of the memory *)
Definition put (b : list Z) (off : Z) (t : list Z) : option (list Z) :=
  if (0 <=? off) && (off + len t <=? len b)
  then Some (firstn (Z.to_nat off) b ++ t ++ skipn (Z.to_nat off + length t) b) else None.
Definition get (b : list Z) (off n : Z) : option (list Z) :=
  if (0 <=? off) && (0 <=? n) && (off + n <=? len b) then Some (firstn (Z.to_nat n) (skipn (Z.to_nat off) b)) else None.
Definition obind {A B} (o : option A) (f : A -> option B) : option B := match o with Some a => f a | None => None end.
Definition with_put (s : sds) (off : Z) (t : list Z) : option sds :=
  obind (put (s_buf s) off t) (fun b => Some (mk (s_ty s) (s_len s) (s_alloc s) b)).

(** sis_sds.h:116-163 sis_sdssetlen, sis_sdsinclen: the length is cut to the width of the header *)
Definition setlen (s : sds) (n : Z) : sds := mk (s_ty s) (to_u (bits (s_ty s)) n) (s_alloc s) (s_buf s).
Definition inclen (s : sds) (n : Z) : sds := setlen s (s_len s + n).
(** sis_sds.h:90-114 sis_sdsavail *)
Definition avail (s : sds) : Z :=
  if s_ty s =? 0 then 0 else if s_ty s =? 3 then to_u 32 (s_alloc s - s_len s) else to_u 64 (s_alloc s - s_len s).
(** sis_sds.h:166-202 sis_sdsalloc, sis_sdssetalloc *)
Definition alloc (s : sds) : Z := if s_ty s =? 0 then s_len s else s_alloc s.
Definition setalloc (s : sds) (n : Z) : sds :=
  if s_ty s =? 0 then s else mk (s_ty s) (s_len s) (to_u (bits (s_ty s)) n) (s_buf s).

(** sis_sds.c:23-44 sdsReqType *)
Definition req_type (n : Z) : Z :=
  if n <? 2 ^ 5 then 0 else if n <? 2 ^ 8 then 1 else if n <? 2 ^ 16 then 2 else if n <? 2 ^ 32 then 3 else 4.

(** sis_sds.c:59-130 sis_sdsnewlen with given bytes (also sis_sdsnew, sis_sdsempty, sis_sdsdup, 134-157) *)
Definition newlen (j : nat -> Z) (t : list Z) : option sds :=
  let n := len t in
  let ty := if (req_type n =? 0) && (n =? 0) then 1 else req_type n in
  let s := setalloc (setlen (mk ty 0 0 (fresh j (n + 1))) n) n in
  obind (with_put s 0 t) (fun s => with_put s n [0]).
(** sis_sds.c:74-77: without bytes all is set to zero *)
Definition newzero (j : nat -> Z) (n : Z) : option sds :=
  let ty := if (req_type n =? 0) && (n =? 0) then 1 else req_type n in
  let s := setalloc (setlen (mk ty 0 0 (fresh j (n + 1))) n) n in
  obind (with_put s 0 (repeat 0 (Z.to_nat (n + 1)))) (fun s => with_put s n [0]).

(** sis_sds.c:182-186 sis_sdsupdatelen: strlen reads up to the first zero; None if there is none in the memory *)
Definition updatelen (s : sds) : option sds :=
  if existsb (Z.eqb 0) (s_buf s) then Some (setlen s (len (chars (s_buf s)))) else None.
(** sis_sds.c:192-196 sis_sdsclear *)
Definition clear (s : sds) : option sds := with_put (setlen s 0) 0 [0].

(** sis_sds.c:204-269 sis_sds_addlen; SDS_MAX_PREALLOC is 1024*1024 (sis_sds.h) *)
Definition addlen (j : nat -> Z) (s : sds) (n : Z) : option sds :=
  if n <=? avail s then Some s else
  let nl0 := to_u 64 (s_len s + n) in
  let nl := if nl0 <? 1048576 then nl0 * 2 else to_u 64 (nl0 + 1048576) in
  let ty := if req_type nl =? 0 then 1 else req_type nl in
  if s_ty s =? ty then Some (setalloc (mk ty (s_len s) (s_alloc s) (regrow j (s_buf s) (nl + 1))) nl)
  else obind (get (s_buf s) 0 (s_len s + 1)) (fun old =>
       obind (put (fresh j (nl + 1)) 0 old) (fun b => Some (setalloc (setlen (mk ty 0 0 b) (s_len s)) nl))).

(** sis_sds.c:277-320 sis_sds_remove_freespace *)
Definition fit (j : nat -> Z) (s : sds) : option sds :=
  let n := s_len s in
  let ty := req_type n in
  if (s_ty s =? ty) || (1 <? ty) then Some (setalloc (mk (s_ty s) n (s_alloc s) (regrow j (s_buf s) (n + 1))) n)
  else obind (get (s_buf s) 0 (n + 1)) (fun old =>
       obind (put (fresh j (n + 1)) 0 old) (fun b => Some (setalloc (setlen (mk ty 0 0 b) n) n))).

(** sis_sds.c:365-412 sis_sds_incrlen; an assertion that fails is None. The comparisons of types 8 to 64 are written with
    casts of several widths, which make no difference for the lengths considered *)
Definition incrlen (s : sds) (k : Z) : option sds :=
  let ok := if s_ty s =? 0 then ((0 <? k) && (s_len s + k <? 32)) || ((k <? 0) && (- k <=? s_len s))
            else ((0 <=? k) && (k <=? s_alloc s - s_len s)) || ((k <? 0) && (- k <=? s_len s)) in
  if ok then let s := inclen s k in with_put s (s_len s) [0] else None.

(** sis_sds.c:419-437 sis_sdsgrowzero *)
Definition growzero (j : nat -> Z) (s : sds) (n : Z) : option sds :=
  let cur := s_len s in
  if n <=? cur then Some s else
  obind (addlen j s (n - cur)) (fun s => obind (with_put s cur (repeat 0 (Z.to_nat (n - cur + 1)))) (fun s => Some (setlen s n))).

(** sis_sds.c:444-475 sis_sdscatlen, sis_sdscat, sis_sdscatsds of bytes that are not those of the string itself *)
Definition catlen (j : nat -> Z) (s : sds) (t : list Z) : option sds :=
  let cur := s_len s in
  obind (addlen j s (len t)) (fun s => obind (with_put s cur t) (fun s => with_put (setlen s (cur + len t)) (cur + len t) [0])).
(** sis_sds.c:472-475 sis_sdscatsds(s, s): the bytes are read from the old place, which is no longer valid after 263 or the
    realloc at 244 *)
Definition catself (j : nat -> Z) (s : sds) : option sds :=
  if s_len s <=? avail s then obind (get (s_buf s) 0 (s_len s)) (fun t => catlen j s t) else None.

(** sis_sds.c:479-504 sis_sdscpylen, sis_sdscpy *)
Definition cpylen (j : nat -> Z) (s : sds) (t : list Z) : option sds :=
  obind (if alloc s <? len t then addlen j s (to_u 64 (len t - s_len s)) else Some s) (fun s =>
  obind (with_put s 0 t) (fun s => obind (with_put s (len t) [0]) (fun s => Some (setlen s (len t))))).

(** sis_sds.c:794-811 sis_sdstrim; strchr also finds the zero that ends the set *)
Definition in_set (cs : list Z) (x : Z) : bool := existsb (Z.eqb x) (cs ++ [0]).
Fixpoint front (cs c : list Z) : Z := match c with [] => 0 | x :: r => if in_set cs x then 1 + front cs r else 0 end.
Fixpoint back (cs c : list Z) (sp : Z) (ep : nat) : Z :=
  (* ep - 1 is the position of the C code *)
  match ep with
  | O => -1
  | S e => if (sp <? Z.of_nat e) && in_set cs (nth e c 0) then back cs c sp e else Z.of_nat e
  end.
Definition trim (s : sds) (cs : list Z) : option sds :=
  obind (get (s_buf s) 0 (s_len s)) (fun c =>
  let sp := front cs c in
  let ep := back cs c sp (length c) in
  let n := if ep <? sp then 0 else ep - sp + 1 in
  obind (get (s_buf s) sp n) (fun t =>
  obind (if 0 <? sp then with_put s 0 t else Some s) (fun s =>
  obind (with_put s n [0]) (fun s => Some (setlen s n))))).

(** sis_sds.c:829-868 sis_sdsrange; a sum that does not fit into 63 bits is None *)
Definition range (s : sds) (a b : Z) : option sds :=
  let l := s_len s in
  if l =? 0 then Some s else
  let a := if a <? 0 then Z.max 0 (l + a) else a in
  let b := if b <? 0 then Z.max 0 (l + b) else b in
  if 2 ^ 63 <=? b - a + 1 then None else
  let n := if b <? a then 0 else b - a + 1 in
  let n' := if n =? 0 then 0 else if l <=? a then 0 else if l <=? b then (if l - 1 <? a then 0 else l - 1 - a + 1) else n in
  let a' := if n =? 0 then 0 else a in
  obind (if (negb (a' =? 0)) && negb (n' =? 0) then obind (get (s_buf s) a' n') (fun t => with_put s 0 t) else Some s) (fun s =>
  obind (with_put s n' [0]) (fun s => Some (setlen s n'))).

(** sis_sds.c:871-886 sis_sdstolower, sis_sdstoupper: the letters of the C locale *)
Definition tolower (x : Z) : Z := if (65 <=? x) && (x <=? 90) then x - 65 + 97 else x.
Definition toupper (x : Z) : Z := if (97 <=? x) && (x <=? 122) then x - 97 + 65 else x.
Definition mapped (f : Z -> Z) (s : sds) : option sds := obind (get (s_buf s) 0 (s_len s)) (fun c => with_put s 0 (map f c)).

(** sis_sds.c:682-778 sis_sdscatfmt. [f] is the format with its closing zero; reading behind it is None, and so is an argument
    of another kind than the letter asks for. *)
Definition room (j : nat -> Z) (s : sds) (n : Z) : option sds := if avail s <? n then addlen j s n else Some s.
(** 716-722, 733-739, 751-757 *)
Definition add_text (j : nat -> Z) (s : sds) (i : Z) (t : list Z) : option (sds * Z) :=
  obind (room j s (len t)) (fun s => obind (with_put s i t) (fun s => Some (inclen s (len t), i + len t))).
(** 761-762, 767-768 *)
Definition add_char (s : sds) (i c : Z) : option (sds * Z) := obind (with_put s i [c]) (fun s => Some (inclen s 1, i + 1)).
(** 712-764: the text of the next argument (ll2str, ull2str: sis_sds.c:513-578, in M_csv) *)
Definition arg_text (next : Z) (a : farg) : option (list Z) :=
  match a with
  | ATxt t => if next =? 115 then Some (chars t) else None
  | ASds t => if next =? 83 then Some t else None
  | AInt v => if next =? 105 then ll2str v else None
  | ALong v => if next =? 73 then ll2str v else None
  | AUint v => if next =? 117 then Some (ull2str v) else None
  | AUlong v => if next =? 85 then Some (ull2str v) else None
  end.
Definition wants (next : Z) : bool := existsb (Z.eqb next) [115; 83; 105; 73; 117; 85].
Fixpoint fmt_loop (j : nat -> Z) (s : sds) (i : Z) (f : list Z) (args : list farg) : option (sds * Z) :=
  match f with
  | [] => None
  | c :: f1 =>
      if c =? 0 then Some (s, i) else
      obind (if avail s =? 0 then addlen j s 1 else Some s) (fun s =>
      if c =? 37 then
        match f1 with
        | [] => None
        | next :: f2 =>
            if wants next then
              match args with
              | [] => None
              | a :: args' => obind (arg_text next a) (fun t => obind (add_text j s i t) (fun r => fmt_loop j (fst r) (snd r) f2 args'))
              end
            else obind (add_char s i next) (fun r => fmt_loop j (fst r) (snd r) f2 args)
        end
      else obind (add_char s i c) (fun r => fmt_loop j (fst r) (snd r) f1 args))
  end.
Definition catfmt (j : nat -> Z) (s : sds) (fmt : list Z) (args : list farg) : option sds :=
  obind (fmt_loop j s (s_len s) (fmt ++ [0]) args) (fun r => with_put (fst r) (snd r) [0]).

(** one operation; filling is the use that sis_sds.c:355-363 describes *)
Definition exec (j : nat -> Z) (s : sds) (o : sop) : option sds :=
  match o with
  | OCat t => catlen j s t
  | OCpy t => cpylen j s t
  | OGrow n => growzero j s n
  | ORoom n => addlen j s n
  | OFill n t => obind (addlen j s n) (fun s1 => obind (with_put s1 (s_len s) t) (fun s2 => incrlen s2 (len t)))
  | OCut k => incrlen s (- k)
  | ORange a b => range s a b
  | OTrim cs => trim s cs
  | OClear => clear s
  | OUpdate => updatelen s
  | OFit => fit j s
  | OUpper => mapped toupper s
  | OLower => mapped tolower s
  | OFmt ps => catfmt j s (format ps) (given ps)
  end.
(** a run of operations; [j k] are the bytes of the memory that operation number k receives *)
Fixpoint run (j : nat -> nat -> Z) (k : nat) (s : sds) (os : list sop) : option sds :=
  match os with [] => Some s | o :: os' => obind (exec (j k) s o) (fun s => run j (S k) s os') end.
(** what is seen: sis_sdslen bytes (sis_sds.h:73-88) and the byte behind them *)
Definition seen (s : sds) : option (list Z * Z) :=
  obind (get (s_buf s) 0 (s_len s)) (fun c => obind (get (s_buf s) (s_len s) 1) (fun z => Some (c, hd 1 z))).
