(** The parser of configuration texts, sis_conf.c.  Line numbers are those of sis_conf.c unless another
    file is named. *)
From Coq Require Import ZArith List Lia Bool.
From Verif Require Import Base S_json M_netmsg M_json.
Import ListNotations.
Open Scope Z_scope.

(** A pointer is the list of the bytes from there to the end of the buffer, final zeros included;
    reading from [] is reading behind the buffer.  The null pointer is [None].
    err_no is only ever set, and whatever sets it returns the null pointer, on which all callers stop;
    so it is 0 whenever a function is called, and [err] says whether the call has set it.  err_lines
    and err_msg are left out. *)
Inductive cres (A : Type) : Type :=
| CFault                                                  (* a read behind the buffer *)
| CDeep                                                   (* no room on the stack *)
| CFuel                                                   (* count of a loop used up; never happens *)
| COk (a : A) (p : option (list Z)) (err : bool).
Arguments CFault {A}. Arguments CDeep {A}. Arguments CFuel {A}. Arguments COk {A} a p err.

(** _sis_conf_skip, 8-28; [note]: inside the loop 21-24.  None: read behind the buffer. *)
Fixpoint cskip (note : bool) (p : list Z) : option (list Z) :=
  match p with
  | [] => None
  | c :: t =>
      if c =? 0 then Some p
      else if note then cskip (negb ((c =? 10) || (c =? 13))) t
      else if c <=? 32 then cskip false t
      else if c =? 35 then cskip true t
      else Some p
  end.
(** _sis_conf_skip of what a parse function returned *)
Definition skip_res {A} (r : cres A) : cres A :=
  match r with
  | COk a (Some p) e => match cskip false p with None => CFault | Some q => COk a (Some q) e end
  | x => x
  end.

(** the loops over the bytes of a word: the bytes before the first 0 or [stop] byte, and the rest from
    that byte on; None: read behind the buffer *)
Fixpoint scan (stop : Z -> bool) (p : list Z) : option (list Z * list Z) :=
  match p with
  | [] => None
  | c :: t => if (c =? 0) || stop c then Some ([], p)
              else match scan stop t with Some (a, r) => Some (c :: a, r) | None => None end
  end.
(** the conditions of the loops 52-59, 63-71 and 272-280 *)
Definition stop_word (c : Z) : bool := (c <=? 32) || (c =? 35) || (c =? 44) || (c =? 93) || (c =? 125).
(** the loop 42-51 *)
Definition stop_quoted (c : Z) : bool := (c <=? 32) || (c =? 35) || (c =? 34).
(** the loop 93-101 *)
Definition stop_num (c : Z) : bool := negb ((c =? 45) || (c =? 46) || ((48 <=? c) && (c <=? 57))).
(** the loops 350-354 and 362-365 *)
Definition stop_key (c : Z) : bool := (c <=? 32) || (c =? 58).
Definition stop_colon (c : Z) : bool := (c <? 32) || (c =? 58).

(** setting type and value of a node *)
Definition set_val (n : jnode) (ty : Z) (s : list Z) : jnode := match n with JN _ k _ l => JN ty k (Some s) l end.
Definition set_type (n : jnode) (ty : Z) : jnode := match n with JN _ k v l => JN ty k v l end.
Definition set_kids (n : jnode) (l : list jnode) : jnode := match n with JN ty k v _ => JN ty k v l end.

(** _sis_parse_string, 34-84; the length is never 0 at sis_strdup *)
Definition pstring (n : jnode) (p : list Z) : cres jnode :=
  let done (s r : list Z) := match s with [] => COk n None true | _ => COk (set_val n 5 s) (Some r) false end in
  match p with
  | [] => CFault
  | c :: t =>
      if c =? 34 then
        match scan stop_quoted t with
        | None => CFault
        | Some (s, r) =>
            match scan stop_word (if hd 0 r =? 34 then List.tl r else r) with
            | None => CFault
            | Some (_, r') => done s r'
            end
        end
      else match scan stop_word p with None => CFault | Some (s, r) => done s r end
  end.
(** isfloat, 95-98; the byte behind the number is no digit *)
Fixpoint floaty (s : list Z) : bool :=
  match s with
  | c :: t => ((c =? 46) && (48 <=? hd 0 t) && (hd 0 t <=? 57)) || floaty t
  | [] => false
  end.
(** _sis_parse_number, 86-114 *)
Definition pnumber (n : jnode) (p : list Z) : cres jnode :=
  match scan stop_num p with
  | None => CFault
  | Some (s, r) => COk (set_val n (if floaty s then 4 else 2) s) (Some r) false
  end.
(** _sis_parse_key, 341-384 *)
Definition pkey (n : jnode) (p : list Z) : cres jnode :=
  match scan stop_key p with
  | None => CFault
  | Some ([], _) => COk n None true
  | Some (k, r) =>
      match scan stop_colon r with
      | None | Some (_, []) => CFault
      | Some (_, c :: t) =>
          if (c =? 0) || (c =? 58) then COk (set_key n k) (Some t) false else COk (set_key n k) None true
      end
  end.
(** !sis_strcase_match("include", p), sis_str.c:18-40 *)
Definition at_include (p : list Z) : bool := starts_ci p [105; 110; 99; 108; 117; 100; 101].

Section Parse.
(** file contents by name, and handle_->path *)
Variable fs : list Z -> option (list Z).
Variable path : list Z.

Section Steps.
(** the recursive calls of _sis_parse_value and _sis_parse_include *)
Variable pv : jnode -> list Z -> cres jnode.
Variable pi : jnode -> list Z -> cres (list jnode).

(** _sis_parse_key and _sis_parse_value one after the other, 204-205, 311-312, 424-425 *)
Definition pentry (n : jnode) (p : list Z) : cres jnode :=
  match skip_res (pkey n p) with
  | COk n' (Some q) _ => skip_res (pv n' q)
  | x => x
  end.

(** the loop 135-177; [done] are the children left behind, [child] the current one.  sis_llutoa writes
    the same as sis_lldtoa for a counter that is not negative. *)
Fixpoint arr_loop (fuel : nat) (idx : Z) (done : list jnode) (child : jnode) (p : list Z) : cres (list jnode) :=
  match fuel with
  | O => CFuel
  | S f =>
      match p with
      | [] => CFault
      | c0 :: _ =>
          if c0 =? 0 then COk (done ++ [child]) None false
          else match cskip false p with
          | None => CFault
          | Some p =>
              if at_include p then COk (done ++ [child]) None true
              else match skip_res (pv (set_key child (lldtoa idx)) p) with
              | CFault => CFault | CDeep => CDeep | CFuel => CFuel
              | COk child None _ => COk (done ++ [child]) None true
              | COk child (Some []) _ => CFault
              | COk child (Some (c :: r)) e =>
                  if c =? 0 then COk (done ++ [child]) None true
                  else if c =? 93 then COk (done ++ [child]) (Some r) e
                  else if c =? 44 then arr_loop f (idx + 1) (done ++ [child]) new_node r
                  else arr_loop f (idx + 1) done child (c :: r)
              end
          end
      end
  end.
(** the loop 192-236; _sis_parse_include fills [child] and hangs further nodes behind it *)
Fixpoint obj_loop (fuel : nat) (done : list jnode) (child : jnode) (p : list Z) : cres (list jnode) :=
  match fuel with
  | O => CFuel
  | S f =>
      match p with
      | [] => CFault
      | c0 :: _ =>
          if c0 =? 0 then COk (done ++ [child]) None false
          else match cskip false p with
          | None => CFault
          | Some p =>
              match (if at_include p then skip_res (pi child p)
                     else match pentry child p with
                          | COk n q e => COk [n] q e
                          | CFault => CFault | CDeep => CDeep | CFuel => CFuel
                          end) with
              | CFault => CFault | CDeep => CDeep | CFuel => CFuel
              | COk ns None _ => COk (done ++ ns) None true
              | COk ns (Some []) _ => CFault
              | COk ns (Some (c :: r)) e =>
                  if c =? 0 then COk (done ++ ns) None true
                  else if c =? 125 then COk (done ++ ns) (Some r) e
                  else if c =? 44 then obj_loop f (done ++ ns) new_node r
                  else obj_loop f (done ++ removelast ns) (last ns child) (c :: r)
              end
          end
      end
  end.
(** _sis_parse_array, 116-179; [p] starts with the bracket *)
Definition parray (n : jnode) (p : list Z) : cres jnode :=
  match jkey n with
  | None => COk n None true
  | Some _ =>
      match cskip false (List.tl p) with
      | None | Some [] => CFault
      | Some (c :: r) =>
          if c =? 93 then COk (set_type n 6) (Some r) false
          else match arr_loop (S (length (c :: r))) 0 [] new_node (c :: r) with
          | COk l q e => COk (set_kids (set_type n 6) l) q e
          | CFault => CFault | CDeep => CDeep | CFuel => CFuel
          end
      end
  end.
(** _sis_parse_object, 180-238 *)
Definition pobject (n : jnode) (p : list Z) : cres jnode :=
  match cskip false (List.tl p) with
  | None | Some [] => CFault
  | Some (c :: r) =>
      if c =? 125 then COk (set_type n 7) (Some r) false
      else match obj_loop (S (length (c :: r))) [] new_node (c :: r) with
      | COk l q e => COk (set_kids (set_type n 7) l) q e
      | CFault => CFault | CDeep => CDeep | CFuel => CFuel
      end
  end.
(** _sis_parse_value, 239-264 *)
Definition value_body (n : jnode) (p : list Z) : cres jnode :=
  match p with
  | [] => CFault
  | c :: _ =>
      if (c =? 45) || ((48 <=? c) && (c <=? 57)) then pnumber n p
      else if c =? 91 then parray n p
      else if c =? 123 then pobject n p
      else pstring n p
  end.

(** the loop 301-322; a nested include hangs its further nodes behind [child], but where more text
    follows 318 puts the new node in their place *)
Fixpoint file_loop (fuel : nat) (done : list jnode) (child : jnode) (p : list Z) : cres (list jnode) :=
  match fuel with
  | O => CFuel
  | S f =>
      match p with
      | [] => CFault
      | c0 :: _ =>
          if c0 =? 0 then COk (done ++ [child]) None false
          else match cskip false p with
          | None => CFault
          | Some p =>
              match (if at_include p then skip_res (pi child p)
                     else match pentry child p with
                          | COk n q e => COk [n] q e
                          | CFault => CFault | CDeep => CDeep | CFuel => CFuel
                          end) with
              | CFault => CFault | CDeep => CDeep | CFuel => CFuel
              | COk ns None e => COk (done ++ ns) None e
              | COk ns (Some []) _ => CFault
              | COk ns (Some (c :: r)) e =>
                  if c =? 0 then COk (done ++ ns) None e
                  else file_loop f (done ++ firstn 1 ns) new_node (c :: r)
              end
          end
      end
  end.
(** sis_file_read_to_sds, sis_file.c:15-34: no buffer for a missing or empty file; the buffer is cleared
    and one byte longer than the file, and sis_sdsnewlen puts one more 0 behind *)
Definition read_file (fn : list Z) : option (list Z) :=
  match fs fn with None | Some [] => None | Some c => Some (c ++ [0; 0]) end.
(** _sis_parse_include, 266-339: the node given and those hung behind it.  sis_sprintf cuts the name
    at SIS_PATH_LEN - 1 bytes. *)
Definition include_body (n : jnode) (p : list Z) : cres (list jnode) :=
  match cskip false (skipn 7 p) with
  | None => CFault
  | Some v =>
      match scan stop_word v with
      | None => CFault
      | Some (nm, ptr) =>
          match read_file (firstn 1023 (path ++ nm)) with
          | None => COk [n] None true
          | Some buf =>
              match cskip false buf with
              | None => CFault
              | Some q =>
                  match file_loop (S (length q)) [] n q with
                  | CFault => CFault | CDeep => CDeep | CFuel => CFuel
                  | COk ns _ e => if e then COk ns None true else COk ns (Some ptr) false
                  end
              end
          end
      end
  end.

(** the loop 401-430; the result holds the children of the root *)
Fixpoint root_loop (fuel : nat) (done : list jnode) (p : list Z) : cres (list jnode) :=
  match fuel with
  | O => CFuel
  | S f =>
      match p with
      | [] => CFault
      | c0 :: _ =>
          if c0 =? 0 then COk done None false
          else match cskip false p with
          | None => CFault
          | Some p =>
              match (if at_include p then skip_res (pi new_node p)
                     else match pentry new_node p with
                          | COk n q e => COk [n] q e
                          | CFault => CFault | CDeep => CDeep | CFuel => CFuel
                          end) with
              | CFault => CFault | CDeep => CDeep | CFuel => CFuel
              | COk ns None e => COk (done ++ ns) None e
              | COk ns (Some q) _ => root_loop f (done ++ ns) q
              end
          end
      end
  end.
End Steps.

(** _sis_parse_value and _sis_parse_include call each other without a limit; [d] is the number of nested
    calls the stack has room for *)
Fixpoint pvalue (d : nat) : jnode -> list Z -> cres jnode :=
  match d with
  | O => fun _ _ => CDeep
  | S d' => value_body (pvalue d') (pinclude d')
  end
with pinclude (d : nat) : jnode -> list Z -> cres (list jnode) :=
  match d with
  | O => fun _ _ => CDeep
  | S d' => include_body (pvalue d') (pinclude d')
  end.

(** _sis_conf_parse, 386-437 *)
Definition conf_parse (d : nat) (buf : list Z) : cres (list jnode) :=
  match cskip false buf with
  | None => CFault
  | Some p => root_loop (pvalue d) (pinclude d) (S (length p)) [] p
  end.
End Parse.

(** what a caller gets: a handle with its node, or none; a fault; no stack *)
Inductive handle : Type := HFault | HDeep | HFuel | HNull | HTree (n : option jnode).
(** sis_conf_open, 443-478; [path] is what sis_file_getpath makes of the name *)
Definition conf_open (fs : list Z -> option (list Z)) (path fn : list Z) (d : nat) : handle :=
  match read_file fs fn with
  | None => HNull
  | Some buf =>
      match conf_parse fs path d buf with
      | CFault => HFault | CDeep => HDeep | CFuel => HFuel
      | COk l _ e => if e then HNull else HTree (Some (JN 1 None None l))
      end
  end.
(** sis_conf_load, 527-546; handle->path is empty; err_no is not looked at *)
Definition conf_load (fs : list Z -> option (list Z)) (d : nat) (content : list Z) : handle :=
  match cskip false (content ++ [0]) with
  | None => HFault
  | Some p =>
      if hd 0 p =? 123 then
        match skip_res (pvalue fs [] d new_node p) with
        | CFault => HFault | CDeep => HDeep | CFuel => HFuel
        | COk n _ _ => HTree (Some n)
        end
      else HTree None
  end.

(** sis_conf_get_match_sign, 566-620, on the bytes in the memory: the length up to the matching brace,
    [] being the end, 0 for none *)
Fixpoint match_sign (note : bool) (sign move : Z) (l : list Z) : Z :=
  match l with
  | [] => 0
  | c :: t =>
      if note then match_sign (negb ((c =? 10) || (c =? 13))) sign (move + 1) t
      else if c =? 35 then match_sign true sign (move + 1) t
      else if sign =? 0 then match_sign false (if c =? 123 then 1 else 0) (move + 1) t
      else if c =? 123 then match_sign false (sign + 1) (move + 1) t
      else if c =? 125 then if sign - 1 =? 0 then move + 1 else match_sign false (sign - 1) (move + 1) t
      else match_sign false sign (move + 1) t
  end.
(** the loop 648-659: the handles the callback is given, and what stays in the memory *)
Fixpoint drain (fs : list Z -> option (list Z)) (d : nat) (fuel : nat) (mem : list Z) : list handle * list Z :=
  match fuel with
  | O => ([], mem)
  | S f =>
      let n := match_sign false 0 0 mem in
      if n =? 0 then ([], mem)
      else let r := drain fs d f (skipn (Z.to_nat n) mem) in
           (conf_load fs d (firstn (Z.to_nat n) mem) :: fst r, snd r)
  end.
(** sis_conf_sub, 628-664: the file is read in pieces *)
Fixpoint sub_loop (fs : list Z -> option (list Z)) (d : nat) (mem : list Z) (pieces : list (list Z)) : list handle :=
  match pieces with
  | [] => []
  | c :: cs =>
      let r := drain fs d (length (mem ++ c)) (mem ++ c) in
      fst r ++ sub_loop fs d (snd r) cs
  end.
Definition conf_sub (fs : list Z -> option (list Z)) (d : nat) (pieces : list (list Z)) : list handle :=
  sub_loop fs d [] pieces.
