(** Model of the selection and ordering of consoles: src/server-obj.c:450-499,
    src/server-sock.c:418-559, and src/list.c:327-368 on plain lists.

    A name is the list of its characters before the terminator.  Console objects are
    numbers; [nm] gives their names and [isc] says whether they are consoles. *)
From Coq Require Import String.
From Verif Require Import Base Chars Fmt.
Local Open Scope Z_scope.

(** server-obj.c:485-499: the index of the first of the trailing digits *)
Fixpoint trailing_int (i : nat) (q : option nat) (str : list Z) : option nat :=
  match str with
  | [] => q
  | c :: t => trailing_int (S i) (if isdigit c then match q with Some _ => q | None => Some i end else None) t
  end.
Definition find_trailing_int_str (str : list Z) : option nat := trailing_int 0 None str.

(** The value of a char as an int; [sgn]: char is a signed type. *)
Definition cv (sgn : bool) (c : Z) : Z := if sgn then schar c else c.

Definition is_at (p : option nat) (i : nat) : bool := match p with Some j => (j =? i)%nat | None => false end.

(** server-obj.c:473-481.  The two pointers advance together, so one index [i] serves
    for both; [r1] and [r2] are the strings at them. *)
Fixpoint compare_from (sgn : bool) (int1 int2 : option nat) (i : nat) (r1 r2 : list Z) : res Z :=
  match r1 with
  | [] => Ok (0 - match r2 with c :: _ => cv sgn c | [] => 0 end)
  | c :: t =>
      if is_at int1 i && is_at int2 i then
        do a <- atoi r1;
        do b <- atoi r2;
        let d := a - b in
        if (INT_MIN <=? d) && (d <=? INT_MAX) then Ok d else UB SignedOverflow
      else
        match r2 with
        | c2 :: t2 => if c =? c2 then compare_from sgn int1 int2 (S i) t t2 else Ok (cv sgn c - cv sgn c2)
        | [] => Ok (cv sgn c - 0)
        end
  end.

(** server-obj.c:450-482 *)
Definition compare_objs (sgn : bool) (n1 n2 : list Z) : res Z :=
  compare_from sgn (find_trailing_int_str n1) (find_trailing_int_str n2) 0 n1 n2.

(** list.c:343-349, moving an element to its place; on plain lists (ListModel.v has
    the pointers) *)
Fixpoint place_r {D} (cmp : D -> D -> res Z) (d : D) (l : list D) : res (list D) :=
  match l with
  | [] => Ok [d]
  | x :: t => do c <- cmp d x; if c <? 0 then Ok (d :: l) else do t' <- place_r cmp d t; Ok (x :: t')
  end.

(** list.c:327-368 *)
Fixpoint sort_r {D} (cmp : D -> D -> res Z) (done todo : list D) : res (list D) :=
  match todo with
  | [] => Ok done
  | x :: t =>
      match nth_error done (length done - 1) with
      | Some y =>
          do c <- cmp x y;
          if c <? 0 then do d <- place_r cmp x done; sort_r cmp d t
          else sort_r cmp (done ++ [x]) t
      | None => sort_r cmp [x] t
      end
  end.

Section Query.
Variable (sgn : bool).
Variables (isc : nat -> bool) (nm : nat -> list Z).
(** fnmatch(pat, name, 0) == 0 *)
Variable (fnm : list Z -> list Z -> bool).
(** regcomp(..., REG_EXTENDED | REG_ICASE) followed by regexec(): None if the pattern
    is not accepted, else the first match (rm_so, rm_eo) in a name *)
Variable (regex : list Z -> option (list Z -> option (nat * nat))).

Definition MAX_SOCK_LINE : nat := Z.to_nat 131072.

(** server-sock.c:486-492, one pattern *)
Fixpoint glob_one (pat : list Z) (objs matches : list nat) : list nat :=
  match objs with
  | [] => matches
  | o :: objs =>
      glob_one pat objs
        (if isc o && (fnm pat (nm o) && negb (existsb (Nat.eqb o) matches)) then matches ++ [o] else matches)
  end.
(** server-sock.c:460-497 *)
Definition via_globbing (objs : list nat) (pats : list (list Z)) : list nat :=
  let pats := match pats with [] => [zs "*"] | _ => pats end in
  fold_left (fun ms p => glob_one p objs ms) pats [].

(** server-sock.c:522-527: the patterns joined by '|', cut to the size of buf[] *)
Fixpoint joined (pats : list (list Z)) : list Z :=
  match pats with
  | [] => []
  | [p] => p
  | p :: ps => p ++ 124 :: joined ps
  end.

(** server-sock.c:500-559; None: the pattern was rejected *)
Definition via_regex (objs : list nat) (pats : list (list Z)) : option (list nat) :=
  let pats := match pats with [] => [zs ".*"] | _ => pats end in
  let buf := firstn (MAX_SOCK_LINE - 1) (joined pats) in
  match regex buf with
  | None => None
  | Some rx =>
      Some (filter (fun o => isc o &&
                     match rx (nm o) with Some (so, eo) => (so =? 0)%nat && (eo =? length (nm o))%nat | None => false end) objs)
  end.

(** server-sock.c:418-457.  [query]: the command is QUERY.  Returns the consoles, the
    broadcast flag, and whether the function succeeded. *)
Definition query_consoles (use_regex query bcast : bool) (objs : list nat) (pats : list (list Z)) : res (list nat * bool * bool) :=
  match pats, query with
  | [], false => Ok ([], bcast, true)                                       (* 429 *)
  | _, _ =>
      let '(matches, ok) :=
        if use_regex then match via_regex objs pats with Some m => (m, true) | None => ([], false) end
        else (via_globbing objs pats, true) in
      do sorted <- sort_r (fun a b => compare_objs sgn (nm a) (nm b)) [] matches;
      Ok (sorted, if (length sorted =? 1)%nat then false else bcast, ok)
  end.
End Query.
