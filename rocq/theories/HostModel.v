(** Copies of resolver results: src/util-net.c:61-273. *)
From Verif Require Import Base.
Local Open Scope nat_scope.

(** Memory that holds characters, pointers and integers.  A pointer or integer occupies
    several cells; what is stored piecemeal cannot be read back.  Pointers point into the
    same block; None is NULL. *)
Inductive val := VPtr (v : option nat) | VInt (n : Z).
Inductive cell := CB (b : Z) | CV (v : val) (k : nat).
Definition pieces (v : val) (size : nat) : list cell := map (CV v) (seq 0 size).
Definition store (buf : list cell) (off : nat) (v : val) (size : nat) : res (list cell) := blit buf off (pieces v size).
(** A value of [size] cells at [off]; stale or mixed cells are UB. *)
Definition whole (l : list cell) : option val :=
  match l with
  | CV v 0 :: t =>
      if forallb (fun p => match p with
                           | (CV (VPtr (Some a)) k, i) => match v with VPtr (Some b) => (a =? b) && (k =? i) | _ => false end
                           | (CV (VPtr None) k, i) => match v with VPtr None => k =? i | _ => false end
                           | (CV (VInt a) k, i) => match v with VInt b => (a =? b)%Z && (k =? i) | _ => false end
                           | (CB _, _) => false
                           end) (combine t (seq 1 (length t)))
      then Some v else None
  | _ => None
  end.
Definition load (buf : list cell) (off size : nat) : res val :=
  do l <- slice buf off size; match whole l with Some v => Ok v | None => UB UseAfterFree end.

(** struct hostent as the resolver returns it *)
Record hostent := mkHost {
  h_name : list Z; h_aliases : list (list Z); h_addrtype : Z; h_length : nat; h_addrs : list (list Z) }.

Section P.
(** sizeof(char * ), 4 or 8 *)
Variable p : nat.
(** struct hostent: h_name, h_aliases, h_addrtype, h_length, h_addr_list *)
Definition OFF_NAME := 0.
Definition OFF_ALIASES := p.
Definition OFF_TYPE := 2 * p.
Definition OFF_LENGTH := 2 * p + 4.
Definition OFF_ADDRS := 2 * p + 8.
Definition HSIZE := 3 * p + 8.

(** util-net.c:241-250: [q]: where the next pointer goes, [b]: where the next address goes *)
Fixpoint addr_loop (buf : list cell) (q b : nat) (len : Z) (hl : nat) (addrs : list (list Z)) : res (option (list cell * nat * Z)) :=
  match addrs with
  | [] => do buf <- store buf q (VPtr None) p; Ok (Some (buf, b, len))
  | a :: t =>
      let len := (len - Z.of_nat hl)%Z in
      if (len <? 0)%Z then Ok None
      else
        do bytes <- slice a 0 hl;
        do buf <- blit buf b (map CB bytes);
        do buf <- store buf q (VPtr (Some b)) p;
        addr_loop buf (q + p) (b + hl) len hl t
  end.

(** strlcpy(buf + b, s, len), src/strlcpy.c *)
Definition strlcpy (buf : list cell) (b : nat) (s : list Z) (len : Z) : res (list cell) :=
  if (len <=? 0)%Z then Ok buf
  else blit buf b (map CB (firstn (Z.to_nat len - 1) s ++ [0%Z])).

(** util-net.c:252-261.  Forming a pointer past the end of the buffer, which happens just
    before -1 is returned, is not treated as an error. *)
Fixpoint alias_loop (buf : list cell) (q b : nat) (len : Z) (aliases : list (list Z)) : res (option (list cell * nat * Z)) :=
  match aliases with
  | [] => do buf <- store buf q (VPtr None) p; Ok (Some (buf, b, len))
  | s :: t =>
      do buf <- strlcpy buf b s len;
      do buf <- store buf q (VPtr (Some b)) p;
      let len := (len - Z.of_nat (length s + 1))%Z in
      if (len <? 0)%Z then Ok None else alias_loop buf (q + p) (b + (length s + 1)) len t
  end.

(** util-net.c:200-273; None: -1.  The lengths of resolver results are taken to be far
    below 2^31, so that conversions between int and size_t do not matter.  The assertion
    at the end (validate_hostent_copy) is what C61_copy says. *)
Definition copy_hostent (src : hostent) (buf : list cell) (len : Z) : res (option (list cell)) :=
  let len := (len - Z.of_nat HSIZE)%Z in
  if (len <? 0)%Z then Ok None                                               (* 219 *)
  else
    do buf <- store buf OFF_TYPE (VInt (h_addrtype src)) 4;
    do buf <- store buf OFF_LENGTH (VInt (Z.of_nat (h_length src))) 4;
    let b := HSIZE in
    do buf <- store buf OFF_ALIASES (VPtr (Some b)) p;                       (* 227 *)
    let aliases := b in
    let n := (length (h_aliases src) + 1) * p in
    let len := (len - Z.of_nat n)%Z in
    if (len <? 0)%Z then Ok None
    else
      let b := b + n in
      do buf <- store buf OFF_ADDRS (VPtr (Some b)) p;                       (* 235 *)
      let addrs := b in
      let n := (length (h_addrs src) + 1) * p in
      let len := (len - Z.of_nat n)%Z in
      if (len <? 0)%Z then Ok None
      else
        do r <- addr_loop buf addrs (b + n) len (h_length src) (h_addrs src);
        match r with
        | None => Ok None
        | Some (buf, b, len) =>
            do r <- alias_loop buf aliases b len (h_aliases src);
            match r with
            | None => Ok None
            | Some (buf, b, len) =>
                do buf <- store buf OFF_NAME (VPtr (Some b)) p;              (* 265 *)
                do buf <- strlcpy buf b (h_name src) len;
                let len := (len - Z.of_nat (length (h_name src) + 1))%Z in
                if (len <? 0)%Z then Ok None else Ok (Some buf)
            end
        end.

(** util-net.h:37 *)
Definition HOSTENT_SIZE := Z.to_nat 8192.

(** util-net.c:61-85 and 88-112; [found]: what gethostbyname() or gethostbyaddr() finds *)
Definition get_host (found : option hostent) (buf : list cell) : res (option (list cell)) :=
  match found with
  | None => Ok None
  | Some h => copy_hostent h buf (Z.of_nat (length buf))
  end.

(** hptr->h_addr_list[0], h_length bytes of it *)
Definition first_addr (buf : list cell) : res (Z * list cell) :=
  do l <- load buf OFF_LENGTH 4;
  do a <- load buf OFF_ADDRS p;
  match l, a with
  | VInt n, VPtr (Some a) =>
      do x <- load buf a p;
      match x with
      | VPtr (Some x) => do bytes <- slice buf x (Z.to_nat n); Ok (n, bytes)
      | _ => UB NullDeref
      end
  | _, _ => UB NullDeref
  end.
Definition ip_length (buf : list cell) : res Z := do l <- load buf OFF_LENGTH 4; Ok (match l with VInt n => n | _ => 0%Z end).

(** util-net.c:129-145; [addr]: *addr, 4 bytes.  None: -1 *)
Definition host_name_to_addr4 (found : option hostent) (buf addr : list cell) : res (option (list cell)) :=
  do r <- get_host found buf;
  match r with
  | None => Ok None
  | Some buf =>
      do n <- ip_length buf;
      if (4 <? n)%Z then Ok None
      else do r <- first_addr buf; do addr <- blit addr 0 (snd r); Ok (Some addr)
  end.

(** the characters up to the next NUL *)
Fixpoint chars_at (buf : list cell) : res (list Z) :=
  match buf with
  | [] => UB OutOfBounds
  | CB z :: t => if (z =? 0)%Z then Ok [] else do s <- chars_at t; Ok (z :: s)
  | CV _ _ :: _ => UB UseAfterFree
  end.
Definition name_of (buf : list cell) : res (list Z) :=
  do a <- load buf OFF_NAME p;
  match a with VPtr (Some a) => chars_at (skipn a buf) | _ => UB NullDeref end.

(** util-net.c:159-165: strncpy() fills the rest with NULs *)
Definition copy_name (buf : list cell) (dst : list Z) (dstlen : nat) : res (option (list Z)) :=
  do s <- name_of buf;
  if (dstlen <=? 0) || (dstlen <=? length s) then Ok None
  else do dst <- blit dst 0 (s ++ repeat 0%Z (dstlen - length s)); do dst <- put dst (dstlen - 1) 0%Z; Ok (Some dst).
(** util-net.c:148-166 *)
Definition host_addr4_to_name (found : option hostent) (buf : list cell) (dst : list Z) (dstlen : nat) : res (option (list Z)) :=
  do r <- get_host found buf;
  match r with None => Ok None | Some buf => copy_name buf dst dstlen end.
(** util-net.c:169-197; [addr]: the local in_addr, [back]: what gethostbyaddr() finds for it *)
Definition host_name_to_cname (found : option hostent) (back : list cell -> option hostent) (buf addr : list cell) (dst : list Z) (dstlen : nat)
    : res (option (list Z)) :=
  do r <- get_host found buf;
  match r with
  | None => Ok None
  | Some buf =>
      do r <- first_addr buf;
      do addr <- blit addr 0 (snd r);                                        (* 186 *)
      do r <- get_host (back addr) buf;
      match r with None => Ok None | Some buf => copy_name buf dst dstlen end
  end.
End P.
