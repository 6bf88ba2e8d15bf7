(** Model of src/list.c: singly linked lists with iterators.

    Nodes live in a heap indexed by addresses ([nat]); a freed or foreign node is
    [None] and touching it is [UB UseAfterFree].  A [ListNode *] ("address of a
    next pointer") is a [loc].  Locking (one mutex per list, held for the whole
    of every function below) and the LIST_MAGIC sentinels are not modelled. *)
From Verif Require Import Base.

(** list.c:106-113, 249-260 (&l->head) and 319 (&p->next): a pointer to a
    pointer to a node *)
Inductive loc := LHead | LNext (a : nat).

Definition loc_eqb (x y : loc) : bool :=
  match x, y with
  | LHead, LHead => true
  | LNext a, LNext b => a =? b
  | _, _ => false
  end.

(** node pointers: [None] is NULL *)
Definition ptr_eqb (x y : option nat) : bool :=
  match x, y with
  | None, None => true
  | Some a, Some b => a =? b
  | _, _ => false
  end.

(** list.c:75-83, struct listIterator: [i_id] names the iterator *)
Record iter := mkIter { i_id : nat; i_pos : option nat; i_prev : loc }.

Section List.
Context {D : Type}.

(** list.c:70-73, struct listNode *)
Definition heap := nat -> option (D * option nat).

(** list.c:85-97, struct list, together with the nodes; iNext chain: l_iters *)
Record lst := mkLst {
  l_head : option nat;
  l_tail : loc;
  l_count : nat;
  l_heap : heap;
  l_iters : list iter }.

Definition node (h : heap) (a : nat) : res (D * option nat) :=
  match h a with Some n => Ok n | None => UB UseAfterFree end.

(** dereferencing a node pointer *)
Definition deref (h : heap) (p : option nat) : res (D * option nat) :=
  match p with Some a => node h a | None => UB NullDeref end.

Definition upd (h : heap) (a : nat) (v : option (D * option nat)) : heap :=
  fun b => if b =? a then v else h b.

(** reading and writing through a [ListNode *] *)
Definition rd (l : lst) (x : loc) : res (option nat) :=
  match x with
  | LHead => Ok (l_head l)
  | LNext a => do n <- node (l_heap l) a; Ok (snd n)
  end.

Definition wr (l : lst) (x : loc) (v : option nat) : res lst :=
  match x with
  | LHead => Ok (mkLst v (l_tail l) (l_count l) (l_heap l) (l_iters l))
  | LNext a =>
      do n <- node (l_heap l) a;
      Ok (mkLst (l_head l) (l_tail l) (l_count l)
                (upd (l_heap l) a (Some (fst n, v))) (l_iters l))
  end.

Definition set_heap (l : lst) (h : heap) : lst :=
  mkLst (l_head l) (l_tail l) (l_count l) h (l_iters l).
Definition set_tail (l : lst) (t : loc) : lst :=
  mkLst (l_head l) t (l_count l) (l_heap l) (l_iters l).
Definition set_count (l : lst) (n : nat) : lst :=
  mkLst (l_head l) (l_tail l) n (l_heap l) (l_iters l).
Definition set_iters (l : lst) (is : list iter) : lst :=
  mkLst (l_head l) (l_tail l) (l_count l) (l_heap l) is.

(** &p->next for the node a pointer points to *)
Definition addr_next (p : option nat) : res loc :=
  match p with Some a => Ok (LNext a) | None => UB NullDeref end.

(** list.c:174-188, list_create *)
Definition list_create : lst := mkLst None LHead 0 (fun _ => None) [].

(** list.c:595, 628: the assert on each iterator (debug builds only) *)
Definition iter_assert (l : lst) (i : iter) : res unit :=
  do q <- rd l (i_prev i);
  if ptr_eqb (i_pos i) q then Ok tt
  else do n <- deref (l_heap l) q; assert_ (ptr_eqb (i_pos i) (snd n)).

Fixpoint iters_assert (l : lst) (is : list iter) : res unit :=
  match is with
  | [] => Ok tt
  | i :: is' => do _ <- iter_assert l i; iters_assert l is'
  end.

(** list.c:568-598, list_node_create.  [a]: the node list_node_alloc returned
    ([None]: out of memory). *)
Definition list_node_create (l : lst) (pp : loc) (x : D) (a : option nat)
  : res (lst * option D) :=
  match a with
  | None => Ok (l, None)                                           (* 583 *)
  | Some p =>
      do nx <- rd l pp;
      let l1 := set_heap l (upd (l_heap l) p (Some (x, nx))) in    (* 584-585 *)
      let l2 := match nx with None => set_tail l1 (LNext p) | Some _ => l1 end in
      do l3 <- wr l2 pp (Some p);                                  (* 587 *)
      let l4 := set_count l3 (S (l_count l3)) in
      let is := map (fun i =>                                      (* 589-596 *)
                  if loc_eqb (i_prev i) pp then mkIter (i_id i) (i_pos i) (LNext p)
                  else if ptr_eqb (i_pos i) nx then mkIter (i_id i) (Some p) (i_prev i)
                  else i) (l_iters l4) in
      let l5 := set_iters l4 is in
      do _ <- iters_assert l5 is;
      Ok (l5, Some x)
  end.

(** list.c:601-632, list_node_destroy.  The node is given back to the free list
    (630); in the model it disappears. *)
Definition list_node_destroy (l : lst) (pp : loc) : res (lst * option D) :=
  do q <- rd l pp;
  match q with
  | None => Ok (l, None)                                           (* 616 *)
  | Some p =>
      do n <- node (l_heap l) p;
      let '(v, nx) := n in
      do l1 <- wr l pp nx;                                         (* 619 *)
      let l2 := match nx with None => set_tail l1 pp | Some _ => l1 end in
      let l3 := set_count l2 (l_count l2 - 1) in
      let is := map (fun i =>                                      (* 622-629 *)
                  if ptr_eqb (i_pos i) (Some p) then mkIter (i_id i) nx pp
                  else if loc_eqb (i_prev i) (LNext p) then mkIter (i_id i) (i_pos i) pp
                  else i) (l_iters l3) in
      let l4 := set_iters l3 is in
      do _ <- iters_assert l4 is;
      Ok (set_heap l4 (upd (l_heap l4) p None), Some v)            (* 630 *)
  end.

(** list.c:223-246 *)
Definition list_is_empty (l : lst) : bool := l_count l =? 0.
Definition list_count (l : lst) : nat := l_count l.
(** list.c:249-260, 411-422: list_append, list_enqueue *)
Definition list_append (l : lst) (x : D) a := list_node_create l (l_tail l) x a.
(** list.c:263-274, 371-382: list_prepend, list_push *)
Definition list_prepend (l : lst) (x : D) a := list_node_create l LHead x a.
(** list.c:385-395, 425-435: list_pop, list_dequeue *)
Definition list_pop (l : lst) := list_node_destroy l LHead.
(** list.c:398-408, list_peek *)
Definition list_peek (l : lst) : res (option D) :=
  match l_head l with
  | None => Ok None
  | Some a => do n <- node (l_heap l) a; Ok (Some (fst n))
  end.

(** list.c:277-295, list_find_first: [n] bounds the number of steps *)
Fixpoint find_first (n : nat) (l : lst) (f : D -> bool) (p : option nat) : res (option D) :=
  match n with
  | O => UB OutOfFuel
  | S n' =>
      match p with
      | None => Ok None
      | Some a =>
          do x <- node (l_heap l) a;
          if f (fst x) then Ok (Some (fst x)) else find_first n' l f (snd x)
      end
  end.
Definition list_find_first (l : lst) (f : D -> bool) : res (option D) :=
  find_first (S (l_count l)) l f (l_head l).

(** list.c:298-324, list_delete_all: the data given to fDel, in order *)
Fixpoint delete_all (n : nat) (l : lst) (f : D -> bool) (pp : loc) : res (lst * list D) :=
  match n with
  | O => UB OutOfFuel
  | S n' =>
      do q <- rd l pp;
      match q with
      | None => Ok (l, [])
      | Some a =>
          do x <- node (l_heap l) a;
          if f (fst x) then
            do r <- list_node_destroy l pp;
            let '(l1, v) := r in
            do r2 <- delete_all n' l1 f pp;
            Ok (fst r2, match v with Some d => d :: snd r2 | None => snd r2 end)
          else delete_all n' l f (LNext a)
      end
  end.
Definition list_delete_all (l : lst) (f : D -> bool) : res (lst * list D) :=
  delete_all (S (l_count l)) l f LHead.

(** list.c:344-345: the inner loop of list_sort, looking for the place of the
    datum [d]; [cmp a b] is f(a, b) *)
Fixpoint sort_pos (n : nat) (l : lst) (cmp : D -> D -> Z) (d : D) (pos : loc) : res loc :=
  match n with
  | O => UB OutOfFuel
  | S n' =>
      do q <- rd l pos;
      do x <- deref (l_heap l) q;
      if (0 <=? cmp d (fst x))%Z then
        do pos' <- addr_next q; sort_pos n' l cmp d pos'
      else Ok pos
  end.

(** list.c:341-357: the outer loop; returns the list and the final [pp] *)
Fixpoint sort_loop (n : nat) (l : lst) (cmp : D -> D -> Z) (prev pp : loc) : res (lst * loc) :=
  match n with
  | O => UB OutOfFuel
  | S n' =>
      do q <- rd l pp;
      match q with
      | None => Ok (l, pp)
      | Some a =>
          do x <- node (l_heap l) a;
          do qp <- rd l prev;
          do xp <- deref (l_heap l) qp;
          if (cmp (fst x) (fst xp) <? 0)%Z then
            do pos <- sort_pos (S (l_count l)) l cmp (fst x) LHead;
            do here <- rd l pos;
            let tmp := snd x in                                    (* 346 *)
            do l1 <- wr l (LNext a) here;                          (* 347 *)
            do l2 <- wr l1 pos (Some a);                           (* 348: *pp is still a *)
            do l3 <- wr l2 pp tmp;                                 (* 349 *)
            do prev' <- (if loc_eqb prev pos then
                           do q1 <- rd l3 prev; addr_next q1       (* 350-351 *)
                         else Ok prev);
            sort_loop n' l3 cmp prev' pp
          else sort_loop n' l cmp pp (LNext a)                     (* 354-355 *)
      end
  end.

(** list.c:327-368, list_sort *)
Definition list_sort (l : lst) (cmp : D -> D -> Z) : res lst :=
  if 1 <? l_count l then
    do q <- rd l LHead;
    do pp <- addr_next q;
    do r <- sort_loop (l_count l) l cmp LHead pp;
    let '(l1, pe) := r in
    let l2 := set_tail l1 pe in
    Ok (set_iters l2 (map (fun i => mkIter (i_id i) (l_head l2) LHead) (l_iters l2)))
  else Ok l.

(** list.c:438-455, list_iterator_create *)
Definition list_iterator_create (l : lst) (id : nat) : lst :=
  set_iters l (mkIter id (l_head l) LHead :: l_iters l).

Fixpoint find_iter (id : nat) (is : list iter) : res iter :=
  match is with
  | [] => UB UseAfterFree
  | i :: is' => if i_id i =? id then Ok i else find_iter id is'
  end.

Definition put_iter (l : lst) (i : iter) : lst :=
  set_iters l (map (fun j => if i_id j =? i_id i then i else j) (l_iters l)).

(** list.c:458-468, list_iterator_reset *)
Definition list_iterator_reset (l : lst) (id : nat) : res lst :=
  do _ <- find_iter id (l_iters l);
  Ok (put_iter l (mkIter id (l_head l) LHead)).

(** list.c:471-490, list_iterator_destroy *)
Definition list_iterator_destroy (l : lst) (id : nat) : res lst :=
  do _ <- find_iter id (l_iters l);
  Ok (set_iters l (filter (fun j => negb (i_id j =? id)) (l_iters l))).

(** list.c:493-507, list_next *)
Definition list_next (l : lst) (id : nat) : res (lst * option D) :=
  do i <- find_iter id (l_iters l);
  let p := i_pos i in
  do pos' <- (match p with
              | Some a => do n <- node (l_heap l) a; Ok (snd n)
              | None => Ok p
              end);
  do q <- rd l (i_prev i);
  do prev' <- (if ptr_eqb q p then Ok (i_prev i) else addr_next q);
  do v <- (match p with
           | Some a => do n <- node (l_heap l) a; Ok (Some (fst n))
           | None => Ok None
           end);
  Ok (put_iter l (mkIter id pos' prev'), v).

(** list.c:510-522, list_insert *)
Definition list_insert (l : lst) (id : nat) (x : D) (a : option nat) : res (lst * option D) :=
  do i <- find_iter id (l_iters l);
  list_node_create l (i_prev i) x a.

(** list.c:525-535, list_find *)
Fixpoint find_loop (n : nat) (l : lst) (id : nat) (f : D -> bool) : res (lst * option D) :=
  match n with
  | O => UB OutOfFuel
  | S n' =>
      do r <- list_next l id;
      let '(l1, v) := r in
      match v with
      | None => Ok (l1, None)
      | Some d => if f d then Ok (l1, Some d) else find_loop n' l1 id f
      end
  end.
Definition list_find (l : lst) (id : nat) (f : D -> bool) : res (lst * option D) :=
  find_loop (S (l_count l)) l id f.

(** list.c:538-550, list_remove; 553-565, list_delete calls it and then fDel on
    the result *)
Definition list_remove (l : lst) (id : nat) : res (lst * option D) :=
  do i <- find_iter id (l_iters l);
  do q <- rd l (i_prev i);
  if ptr_eqb q (i_pos i) then Ok (l, None)
  else list_node_destroy l (i_prev i).

(** list.c:207-214, list_destroy: the data given to fDel, in order, and the heap
    left over *)
Fixpoint destroy_loop (n : nat) (h : heap) (p : option nat) : res (heap * list D) :=
  match n with
  | O => UB OutOfFuel
  | S n' =>
      match p with
      | None => Ok (h, [])
      | Some a =>
          do x <- node h a;
          do r <- destroy_loop n' (upd h a None) (snd x);
          Ok (fst r, fst x :: snd r)
      end
  end.
Definition list_destroy (l : lst) : res (heap * list D) :=
  destroy_loop (S (l_count l)) (l_heap l) (l_head l).

(** The interface as one machine. *)
Inductive lop :=
| OAppend (x : D) (a : option nat)
| OPrepend (x : D) (a : option nat)
| OPop
| OPeek
| OCount
| OEmpty
| OFindFirst (f : D -> bool)
| ODeleteAll (f : D -> bool)
| OSort (cmp : D -> D -> Z)
| OIter (id : nat)
| OReset (id : nat)
| OEnd (id : nat)
| ONext (id : nat)
| OInsert (id : nat) (x : D) (a : option nat)
| OFind (id : nat) (f : D -> bool)
| ORemove (id : nat).

(** What an operation returns to the caller. *)
Inductive lret := RNone | RVal (v : option D) | RNum (n : nat) | RBool (b : bool) | RList (l : list D).

Definition lstep (l : lst) (o : lop) : res (lst * lret) :=
  match o with
  | OAppend x a => do r <- list_append l x a; Ok (fst r, RVal (snd r))
  | OPrepend x a => do r <- list_prepend l x a; Ok (fst r, RVal (snd r))
  | OPop => do r <- list_pop l; Ok (fst r, RVal (snd r))
  | OPeek => do v <- list_peek l; Ok (l, RVal v)
  | OCount => Ok (l, RNum (list_count l))
  | OEmpty => Ok (l, RBool (list_is_empty l))
  | OFindFirst f => do v <- list_find_first l f; Ok (l, RVal v)
  | ODeleteAll f => do r <- list_delete_all l f; Ok (fst r, RList (snd r))
  | OSort cmp => do l1 <- list_sort l cmp; Ok (l1, RNone)
  | OIter id => Ok (list_iterator_create l id, RNone)
  | OReset id => do l1 <- list_iterator_reset l id; Ok (l1, RNone)
  | OEnd id => do l1 <- list_iterator_destroy l id; Ok (l1, RNone)
  | ONext id => do r <- list_next l id; Ok (fst r, RVal (snd r))
  | OInsert id x a => do r <- list_insert l id x a; Ok (fst r, RVal (snd r))
  | OFind id f => do r <- list_find l id f; Ok (fst r, RVal (snd r))
  | ORemove id => do r <- list_remove l id; Ok (fst r, RVal (snd r))
  end.

Fixpoint lrun (l : lst) (os : list lop) : res (lst * list lret) :=
  match os with
  | [] => Ok (l, [])
  | o :: os' =>
      do r1 <- lstep l o;
      do r2 <- lrun (fst r1) os';
      Ok (fst r2, snd r1 :: snd r2)
  end.

End List.

(** list.c:657-676 and 711-718: the node allocator shared by all lists.  [al_free]
    is freeListNodes, [al_brk] the number of nodes ever obtained from malloc. *)
Definition LIST_ALLOC := 10.
Record allocator := mkAl { al_free : list nat; al_brk : nat }.

(** list_node_alloc; [ok]: malloc succeeds *)
Definition node_alloc (s : allocator) (ok : bool) : allocator * option nat :=
  let s1 := match al_free s with
            | [] => if ok then mkAl (seq (al_brk s) LIST_ALLOC) (al_brk s + LIST_ALLOC) else s
            | _ => s
            end in
  match al_free s1 with
  | [] => (s1, None)
  | p :: ps => (mkAl ps (al_brk s1), Some p)
  end.

(** list_node_free *)
Definition node_free (s : allocator) (p : nat) : allocator := mkAl (p :: al_free s) (al_brk s).
